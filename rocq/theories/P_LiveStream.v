(** A session in which each party computes its requests on the way: streaming backends. *)
From Coq Require Import List NArith ZArith Bool Arith Lia.
From Verif Require Import L_Bits L_Res L_Xor S_Sched S_Lower S_Codec S_Aes S_Gcm S_Tls S_Open S_Causal.
From Verif Require S_Netlist S_Circuit.
From Verif Require Import M_EmpInteger M_Utils M_Bristol M_Bn M_Sym M_SymOn M_SymOff M_SymSess M_Causal M_Block M_Ole2k M_Shares M_Commit M_Garble M_Handshake.
From Verif Require Import M_Aead M_Exch M_View M_LabRec M_GcProc M_Inter M_Live.
From Verif Require Import D_AesKs D_AesEnc P_Lower P_Garble P_GarbleFeed P_Gf128 P_Shares P_Gcm P_Aead P_AeadInst P_Sched P_Exch P_ExchAead P_ExchSess.
From Verif Require Import P_Sha256Opt P_Handshake P_Session2 P_Sym P_SymTls P_SymGcm P_Labels P_LabRec P_LabSess P_Live2 P_Inter P_Inter2 P_Inter3.
From Verif Require P_GarbleOpt P_Stream P_GcProc P_GcProc2 P_SymVal P_Causal P_Causal2 P_Causal3.
From Verif Require Import P_LiveItems P_LiveStep P_LiveRun.
Import ListNotations.
Local Open Scope N_scope.
Local Opaque aes_ks_file aes_enc_file aesE EK str_to_int gcm_ctext key_block ms_spec mulBlock invBlock bytes_of_block block_of_bytes.

Lemma own_map alice : forall cs cs', map (own_icall alice) cs = map (own_icall alice) cs' -> map (own_call alice) (map on_of cs) = map (own_call alice) (map on_of cs').
Proof.
  induction cs as [|c cs IH]; intros [|c' cs'] H; cbn [map] in *; try discriminate; [reflexivity|].
  injection H as Hc H. f_equal; [now apply own_on|now apply IH].
Qed.
Lemma conv_eq {A B} (p p1 : proc A) (q q1 : proc B) a b : peq eq p p1 -> peq eq q q1 -> conv p q a b -> conv p1 q1 a b.
Proof. intros P Q C. destruct (conv_peq eq eq _ _ _ _ _ _ P Q C) as (a1 & b1 & -> & -> & C1). exact C1. Qed.
Lemma wp_eq {A} (p q : proc A) d (Q : A -> flags -> Prop) : peq eq p q -> wp p d Q -> wp q d Q.
Proof. intros P W. eapply wp_mono; [|exact (wp_peq eq p q P d Q W)]. intros a d' (b & -> & H). exact H. Qed.

(** * Any backend *)
Section B.
Variable gfr : N -> N -> N.
Hypothesis GFR : gfr_ok gfr.
Variable hash : list N -> list N.
Hypothesis HL : forall l, length (hash l) = DIGEST_SIZE.
Variables (q : Z) (rounds : bool) (pa pb : Z) (rc rs : list N) (sh : option (list N)) (os : list fin_op).
Hypothesis Ha : (0 <= pa < q)%Z.
Hypothesis Hb : (0 <= pb < q)%Z.
Hypothesis Hc : Forall byte8 rc.
Hypothesis Hs : Forall byte8 rs.
Hypothesis Hh : opt_wf sh.
Hypothesis Ho : Forall fin_wf os.
Hypothesis Hz : rounds = true -> tls_sizes rc rs sh os.
Variables (rdc rds : N) (roc ros : ole_rand).
Hypothesis R1 : rdc < 2 ^ 128.
Hypothesis R2 : rdc <> 0.
Hypothesis R3 : ole_rand_ok roc 1.
Hypothesis R4 : ole_blk roc.
Hypothesis R5 : rds < 2 ^ 128.
Hypothesis R6 : rds <> 0.
Hypothesis R7 : ole_rand_ok ros 1.
Hypothesis R8 : ole_blk ros.
Variable l : list lcall.
Hypothesis NE : l <> [].
Hypothesis W : Forall lcall_wf l.
Notation ic a b := (icalls a b rc rs sh os rdc rds roc ros l).
Variables (x : on_sess) (s : cst).
Hypothesis E : on_session honest aes_ks_file aes_enc_file q rounds (gcm_calls pa pb rc rs sh os (map gcall_of l)) cst0 = Ok (x, s).
Notation kb := (key_block (ms_spec (pms_of q pa pb) rc rs sh) rc rs).
Notation spec := (lspec (tls_client_key kb) (tls_server_key kb) (tls_client_iv kb) (tls_server_iv kb)).

(** the calls as ALICE, and BOB, know them *)
Variables csA csB : list icall.
Hypothesis OA : map (own_icall true) (ic pa pb) = map (own_icall true) csA.
Hypothesis OB : map (own_icall false) (ic pa pb) = map (own_icall false) csB.
Hypothesis ZA : Forall (sizes_ok q rounds) (map on_of csA).
Hypothesis ZB : Forall (sizes_ok q rounds) (map on_of csB).

Variables (J SA SB : Type).
Variable st : list S_Circuit.instr -> J -> Prop.
Variables (fA : J -> SA) (fB : J -> SB).
Notation tot := (lower (c_tr s)).
Hypothesis SP : forall p j, st p j -> exists p2, tot = p ++ p2.
Hypothesis PRE : forall p p2, tot = p ++ p2 -> exists j, st p j.
Hypothesis DET : forall p j j', st p j -> st p j' -> j = j'.
Variables (stepA : SA -> S_Circuit.instr -> proc (res SA)) (stepB : SB -> S_Circuit.instr -> proc (res SB)).
Variables (labA : SA -> list N) (labB : SB -> list N) (sawA : SA -> list (list bool)) (sawB : SB -> list (list bool)).
Hypothesis STEP : forall p c j j', st p j -> st (p ++ [c]) j' -> conv (stepA (fA j) c) (stepB (fB j) c) (Ok (fA j')) (Ok (fB j')).
Hypothesis OWNA : forall e e' g, own_part true e = own_part true e' -> stepA g (low e) = stepA g (low e').
Hypothesis OWNB : forall e e' g, own_part false e = own_part false e' -> stepB g (low e) = stepB g (low e').
Hypothesis SAW : forall t t2 j, c_tr s = t2 ++ t -> st (lower t) j ->
  exists op, sawA (fA j) = saw true op /\ sawB (fB j) = saw false op /\ Forall2 S_Circuit.seen (map low_open (S_Netlist.openings t)) op.
Hypothesis SPL : forall c cs x1 s1 j, sets_master c -> on_session honest aes_ks_file aes_enc_file q rounds (c :: cs) cst0 = Ok (x1, s1) ->
  part (c_tr s) (c_tr s1) -> st (lower (c_tr s1)) j -> Forall (splits s1 (labA (fA j)) (labB (fB j))) (os_sh x1).
Variable j0 : J.
Hypothesis S0 : st [] j0.

Notation pst := (fun (p : list S_Circuit.instr) (j : list S_Circuit.instr * J) => fst j = p /\ st p (snd j)).
Notation pA := (fun j : list S_Circuit.instr * J => (fA (snd j), length (fst j))).
Notation pB := (fun j : list S_Circuit.instr * J => (fB (snd j), length (fst j))).
Lemma szs : Forall (sizes_ok q rounds) (map on_of (ic pa pb)).
Proof. rewrite icalls_calls. apply gcm_sizes_ok; try assumption. now apply gcalls_wf. Qed.
Lemma E1 : on_session honest aes_ks_file aes_enc_file q rounds (map on_of (ic pa pb)) cst0 = Ok (x, s).
Proof. rewrite icalls_calls. exact E. Qed.
Lemma reqA p c p2 j : tot = p ++ c :: p2 -> st p j ->
  exists c', nth_error (requests aes_ks_file aes_enc_file q rounds csA (sawA (fA j))) (length p) = Some c' /\ stepA (fA j) c' = stepA (fA j) c.
Proof.
  intros T Sj.
  destruct (next_request aes_ks_file aes_enc_file q rounds true (ic pa pb) csA x s szs ZA
    (own_map _ _ _ OA) E1 p c p2 (sawA (fA j)) T) as (c' & N & [<-|(e & e' & -> & -> & O)]).
  - intros t t2 Et ->. destruct (SAW t t2 j Et Sj) as (op & -> & _ & F).
    exact (seen_vals aes_ks_file aes_enc_file q rounds (ic pa pb) x s E1 t t2 op true Et F).
  - eauto.
  - exists (low e'). split; [exact N|]. symmetry. now apply OWNA.
Qed.
Lemma reqB p c p2 j : tot = p ++ c :: p2 -> st p j ->
  exists c', nth_error (requests aes_ks_file aes_enc_file q rounds csB (sawB (fB j))) (length p) = Some c' /\ stepB (fB j) c' = stepB (fB j) c.
Proof.
  intros T Sj.
  destruct (next_request aes_ks_file aes_enc_file q rounds false (ic pa pb) csB x s szs ZB
    (own_map _ _ _ OB) E1 p c p2 (sawB (fB j)) T) as (c' & N & [<-|(e & e' & -> & -> & O)]).
  - intros t t2 Et ->. destruct (SAW t t2 j Et Sj) as (op & _ & -> & F).
    exact (seen_vals aes_ks_file aes_enc_file q rounds (ic pa pb) x s E1 t t2 op false Et F).
  - eauto.
  - exists (low e'). split; [exact N|]. symmetry. now apply OWNB.
Qed.
Notation runA := (live_run aes_ks_file aes_enc_file q rounds csA SA stepA sawA).
Notation runB := (live_run aes_ks_file aes_enc_file q rounds csB SB stepB sawB).
Notation lA := (fun y : SA * nat => labA (fst y)).
Notation lB := (fun y : SB * nat => labB (fst y)).
Notation vA := (fun y : SA * nat => sawA (fst y)).
Notation vB := (fun y : SB * nat => sawB (fst y)).
Lemma run_conv p seg j j' : pst p j -> pst (p ++ seg) j' -> conv (runA (pA j) seg) (runB (pB j) seg) (Ok (pA j')) (Ok (pB j')).
Proof.
  intros [<- P1] [P2 P3]. unfold live_run. cbn [fst snd]. rewrite P2. rewrite <- P2 in P3 |- *. rewrite P2 in *.
  exact (conv_live J SA SB st fA fB tot SP PRE DET stepA stepB sawA sawB _ _ _ _ _ _ STEP reqA reqB seg (fst j) (snd j) (snd j') P1 P3).
Qed.
Lemma items_good : exists its j1 jf, session_items honest aes_ks_file aes_enc_file q rounds (ic pa pb) = Ok its /\
  pst (lower []) j1 /\ good _ _ _ pst pA pB lA lB vA vB (tls_client_key kb) (tls_server_key kb) (tls_client_iv kb) (tls_server_iv kb) (lower []) j1 0 its l jf /\
  pst tot jf /\ its <> [].
Proof.
  destruct (PRE (lower []) (map low (rev (c_tr s))) eq_refl) as [j1 S1].
  exists (match session_items honest aes_ks_file aes_enc_file q rounds (ic pa pb) with Ok i => i | _ => [] end), (lower [], j1).
  assert (HST : forall t, part (c_tr s) t -> exists j, pst (lower t) j).
  { intros t P. destruct (lower_part _ _ P) as [p2 Ep]. destruct (PRE _ _ Ep) as [j Sj]. exists (lower t, j). auto. }
  assert (HB : forall c cs x1 s1 j, sets_master c -> on_session honest aes_ks_file aes_enc_file q rounds (c :: cs) cst0 = Ok (x1, s1) ->
    part (c_tr s) (c_tr s1) -> pst (lower (c_tr s1)) j ->
    Forall (splits s1 (lA (pA j)) (lB (pB j))) (os_sh x1) /\
    exists op, vA (pA j) = saw true op /\ vB (pB j) = saw false op /\ Forall2 S_Circuit.seen (map low_open (S_Netlist.openings (c_tr s1))) op).
  { intros c cs x1 s1 j M E2 P [_ Sj]. cbn [fst snd]. split; [exact (SPL c cs x1 s1 _ M E2 P Sj)|]. destruct P as [t2 P]. exact (SAW _ t2 _ P Sj). }
  destruct (good_session _ _ _ pst pA pB lA lB vA vB q rounds (c_tr s) HST HB pa pb rc rs sh os Ha Hb Hc Hs Hh Ho Hz
    rdc rds roc ros R1 R2 R3 R4 R5 R6 R7 R8 l x s (lower [], j1) W NE E eq_refl (conj eq_refl S1)) as (its & jf & I1 & G & Sf & NI).
  exists jf. rewrite I1. split; [reflexivity|]. split; [auto|]. auto.
Qed.
Theorem live_session : exists jf, st tot jf /\
  conv (l_start aes_ks_file aes_enc_file q rounds csA SA stepA sawA gfr hash labA true (fA j0))
       (l_start aes_ks_file aes_enc_file q rounds csB SB stepB sawB gfr hash labB false (fB j0))
    (Ok (fA jf, length tot, map (fun o => out_alice (spec o)) l)) (Ok (fB jf, length tot, map (fun o => out_bob (spec o)) l)).
Proof.
  destruct items_good as (its & j1 & jf & I1 & S1 & G & [Ef Sf] & NI). exists (snd jf). split; [exact Sf|].
  destruct (session_items_like honest (replay []) _ _ true q rounds _ csA its OA szs ZA I1) as (ia & Ia & Fa).
  destruct (session_items_like honest (replay []) _ _ false q rounds _ csB its OB szs ZB I1) as (ib & Ib & Fb).
  unfold l_start. rewrite Ia, Ib.
  eapply conv_eq; [eapply istart_like; [intros; now apply live_len|exact Fa]|eapply istart_like; [intros; now apply live_len|exact Fb]|].
  destruct (tls_keys_ok (ms_spec (pms_of q pa pb) rc rs sh) rc rs) as (KC & KS & IC & IS).
  pose proof (conv_istart gfr GFR hash HL _ _ _ pst pA pB runA runB lA lB vA vB run_conv _ _ _ _ KC KS IC IS ([], j0) j1 its l jf (conj eq_refl S0) S1 G) as C.
  cbn [fst snd length] in C. rewrite Ef in C. exact C.
Qed.
(** the flags, of either party *)
Lemma wp_lstart_ok {S} alice (cs' : list icall) (step : S -> S_Circuit.instr -> proc (res S)) labX sawX (IX : J -> S -> Prop) g d :
  map (own_icall alice) (ic pa pb) = map (own_icall alice) cs' -> Forall (sizes_ok q rounds) (map on_of cs') ->
  (forall p c c' j j' g d, st p j -> st (p ++ [c]) j' -> S_Circuit.shape c' = S_Circuit.shape c -> IX j g -> snd d = false ->
    wp (step g c') d (after_run (IX j'))) ->
  IX j0 g -> snd d = false -> wp (l_start aes_ks_file aes_enc_file q rounds cs' S step sawX gfr hash labX alice g) d ends_ok.
Proof.
  intros Ow Z WST I0 D.
  destruct items_good as (its & j1 & jf & I1 & S1 & G & [Ef Sf] & NI).
  destruct (session_items_like honest (replay []) _ _ alice q rounds _ cs' its Ow szs Z I1) as (ia & Ia & Fa).
  unfold l_start. rewrite Ia. eapply wp_eq; [eapply istart_like; [intros; now apply live_len|exact Fa]|].
  eapply (wp_istart_ok gfr hash _ _ _ pst pA pB lA lB vA vB _ _ _ _ _ _ _ alice (fun j y => IX (snd j) (fst y) /\ snd y = length (fst j)));
    [|exact (conj (eq_refl : fst (@nil S_Circuit.instr, j0) = []) S0)|exact S1|exact G|exact NI|split; [exact I0|reflexivity]|exact D].
  intros p seg j j' [g1 n1] d1 [<- P1] [P2 P3] [Ig En] D1. cbn [fst snd] in Ig, En. subst n1. unfold live_run. cbn [fst snd].
  pose proof (wp_live J st tot SP PRE DET aes_ks_file aes_enc_file q rounds S step sawX cs' IX
    (requests_shape aes_ks_file aes_enc_file q rounds alice (ic pa pb) cs' x s szs Z (own_map _ _ _ Ow) E1) WST
    seg (fst j) (snd j) (snd j') g1 d1 P1 P3 Ig D1) as Wp.
  rewrite <- P2 in Wp. exact Wp.
Qed.
Lemma wp_lstart {S} alice (cs' : list icall) (step : S -> S_Circuit.instr -> proc (res S)) labX sawX (IX : J -> S -> Prop) g d :
  map (own_icall alice) (ic pa pb) = map (own_icall alice) cs' -> Forall (sizes_ok q rounds) (map on_of cs') ->
  (forall p c c' j j' g d, st p j -> st (p ++ [c]) j' -> S_Circuit.shape c' = S_Circuit.shape c -> IX j g -> snd d = false ->
    wp (step g c') d (after_run (IX j'))) ->
  IX j0 g -> snd d = false -> wp (l_start aes_ks_file aes_enc_file q rounds cs' S step sawX gfr hash labX alice g) d clean.
Proof. intros Ow Z WST I0 D. eapply wp_mono; [|eapply (wp_lstart_ok alice cs' step labX sawX IX); eassumption]. intros r d' [H _]. exact H. Qed.
End B.

(** * Streaming *)
Section G.
Variables (sigma aes : N -> N) (Hash : list N -> N) (fixk Kc : nat -> N) (rnd : nat -> bool) (lab : nat -> N) (delta : N).
Hypothesis Hd : getLSB delta = true.
Hypothesis Bd : delta < 2 ^ 128.
Hypothesis Bs : forall x, sigma x < 2 ^ 128.
Hypothesis Ba : forall x, aes x < 2 ^ 128.
Hypothesis Bf : forall i, fixk i < 2 ^ 128.
Hypothesis Bk : forall i, Kc i < 2 ^ 128.
Hypothesis Bl : forall i, lab i < 2 ^ 128.
Variable gfr : N -> N -> N.
Hypothesis GFR : gfr_ok gfr.
Variable hash : list N -> list N.
Hypothesis HL : forall l, length (hash l) = DIGEST_SIZE.
Notation orun bs := (o_run sigma aes Hash fixk Kc rnd lab delta (o_init Kc rnd delta bs)).
Notation clean bs tr := (P_GarbleOpt.clean_run sigma aes Hash fixk Kc rnd lab delta (o_init Kc rnd delta bs) [] [] (lower tr)).
Notation gof := P_GcProc.gof.
Notation eof := P_GcProc.eof.
Notation FA := (fun j : ostate * M_Garble.opened => gof (fst j) (saw true (snd j))).
Notation FB := (fun j : ostate * M_Garble.opened => eof (fst j) (saw false (snd j))).

Theorem live_stream bs q rounds pa pb rc rs sh os l rdc roc rds ros csA csB : (32 <= BN_num_bytes q)%nat -> (0 <= pa < q)%Z -> (0 <= pb < q)%Z ->
  Forall byte8 rc -> Forall byte8 rs -> opt_wf sh -> Forall fin_wf os -> (rounds = true -> tls_sizes rc rs sh os) ->
  rdc < 2 ^ 128 -> rdc <> 0 -> ole_rand_ok roc 1 -> ole_blk roc -> rds < 2 ^ 128 -> rds <> 0 -> ole_rand_ok ros 1 -> ole_blk ros ->
  l <> [] -> Forall lcall_wf l ->
  let ms := ms_spec (pms_of q pa pb) rc rs sh in
  let kb := key_block ms rc rs in
  let spec := lspec (tls_client_key kb) (tls_server_key kb) (tls_client_iv kb) (tls_server_iv kb) in
  let cs := map CPlain (tls_calls pa pb rc rs sh os) ++ CAead false rdc roc :: CAead true rds ros :: map CRec l in
  map (own_icall true) cs = map (own_icall true) csA -> map (own_icall false) cs = map (own_icall false) csB ->
  Forall (sizes_ok q rounds) (map on_of csA) -> Forall (sizes_ok q rounds) (map on_of csB) ->
  exists x s,
    on_session honest aes_ks_file aes_enc_file q rounds (map on_of cs) cst0 = Ok (x, s) /\
    (clean bs (c_tr s) -> exists o op, orun bs (lower (c_tr s)) = Ok (o, op) /\
      always_completes (l_gen aes_ks_file aes_enc_file q rounds csA gfr hash sigma aes Hash fixk Kc lab delta bs)
                       (l_eva aes_ks_file aes_enc_file q rounds csB gfr hash sigma aes Hash fixk Kc rnd lab delta bs)
        (Ok (gof o (saw true op), length (lower (c_tr s)), map (fun o => out_alice (spec o)) l))
        (Ok (eof o (saw false op), length (lower (c_tr s)), map (fun o => out_bob (spec o)) l))).
Proof.
  intros Q Ha Hb Hc Hs Hh Ho Hz R1 R2 R3 R4 R5 R6 R7 R8 NE W ms kb spec cs WA WB ZA ZB.
  change cs with (icalls pa pb rc rs sh os rdc rds roc ros l) in *. clear cs. rewrite icalls_calls.
  destruct (calls_ok q rounds pa pb rc rs sh os Ha Hb Hc Hs Hh Ho Hz l W) as (x & s & E & _).
  exists x, s. split; [exact E|]. intro Cl.
  pose proof (session_sound _ _ _ _ _ _ _ E) as So. pose proof (lower_wf _ So) as Wf.
  set (init := o_init Kc rnd delta bs) in *.
  set (st := fun (p : list S_Circuit.instr) (j : ostate * M_Garble.opened) => (exists p2, lower (c_tr s) = p ++ p2) /\ orun bs p = Ok j).
  assert (H0 : P_GarbleOpt.oinv Kc rnd delta bs init [] []).
  { exists [], (P_GarbleFeed.pos_init bs). split; [constructor|]. repeat (split; [reflexivity|]). apply P_GarbleFeed.finv_init. }
  assert (PRE : forall p p2, lower (c_tr s) = p ++ p2 -> S_Circuit.wf 0 p = true /\ P_GarbleOpt.clean_run sigma aes Hash fixk Kc rnd lab delta init [] [] p /\
    exists o op, orun bs p = Ok (o, op) /\ P_GarbleOpt.oinv Kc rnd delta bs o (fst (S_Circuit.spec_run [] p)) (fold_left S_Circuit.kind_step p []) /\
      Forall2 S_Circuit.seen (snd (S_Circuit.spec_run [] p)) op).
  { intros p p2 Ep. rewrite Ep in Wf, Cl. apply P_GcProc2.wf_app in Wf as [Wf1 _]. apply P_GcProc2.clean_app in Cl as [Cl1 _].
    destruct (P_GcProc2.stream_conv sigma aes Hash fixk Kc rnd lab delta Hd Bd Bs Ba Bf Bk Bl bs p init [] [] [] [] H0 Wf1 Cl1) as (o & op & Ro & Oi & Se & _).
    split; [exact Wf1|]. split; [exact Cl1|]. exists o, op. auto. }
  assert (SP : forall p j, st p j -> exists p2, lower (c_tr s) = p ++ p2) by (intros p j [H _]; exact H).
  assert (PRE' : forall p p2, lower (c_tr s) = p ++ p2 -> exists j, st p j).
  { intros p p2 Ep. destruct (PRE _ _ Ep) as (_ & _ & o & op & Ro & _). exists (o, op). split; [eauto|exact Ro]. }
  assert (DET : forall p j j', st p j -> st p j' -> j = j') by (intros p j j' [_ A] [_ B]; rewrite A in B; now injection B).
  assert (STEP : forall p c j j', st p j -> st (p ++ [c]) j' ->
    conv (p_gen_step sigma aes Hash fixk Kc lab delta (FA j) c) (p_eva_step sigma aes Hash fixk Kc rnd lab delta (FB j) c) (Ok (FA j')) (Ok (FB j'))).
  { intros p c [o op] [o' op'] [[p2 Ep] Ro] [[p3 Ep'] Ro']. cbn [fst snd].
    destruct (PRE _ _ Ep) as (_ & _ & o1 & op1 & Ro1 & Oi & _). rewrite Ro in Ro1. injection Ro1 as <- <-.
    destruct (PRE _ _ Ep') as (_ & _ & o2 & op2 & Ro2 & Oi2 & _). rewrite Ro' in Ro2. injection Ro2 as <- <-.
    rewrite P_GcProc2.o_run_app, Ro in Ro'. cbn [M_Garble.o_run] in Ro'.
    destruct (o_step _ _ _ _ _ _ _ _ o c) as [[s1 o1]| |] eqn:Rs; cbn [bind] in Ro'; try discriminate. injection Ro' as <- <-.
    rewrite app_nil_r, !saw_app.
    destruct Oi as (Q0 & u & FQ & _ & _ & Eg & _ & _ & G1 & G2 & _). destruct Oi2 as (Q' & u' & _ & _ & _ & _ & _ & _ & G3 & G4 & _).
    apply (P_GcProc.o_step_conv sigma aes Hash fixk Kc rnd lab delta Bd Bs Ba); try assumption. rewrite Eg. eapply P_GcProc2.rel_blk, FQ. }
  assert (SAW : forall t t2 j, c_tr s = t2 ++ t -> st (lower t) j ->
    exists op, gs_saw (FA j) = saw true op /\ es_saw (FB j) = saw false op /\ Forall2 S_Circuit.seen (map low_open (S_Netlist.openings t)) op).
  { intros t t2 [o op] Et [[p2 Ep] Ro]. destruct (PRE _ _ Ep) as (_ & _ & o1 & op1 & Ro1 & _ & Se). rewrite Ro in Ro1. injection Ro1 as <- <-.
    rewrite lower_run in Se. exists op. auto. }
  assert (SPL : forall c cs x1 s1 j, sets_master c -> on_session honest aes_ks_file aes_enc_file q rounds (c :: cs) cst0 = Ok (x1, s1) ->
    part (c_tr s) (c_tr s1) -> st (lower (c_tr s1)) j -> Forall (splits s1 (gs_w (FA j)) (es_w (FB j))) (os_sh x1)).
  { intros c cs x1 s1 [o op] M E2 P [_ Ro]. destruct (lower_part _ _ P) as [p2 Ep]. destruct (PRE _ _ Ep) as (_ & Cl1 & _).
    destruct (P_Stream.stream_session sigma aes Hash fixk Kc rnd lab delta Hd Bd Bs Ba Bf Bk Bl bs _ _ q rounds c cs x1 s1 net_live_ks net_live_enc Q M E2 Cl1)
      as (o1 & op1 & Ro1 & Se & Sp & _). rewrite Ro in Ro1. injection Ro1 as <- <-. exact Sp. }
  assert (S0 : st [] (init, [])) by (split; [exists (lower (c_tr s)); reflexivity|reflexivity]).
  assert (OA : forall e e' g, own_part true e = own_part true e' -> p_gen_step sigma aes Hash fixk Kc lab delta g (low e) = p_gen_step sigma aes Hash fixk Kc lab delta g (low e'))
    by (intros; now apply P_Causal3.gen_own).
  assert (OB : forall e e' g, own_part false e = own_part false e' -> p_eva_step sigma aes Hash fixk Kc rnd lab delta g (low e) = p_eva_step sigma aes Hash fixk Kc rnd lab delta g (low e'))
    by (intros; now apply P_Causal3.eva_own).
  destruct (live_session gfr GFR hash HL q rounds pa pb rc rs sh os Ha Hb Hc Hs Hh Ho Hz rdc rds roc ros R1 R2 R3 R4 R5 R6 R7 R8 l NE W x s E csA csB WA WB ZA ZB
    _ _ _ st FA FB SP PRE' DET _ _ gs_w es_w gs_saw es_saw STEP OA OB SAW SPL (init, []) S0) as ([o op] & [_ Ro] & [n C]).
  exists o, op. split; [exact Ro|]. cbn [fst snd] in C.
  eapply completes; [| |exact C].
  - eapply (wp_lstart gfr hash q rounds pa pb rc rs sh os Ha Hb Hc Hs Hh Ho Hz rdc rds roc ros R1 R2 R3 R4 R5 R6 R7 R8 l NE W x s E
      _ _ _ st FA FB SP PRE' DET gs_w es_w gs_saw es_saw SAW SPL (init, []) S0 true _ _ gs_w gs_saw (fun j g => gs_f g = og_f (fst j)));
      [exact WA|exact ZA| |reflexivity|reflexivity].
    intros p c c' [u1 u2] [v1 v2] g d [_ P1] [_ P2] Sh F D. cbn [fst] in *. rewrite P_GcProc2.o_run_app, P1 in P2. cbn [M_Garble.o_run] in P2.
    destruct (o_step _ _ _ _ _ _ _ _ u1 c) as [[s1 o1]| |] eqn:Rs; cbn [bind] in P2; try discriminate. injection P2 as <- <-.
    exact (wp_gen_shape sigma aes Hash fixk Kc rnd lab delta u1 c c' s1 o1 g d Rs Sh F D).
  - eapply (wp_lstart gfr hash q rounds pa pb rc rs sh os Ha Hb Hc Hs Hh Ho Hz rdc rds roc ros R1 R2 R3 R4 R5 R6 R7 R8 l NE W x s E
      _ _ _ st FA FB SP PRE' DET gs_w es_w gs_saw es_saw SAW SPL (init, []) S0 false _ _ es_w es_saw (fun j g => es_f g = oe_f (fst j)));
      [exact WB|exact ZB| |reflexivity|reflexivity].
    intros p c c' [u1 u2] [v1 v2] g d [_ P1] [_ P2] Sh F D. cbn [fst] in *. rewrite P_GcProc2.o_run_app, P1 in P2. cbn [M_Garble.o_run] in P2.
    destruct (o_step _ _ _ _ _ _ _ _ u1 c) as [[s1 o1]| |] eqn:Rs; cbn [bind] in P2; try discriminate. injection P2 as <- <-.
    exact (wp_eva_shape sigma aes Hash fixk Kc rnd lab delta u1 c c' s1 o1 g d Rs Sh F D).
Qed.
End G.
