(** A session in code order, the circuits garbled in advance. *)
From Coq Require Import List NArith ZArith Bool Arith Lia.
From Verif Require Import L_Bits L_Res L_Xor S_Sched S_Lower S_Codec S_Aes S_Gcm S_Tls S_Open.
From Verif Require S_Netlist S_Circuit.
From Verif Require Import M_EmpInteger M_Utils M_Bristol M_Bn M_Sym M_SymOn M_SymOff M_SymSess M_Block M_Ole2k M_Shares M_Commit M_Garble M_Handshake.
From Verif Require Import M_Aead M_Exch M_View M_LabRec M_GcProc M_Inter.
From Verif Require Import D_AesKs D_AesEnc P_Lower P_Garble P_Gf128 P_Shares P_Gcm P_Aead P_AeadInst P_Sched P_Exch P_ExchAead P_ExchSess.
From Verif Require Import P_Sha256Opt P_Handshake P_Session2 P_Sym P_SymTls P_SymGcm P_Labels P_LabRec P_LabSess P_Live2 P_Inter P_Inter2 P_Inter3.
From Verif Require P_GarbleOpt P_GcProc P_GcProc2 P_GcProc3 P_SymVal.
Import ListNotations.
Local Open Scope N_scope.
Local Opaque aes_ks_file aes_enc_file aesE EK str_to_int gcm_ctext key_block ms_spec mulBlock invBlock bytes_of_block block_of_bytes.

Section G.
Variables (sigma aes : N -> N) (Hash : list N -> N) (fixk lab : nat -> N) (delta : N).
Hypothesis Hd : getLSB delta = true.
Notation n_run := (n_run sigma aes Hash fixk lab delta).
Notation f_run := (f_run sigma aes fixk lab delta).
Lemma n_run_app out GC pub : forall a b s, n_run out GC pub s (a ++ b) =
  match n_run out GC pub s a with
  | Ok (s1, o1) => match n_run out GC pub s1 b with Ok (s2, o2) => Ok (s2, o1 ++ o2) | Err => Err | UB => UB end
  | Err => Err | UB => UB end.
Proof.
  induction a as [|c a IH]; intros b s; cbn [app M_Garble.n_run].
  - destruct (n_run out GC pub s b) as [[s2 o2]| |]; reflexivity.
  - destruct (n_step _ _ _ _ _ _ out GC pub s c) as [[s1 o1]| |]; cbn [bind]; [|reflexivity..]. rewrite IH.
    destruct (n_run out GC pub s1 a) as [[s2 o2]| |]; cbn [bind]; [|reflexivity..].
    destruct (n_run out GC pub s2 b) as [[s3 o3]| |]; cbn [bind]; [|reflexivity..]. now rewrite app_assoc.
Qed.
(** part of a circuit, run with the tables of the whole *)
Lemma sync_pre p2 : forall p off g e s w g' e', sync delta g e s w ->
  map S_Circuit.shape off = map S_Circuit.shape (p ++ p2) -> S_Circuit.wf (length w) (p ++ p2) = true -> f_run g e [] off = Ok (g', e', []) ->
  exists s' op g1 e1, n_run (fg_out g') (fe_GC e') (fe_pub e') s p = Ok (s', op) /\
    Forall2 S_Circuit.seen (snd (S_Circuit.spec_run w p)) op /\ sync delta g1 e1 s' (fst (S_Circuit.spec_run w p)).
Proof.
  induction p as [|d u IH]; intros off g e s w g' e' Hs Hm Hwf F.
  - exists s, [], g, e. split; [reflexivity|]. split; [constructor|exact Hs].
  - destruct off as [|c t]; [discriminate|]. cbn [map app] in Hm. injection Hm as Hc Ht. cbn [app S_Circuit.wf] in Hwf. apply andb_prop in Hwf as [Hw1 Hw2].
    destruct (f_step_ok sigma aes fixk lab delta g e c) as (e1 & o & gc & pb & H1 & _).
    destruct (f_run_ok sigma aes fixk lab delta t (fst (fg_step sigma aes fixk lab delta g c)) e1) as (g2 & e2 & o' & gc' & pb' & X1 & X2 & X3 & X4).
    cbn [M_Garble.f_run] in F. destruct (fg_step sigma aes fixk lab delta g c) as [g1 m] eqn:EG. cbn [fst snd app] in *. rewrite H1 in F. cbn [bind] in F.
    rewrite X1 in F. injection F as <- <-.
    destruct (sync_step sigma aes Hash fixk lab delta Hd g e s w c d e1 g2 e2 o' gc' pb' Hs Hc Hw1) as (s1 & op1 & E1 & E2 & E3); try (rewrite EG; cbn [fst snd]; assumption); try assumption.
    rewrite EG in E3. cbn [fst] in E3. rewrite <- spec_step_length in Hw2.
    destruct (IH t g1 e1 s1 _ g2 e2 E3 Ht Hw2 X1) as (s' & op2 & g3 & e3 & F2 & F3 & F4).
    exists s', (op1 ++ op2), g3, e3. cbn [M_Garble.n_run]. rewrite E1. cbn [bind]. rewrite F2. cbn [bind].
    split; [reflexivity|]. cbn [S_Circuit.spec_run]. destruct (S_Circuit.spec_run (S_Circuit.spec_step w d) u) as [w' ov]. cbn [fst snd] in *.
    split; [apply Forall2_app; assumption|exact F4].
Qed.
Hypothesis Bd : delta < 2 ^ 128.
Hypothesis Bs : forall x, sigma x < 2 ^ 128.
Hypothesis Ba : forall x, aes x < 2 ^ 128.
Hypothesis Bf : forall i, fixk i < 2 ^ 128.
Hypothesis Bl : forall i, lab i < 2 ^ 128.
Variable gfr : N -> N -> N.
Hypothesis GFR : gfr_ok gfr.
Variable hash : list N -> list N.
Hypothesis HL : forall l, length (hash l) = DIGEST_SIZE.
Notation ngof := P_GcProc3.ngof.
Notation neof := P_GcProc3.neof.

Theorem two_phase_inter orc' junk q rounds pa pb rc rs sh os l rdc roc rds ros : (0 <= pa < q)%Z -> (0 <= pb < q)%Z ->
  Forall byte8 rc -> Forall byte8 rs -> opt_wf sh -> Forall fin_wf os -> (rounds = true -> tls_sizes rc rs sh os) ->
  rdc < 2 ^ 128 -> rdc <> 0 -> ole_rand_ok roc 1 -> ole_blk roc -> rds < 2 ^ 128 -> rds <> 0 -> ole_rand_ok ros 1 -> ole_blk ros ->
  l <> [] -> Forall lcall_wf l ->
  let ms := ms_spec (pms_of q pa pb) rc rs sh in
  let kb := key_block ms rc rs in
  let spec := lspec (tls_client_key kb) (tls_server_key kb) (tls_client_iv kb) (tls_server_iv kb) in
  let cs := map CPlain (tls_calls pa pb rc rs sh os) ++ CAead false rdc roc :: CAead true rds ros :: map CRec l in
  exists x s y s' its n op,
    on_session honest aes_ks_file aes_enc_file q rounds (map on_of cs) cst0 = Ok (x, s) /\
    off_session orc' junk aes_ks_file aes_enc_file q rounds (map announce (map on_of cs)) cst0 = Ok (y, s') /\
    session_items honest aes_ks_file aes_enc_file q rounds cs = Ok its /\
    map it_call its = cs /\ lower (c_tr s) = lower [] ++ flat_map it_seg its /\
    two_phase sigma aes Hash fixk lab delta (lower (c_tr s')) (lower (c_tr s)) = Ok (n, op) /\
    always_completes (i_gen2 gfr hash sigma aes Hash fixk lab delta (lower (c_tr s')) its) (i_eva2 gfr hash sigma aes Hash fixk lab delta (lower (c_tr s')) its)
      (Ok (ngof n (saw true op), map (fun o => out_alice (spec o)) l)) (Ok (neof n (saw false op), map (fun o => out_bob (spec o)) l)).
Proof.
  intros Ha Hb Hc Hs Hh Ho Hz R1 R2 R3 R4 R5 R6 R7 R8 NE W ms kb spec cs.
  change cs with (icalls pa pb rc rs sh os rdc rds roc ros l). clear cs. rewrite icalls_calls.
  destruct (calls_ok q rounds pa pb rc rs sh os Ha Hb Hc Hs Hh Ho Hz l W) as (x & s & E & _).
  pose proof E as E1. rewrite <- (icalls_calls pa pb rc rs sh os rdc rds roc ros) in E1.
  destruct (items_whole _ _ _ _ _ (at0 q rounds) E1) as (its & I1 & I2 & I3).
  pose proof (session_sound _ _ _ _ _ _ _ E) as So. pose proof (lower_wf _ So) as Wf.
  pose proof (sim_session honest orc' junk aes_ks_file aes_enc_file q rounds _
    (gcm_sizes_ok q rounds pa pb rc rs sh os _ Ha Hb Hz (gcalls_wf l W)) cst0 cst0 eq_refl eq_refl) as C.
  unfold on_session in C. rewrite E in C.
  destruct (off_session _ _ _ _ _ _ _ _) as [[y s']| |]; try contradiction. destruct C as (_ & C & _). cbn [snd fst] in C.
  assert (Hm : map S_Circuit.shape (lower (c_tr s')) = map S_Circuit.shape (lower (c_tr s))) by (apply lower_shape; symmetry; exact C).
  destruct (P_GcProc3.off_conv sigma aes Hash fixk lab delta Bd Bs Ba Bf Bl (lower (c_tr s')) f_init_g f_init_e) as (g & e & F & CF); [constructor|].
  assert (Y0 : sync delta f_init_g f_init_e n_init []) by (unfold sync; cbn; repeat split; reflexivity).
  set (run := n_run (fg_out g) (fe_GC e) (fe_pub e)).
  set (st := fun (p : list S_Circuit.instr) (j : nstate * M_Garble.opened) => (exists p2, lower (c_tr s) = p ++ p2) /\ run n_init p = Ok j).
  assert (PRE : forall p p2, lower (c_tr s) = p ++ p2 -> exists n op, run n_init p = Ok (n, op) /\ Forall2 S_Circuit.seen (snd (S_Circuit.spec_run [] p)) op /\
    (forall i, lbl (ne_w n) i = N.lxor (lbl (ng_w n) i) (sel (S_Circuit.wire (fst (S_Circuit.spec_run [] p)) i) delta)) /\ n_ge n = [] /\ n_eg n = []).
  { intros p p2 Ep. pose proof Wf as Wf'. pose proof Hm as Hm'. rewrite Ep in Wf', Hm'.
    destruct (sync_pre p2 p _ _ _ _ _ _ _ Y0 Hm' Wf' F) as (n & op & g1 & e1 & Rn & Se & Sy). exists n, op. split; [exact Rn|]. split; [exact Se|].
    destruct Sy as (S1 & S2 & S3 & S4 & S5 & S6 & S7 & S8 & S9 & S10 & S11). split; [|split; assumption]. intro i. rewrite S1, S3. apply evl_nth. exact S2. }
  assert (HST : forall t, part (c_tr s) t -> exists j, st (lower t) j).
  { intros t P. destruct (lower_part _ _ P) as [p2 Ep]. destruct (PRE _ _ Ep) as (n & op & Rn & _). exists (n, op). split; [eauto|exact Rn]. }
  assert (HB : forall c cs x1 s1 j, sets_master c -> on_session honest aes_ks_file aes_enc_file q rounds (c :: cs) cst0 = Ok (x1, s1) ->
    part (c_tr s) (c_tr s1) -> st (lower (c_tr s1)) j ->
    Forall (splits s1 (ngs_w (ngof (fst j) (saw true (snd j)))) (nes_w (neof (fst j) (saw false (snd j))))) (os_sh x1) /\
    exists op, ngs_saw (ngof (fst j) (saw true (snd j))) = saw true op /\ nes_saw (neof (fst j) (saw false (snd j))) = saw false op /\
      Forall2 S_Circuit.seen (map low_open (S_Netlist.openings (c_tr s1))) op).
  { intros c cs x1 s1 [n op] _ _ P [_ Rn]. destruct (lower_part _ _ P) as [p2 Ep]. destruct (PRE _ _ Ep) as (n1 & op1 & Rn1 & Se & L & _).
    rewrite Rn in Rn1. injection Rn1 as <- <-. rewrite lower_run in Se, L. cbn [fst snd] in *. split.
    - apply Forall_forall. intros ws _. unfold splits. apply low_bits_xor with (delta := delta); assumption.
    - exists op. auto. }
  assert (RC : forall p seg j j', st p j -> st (p ++ seg) j' ->
    conv (p_ngen Hash fixk lab delta (fg_out g) (ngof (fst j) (saw true (snd j))) seg)
         (p_neva sigma aes Hash fixk lab delta (fe_GC e) (fe_pub e) (neof (fst j) (saw false (snd j))) seg)
      (Ok (ngof (fst j') (saw true (snd j')))) (Ok (neof (fst j') (saw false (snd j'))))).
  { intros p seg [n op] [n' op'] [[p2 Ep] Rn] [[p3 Ep'] Rn']. cbn [fst snd].
    destruct (PRE _ _ Ep) as (n1 & op1 & Rn1 & _ & _ & G1 & G2). rewrite Rn in Rn1. injection Rn1 as <- <-.
    unfold run in Rn, Rn'. rewrite n_run_app, Rn in Rn'. destruct (n_run _ _ _ n seg) as [[n2 op2]| |] eqn:Rs; try discriminate. injection Rn' as <- <-.
    destruct (P_GcProc3.n_run_conv sigma aes Hash fixk lab delta Bd Bl _ _ _ seg n n2 op2 (saw true op) (saw false op) Rs G1 G2) as (Cv & _). rewrite !saw_app. exact Cv. }
  assert (S0 : st [] (n_init, [])) by (split; [exists (lower (c_tr s)); reflexivity|reflexivity]).
  destruct (HST []) as [j1 S1]; [exists (c_tr s); now rewrite app_nil_r|].
  destruct (good_session _ _ _ st (fun j => ngof (fst j) (saw true (snd j))) (fun j => neof (fst j) (saw false (snd j))) ngs_w nes_w ngs_saw nes_saw
    q rounds (c_tr s) HST HB pa pb rc rs sh os Ha Hb Hc Hs Hh Ho Hz rdc rds roc ros R1 R2 R3 R4 R5 R6 R7 R8 l x s j1 W NE E eq_refl S1)
    as (its' & [n op] & I1' & G & Sf & NI).
  unfold session_items in I1'. rewrite I1 in I1'. injection I1' as <-. destruct Sf as [_ Sf].
  exists x, s, y, s', its, n, op. split; [exact E|]. split; [reflexivity|]. split; [exact I1|]. split; [exact I2|]. split; [exact I3|].
  split; [unfold two_phase; rewrite F; exact Sf|].
  destruct (tls_keys_ok ms rc rs) as (KC & KS & IC & IS). fold kb in KC, KS, IC, IS. fold ms in G. fold kb in G.
  pose proof (conv_istart gfr GFR hash HL _ _ _ st _ _ _ _ ngs_w nes_w ngs_saw nes_saw RC _ _ _ _ KC KS IC IS (n_init, []) j1 its l (n, op) S0 S1 G) as Cv.
  assert (V : conv (i_gen2 gfr hash sigma aes Hash fixk lab delta (lower (c_tr s')) its) (i_eva2 gfr hash sigma aes Hash fixk lab delta (lower (c_tr s')) its)
      (Ok (ngof n (saw true op), map (fun o => out_alice (spec o)) l)) (Ok (neof n (saw false op), map (fun o => out_bob (spec o)) l)))
    by (unfold i_gen2, i_eva2; eapply conv_rbind; [exact CF|exact Cv]).
  destruct V as [k V]. eapply completes; [| |exact V].
  - apply wp_rbind. eapply wp_mono; [|eapply P_GcProc3.wp_fgen; [exact F|reflexivity]]. intros r d [D ->].
    eapply (wp_istart gfr hash _ _ _ st _ _ ngs_w nes_w ngs_saw nes_saw _ _ _ _ _ ngs_w ngs_saw true (fun j g => ngs_gid g = ng_gid (fst j))); [|exact S0|exact S1|exact G|exact NI|reflexivity|exact D].
    intros p seg [u1 u2] [v1 v2] g0 d0 [_ P1] [_ P2] Fg D0. cbn [fst] in *. unfold run in P1, P2. rewrite n_run_app, P1 in P2.
    destruct (n_run _ _ _ u1 seg) as [[w1 w2]| |] eqn:Ru; try discriminate. injection P2 as <- <-.
    eapply wp_mono; [|eapply P_GcProc3.wp_ngen; [exact Ru|exact Fg|exact D0]].
    intros [g1| |] d1 [D1 H1]; (split; [exact D1|]); [exact (proj1 H1)|exact H1|exact H1].
  - apply wp_rbind. eapply wp_mono; [|eapply (P_GcProc3.wp_feva sigma aes fixk lab delta (lower (c_tr s')) _ _ _ _ _ _ f_init_e); [exact F|reflexivity..]].
    intros r d (D & e2 & -> & L1 & L2).
    eapply (wp_istart gfr hash _ _ _ st _ _ ngs_w nes_w ngs_saw nes_saw _ _ _ _ _ nes_w nes_saw false (fun j g => nes_gid g = ne_gid (fst j) /\ nes_cnt g = ne_cnt (fst j)));
      [|exact S0|exact S1|exact G|exact NI|split; reflexivity|exact D].
    intros p seg [u1 u2] [v1 v2] g0 d0 [_ P1] [_ P2] [Fg Fc] D0. cbn [fst] in *. unfold run in P1, P2. rewrite n_run_app, P1 in P2.
    destruct (n_run _ _ _ u1 seg) as [[w1 w2]| |] eqn:Ru; try discriminate. injection P2 as <- <-.
    eapply wp_mono; [|eapply P_GcProc3.wp_neva; [exact Bd|exact L1|exact L2|exact Ru|exact Fg|exact Fc|exact D0]].
    intros [g1| |] d1 [D1 H1]; (split; [exact D1|]); [destruct H1 as (H1 & H2 & _); split; assumption|contradiction|contradiction].
Qed.
End G.
