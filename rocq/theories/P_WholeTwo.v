(** The whole run: what the session needs to follow the key agreement, for any shares. *)
From Coq Require Import List NArith ZArith Bool Arith Lia Znumtheory.
From Verif Require Import L_Bits L_Res L_Xor S_Sched S_Lower S_Codec S_Aes S_Gcm S_Tls S_Open S_Causal L_Group S_Ec.
From Verif Require S_Netlist S_Circuit.
From Verif Require Import M_EmpInteger M_Utils M_Bristol M_Bn M_Ec M_E2f M_Sym M_SymOn M_SymOff M_SymSess M_Causal M_Block M_Ole2k M_Shares M_Commit M_Garble M_Handshake.
From Verif Require Import M_Aead M_Exch M_ExchDh M_View M_LabRec M_GcProc M_Inter M_Live M_Whole.
From Verif Require Import D_AesKs D_AesEnc P_Lower P_Garble P_Gf128 P_Shares P_Gcm P_Aead P_AeadInst P_Sched P_Exch P_ExchAead P_ExchSess.
From Verif Require Import P_Sha256Opt P_Handshake P_Session2 P_Sym P_SymTls P_SymGcm P_Labels P_LabRec P_LabSess P_Live2 P_Inter P_Inter2 P_Inter3 P_Inter4.
From Verif Require P_GcProc3 P_Causal3.
From Verif Require Import P_LiveItems P_LiveStep P_LiveRun P_LiveStream P_LiveOwn P_WholeDh.
Import ListNotations.
Local Open Scope N_scope.
Local Opaque aes_ks_file aes_enc_file aesE EK str_to_int gcm_ctext key_block ms_spec mulBlock invBlock bytes_of_block block_of_bytes.

Section G.
Variables (sigma aes : N -> N) (Hash : list N -> N) (fixk lab : nat -> N) (delta : N).
Hypothesis Hd : getLSB delta = true.
Notation n_run := (n_run sigma aes Hash fixk lab delta).
Hypothesis Bd : delta < 2 ^ 128.
Hypothesis Bs : forall x, sigma x < 2 ^ 128.
Hypothesis Ba : forall x, aes x < 2 ^ 128.
Hypothesis Bf : forall i, fixk i < 2 ^ 128.
Hypothesis Bl : forall i, lab i < 2 ^ 128.
Variable gfr : N -> N -> N.
Hypothesis GFR : gfr_ok gfr.
Variable hash : list N -> list N.
Hypothesis HL : forall l, length (hash l) = DIGEST_SIZE.
Notation ngof := P_GcProc3.ngof.
Notation neof := P_GcProc3.neof.
Notation FA := (fun j : nstate * M_Garble.opened => ngof (fst j) (saw true (snd j))).
Notation FB := (fun j : nstate * M_Garble.opened => neof (fst j) (saw false (snd j))).

(** the offline run, and what follows it for a pair of shares *)
Section S.
Variables (q : Z) (rounds : bool) (rc rs : list N) (sh : option (list N)) (os : list fin_op).
Hypothesis Hc : Forall byte8 rc.
Hypothesis Hs : Forall byte8 rs.
Hypothesis Hh : opt_wf sh.
Hypothesis Ho : Forall fin_wf os.
Hypothesis Hz : rounds = true -> tls_sizes rc rs sh os.
Variables (rdc rds : N) (roc ros : ole_rand).
Hypothesis R1 : rdc < 2 ^ 128.
Hypothesis R2 : rdc <> 0.
Hypothesis R3 : ole_rand_ok roc 1.
Hypothesis R4 : ole_blk roc.
Hypothesis R5 : rds < 2 ^ 128.
Hypothesis R6 : rds <> 0.
Hypothesis R7 : ole_rand_ok ros 1.
Hypothesis R8 : ole_blk ros.
Variable l : list lcall.
Hypothesis NE : l <> [].
Hypothesis W : Forall lcall_wf l.
Notation ic a b := (icalls a b rc rs sh os rdc rds roc ros l).
Lemma same_announce a b a' b' : map announce (map on_of (ic a b)) = map announce (map on_of (ic a' b')).
Proof. rewrite !icalls_calls. unfold gcm_calls, tls_calls. destruct sh; reflexivity. Qed.

Lemma core orc' junk y s' g e pa pb csA csB : (0 <= pa < q)%Z -> (0 <= pb < q)%Z ->
  off_session orc' junk aes_ks_file aes_enc_file q rounds (map announce (map on_of (ic 0 0))) cst0 = Ok (y, s') ->
  f_run sigma aes fixk lab delta f_init_g f_init_e [] (lower (c_tr s')) = Ok (g, e, []) ->
  map (own_icall true) (ic pa pb) = map (own_icall true) csA -> map (own_icall false) (ic pa pb) = map (own_icall false) csB ->
  Forall (sizes_ok q rounds) (map on_of csA) -> Forall (sizes_ok q rounds) (map on_of csB) ->
  let kb := key_block (ms_spec (pms_of q pa pb) rc rs sh) rc rs in
  let spec := lspec (tls_client_key kb) (tls_server_key kb) (tls_client_iv kb) (tls_server_iv kb) in
  exists x s n op,
    on_session honest aes_ks_file aes_enc_file q rounds (map on_of (ic pa pb)) cst0 = Ok (x, s) /\
    two_phase sigma aes Hash fixk lab delta (lower (c_tr s')) (lower (c_tr s)) = Ok (n, op) /\
    conv (l_start aes_ks_file aes_enc_file q rounds csA ngen (p_ngen_step Hash fixk lab delta (fg_out g)) ngs_saw gfr hash ngs_w true ng0)
         (l_start aes_ks_file aes_enc_file q rounds csB neva (p_neva_step sigma aes Hash fixk lab delta (fe_GC e) (fe_pub e)) nes_saw gfr hash nes_w false ne0)
      (Ok (ngof n (saw true op), length (lower (c_tr s)), map (fun o => out_alice (spec o)) l))
      (Ok (neof n (saw false op), length (lower (c_tr s)), map (fun o => out_bob (spec o)) l)) /\
    (forall d, snd d = false ->
      wp (l_start aes_ks_file aes_enc_file q rounds csA ngen (p_ngen_step Hash fixk lab delta (fg_out g)) ngs_saw gfr hash ngs_w true ng0) d ends_ok) /\
    (forall d e2, snd d = false -> length (fe_GC e2) = length (fe_GC e) -> length (fe_pub e2) = length (fe_pub e) ->
      wp (l_start aes_ks_file aes_enc_file q rounds csB neva (p_neva_step sigma aes Hash fixk lab delta (fe_GC e2) (fe_pub e2)) nes_saw gfr hash nes_w false ne0) d ends_ok).
Proof.
  intros Ha Hb Eo F WA WB ZA ZB kb spec. rewrite (same_announce 0 0 pa pb) in Eo. rewrite icalls_calls in Eo |- *.
  destruct (calls_ok q rounds pa pb rc rs sh os Ha Hb Hc Hs Hh Ho Hz l W) as (x & s & E & _).
  pose proof (session_sound _ _ _ _ _ _ _ E) as So. pose proof (lower_wf _ So) as Wf.
  pose proof (sim_session honest orc' junk aes_ks_file aes_enc_file q rounds _
    (gcm_sizes_ok q rounds pa pb rc rs sh os _ Ha Hb Hz (gcalls_wf l W)) cst0 cst0 eq_refl eq_refl) as C.
  unfold on_session in C. rewrite E, Eo in C. destruct C as (_ & C & _). cbn [snd fst] in C.
  assert (Hm : map S_Circuit.shape (lower (c_tr s')) = map S_Circuit.shape (lower (c_tr s))) by (apply lower_shape; symmetry; exact C).
  assert (Y0 : sync delta f_init_g f_init_e n_init []) by (unfold sync; cbn; repeat split; reflexivity).
  set (run := n_run (fg_out g) (fe_GC e) (fe_pub e)).
  set (st := fun (p : list S_Circuit.instr) (j : nstate * M_Garble.opened) => (exists p2, lower (c_tr s) = p ++ p2) /\ run n_init p = Ok j).
  assert (PRE : forall p p2, lower (c_tr s) = p ++ p2 -> exists n op, run n_init p = Ok (n, op) /\ Forall2 S_Circuit.seen (snd (S_Circuit.spec_run [] p)) op /\
    (forall i, lbl (ne_w n) i = N.lxor (lbl (ng_w n) i) (sel (S_Circuit.wire (fst (S_Circuit.spec_run [] p)) i) delta)) /\ n_ge n = [] /\ n_eg n = []).
  { intros p p2 Ep. pose proof Wf as Wf'. pose proof Hm as Hm'. rewrite Ep in Wf', Hm'.
    destruct (sync_pre sigma aes Hash fixk lab delta Hd p2 p _ _ _ _ _ _ _ Y0 Hm' Wf' F) as (n & op & g1 & e1 & Rn & Se & Sy). exists n, op. split; [exact Rn|]. split; [exact Se|].
    destruct Sy as (S1 & S2 & S3 & S4 & S5 & S6 & S7 & S8 & S9 & S10 & S11). split; [|split; assumption]. intro i. rewrite S1, S3. apply evl_nth. exact S2. }
  assert (SP : forall p j, st p j -> exists p2, lower (c_tr s) = p ++ p2) by (intros p j [H _]; exact H).
  assert (PRE' : forall p p2, lower (c_tr s) = p ++ p2 -> exists j, st p j).
  { intros p p2 Ep. destruct (PRE _ _ Ep) as (n & op & Rn & _). exists (n, op). split; [eauto|exact Rn]. }
  assert (DET : forall p j j', st p j -> st p j' -> j = j') by (intros p j j' [_ A] [_ B]; rewrite A in B; now injection B).
  assert (SAW : forall t t2 j, c_tr s = t2 ++ t -> st (lower t) j ->
    exists op, ngs_saw (FA j) = saw true op /\ nes_saw (FB j) = saw false op /\ Forall2 S_Circuit.seen (map low_open (S_Netlist.openings t)) op).
  { intros t t2 [n op] Et [[p2 Ep] Rn]. destruct (PRE _ _ Ep) as (n1 & op1 & Rn1 & Se & _). rewrite Rn in Rn1. injection Rn1 as <- <-.
    rewrite lower_run in Se. exists op. auto. }
  assert (SPL : forall c cs x1 s1 j, sets_master c -> on_session honest aes_ks_file aes_enc_file q rounds (c :: cs) cst0 = Ok (x1, s1) ->
    part (c_tr s) (c_tr s1) -> st (lower (c_tr s1)) j -> Forall (splits s1 (ngs_w (FA j)) (nes_w (FB j))) (os_sh x1)).
  { intros c cs x1 s1 [n op] _ _ P [_ Rn]. destruct (lower_part _ _ P) as [p2 Ep]. destruct (PRE _ _ Ep) as (n1 & op1 & Rn1 & Se & L & _).
    rewrite Rn in Rn1. injection Rn1 as <- <-. rewrite lower_run in L. cbn [fst snd] in *.
    apply Forall_forall. intros ws _. unfold splits. apply low_bits_xor with (delta := delta); assumption. }
  assert (STEP : forall p c j j', st p j -> st (p ++ [c]) j' ->
    conv (p_ngen_step Hash fixk lab delta (fg_out g) (FA j) c) (p_neva_step sigma aes Hash fixk lab delta (fe_GC e) (fe_pub e) (FB j) c) (Ok (FA j')) (Ok (FB j'))).
  { intros p c [n op] [n' op'] [[p2 Ep] Rn] [[p3 Ep'] Rn']. cbn [fst snd].
    destruct (PRE _ _ Ep) as (n1 & op1 & Rn1 & _ & _ & G1 & G2). rewrite Rn in Rn1. injection Rn1 as <- <-.
    unfold run in Rn, Rn'. rewrite n_run_app, Rn in Rn'. cbn [M_Garble.n_run] in Rn'.
    destruct (n_step _ _ _ _ _ _ _ _ _ n c) as [[n2 op2]| |] eqn:Rs; cbn [bind] in Rn'; try discriminate. injection Rn' as <- <-.
    rewrite app_nil_r, !saw_app.
    destruct (P_GcProc3.n_step_conv sigma aes Hash fixk lab delta Bd Bl _ _ _ n c n2 op2 (saw true op) (saw false op) Rs G1 G2) as (Cv & _). exact Cv. }
  assert (S0 : st [] (n_init, [])) by (split; [exists (lower (c_tr s)); reflexivity|reflexivity]).
  assert (OA : forall u u' h, own_part true u = own_part true u' -> p_ngen_step Hash fixk lab delta (fg_out g) h (low u) = p_ngen_step Hash fixk lab delta (fg_out g) h (low u'))
    by (intros; now apply P_Causal3.ngen_own).
  assert (OB : forall u u' h, own_part false u = own_part false u' ->
    p_neva_step sigma aes Hash fixk lab delta (fe_GC e) (fe_pub e) h (low u) = p_neva_step sigma aes Hash fixk lab delta (fe_GC e) (fe_pub e) h (low u'))
    by (intros; now apply P_Causal3.neva_own).
  destruct (live_session gfr GFR hash HL q rounds pa pb rc rs sh os Ha Hb Hc Hs Hh Ho Hz rdc rds roc ros R1 R2 R3 R4 R5 R6 R7 R8 l NE W x s E csA csB WA WB ZA ZB
    _ _ _ st FA FB SP PRE' DET _ _ ngs_w nes_w ngs_saw nes_saw STEP OA OB SAW SPL (n_init, []) S0) as ([n op] & [_ Rn] & Cv).
  exists x, s, n, op. split; [exact E|]. split; [unfold two_phase; rewrite F; exact Rn|]. split; [exact Cv|]. split.
  - intros d D.
    eapply (wp_lstart_ok gfr hash q rounds pa pb rc rs sh os Ha Hb Hc Hs Hh Ho Hz rdc rds roc ros R1 R2 R3 R4 R5 R6 R7 R8 l NE W x s E
      _ _ _ st FA FB SP PRE' DET ngs_w nes_w ngs_saw nes_saw SAW SPL (n_init, []) S0 true _ _ ngs_w ngs_saw (fun j h => ngs_gid h = ng_gid (fst j)));
      [exact WA|exact ZA| |reflexivity|exact D].
    intros p c c' [u1 u2] [v1 v2] h d0 [_ P1] [_ P2] Sh Fg D0. cbn [fst] in *. unfold run in P1, P2. rewrite n_run_app, P1 in P2. cbn [M_Garble.n_run] in P2.
    destruct (n_step _ _ _ _ _ _ _ _ _ u1 c) as [[w1 w2]| |] eqn:Rs; cbn [bind] in P2; try discriminate. injection P2 as <- <-.
    eapply wp_mono; [|eapply wp_ngen_shape; [exact Rs|exact Sh|exact Fg|exact D0]]. intros r0 d1 H1. exact H1.
  - intros d e2 D L1 L2.
    eapply (wp_lstart_ok gfr hash q rounds pa pb rc rs sh os Ha Hb Hc Hs Hh Ho Hz rdc rds roc ros R1 R2 R3 R4 R5 R6 R7 R8 l NE W x s E
      _ _ _ st FA FB SP PRE' DET ngs_w nes_w ngs_saw nes_saw SAW SPL (n_init, []) S0 false _ _ nes_w nes_saw (fun j h => nes_gid h = ne_gid (fst j) /\ nes_cnt h = ne_cnt (fst j)));
      [exact WB|exact ZB| |split; reflexivity|exact D].
    intros p c c' [u1 u2] [v1 v2] h d0 [_ P1] [_ P2] Sh Fg D0. cbn [fst] in *. unfold run in P1, P2. rewrite n_run_app, P1 in P2. cbn [M_Garble.n_run] in P2.
    destruct (n_step _ _ _ _ _ _ _ _ _ u1 c) as [[w1 w2]| |] eqn:Rs; cbn [bind] in P2; try discriminate. injection P2 as <- <-.
    eapply wp_mono; [|eapply wp_neva_shape; [exact Bd|exact Rs|exact Sh|exact L1|exact L2|exact Fg|exact D0]]. intros r0 d1 H1. exact H1.
Qed.
(** the offline run, which does not depend on the shares *)
Lemma off_ok orc' junk : (0 < q)%Z -> exists y s' g e,
  off_session orc' junk aes_ks_file aes_enc_file q rounds (map announce (map on_of (ic 0 0))) cst0 = Ok (y, s') /\
  f_run sigma aes fixk lab delta f_init_g f_init_e [] (lower (c_tr s')) = Ok (g, e, []) /\
  conv (p_fgen sigma aes fixk lab delta f_init_g (lower (c_tr s'))) (p_feva f_init_e (lower (c_tr s'))) (Ok g) (Ok e).
Proof.
  intro Hq. assert (H0 : (0 <= 0 < q)%Z) by (split; [apply Z.le_refl|exact Hq]). rewrite icalls_calls.
  destruct (calls_ok q rounds 0 0 rc rs sh os H0 H0 Hc Hs Hh Ho Hz l W) as (x & s & E & _).
  pose proof (sim_session honest orc' junk aes_ks_file aes_enc_file q rounds _
    (gcm_sizes_ok q rounds 0 0 rc rs sh os _ H0 H0 Hz (gcalls_wf l W)) cst0 cst0 eq_refl eq_refl) as C.
  unfold on_session in C. rewrite E in C.
  destruct (off_session _ _ _ _ _ _ _ _) as [[y s']| |]; try contradiction.
  destruct (P_GcProc3.off_conv sigma aes Hash fixk lab delta Bd Bs Ba Bf Bl (lower (c_tr s')) f_init_g f_init_e) as (g & e & F & CF); [constructor|].
  exists y, s', g, e. auto.
Qed.
End S.
End G.
