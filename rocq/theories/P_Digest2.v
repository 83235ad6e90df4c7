(** The digest comparison decides all comparisons of the proof phase at once. *)
From Coq Require Import List NArith ZArith Bool Arith Lia.
From Verif Require Import L_Bits L_Res M_EmpInteger M_Utils M_Bristol M_Block M_Shares M_Aead M_ItMac M_AeadProof M_Handshake M_Session M_Digest.
From Verif Require Import P_Utils P_Shares P_ItMac P_AeadProof P_Digest.
Import ListNotations.
Local Open Scope N_scope.

(** ** The comparisons the handshake adds *)
Definition bytewise (k : nat) (c : Integer * Integer) : Prop := exists n, length (snd c) = (8 * (k * n))%nat.
Lemma prf_call_zk s r n label seed zk s' x : hs_prf_call s r n label seed zk = Ok (s', x) -> hs_zk s' = hs_zk s.
Proof.
  unfold hs_prf_call. destruct (negb _); intro H; apply bind_inv in H as ([y z] & _ & H); injection H as <- _; reflexivity.
Qed.
Lemma pms_addmod_zk s pms s' x : zk_pms_addmod s pms = Ok (s', x) -> hs_zk s' = hs_zk s.
Proof.
  unfold zk_pms_addmod. intro H. do 4 (apply bind_inv in H as (? & _ & H)). injection H as <- _. reflexivity.
Qed.
Lemma int8_length l : length (int_of_array (length l * 8) 8 l) = (8 * length l)%nat.
Proof.
  unfold int_of_array. rewrite firstn_length. rewrite (flat_map_length_const _ 8) by (intro; apply bits_of_N_length). lia.
Qed.
Lemma check_bytes_zk s x l s' : check_bytes s x l = Ok s' -> exists c, hs_zk s' = hs_zk s ++ [c] /\ bytewise 1 c.
Proof.
  unfold check_bytes. destruct (_ =? _)%nat; [|discriminate]. intro H. injection H as <-. eexists. split; [reflexivity|].
  exists (length l). cbn [snd]. rewrite int8_length. lia.
Qed.
Lemma step1_hs_zk s pms rc rs tc ts sh s' ms ks : step1_hs s pms rc rs tc ts sh = Ok (s', ms, ks) ->
  exists cs, hs_zk s' = hs_zk s ++ cs /\ Forall (bytewise 1) cs /\ length cs = 2%nat.
Proof.
  unfold step1_hs. intro H. apply bind_inv in H as ([s1 m] & H1 & H). apply bind_inv in H as ([s2 k] & H2 & H).
  apply bind_inv in H as (s3 & H3 & H). apply bind_inv in H as (s4 & H4 & H).
  assert (E1 : hs_zk s1 = hs_zk s).
  { destruct sh; unfold prove_extended_master_key, prove_master_key in H1;
      apply bind_inv in H1 as ([s0 b] & A1 & H1); apply bind_inv in H1 as (h & _ & H1);
      apply prf_call_zk in H1; cbn [set_prf hs_zk] in H1; apply pms_addmod_zk in A1; congruence. }
  assert (E2 : hs_zk s2 = hs_zk s1).
  { unfold prove_expansion_keys in H2. apply bind_inv in H2 as (h & _ & H2). apply bind_inv in H2 as ([s0 b] & A1 & H2).
    apply bind_inv in H2 as (k0 & _ & H2). injection H2 as <- _. apply prf_call_zk in A1. exact A1. }
  unfold prove_client_finished_msg in H3. unfold prove_server_finished_msg in H4.
  apply bind_inv in H3 as ([s5 u5] & A3 & H3). apply bind_inv in H3 as (v5 & _ & H3).
  apply bind_inv in H4 as ([s6 u6] & A4 & H4). apply bind_inv in H4 as (v6 & _ & H4).
  apply prf_call_zk in A3, A4. apply check_bytes_zk in H3 as (c3 & E3 & B3). apply check_bytes_zk in H4 as (c4 & E4 & B4).
  injection H as <- _ _. exists [c3; c4]. split; [|split; [auto|reflexivity]].
  rewrite E4, A4, E3, A3, E2, E1. now rewrite <- app_assoc.
Qed.
Lemma words_bytewise l : Forall (bytewise 4) (word_checks l).
Proof.
  unfold word_checks. apply Forall_map, Forall_forall. intros [x w] _. cbn [fst snd]. unfold bytewise. cbn [snd].
  unfold int_of_array. rewrite firstn_length, (flat_map_length_const _ 32) by (intro; apply bits_of_N_length).
  exists (Nat.min 8 (length w)). lia.
Qed.
Lemma handshake_check_zk s s' : handshake_check s = Ok s' -> exists cs, hs_zk s' = hs_zk s ++ cs /\ Forall (bytewise 4) cs.
Proof.
  unfold handshake_check. intro H. apply bind_inv in H as (c1 & _ & H). apply bind_inv in H as (c2 & _ & H).
  injection H as <-. eexists. split; [reflexivity|]. apply Forall_app. split; apply words_bytewise.
Qed.
Lemma skipn_app_same {A} (a b : list A) : skipn (length a) (a ++ b) = b.
Proof. rewrite skipn_app, skipn_all, Nat.sub_diag. reflexivity. Qed.

Section G.
Variable Delta : N.
Variable pub : bool -> N.
Variable kc : nat -> nat -> N.
Variable own : bool.
Hypothesis D0 : Delta <> 0.
Hypothesis P1 : pub true <> pub false.
Hypothesis P2 : N.lxor (pub true) (pub false) <> Delta.

Lemma reveal8_length k x : length x = (8 * k)%nat -> length (reveal_as 8 x) = k.
Proof. intro L. pose proof (bits8_reveal k x L) as E. apply (f_equal (@length bool)) in E. rewrite bits8_length in E. lia. Qed.
Lemma image_bits k x : length x = (8 * k)%nat -> int_of_array (k * 8) 8 (reveal_as 8 x) = x.
Proof.
  intro L. unfold int_of_array. fold (bits8 (reveal_as 8 x)). rewrite (bits8_reveal k x L). apply firstn_all2. lia.
Qed.
Definition wires (i : nat) (x : Integer) : list (N * N) := zauth Delta (map (kc i) (seq 0 (length x))) x.
Lemma wires_carry i x : Forall2 (carries Delta) (wires i x) x.
Proof. apply zauth_carries. now rewrite map_length, seq_length. Qed.
Lemma wires_length i x : length (wires i x) = length x.
Proof. apply zauth_length; [exact D0|]. now rewrite map_length, seq_length. Qed.
Definition ksmall : Prop := forall i j, small (kc i j).
Lemma wires_small i x : dsmall Delta pub -> ksmall -> Forall wsmall (wires i x).
Proof. intros D K. apply (zauth_small _ pub); [exact D|]. apply Forall_map, Forall_forall. intros; apply K. Qed.

Lemma put_sync i c : length (fst c) = length (snd c) ->
  (sync (zz (zxor (zpublic Delta pub (snd c) (snd c)) (wires i (fst c)))) <-> fst c = snd c).
Proof.
  intro L. pose proof (sync_public Delta D0 pub P1 P2 cz0 (wires i (fst c)) (fst c) (snd c) (snd c) eq_refl (wires_carry i (fst c)) (eq_sym L) (eq_sym L)) as X.
  rewrite check_zero_app in X. rewrite sync_app in X by reflexivity. split; intro H.
  - assert (Y : sync cz0 /\ snd c = fst c /\ snd c = fst c) by (apply X; split; [reflexivity|exact H]). symmetry. apply Y.
  - apply X. split; [reflexivity|]. rewrite H. auto.
Qed.
Lemma cmp_put_frame t sz i c t' : bytewise 1 c -> cmp_put Delta pub kc own t sz i c = Ok t' ->
  exists d, bal d /\ t' = cz_app t d /\ (sync d <-> fst c = snd c) /\ (dsmall Delta pub -> ksmall -> czsmall d).
Proof.
  intros [k Hk] H. rewrite Nat.mul_1_l in Hk. unfold cmp_put in H. cbv zeta in H. fold (wires i (fst c)) in H.
  rewrite (reveal8_length k _ Hk) in H. set (len := (k / sz)%nat) in *.
  assert (G : length (fst c) = (len * sz * 8)%nat /\ k = (len * sz)%nat /\
    t' = check_zero t (zxor (zpublic Delta pub (int_of_array (len * sz * 8) 8 (reveal_as 8 (snd c))) (int_of_array (len * sz * 8) 8 (reveal_as 8 (snd c)))) (wires i (fst c)))).
  { destruct own.
    - unfold check_zero_data in H. rewrite wires_length, (reveal8_length k _ Hk) in H.
      destruct (Nat.eqb_spec (length (fst c)) (len * sz * 8)%nat) as [L1|]; [|discriminate]. cbn [negb] in H.
      destruct (Nat.eqb_spec k (len * sz)%nat) as [L2|]; [|discriminate]. cbn [negb andb] in H. cbv zeta in H.
      destruct (bytes_eqb _ _); [|discriminate]. injection H as <-. auto.
    - rewrite wires_length in H.
      destruct (Nat.eqb_spec (length (fst c)) (len * sz * 8)%nat) as [L1|]; [|discriminate]. cbn [negb] in H.
      destruct (Nat.eqb_spec k (len * sz)%nat) as [L2|]; [|discriminate]. cbn [negb] in H. injection H as <-. auto. }
  destruct G as (L1 & L2 & ->). rewrite <- L2, (image_bits k _ Hk), check_zero_app.
  eexists. split; [apply zz_bal|]. split; [reflexivity|]. split; [apply put_sync; lia|].
  intros D K. apply zz_small, zxor_small; [now apply zpublic_small|now apply wires_small].
Qed.
Lemma cmp_puts_frame : forall cs t sz i t', Forall (bytewise 1) cs -> cmp_puts Delta pub kc own t sz i cs = Ok t' ->
  exists d, bal d /\ t' = cz_app t d /\ (sync d <-> Forall (fun c => fst c = snd c) cs) /\ (dsmall Delta pub -> ksmall -> czsmall d).
Proof.
  induction cs as [|c cs IH]; intros t sz i t' F H; cbn [cmp_puts] in H.
  - injection H as <-. exists cz0. split; [reflexivity|]. split; [now rewrite cz_app_nil|].
    split; [split; [constructor|reflexivity]|]. intros _ _. split; constructor.
  - inversion F as [|? ? F1 F2]; subst. apply bind_inv in H as (t1 & H1 & H).
    destruct (cmp_put_frame _ _ _ _ _ F1 H1) as (d1 & B1 & -> & Y1 & S1). destruct (IH _ _ _ _ F2 H) as (d2 & B2 & -> & Y2 & S2).
    exists (cz_app d1 d2). split; [now apply bal_app|]. split; [apply cz_app_assoc|]. split.
    + rewrite sync_app by exact B1. rewrite Y1, Y2. split; [intros []; now constructor|intro X; inversion X; auto].
    + intros D K. apply czsmall_app; auto.
Qed.

(** the honest prover's own comparison passes *)
Lemma cmp_put_honest t sz i c : (own = true -> N.odd Delta = true /\ forall i j, N.odd (kc i j) = false) ->
  (sz <> 0)%nat -> bytewise sz c -> fst c = snd c -> exists t', cmp_put Delta pub kc own t sz i c = Ok t'.
Proof.
  intros O Z [n Hn] E. unfold cmp_put. cbv zeta. fold (wires i (fst c)).
  rewrite (reveal8_length _ _ Hn). rewrite (Nat.mul_comm sz n), Nat.div_mul by exact Z.
  assert (L1 : length (wires i (fst c)) = (n * sz * 8)%nat) by (rewrite wires_length, E; lia).
  assert (L2 : length (reveal_as 8 (snd c)) = (n * sz)%nat) by (rewrite (reveal8_length _ _ Hn); lia).
  destruct own.
  - destruct (O eq_refl) as [OD OK].
    assert (LS : Forall2 lsb_ok (wires i (fst c)) (fst c)).
    { apply zauth_lsb; [exact OD|now rewrite map_length, seq_length|]. apply Forall_map, Forall_forall. intros; apply OK. }
    destruct (check_zero_data_ok Delta D0 pub P1 P2 cz0 (wires i (fst c)) (fst c) sz (reveal_as 8 (snd c)) (reveal_as 8 (snd c)) n eq_refl
      (wires_carry i (fst c)) LS) as [_ X]; [rewrite E; lia|exact L2|exact L2|].
    destruct X as (t0 & X & _); [now rewrite E|].
    apply (check_zero_data_frame Delta pub) in X as (d & _ & _ & U & _). rewrite U. eauto.
  - rewrite L1, Nat.eqb_refl. cbn [negb]. rewrite Nat.eqb_refl. cbn [negb]. eauto.
Qed.
Lemma cmp_puts_honest : (own = true -> N.odd Delta = true /\ forall i j, N.odd (kc i j) = false) -> forall sz, (sz <> 0)%nat ->
  forall cs t i, Forall (bytewise sz) cs -> Forall (fun c => fst c = snd c) cs -> exists t', cmp_puts Delta pub kc own t sz i cs = Ok t'.
Proof.
  intros O sz Z. induction cs as [|c cs IH]; intros t i B E; cbn [cmp_puts]; [eauto|].
  inversion B; subst. inversion E; subst. destruct (cmp_put_honest t sz i c O Z) as [t1 X]; auto. rewrite X. cbn [bind]. auto.
Qed.
End G.
Lemma bytewise_1 k c : bytewise k c -> bytewise 1 c.
Proof. intros [n H]. exists (k * n)%nat. lia. Qed.

Section W.
Variable ks enc : bristol.
Variable Delta : N.
Variable pub : bool -> N.
Variable kc : nat -> nat -> N.
Variable own : bool.
Hypothesis D0 : Delta <> 0.
Hypothesis P1 : pub true <> pub false.
Hypothesis P2 : N.lxor (pub true) (pub false) <> Delta.

(** the comparisons that the proof phase adds to those already there *)
Definition fresh (s : hs) (p : prd) : list (Integer * Integer) := skipn (length (hs_zk s)) (hs_zk (pr_hs p)).
Definition gsmall : Prop := dsmall Delta pub /\ ksmall kc.

Theorem one_digest s t zc zs pms rc rs tc ts sh kHc kHs fc fs os p outs :
  dpost_record ks enc Delta pub kc own s t zc zs pms rc rs tc ts sh kHc kHs fc fs os = Ok (p, outs) ->
  exists p0, post_record ks enc Delta pub s t zc zs pms rc rs tc ts sh kHc kHs fc fs os = Ok (p0, outs) /\
    p = set_t p0 (pr_t p) /\ hs_zk (pr_hs p) = hs_zk s ++ fresh s p /\
    (sync t -> (sync (pr_t p) <-> Forall (fun c => fst c = snd c) (fresh s p) /\ sync (pr_t p0))) /\
    (gsmall -> Forall small kHc -> Forall small kHs -> zasmall zc -> zasmall zs -> rsmall fc -> rsmall fs -> Forall osmall os ->
     czsmall t -> czsmall (pr_t p)).
Proof.
  unfold dpost_record, dstep1. intro H. apply bind_inv in H as (p1 & H1 & H). apply bind_inv in H1 as ([[s1 ms] k4] & H0 & H1).
  destruct k4 as [[[ck sk] ci] si]. apply bind_inv in H1 as (t1 & HF & H1).
  apply bind_inv in H1 as ([[pc t2] zc1] & HA & H1). apply bind_inv in H1 as ([[ps t3] zs1] & HB & H1). injection H1 as <-.
  destruct (step1_hs_zk _ _ _ _ _ _ _ _ _ _ H0) as (cs1 & Z1 & BW1 & _). unfold put_new in HF. rewrite Z1, skipn_app_same in HF.
  destruct (cmp_puts_frame Delta pub kc own D0 P1 P2 _ _ _ _ _ BW1 HF) as (f1 & FB1 & -> & FS1 & FQ1).
  destruct (proof_new_frame ks enc Delta pub _ _ _ _ _ _ _ _ HA) as (a1 & AB1 & -> & AU1 & AS1).
  destruct (proof_new_frame ks enc Delta pub _ _ _ _ _ _ _ _ HB) as (a2 & AB2 & -> & AU2 & AS2).
  apply bind_inv in H as (p2 & H2 & H). unfold step2 in H2. apply bind_inv in H2 as ([p2' o2] & H2 & H2'). injection H2' as <-.
  destruct (prove_c_frame enc Delta pub _ _ _ _ _ H2) as (a3 & AB3 & E3 & AU3 & AS3 & Q3).
  apply bind_inv in H as (p3 & H3 & H). unfold dstep3 in H3. apply bind_inv in H3 as ([p3' o3] & H3 & H3').
  apply bind_inv in H3' as (s3 & HC & H3'). apply bind_inv in H3' as (t4 & HG & H3'). injection H3' as <-.
  destruct (prove_s_frame enc Delta pub _ _ _ _ _ H3) as (a4 & AB4 & E4 & AU4 & AS4 & Q4).
  destruct (handshake_check_zk _ _ HC) as (cs2 & Z2 & BW2). unfold put_new in HG. rewrite Z2, skipn_app_same in HG.
  assert (BW2' : Forall (bytewise 1) cs2) by (eapply Forall_impl; [|exact BW2]; intro; apply bytewise_1).
  destruct (cmp_puts_frame Delta pub kc own D0 P1 P2 _ _ _ _ _ BW2' HG) as (f2 & FB2 & -> & FS2 & FQ2).
  destruct (pops_run_frame enc Delta pub _ _ _ _ H) as (a5 & AB5 & E5 & AU5 & AS5 & Q5).
  cbn [pr_t pr_hs pr_pc pr_zc pr_ps pr_zs pr_cz0 pr_sz0] in *.
  set (d := cz_app (cz_app (cz_app (cz_app a1 a2) a3) a4) a5).
  exists (set_t p (cz_app t d)). split; [|split; [|split; [|split]]].
  - unfold post_record, step1. rewrite H0. cbn [bind]. rewrite AU1. cbn [bind]. rewrite AU2. cbn [bind].
    specialize (AU3 (cz_app (cz_app t a1) a2)). unfold set_t at 1 in AU3. cbn [pr_hs pr_pc pr_zc pr_ps pr_zs pr_cz0 pr_sz0] in AU3.
    unfold step2. rewrite AU3. cbn [bind]. cbn [set_t pr_t pr_hs pr_pc pr_zc pr_ps pr_zs pr_cz0 pr_sz0].
    specialize (AU4 (cz_app (cz_app (cz_app t a1) a2) a3)). unfold set_t at 1 in AU4. cbn [pr_hs pr_pc pr_zc pr_ps pr_zs pr_cz0 pr_sz0] in AU4.
    unfold step3. rewrite AU4. cbn [bind]. cbn [set_t pr_t pr_hs pr_pc pr_zc pr_ps pr_zs pr_cz0 pr_sz0]. rewrite HC. cbn [bind].
    specialize (AU5 (cz_app (cz_app (cz_app (cz_app t a1) a2) a3) a4)). unfold set_t at 1 in AU5. cbn [pr_hs pr_pc pr_zc pr_ps pr_zs pr_cz0 pr_sz0] in AU5.
    rewrite AU5. unfold d. now rewrite !cz_app_assoc.
  - destruct p; reflexivity.
  - unfold fresh. rewrite Q5, Z2, Q4, Q3, Z1, <- app_assoc, skipn_app_same. reflexivity.
  - intro St. unfold fresh. rewrite Q5, Z2, Q4, Q3, Z1, <- app_assoc, skipn_app_same. cbn [set_t pr_t].
    rewrite E5, E4, E3. unfold d.
    assert (Bt : bal t) by (now apply sync_bal).
    rewrite !sync_app by (repeat apply bal_app; assumption). rewrite Forall_app, FS1, FS2. tauto.
  - intros [GD GK] K1 K2 Zc Zs R1 R2 R3 St. rewrite E5, E4, E3.
    destruct (AS1 GD K1 Zc) as [X1 Y1]. destruct (AS2 GD K2 Zs) as [X2 Y2].
    destruct AS3 as [X3 Y3]; [exact GD|exact R1|split; assumption|].
    destruct AS4 as [X4 Y4]; [exact GD|exact R2|split; [exact (proj1 Y3)|exact (proj2 Y3)]|].
    destruct AS5 as [X5 Y5]; [exact GD|exact R3|split; [exact (proj1 Y4)|exact (proj2 Y4)]|].
    repeat apply czsmall_app; auto.
Qed.

(** a run whose comparisons hold goes through with their blocks as well *)
Theorem one_digest_honest s t zc zs pms rc rs tc ts sh kHc kHs fc fs os p0 outs :
  (own = true -> N.odd Delta = true /\ forall i j, N.odd (kc i j) = false) ->
  post_record ks enc Delta pub s t zc zs pms rc rs tc ts sh kHc kHs fc fs os = Ok (p0, outs) ->
  Forall (fun c => fst c = snd c) (fresh s p0) ->
  exists p, dpost_record ks enc Delta pub kc own s t zc zs pms rc rs tc ts sh kHc kHs fc fs os = Ok (p, outs) /\ p = set_t p0 (pr_t p).
Proof.
  intro O. unfold post_record, step1. intros H CK. apply bind_inv in H as (p1 & H1 & H). apply bind_inv in H1 as ([[s1 ms] k4] & H0 & H1).
  destruct k4 as [[[ck sk] ci] si].
  apply bind_inv in H1 as ([[pc t2] zc1] & HA & H1). apply bind_inv in H1 as ([[ps t3] zs1] & HB & H1). injection H1 as <-.
  destruct (step1_hs_zk _ _ _ _ _ _ _ _ _ _ H0) as (cs1 & Z1 & BW1 & _).
  destruct (proof_new_frame ks enc Delta pub _ _ _ _ _ _ _ _ HA) as (a1 & AB1 & -> & AU1 & AS1).
  destruct (proof_new_frame ks enc Delta pub _ _ _ _ _ _ _ _ HB) as (a2 & AB2 & -> & AU2 & AS2).
  apply bind_inv in H as (p2 & H2 & H). unfold step2 in H2. apply bind_inv in H2 as ([p2' o2] & H2 & H2'). injection H2' as <-.
  destruct (prove_c_frame enc Delta pub _ _ _ _ _ H2) as (a3 & AB3 & E3 & AU3 & AS3 & Q3).
  apply bind_inv in H as (p3 & H3 & H). unfold step3 in H3. apply bind_inv in H3 as ([p3' o3] & H3 & H3').
  apply bind_inv in H3' as (s3 & HC & H3'). injection H3' as <-.
  destruct (prove_s_frame enc Delta pub _ _ _ _ _ H3) as (a4 & AB4 & E4 & AU4 & AS4 & Q4).
  destruct (handshake_check_zk _ _ HC) as (cs2 & Z2 & BW2).
  destruct (pops_run_frame enc Delta pub _ _ _ _ H) as (a5 & AB5 & E5 & AU5 & AS5 & Q5).
  cbn [pr_t pr_hs pr_pc pr_zc pr_ps pr_zs pr_cz0 pr_sz0] in *.
  unfold fresh in CK. rewrite Q5, Z2, Q4, Q3, Z1, <- app_assoc, skipn_app_same in CK. apply Forall_app in CK as [CK1 CK2].
  unfold dpost_record, dstep1. rewrite H0. cbn [bind]. unfold put_new at 1. rewrite Z1, skipn_app_same.
  destruct (cmp_puts_honest Delta pub kc own D0 P1 P2 O 1%nat ltac:(lia) cs1 t (length (hs_zk s)) BW1 CK1) as [t1 HF]. rewrite HF. cbn [bind].
  rewrite AU1. cbn [bind]. rewrite AU2. cbn [bind].
  specialize (AU3 (cz_app (cz_app t1 a1) a2)). unfold set_t at 1 in AU3. cbn [pr_hs pr_pc pr_zc pr_ps pr_zs pr_cz0 pr_sz0] in AU3.
  unfold step2. rewrite AU3. cbn [bind]. cbn [set_t pr_t pr_hs pr_pc pr_zc pr_ps pr_zs pr_cz0 pr_sz0].
  specialize (AU4 (cz_app (cz_app (cz_app t1 a1) a2) a3)). unfold set_t at 1 in AU4. cbn [pr_hs pr_pc pr_zc pr_ps pr_zs pr_cz0 pr_sz0] in AU4.
  unfold dstep3. rewrite AU4. cbn [bind]. cbn [set_t pr_t pr_hs pr_pc pr_zc pr_ps pr_zs pr_cz0 pr_sz0]. rewrite HC. cbn [bind].
  unfold put_new. rewrite Z2, skipn_app_same.
  destruct (cmp_puts_honest Delta pub kc own D0 P1 P2 O 4%nat ltac:(lia) cs2 (cz_app (cz_app (cz_app (cz_app t1 a1) a2) a3) a4) (length (hs_zk (pr_hs p3'))) BW2 CK2) as [t4 HG].
  rewrite HG. cbn [bind].
  specialize (AU5 t4). unfold set_t at 1 in AU5. cbn [pr_hs pr_pc pr_zc pr_ps pr_zs pr_cz0 pr_sz0] in AU5.
  rewrite AU5. eexists. split; [reflexivity|]. reflexivity.
Qed.
Lemma finalize_set_t p t fc fs os xs : finalize (set_t p t) fc fs os xs = finalize p fc fs os xs.
Proof. reflexivity. Qed.
End W.
