(** Diffie-Hellman composition, opening of the pre-master secret, and the whole handshake. *)
From Coq Require Import List NArith ZArith Bool Arith Lia Znumtheory.
From Verif Require Import L_Bits L_Res L_Group L_Modq S_Ec S_Codec M_Bn M_Ec P_Utils P_Bn.
Import ListNotations.
Local Open Scope Z_scope.

Lemma firstn_exact {A} n (a b : list A) : length a = n -> firstn n (a ++ b) = a.
Proof. intros <-. now rewrite firstn_app, Nat.sub_diag, firstn_all, app_nil_r. Qed.
Lemma skipn_exact {A} n (a b : list A) : length a = n -> skipn n (a ++ b) = b.
Proof. intros <-. now rewrite skipn_app, Nat.sub_diag, skipn_all. Qed.

Section EC.
Context {C : Curve}.
Notation point := (pt (cgrp C)).
Implicit Types P Q : point.

Lemma mul_gen t : @EC_POINT_mul C (Some t) None = smul t gen.
Proof. apply padd_0_r. Qed.
Lemma mul_pt P t : EC_POINT_mul None (Some (P, t)) = smul t P.
Proof. apply padd_0_l. Qed.
Lemma cmp_iff P Q : EC_POINT_cmp P Q = 0 <-> P = Q.
Proof. unfold EC_POINT_cmp. rewrite <- peqb_ok. destruct (peqb P Q); split; intro; auto; discriminate. Qed.

Lemma be32 x : 0 <= x < 2 ^ 256 -> BN_bin2bn (be_bytes 32 (Z.to_N x)) = x.
Proof.
  intros [H1 H2]. rewrite bin2bn_val, be_bytes_enc, be_val_enc. rewrite N.mod_small.
  - now apply Z2N.id.
  - apply N2Z.inj_lt. rewrite Z2N.id by auto. exact H2.
Qed.
Lemma be32_len x : length (be_bytes 32 x) = 32%nat.
Proof. rewrite be_bytes_enc. apply be_enc_length. Qed.
Lemma oct_len P : P <> pz -> length (point2oct P) = 65%nat.
Proof.
  intro N. unfold point2oct. destruct (coords P) as [[x y]|] eqn:E; [|now apply coords_pz in E].
  cbn [length]. now rewrite app_length, !be32_len.
Qed.
Lemma oct_pz : @point2oct C pz = [0%N].
Proof. unfold point2oct. now rewrite (proj2 (coords_pz C pz) eq_refl). Qed.
Lemma oct_round P : P <> pz -> oct2point (point2oct P) = Some P.
Proof.
  intro N. unfold point2oct. destruct (coords P) as [[x y]|] eqn:E; [|now apply coords_pz in E].
  unfold oct2point. rewrite app_length, !be32_len. cbn [Nat.add Nat.eqb negb].
  rewrite (firstn_exact 32), (skipn_exact 32) by now rewrite be32_len.
  destruct (coords_range C P x y E) as [Hx Hy]. pose proof (cp_size C).
  rewrite !be32 by lia. cbn [N.eqb orb]. change (4 =? 4)%N with true. cbn [orb]. now apply of_coords_ok.
Qed.
Lemma oct_inj P Q : point2oct P = point2oct Q -> P = Q.
Proof.
  intro E. destruct (coords P) as [c|] eqn:EP.
  - assert (NP : P <> pz) by (intro X; apply coords_pz in X; congruence).
    destruct (coords Q) as [d|] eqn:EQ.
    + assert (NQ : Q <> pz) by (intro X; apply coords_pz in X; congruence).
      pose proof (oct_round P NP) as A. rewrite E, oct_round in A by auto. congruence.
    + pose proof (oct_len P NP) as A. rewrite E in A. unfold point2oct in A. rewrite EQ in A. discriminate.
  - destruct (coords Q) as [d|] eqn:EQ.
    + assert (NQ : Q <> pz) by (intro X; apply coords_pz in X; congruence).
      pose proof (oct_len Q NQ) as A. rewrite <- E in A. unfold point2oct in A. rewrite EP in A. discriminate.
    + apply coords_pz in EP, EQ. congruence.
Qed.
(** anything oct2point accepts decodes to a point of the curve other than infinity *)
Lemma oct2point_nz buf P : oct2point buf = Some P -> P <> pz.
Proof.
  destruct buf as [|f l]; [discriminate|]. unfold oct2point.
  destruct (negb _); [discriminate|]. destruct (_ || _); [|discriminate].
  intros H X. apply of_coords_ok in H. apply coords_pz in X. congruence.
Qed.

Theorem dh_exchange_ok ta tb (Ts : point) : smul ta (@gen (cgrp C)) <> pz ->
  dh_exchange ta tb Ts =
    Ok (padd (smul ta gen) (smul tb gen), smul ta Ts, smul tb Ts, smul ta gen).
Proof.
  intro N. unfold dh_exchange, compute_primus_VA, compute_client_VB. rewrite !mul_gen, !mul_pt.
  unfold recv65. rewrite oct_len by auto. cbn [Nat.ltb Nat.leb bind].
  change (65 <? 65)%nat with false. cbn [bind].
  rewrite firstn_all2 by (rewrite oct_len; auto). rewrite oct_round by auto. reflexivity.
Qed.
Theorem dh_sum ta tb (Ts : point) : padd (smul ta Ts) (smul tb Ts) = smul (ta + tb) Ts.
Proof. symmetry. apply smul_add_l. Qed.
Theorem dh_server ta tb s : let Ts := smul s (@gen (cgrp C)) in
  let Tc := padd (smul ta gen) (smul tb gen) in
  smul s Tc = padd (smul ta Ts) (smul tb Ts).
Proof. cbv zeta. rewrite smul_add_r, <- !smul_mul. f_equal; f_equal; ring. Qed.
(** the announced scalar zero leaves the client blocked *)
Theorem dh_exchange_zero tb (Ts : point) ta : smul ta (@gen (cgrp C)) = pz -> dh_exchange ta tb Ts = Err.
Proof.
  intro E. unfold dh_exchange, compute_primus_VA, compute_client_VB. rewrite !mul_gen, E, oct_pz. reflexivity.
Qed.

Theorem reveal_iff (Ta : point) tb Ts t rest : annihilates C -> 0 <= t -> (Z.abs_N t < 256 ^ N.of_nat bn_buf)%N ->
  exists bytes, reveal_pms_bob t = Ok bytes /\
    (smul t gen = Ta ->
     reveal_pms_alice Ta tb Ts (bytes ++ rest) = Ok (fst (affine (smul (t + tb) Ts)), rest)) /\
    (smul t gen <> Ta -> reveal_pms_alice Ta tb Ts (bytes ++ rest) = Err).
Proof.
  intros A H0 H. destruct (recv_send t rest H) as (bytes & E & R). exists bytes. split; [exact E|].
  unfold reveal_pms_alice. rewrite R. cbn [bind]. rewrite Z.abs_eq by auto. rewrite mul_gen, mul_pt. split.
  - intros <-. rewrite (proj2 (cmp_iff _ _) eq_refl). cbn [negb Z.eqb]. unfold BN_mod_add. now rewrite smul_mod by auto.
  - intro N. destruct (Z.eqb_spec (EC_POINT_cmp (smul t gen) Ta) 0) as [X|X]; [now apply cmp_iff in X|]. reflexivity.
Qed.
(** whatever bytes arrive: an accepted opening comes with a scalar of the announced point *)
Theorem reveal_sound (Ta : point) tb Ts stream pms rest : annihilates C ->
  reveal_pms_alice Ta tb Ts stream = Ok (pms, rest) ->
  exists t, recv_bn stream = Ok (t, rest) /\ smul t gen = Ta /\ pms = fst (affine (padd (smul t Ts) (smul tb Ts))).
Proof.
  intros A. unfold reveal_pms_alice. destruct (recv_bn stream) as [[t r]| |] eqn:E; cbn [bind]; try discriminate.
  rewrite mul_gen, mul_pt. destruct (Z.eqb_spec (EC_POINT_cmp (smul t gen) Ta) 0) as [X|X]; cbn [negb]; [|discriminate].
  intro H. injection H as <- <-. exists t. repeat split.
  - now apply cmp_iff in X.
  - rewrite dh_sum. unfold BN_mod_add. now rewrite smul_mod by auto.
Qed.
(** with a generator of exact order the scalar itself is determined modulo the order *)
Theorem reveal_unique (ta : Z) tb (Ts : point) stream pms rest t : annihilates C -> exact_order C ->
  recv_bn stream = Ok (t, rest) ->
  reveal_pms_alice (smul ta gen) tb Ts stream = Ok (pms, rest) ->
  t mod order C = ta mod order C /\ pms = fst (affine (padd (smul ta Ts) (smul tb Ts))).
Proof.
  intros A X E H. destruct (reveal_sound _ _ _ _ _ _ A H) as (t' & E' & G & P).
  rewrite E in E'. injection E' as <-. split.
  - now apply smul_eq_gen.
  - rewrite P. f_equal. f_equal. f_equal. apply smul_congr; auto. now apply smul_eq_gen.
Qed.
End EC.
