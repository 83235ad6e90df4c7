(** Big-number wire encoding and modular inverse. *)
From Coq Require Import List NArith ZArith Bool Arith Lia Znumtheory.
From Verif Require Import L_Bits L_Res S_Codec M_Utils M_Bn P_Utils.
Import ListNotations.
Local Open Scope N_scope.

Lemma be_bytes_enc n : forall x, be_bytes n x = be_enc n x.
Proof. induction n; intro x; cbn; [reflexivity|]. now rewrite IHn. Qed.
Lemma bin2bn_val l : BN_bin2bn l = Z.of_N (be_val l).
Proof. reflexivity. Qed.

Lemma num_bytes_bound x : Z.abs_N x < 256 ^ N.of_nat (BN_num_bytes x).
Proof.
  unfold BN_num_bytes. rewrite N2Nat.id.
  change 256 with (2 ^ 8). rewrite <- N.pow_mul_r.
  eapply N.lt_le_trans; [apply N.size_gt|]. apply N.pow_le_mono_r; [lia|].
  pose proof (N.div_mod (N.size (Z.abs_N x) + 7) 8). pose proof (N.mod_lt (N.size (Z.abs_N x) + 7) 8). lia.
Qed.
Lemma num_bytes_least x n : Z.abs_N x < 256 ^ N.of_nat n -> (BN_num_bytes x <= n)%nat.
Proof.
  intro H. unfold BN_num_bytes. 
  assert (N.size (Z.abs_N x) <= 8 * N.of_nat n).
  { destruct (N.eq_dec (Z.abs_N x) 0) as [->|NZ]; [cbn; lia|].
    rewrite N.size_log2 by auto. apply N.le_succ_l. apply N.log2_lt_pow2; [lia|].
    rewrite N.pow_mul_r. exact H. }
  enough ((N.size (Z.abs_N x) + 7) / 8 <= N.of_nat n) by lia.
  apply N.lt_succ_r. apply N.div_lt_upper_bound; lia.
Qed.
Lemma bn2bin_length x : length (BN_bn2bin x) = BN_num_bytes x.
Proof. unfold BN_bn2bin. rewrite be_bytes_enc. apply be_enc_length. Qed.
Lemma bin2bn_bn2bin x : BN_bin2bn (BN_bn2bin x) = Z.abs x.
Proof.
  unfold BN_bn2bin. rewrite bin2bn_val, be_bytes_enc, be_val_enc, N.mod_small by apply num_bytes_bound.
  now rewrite N2Z.inj_abs_N.
Qed.
Lemma u32_round n : n < 2 ^ 32 -> u32_value (u32_bytes n) = n.
Proof.
  intro H. unfold u32_value, u32_bytes. cbn [map fold_right].
  change (256 ^ 0) with 1. change (256 ^ 1) with 256. change (256 ^ 2) with 65536. change (256 ^ 3) with 16777216.
  change (2 ^ 32) with 4294967296 in H. 
  pose proof (N.div_mod n 256). pose proof (N.div_mod (n / 256) 256). pose proof (N.div_mod (n / 256 / 256) 256).
  pose proof (N.div_mod (n / 256 / 256 / 256) 256).
  rewrite N.div_1_r. 
  rewrite !N.div_div in * by lia.
  assert (n / 4294967296 = 0) by (apply N.div_small; lia).
  change (256 * 256) with 65536 in *. change (256 * 65536) with 16777216 in *. change (65536 * 256) with 16777216 in *. change (16777216 * 256) with 4294967296 in *. lia.
Qed.
Lemma u32_length n : length (u32_bytes n) = 4%nat.
Proof. reflexivity. Qed.

Lemma send_bn_ok x : Z.abs_N x < 256 ^ N.of_nat bn_buf ->
  send_bn x = Ok (u32_bytes (N.of_nat (BN_num_bytes x)) ++ BN_bn2bin x).
Proof.
  intro H. unfold send_bn. rewrite bn2bin_length.
  apply num_bytes_least in H. destruct (Nat.ltb_spec bn_buf (BN_num_bytes x)); [lia|reflexivity].
Qed.
Lemma send_bn_big x : 256 ^ N.of_nat bn_buf <= Z.abs_N x -> send_bn x = UB.
Proof.
  intro H. unfold send_bn. rewrite bn2bin_length.
  destruct (Nat.ltb_spec bn_buf (BN_num_bytes x)) as [_|L]; [reflexivity|exfalso].
  pose proof (num_bytes_bound x).
  assert (256 ^ N.of_nat (BN_num_bytes x) <= 256 ^ N.of_nat bn_buf) by (apply N.pow_le_mono_r; lia). lia.
Qed.

Theorem recv_send x rest : Z.abs_N x < 256 ^ N.of_nat bn_buf ->
  exists bytes, send_bn x = Ok bytes /\ recv_bn (bytes ++ rest) = Ok (Z.abs x, rest).
Proof.
  intro H. eexists; split; [now apply send_bn_ok|].
  apply num_bytes_least in H. assert (B : (bn_buf <= 1000)%nat) by apply Nat.le_refl.
  set (k := BN_num_bytes x) in *.
  assert (F : forall r, firstn 4 (u32_bytes (N.of_nat k) ++ r) = u32_bytes (N.of_nat k)) by reflexivity.
  assert (S : forall r, skipn 4 (u32_bytes (N.of_nat k) ++ r) = r) by reflexivity.
  unfold recv_bn. rewrite <- app_assoc, F, S.
  rewrite u32_round by (change (2 ^ 32) with 4294967296; lia).
  replace (length (u32_bytes (N.of_nat k) ++ BN_bn2bin x ++ rest) <? 4)%nat with false
    by (symmetry; apply Nat.ltb_ge; rewrite app_length; cbn; lia).
  destruct (N.ltb_spec (N.of_nat bn_buf) (N.of_nat k)); [lia|].
  rewrite Nat2N.id, app_length, bn2bin_length. fold k.
  destruct (Nat.ltb_spec (k + length rest) k); [lia|].
  rewrite firstn_app, skipn_app, bn2bin_length. fold k.
  rewrite Nat.sub_diag, firstn_O, app_nil_r.
  rewrite firstn_all2, skipn_all2 by (rewrite bn2bin_length; fold k; lia).
  cbn [app skipn]. now rewrite bin2bn_bn2bin.
Qed.

Theorem recv_send_seq l rest : Forall (fun x => Z.abs_N x < 256 ^ N.of_nat bn_buf) l ->
  exists bytes, send_bns l = Ok bytes /\ recv_bns (length l) (bytes ++ rest) = Ok (map Z.abs l, rest).
Proof.
  induction 1 as [|x l H _ (b & E & R)].
  - exists []. split; reflexivity.
  - destruct (recv_send x (b ++ rest) H) as (a & Ea & Ra).
    exists (a ++ b). cbn [send_bns recv_bns length map]. rewrite Ea, E. cbn [bind].
    split; [reflexivity|]. rewrite <- app_assoc, Ra. cbn [bind]. now rewrite R.
Qed.

(** the receiver is safe exactly when the announced length fits the buffer *)
Theorem recv_bn_safe_iff s : (4 <= length s)%nat ->
  (recv_bn s <> UB <-> u32_value (firstn 4 s) <= N.of_nat bn_buf).
Proof.
  intro L. unfold recv_bn. destruct (Nat.ltb_spec (length s) 4); [lia|].
  destruct (N.ltb_spec (N.of_nat bn_buf) (u32_value (firstn 4 s))).
  - split; [congruence|lia].
  - split; [auto|]. intros _. destruct (_ <? _)%nat; discriminate.
Qed.
Theorem recv_bn_overflow_refuted : exists s, length s = 4%nat /\ Forall (fun b => b < 256) s /\ recv_bn s = UB.
Proof. exists [233; 3; 0; 0]. repeat split; repeat constructor. Qed.

(** ** Modular inverse *)
Local Open Scope Z_scope.
Lemma egcd_gcd f : forall n r0 r1 s0 s1, 0 <= r1 -> 0 <= r0 -> r0 < 2 ^ Z.of_nat n -> r1 <= r0 -> (2 * n < f)%nat ->
  fst (egcd f r0 r1 s0 s1) = Z.gcd r0 r1.
Proof.
  induction f as [f IH] using lt_wf_ind. intros n r0 r1 s0 s1 H1 H0 Hn Hle Hf.
  destruct f as [|f]; [lia|]. cbn [egcd].
  destruct (Z.eqb_spec r1 0) as [->|NZ]; [cbn; rewrite Z.gcd_0_r, Z.abs_eq; auto|].
  assert (M := Z.mod_pos_bound r0 r1 ltac:(lia)).
  assert (D := Z.div_mod r0 r1 ltac:(lia)).
  assert (1 <= r0 / r1) by (apply Z.div_le_lower_bound; lia).
  destruct n as [|n]; [cbn in Hn; lia|].
  destruct f as [|f]; [lia|].
  rewrite (Z.gcd_comm r0), <- Z.gcd_mod by lia. rewrite Z.gcd_comm.
  cbn [egcd]. destruct (Z.eqb_spec (r0 mod r1) 0) as [E|NZ2].
  - rewrite E. cbn. rewrite Z.gcd_0_r, Z.abs_eq; lia.
  - rewrite IH with (n := n).
    + rewrite (Z.gcd_comm (r0 mod r1) (r1 mod _)), Z.gcd_mod by lia. apply Z.gcd_comm.
    + lia.
    + apply Z.mod_pos_bound. lia.
    + lia.
    + rewrite Nat2Z.inj_succ, Z.pow_succ_r in Hn by lia. nia.
    + assert (M2 := Z.mod_pos_bound r1 (r0 mod r1)). lia.
    + lia.
Qed.
Lemma egcd_bezout f : forall q a r0 r1 s0 s1, (r0 - s0 * a) mod q = 0 -> (r1 - s1 * a) mod q = 0 -> 0 < q ->
  let (g, s) := egcd f r0 r1 s0 s1 in (g - s * a) mod q = 0.
Proof.
  induction f as [|f IH]; intros q a r0 r1 s0 s1 H0 H1 Hq; cbn [egcd]; [exact H0|].
  destruct (r1 =? 0) eqn:E; [exact H0|]. apply IH; auto. apply Z.eqb_neq in E.
  rewrite (Z.mod_eq r0 r1) by lia.
  replace (r0 - r1 * (r0 / r1) - (s0 - r0 / r1 * s1) * a) with ((r0 - s0 * a) - (r0 / r1) * (r1 - s1 * a)) by ring.
  rewrite Zminus_mod, Zmult_mod, H0, H1, Z.mul_0_r. now rewrite !Zmod_0_l.
Qed.

Theorem BN_mod_inverse_ok a q : 1 < q -> Z.gcd a q = 1 ->
  exists i, BN_mod_inverse a q = Some i /\ 0 <= i < q /\ (a * i) mod q = 1.
Proof.
  intros Hq G. unfold BN_mod_inverse.
  assert (M := Z.mod_pos_bound a q ltac:(lia)).
  pose proof (egcd_gcd (Z.to_nat (2 * Z.log2 q + 4)) (Z.to_nat (Z.log2 q + 1)) q (a mod q) 0 1) as Eg.
  pose proof (egcd_bezout (Z.to_nat (2 * Z.log2 q + 4)) q (a mod q) q (a mod q) 0 1) as Eb.
  assert (L := Z.log2_nonneg q). assert (L2 := Z.log2_spec q ltac:(lia)).
  destruct (egcd _ _ _ _ _) as [g s]. cbn [fst] in Eg.
  rewrite Eg; try lia.
  2: { rewrite Z2Nat.id by lia. unfold Z.succ in L2. lia. }
  rewrite Z.gcd_comm, Z.gcd_mod, Z.gcd_comm, G by lia. cbn [Z.eqb Pos.eqb].
  exists (s mod q). split; [reflexivity|]. split; [apply Z.mod_pos_bound; lia|].
  rewrite Eg in Eb; try lia.
  2: { rewrite Z2Nat.id by lia. unfold Z.succ in L2. lia. }
  rewrite Z.gcd_comm, Z.gcd_mod, Z.gcd_comm, G in Eb by lia.
  assert (X : (1 - s * (a mod q)) mod q = 0).
  { apply Eb; try lia.
    - rewrite Z.mul_0_l, Z.sub_0_r. apply Z_mod_same_full.
    - now rewrite Z.mul_1_l, Z.sub_diag. }
  rewrite Zmult_mod_idemp_r. rewrite <- (Z.mod_1_l q) by lia.
  apply Zminus_mod_eq || idtac.
  apply Z.mod_divide in X; [|lia]. destruct X as [k X].
  rewrite <- Zmult_mod_idemp_l, (Z.mul_comm (a mod q)).
  replace (s * (a mod q)) with (1 + (- k) * q) by lia. now rewrite Z_mod_plus_full.
Qed.
Lemma BN_mod_inverse_none a q : 1 < q -> Z.gcd a q <> 1 -> BN_mod_inverse a q = None.
Proof.
  intros Hq G. unfold BN_mod_inverse.
  assert (M := Z.mod_pos_bound a q ltac:(lia)).
  pose proof (egcd_gcd (Z.to_nat (2 * Z.log2 q + 4)) (Z.to_nat (Z.log2 q + 1)) q (a mod q) 0 1) as Eg.
  assert (L := Z.log2_nonneg q). assert (L2 := Z.log2_spec q ltac:(lia)).
  destruct (egcd _ _ _ _ _) as [g s]. cbn [fst] in Eg.
  rewrite Eg; try lia.
  2: { rewrite Z2Nat.id by lia. unfold Z.succ in L2. lia. }
  rewrite Z.gcd_comm, Z.gcd_mod, Z.gcd_comm by lia.
  now apply Z.eqb_neq in G; rewrite G.
Qed.
