(** compute_tag, counter mode: model against SP 800-38D. *)
From Coq Require Import List NArith Bool Arith Lia.
From Verif Require Import L_Bits L_Res L_Xor M_EmpInteger M_Utils M_Bristol M_Block M_Aead.
From Verif Require Import S_Codec S_Gcm S_Aes P_Gf128 P_Utils P_Shares P_AesNet.
Import ListNotations.
Local Open Scope N_scope.
Local Opaque mulBlock gf_mul cipher key_expansion.

(** * The GHASH input *)
Lemma blocks_fuel_enough f : forall l, (length l <= f)%nat -> blocks_fuel f l = map be_val (chunks 16 l).
Proof.
  induction f as [|f IH]; intros l H.
  - destruct l; [reflexivity|cbn in H; lia].
  - destruct l as [|x l]; [reflexivity|].
    rewrite chunks_cons by (try lia; discriminate).
    cbn [blocks_fuel map]. f_equal. apply IH. rewrite skipn_length. cbn [length] in *. lia.
Qed.
Lemma blocks_of_chunks l : blocks_of l = map be_val (chunks 16 l).
Proof. apply blocks_fuel_enough. lia. Qed.

Lemma pad_bits_8 (n : nat) : N.to_nat (pad_bits (N.of_nat n) / 8) = ((16 - n mod 16) mod 16)%nat.
Proof.
  unfold pad_bits.
  assert (E : 128 * ((N.of_nat n * 8 + 128 - 1) / 128) - N.of_nat n * 8 = 8 * N.of_nat ((16 - n mod 16) mod 16)).
  { pose proof (Nat.div_mod n 16 ltac:(lia)) as D. set (q := (n / 16)%nat) in *. set (r := (n mod 16)%nat) in *.
    assert (R : (r < 16)%nat) by (apply Nat.mod_upper_bound; lia).
    replace (N.of_nat n * 8 + 128 - 1) with (N.of_nat q * 128 + (N.of_nat r * 8 + 127)) by lia.
    rewrite N.div_add_l by lia.
    destruct (Nat.eq_dec r 0) as [->|Hr].
    - change ((16 - 0) mod 16)%nat with 0%nat. change ((N.of_nat 0 * 8 + 127) / 128) with 0. lia.
    - rewrite Nat.mod_small by lia.
      replace ((N.of_nat r * 8 + 127) / 128) with 1.
      2:{ apply (N.div_unique _ 128 1 (N.of_nat r * 8 - 1)); lia. }
      lia. }
  rewrite E, (N.mul_comm 8), N.div_mul by lia. lia.
Qed.
Lemma pad_bits_nat (n : nat) : N.to_nat (pad_bits (N.of_nat n)) = (8 * ((16 - n mod 16) mod 16))%nat.
Proof.
  unfold pad_bits.
  pose proof (Nat.div_mod n 16 ltac:(lia)) as D. set (q := (n / 16)%nat) in *. set (r := (n mod 16)%nat) in *.
  assert (R : (r < 16)%nat) by (apply Nat.mod_upper_bound; lia).
  replace (N.of_nat n * 8 + 128 - 1) with (N.of_nat q * 128 + (N.of_nat r * 8 + 127)) by lia.
  rewrite N.div_add_l by lia.
  destruct (Nat.eq_dec r 0) as [->|Hr].
  - change ((16 - 0) mod 16)%nat with 0%nat. change ((N.of_nat 0 * 8 + 127) / 128) with 0. lia.
  - rewrite Nat.mod_small by lia.
    replace ((N.of_nat r * 8 + 127) / 128) with 1.
    2:{ apply (N.div_unique _ 128 1 (N.of_nat r * 8 - 1)); lia. }
    lia.
Qed.

Lemma len_bytes_be n : len_bytes n = be_enc 8 (8 * n).
Proof.
  unfold len_bytes. rewrite !be_enc_step. change (be_enc 0 (8 * n)) with (@nil N).
  set (x := 8 * n).
  assert (E : forall k, k < 8 -> N.shiftr (x mod 2 ^ 64) (8 * k) mod 256 = (x / 256 ^ k) mod 256).
  { intros k Hk. change 256 with (2 ^ 8) at 2 3. rewrite <- N.pow_mul_r, <- N.shiftr_div_pow2.
    apply N.bits_inj. intro j. change 256 with (2 ^ 8). rewrite !mod_pow_bits, !N.shiftr_spec', mod_pow_bits.
    destruct (N.ltb_spec j 8); [|reflexivity]. cbn [andb].
    replace (j + 8 * k <? 64) with true by (symmetry; apply N.ltb_lt; lia). reflexivity. }
  cbn [map].
  repeat (f_equal; [first [exact (E 7 eq_refl)|exact (E 6 eq_refl)|exact (E 5 eq_refl)|exact (E 4 eq_refl)
    |exact (E 3 eq_refl)|exact (E 2 eq_refl)|exact (E 1 eq_refl)|exact (E 0 eq_refl)]|]).
  f_equal. exact (E 0 eq_refl).
Qed.

Lemma tag_buffer_ok aad c : tag_buffer aad c = gcm_ghash_input aad c.
Proof.
  unfold tag_buffer, gcm_ghash_input, pad16. rewrite !pad_bits_8, !len_bytes_be, <- !app_assoc. reflexivity.
Qed.
Lemma pad16_length l : (length (pad16 l) mod 16 = 0)%nat.
Proof.
  unfold pad16. rewrite app_length, repeat_length.
  pose proof (Nat.div_mod (length l) 16 ltac:(lia)) as D. set (q := (length l / 16)%nat) in *. set (r := (length l mod 16)%nat) in *.
  assert (R : (r < 16)%nat) by (apply Nat.mod_upper_bound; lia). rewrite D.
  destruct (Nat.eq_dec r 0) as [->|Hr].
  - change ((16 - 0) mod 16)%nat with 0%nat. rewrite !Nat.add_0_r, Nat.mul_comm. apply Nat.mod_mul. lia.
  - rewrite (Nat.mod_small (16 - r)) by lia.
    replace (16 * q + r + (16 - r))%nat with ((q + 1) * 16)%nat by lia. apply Nat.mod_mul. lia.
Qed.
Lemma ghash_input_length aad c : exists k, length (gcm_ghash_input aad c) = (16 * k)%nat.
Proof.
  unfold gcm_ghash_input. rewrite !app_length, !be_enc_length.
  pose proof (pad16_length aad) as A. pose proof (pad16_length c) as B.
  apply Nat.mod_divide in A; [|lia]. apply Nat.mod_divide in B; [|lia].
  destruct A as [x ->], B as [y ->]. exists (x + y + 1)%nat. lia.
Qed.
Lemma ghash_input_bytes aad c : Forall (fun b => b < 256) aad -> Forall (fun b => b < 256) c ->
  Forall (fun b => b < 256) (gcm_ghash_input aad c).
Proof.
  intros Ha Hc. unfold gcm_ghash_input, pad16.
  pose proof (be_enc_bytes 8 (8 * N.of_nat (length aad))) as B1.
  pose proof (be_enc_bytes 8 (8 * N.of_nat (length c))) as B2.
  revert B1 B2. generalize (be_enc 8 (8 * N.of_nat (length aad))) (be_enc 8 (8 * N.of_nat (length c))). intros x1 x2 B1 B2.
  assert (R : forall n, Forall (fun b => b < 256) (repeat 0 n)).
  { intro n. apply Forall_forall. intros x Hx. apply repeat_spec in Hx. subst. reflexivity. }
  rewrite !Forall_app. auto.
Qed.

Lemma chunks_rev_aux l k : length l = (16 * k)%nat ->
  rev (chunks 16 (rev l)) = map (@rev N) (chunks 16 l).
Proof.
  intro H. rewrite <- (chunks_concat 16 l) at 1 by lia.
  assert (F := chunks_all_length 16 l k ltac:(lia) H).
  revert F. generalize (chunks 16 l). clear. intros cs F.
  assert (E : rev (concat cs) = concat (rev (map (@rev N) cs))).
  { induction cs as [|c cs IH]; [reflexivity|]. cbn [concat map rev].
    rewrite rev_app_distr, concat_app. inversion F; subst. rewrite IH by assumption. cbn. now rewrite app_nil_r. }
  rewrite E. assert (G : forall ds, Forall (fun c : list N => length c = 16%nat) ds -> chunks 16 (concat ds) = ds).
  { induction 1 as [|d ds Hd Hds IH]; [reflexivity|]. cbn [concat]. rewrite chunks_app by (auto; lia). now rewrite IH. }
  rewrite G.
  - apply rev_involutive.
  - apply Forall_rev, Forall_map. eapply Forall_impl; [|exact F]. intros c Hc. now rewrite rev_length.
Qed.

Lemma tag_blocks_ok aad c : Forall (fun b => b < 256) aad -> Forall (fun b => b < 256) c ->
  rev (tag_blocks aad c) = blocks_of (gcm_ghash_input aad c) /\ Forall blk (blocks_of (gcm_ghash_input aad c)).
Proof.
  intros Ha Hc. pose proof (ghash_input_bytes aad c Ha Hc) as B.
  destruct (ghash_input_length aad c) as [k L].
  unfold tag_blocks. rewrite tag_buffer_ok, blocks_of_chunks. set (l := gcm_ghash_input aad c) in *.
  assert (FB : Forall (Forall (fun b => b < 256)) (chunks 16 l)).
  { apply Forall_concat_inv. now rewrite chunks_concat by lia. }
  assert (FL := chunks_all_length 16 l k ltac:(lia) L). split.
  - rewrite <- map_rev, (chunks_rev_aux l k L), map_map. apply map_ext_in. intros x Hx.
    rewrite Forall_forall in FB. rewrite block_of_bytes_le by (apply Forall_rev, FB, Hx).
    symmetry. apply be_val_rev.
  - apply Forall_map. rewrite Forall_forall in *. intros x Hx. specialize (FL x Hx). specialize (FB x Hx).
    apply be_val_lt in FB. cbv beta in FL. rewrite FL in FB. exact FB.
Qed.

Lemma rev_bytes_of_block t : rev (bytes_of_block t) = be_enc 16 t.
Proof. rewrite bytes_of_block_le. symmetry. apply be_enc_rev. Qed.

Theorem compute_tag_ok h z0 c aad : blk h ->
  Forall (fun b => b < 256) aad -> Forall (fun b => b < 256) c ->
  compute_tag h z0 c aad = gcm_tag_from h z0 aad c.
Proof.
  intros Hh Ha Hc. unfold compute_tag, gcm_tag_from.
  destruct (tag_blocks_ok aad c Ha Hc) as [E F]. rewrite E, ghash_ok by assumption.
  apply rev_bytes_of_block.
Qed.
Lemma bytes_eqb_spec a b : bytes_eqb a b = true <-> a = b.
Proof. unfold bytes_eqb. destruct (list_eq_dec N.eq_dec a b); split; congruence. Qed.
Theorem compare_tag_ok tag h z0 c aad : blk h ->
  Forall (fun b => b < 256) aad -> Forall (fun b => b < 256) c ->
  (compare_tag tag h z0 c aad = true <-> tag = gcm_tag_from h z0 aad c).
Proof.
  intros Hh Ha Hc. unfold compare_tag. rewrite bytes_eqb_spec, compute_tag_ok by assumption. reflexivity.
Qed.

(** * Counter mode *)

Lemma str_to_int_be n x : str_to_int (be_enc n x) = bits_of_N (8 * n) x.
Proof.
  assert (B := be_enc_bytes n x). destruct (str_to_int_value (be_enc n x) B) as [V L].
  rewrite be_enc_length in L.
  rewrite <- (bits_of_N_of_bits' (8 * n) (str_to_int (be_enc n x))) by exact L.
  rewrite V, be_val_enc. rewrite <- (bits_of_N_mod (8 * n) x). f_equal.
  replace (2 ^ N.of_nat (8 * n)) with (256 ^ N.of_nat n); [reflexivity|].
  rewrite Nat2N.inj_mul, N.pow_mul_r. reflexivity.
Qed.
Lemma aesE_blk key n : length key = 16%nat -> Forall (fun b => b < 256) key -> blk (aesE key n).
Proof.
  intros H1 H2. unfold aesE. pose proof (aes128_bytes key (be_enc 16 n) H1 H2) as B.
  apply be_val_lt in B. rewrite aes128_length in B by assumption. exact B.
Qed.
Lemma str_to_int_aes key n : length key = 16%nat -> Forall (fun b => b < 256) key ->
  str_to_int (aes128 key (be_enc 16 n)) = bits_of_N 128 (aesE key n).
Proof.
  intros H1 H2. unfold aesE.
  rewrite <- (be_enc_val (aes128 key (be_enc 16 n))) at 1 by (now apply aes128_bytes).
  rewrite aes128_length by assumption. apply (str_to_int_be 16).
Qed.

Lemma aes128_eq key b : aes128 key b = cipher (key_expansion key) b.
Proof. reflexivity. Qed.
Lemma str_to_int_be16 x : str_to_int (be_enc 16 x) = bits_of_N 128 x.
Proof. exact (str_to_int_be 16 x). Qed.
Local Opaque aesE aes128 computeAES_KS computeKS.
Definition ksb (f : N -> N) (m : nat) (n : N) : list N := map (fun i => f (iter_inc i n)) (seq 0 m).
Lemma ksb_S f m n : ksb f (S m) n = f n :: ksb f m (inc32 n).
Proof. unfold ksb. cbn [seq map iter_inc]. f_equal. rewrite <- seq_shift, map_map. reflexivity. Qed.
Lemma ksb_length f m n : length (ksb f m n) = m.
Proof. unfold ksb. now rewrite map_length, seq_length. Qed.
Lemma ksb_keystream f m n : flat_map (be_enc 16) (ksb f m n) = keystream f m n.
Proof. unfold ksb, keystream. rewrite flat_map_concat_map, map_map, <- flat_map_concat_map. reflexivity. Qed.
(** what the proofs need of the two netlists *)
Definition aes_net_ok (ks enc : bristol) : Prop :=
  (forall key, length key = 16%nat -> Forall (fun b => b < 256) key ->
     computeKS ks (str_to_int key) = Ok (ks_layout (key_expansion key))) /\
  (forall ws b, length b = 16%nat -> Forall (fun x => x < 256) b -> length ws = 44%nat ->
     Forall (fun w => length w = 4%nat /\ Forall (fun x => x < 256) w) ws ->
     computeAES_KS enc (ks_layout ws) (str_to_int b) = Ok (str_to_int (cipher ws b))).

Lemma inc_ok n : inc (bits_of_N 128 n) 32 = Ok (bits_of_N 128 (inc32 n)).
Proof.
  unfold inc. rewrite bits_of_N_length. cbn [Nat.ltb Nat.leb]. f_equal.
  rewrite iconcat_concat. cbn [rev app concat]. rewrite app_nil_r.
  change 128%nat with (32 + 96)%nat. rewrite !bits_of_N_app.
  assert (L : length (bits_of_N 32 n) = 32%nat) by apply bits_of_N_length.
  rewrite firstn_app, L, Nat.sub_diag, firstn_O, app_nil_r, firstn_all2 by lia.
  rewrite skipn_app, L, Nat.sub_diag, skipn_O, skipn_all2 by lia. cbn [app].
  f_equal.
  - apply N_of_bits_inj.
    + unfold iadd, int_of. rewrite badd_length; rewrite !bits_of_N_length; reflexivity.
    + unfold iadd, int_of. rewrite N_of_badd by (rewrite !bits_of_N_length; reflexivity).
      rewrite bits_of_N_length, !N_of_bits_of_N. unfold inc32.
      change (2 ^ N.of_nat 32) with (2 ^ 32). change (1 mod 2 ^ 32) with 1.
      rewrite N.shiftl_mul_pow2, (N.add_comm (_ * _)), N.mod_add by discriminate.
      rewrite N.mod_mod by discriminate. reflexivity.
  - f_equal. unfold inc32. rewrite N.shiftl_mul_pow2.
    rewrite (N.shiftr_div_pow2 (_ + _)). change (N.of_nat 32) with 32.
    rewrite N.div_add_l by discriminate. rewrite N.div_small by (apply N.mod_lt; discriminate).
    now rewrite N.add_0_r.
Qed.
Lemma set_nonce_ok fiv iv : length fiv = 4%nat -> Forall (fun b => b < 256) fiv ->
  length iv = 8%nat -> Forall (fun b => b < 256) iv ->
  set_nonce (str_to_int fiv) iv = Ok (bits_of_N 128 (j0_of (fiv ++ iv))).
Proof.
  intros L1 B1 L2 B2. unfold set_nonce. rewrite L2. cbn [Nat.eqb]. f_equal.
  rewrite !iconcat_concat. cbn [rev app concat]. rewrite !app_nil_r.
  assert (V : int_of_array 64 8 (rev iv) = str_to_int iv) by (unfold str_to_int; now rewrite L2).
  rewrite V. destruct (str_to_int_value fiv B1) as [Vf Lf]. destruct (str_to_int_value iv B2) as [Vi Li].
  apply N_of_bits_inj.
  - rewrite !app_length, Lf, Li, L1, L2, bits_of_N_length. unfold int_of. rewrite bits_of_N_length. reflexivity.
  - rewrite !N_of_bits_app, Vf, Vi, Li, L2. unfold int_of. rewrite bits_of_N_length, !N_of_bits_of_N.
    unfold j0_of. rewrite N.shiftl_mul_pow2.
    assert (E : be_val (fiv ++ iv) = be_val fiv * 2 ^ 64 + be_val iv).
    { assert (G : forall l a, fold_left (fun a b => 256 * a + b) l a = a * 256 ^ N.of_nat (length l) + be_val l).
      { unfold be_val. induction l as [|x l IH]; intro a; cbn [fold_left length]; [cbn; lia|].
        rewrite IH, (IH (256 * 0 + x)). rewrite Nat2N.inj_succ, N.pow_succ_r'. lia. }
      unfold be_val at 1. rewrite fold_left_app, G. fold (be_val fiv). rewrite L2. reflexivity. }
    rewrite E. apply be_val_lt in B1. apply be_val_lt in B2. rewrite L1 in B1. rewrite L2 in B2.
    change (256 ^ N.of_nat 4) with (2 ^ 32) in B1. change (256 ^ N.of_nat 8) with (2 ^ 64) in B2.
    change (2 ^ N.of_nat 32) with (2 ^ 32). change (2 ^ N.of_nat (8 * 8)) with (2 ^ 64).
    change (2 ^ N.of_nat 128) with (2 ^ 128). change (1 mod 2 ^ 32) with 1.
    rewrite N.mod_small; [lia|].
    apply N.lt_le_trans with ((be_val fiv * 2 ^ 64 + be_val iv + 1) * 2 ^ 32); [lia|].
    assert (be_val fiv * 2 ^ 64 + be_val iv + 1 <= 2 ^ 96); [lia|].
    replace (2 ^ 128) with (2 ^ 96 * 2 ^ 32) by reflexivity. apply N.mul_le_mono_r. assumption.
Qed.
Lemma ctr_len_nat (n : nat) : N.to_nat ((N.of_nat n * 8 + 128 - 1) / 128) = ((n + 15) / 16)%nat.
Proof.
  pose proof (Nat.div_mod n 16 ltac:(lia)) as D. set (q := (n / 16)%nat) in *. set (r := (n mod 16)%nat) in *.
  assert (R : (r < 16)%nat) by (apply Nat.mod_upper_bound; lia).
  replace (N.of_nat n * 8 + 128 - 1) with (N.of_nat q * 128 + (N.of_nat r * 8 + 127)) by lia.
  rewrite N.div_add_l by lia. replace (n + 15)%nat with (q * 16 + (r + 15))%nat by lia.
  rewrite Nat.div_add_l by lia.
  destruct (Nat.eq_dec r 0) as [->|Hr].
  - change ((N.of_nat 0 * 8 + 127) / 128) with 0. change ((0 + 15) / 16)%nat with 0%nat. lia.
  - replace ((N.of_nat r * 8 + 127) / 128) with 1 by (apply (N.div_unique _ 128 1 (N.of_nat r * 8 - 1)); lia).
    replace ((r + 15) / 16)%nat with 1%nat by (apply (Nat.div_unique _ 16 1 (r - 1)); lia). lia.
Qed.
Lemma ctr_pad n : (16 * ((n + 15) / 16) = n + (16 - n mod 16) mod 16)%nat.
Proof.
  pose proof (Nat.div_mod n 16 ltac:(lia)) as D. set (q := (n / 16)%nat) in *. set (r := (n mod 16)%nat) in *.
  assert (R : (r < 16)%nat) by (apply Nat.mod_upper_bound; lia).
  replace (n + 15)%nat with (q * 16 + (r + 15))%nat by lia. rewrite Nat.div_add_l by lia.
  destruct (Nat.eq_dec r 0) as [->|Hr].
  - change ((16 - 0) mod 16)%nat with 0%nat. change ((0 + 15) / 16)%nat with 0%nat. lia.
  - rewrite (Nat.mod_small (16 - r)) by lia.
    replace ((r + 15) / 16)%nat with 1%nat by (apply (Nat.div_unique _ 16 1 (r - 1)); lia). lia.
Qed.
Lemma bytes_be_concat l : bytes_be (concat (map (bits_of_N 128) (rev l))) = flat_map (be_enc 16) l.
Proof.
  induction l as [|x l IH]; [reflexivity|].
  cbn [rev flat_map]. rewrite map_app, concat_app. cbn [map concat]. rewrite app_nil_r.
  rewrite (bytes_be_app _ _ (16 * length l) 16).
  - rewrite IH. f_equal. apply (bytes_be_bits 16).
  - rewrite <- flat_map_concat_map, (flat_map_length_const _ 128) by (intro; apply bits_of_N_length).
    rewrite rev_length. lia.
  - apply bits_of_N_length.
Qed.
Lemma bytes_be_skipn x k j : length x = (8 * k)%nat -> (j <= k)%nat ->
  bytes_be (skipn (8 * j) x) = firstn (k - j) (bytes_be x).
Proof.
  intros H Hj. rewrite <- (firstn_skipn (8 * j) x) at 2.
  rewrite (bytes_be_app _ _ j (k - j)).
  - rewrite firstn_app. rewrite firstn_all2.
    + rewrite (bytes_be_length _ (k - j)) by (rewrite skipn_length; lia).
      rewrite Nat.sub_diag. cbn [firstn]. now rewrite app_nil_r.
    + rewrite (bytes_be_length _ (k - j)) by (rewrite skipn_length; lia). lia.
  - rewrite firstn_length. lia.
  - rewrite skipn_length. lia.
Qed.

(** a garbled key schedule [ek] under which the circuit computes the block cipher [E] *)
Definition cipher_ok (enc : bristol) (ek : Integer) (E : N -> N) : Prop :=
  (forall n, computeAES_KS enc ek (bits_of_N 128 n) = Ok (bits_of_N 128 (E n))) /\ forall n, blk (E n).

Section Net.
Variable ks enc : bristol.
Hypothesis NET : aes_net_ok ks enc.
Variable key : list N.
Hypothesis K1 : length key = 16%nat.
Hypothesis K2 : Forall (fun b => b < 256) key.

Definition EK : Integer := ks_layout (key_expansion key).

Lemma aes_block n : computeAES_KS enc EK (bits_of_N 128 n) = Ok (bits_of_N 128 (aesE key n)).
Proof.
  destruct (key_expansion_ok key K1 K2) as [L W].
  rewrite <- (str_to_int_be16 n). unfold EK. rewrite (proj2 NET).
  - rewrite <- str_to_int_aes by assumption. rewrite aes128_eq. reflexivity.
  - apply be_enc_length.
  - apply be_enc_bytes.
  - exact L.
  - exact W.
Qed.
Lemma net_cipher_ok : cipher_ok enc EK (aesE key).
Proof. split; [exact aes_block|intro n; now apply aesE_blk]. Qed.
End Net.

Section Ctr.
Variable enc : bristol.
Variable ek : Integer.
Variable E : N -> N.
Hypothesis BLK : forall n, computeAES_KS enc ek (bits_of_N 128 n) = Ok (bits_of_N 128 (E n)).


Definition ks_blocks (m : nat) (n : N) : list N := ksb E m n.
Lemma ks_blocks_S m n : ks_blocks (S m) n = E n :: ks_blocks m (inc32 n).
Proof. exact (ksb_S (E) m n). Qed.
Local Opaque ks_blocks.
Lemma gctr_ok m : forall n r, gctr enc m ek r (bits_of_N 128 n) =
  Ok (concat (map (bits_of_N 128) (rev (ks_blocks m n))) ++ r, bits_of_N 128 (iter_inc m n)).
Proof.
  induction m as [|m IH]; intros n r; cbn [gctr].
  - reflexivity.
  - rewrite BLK. cbn [bind]. rewrite inc_ok. cbn [bind]. rewrite IH. cbn [iter_inc]. f_equal. f_equal.
    rewrite ks_blocks_S. cbn [rev]. rewrite map_app, concat_app, iconcat_concat.
    cbn [rev app map concat]. rewrite !app_nil_r, <- app_assoc. reflexivity.
Qed.

(** the nonce *)



Lemma ks_keystream m n : flat_map (be_enc 16) (ks_blocks m n) = keystream (E) m n.
Proof. exact (ksb_keystream (E) m n). Qed.
Lemma ks_blocks_length m n : length (ks_blocks m n) = m.
Proof. exact (ksb_length (E) m n). Qed.

Theorem key_material_ok g fiv iv len : g_key g = ek -> g_fixed g = str_to_int fiv ->
  length fiv = 4%nat -> Forall (fun b => b < 256) fiv -> length iv = 8%nat -> Forall (fun b => b < 256) iv ->
  exists Z n1, key_material enc g iv (N.of_nat len) = Ok (bits_of_N 128 (E (j0_of (fiv ++ iv))), Z, n1) /\
    length Z = (8 * len)%nat /\
    bytes_be Z = firstn len (keystream (E) ((len + 15) / 16) (inc32 (j0_of (fiv ++ iv)))).
Proof.
  intros G1 G2 L1 B1 L2 B2. unfold key_material. rewrite G1, G2, set_nonce_ok by assumption. cbn [bind].
  set (j0 := j0_of (fiv ++ iv)).
  rewrite gctr_ok. cbn [bind]. rewrite app_nil_r, ctr_len_nat. change (1 + (len + 15) / 16)%nat with (S ((len + 15) / 16)).
  rewrite ks_blocks_S. cbn [rev]. rewrite map_app, concat_app. cbn [map concat]. rewrite app_nil_r.
  set (rest := concat (map (bits_of_N 128) (rev (ks_blocks ((len + 15) / 16) (inc32 j0))))).
  assert (LR : length rest = (8 * (16 * ((len + 15) / 16)))%nat).
  { unfold rest. rewrite <- flat_map_concat_map, (flat_map_length_const _ 128) by (intro; apply bits_of_N_length).
    rewrite rev_length, ks_blocks_length. lia. }
  rewrite app_length, bits_of_N_length.
  replace (length rest + 128 - 128)%nat with (length rest) by lia.
  rewrite skipn_app, skipn_all, Nat.sub_diag, skipn_O. cbn [app].
  rewrite firstn_app, firstn_all, Nat.sub_diag, firstn_O, app_nil_r.
  eexists _, _. split; [reflexivity|].
  rewrite pad_bits_nat. split.
  - rewrite skipn_length, LR, ctr_pad. lia.
  - rewrite (bytes_be_skipn _ _ _ LR) by (rewrite ctr_pad; lia).
    unfold rest. rewrite bytes_be_concat, ks_keystream. f_equal. rewrite ctr_pad. lia.
Qed.
End Ctr.

Lemma xor_arr_keystream x ks : xor_arr x (firstn (length x) ks) = xor_str x ks.
Proof.
  unfold xor_arr, xor_str. revert ks. induction x as [|a x IH]; intros [|k ks]; cbn; try reflexivity.
  f_equal. apply IH.
Qed.
