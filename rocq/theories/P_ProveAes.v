(** Proofs about the AES prover of the proxy mode. *)
From Coq Require Import List NArith Bool Arith Lia.
From Verif Require Import L_Bits L_Res M_EmpInteger M_Utils M_Bristol M_Block M_Shares M_Aead M_AeadProof M_ProveAes.
From Verif Require Import S_Codec S_Aes S_Gcm S_Disclose P_Utils P_AesNet P_Shares P_Gcm P_Aead P_ItMac P_AeadProof.
Import ListNotations.
Local Open Scope N_scope.

(** * Counters *)
Lemma ctr_add_0 x : ctr_add x 0 = x.
Proof.
  unfold ctr_add. rewrite N.add_0_r, N.mod_mod by discriminate. rewrite N.shiftr_div_pow2, N.shiftl_mul_pow2.
  rewrite N.mul_comm. symmetry. apply N.div_mod. discriminate.
Qed.
Lemma ctr_add_inc x n : inc32 (ctr_add x n) = ctr_add x (n + 1).
Proof.
  unfold inc32, ctr_add. rewrite !N.shiftr_div_pow2, !N.shiftl_mul_pow2.
  set (q := x / 2 ^ 32). set (r := x mod 2 ^ 32).
  assert (R : (r + n) mod 2 ^ 32 < 2 ^ 32) by (apply N.mod_lt; discriminate).
  rewrite N.div_add_l by discriminate. rewrite (N.div_small _ _ R), N.add_0_r. f_equal.
  rewrite (N.add_comm (q * _)), N.mod_add by discriminate. rewrite N.mod_mod by discriminate.
  rewrite N.add_mod_idemp_l by discriminate. f_equal. lia.
Qed.
Lemma ctr_add_mod x n : ctr_add x (n mod 2 ^ 64) = ctr_add x n.
Proof.
  unfold ctr_add. f_equal. rewrite <- (N.add_mod_idemp_r _ (n mod 2 ^ 64)) by discriminate.
  rewrite <- (N.add_mod_idemp_r _ n) by discriminate. f_equal. f_equal.
  change (2 ^ 64) with (2 ^ 32 * 2 ^ 32). rewrite N.mod_mul_r by discriminate.
  rewrite N.mul_comm, N.mod_add by discriminate. apply N.mod_mod. discriminate.
Qed.
Lemma iter_inc_add : forall n x, iter_inc n x = ctr_add x (N.of_nat n).
Proof.
  assert (G : forall n x k, iter_inc n (ctr_add x k) = ctr_add x (N.of_nat n + k)).
  { induction n as [|n IH]; intros x k; cbn [iter_inc].
    - f_equal.
    - rewrite ctr_add_inc, IH. f_equal. lia. }
  intros n x. rewrite <- (ctr_add_0 x) at 1. rewrite G. f_equal. lia.
Qed.
Lemma ctr_add_add x a b : ctr_add (ctr_add x a) b = ctr_add x (a + b).
Proof.
  unfold ctr_add. rewrite !N.shiftr_div_pow2, !N.shiftl_mul_pow2.
  set (q := x / 2 ^ 32). set (r := x mod 2 ^ 32).
  assert (R : (r + a) mod 2 ^ 32 < 2 ^ 32) by (apply N.mod_lt; discriminate).
  rewrite N.div_add_l by discriminate. rewrite (N.div_small _ _ R), N.add_0_r. f_equal.
  rewrite (N.add_comm (q * _)), N.mod_add by discriminate. rewrite N.mod_mod by discriminate.
  rewrite N.add_mod_idemp_l by discriminate. f_equal. lia.
Qed.
(** block [id] of the key stream is the id-th 16-byte group *)
Lemma stream_block_keystream E iv n id : (id < n)%nat ->
  stream_block E iv (N.of_nat id) = firstn 16 (skipn (16 * id) (keystream E n (inc32 (j0_of iv)))).
Proof.
  intro L. unfold stream_block, keystream.
  assert (G : forall id s l, (id < l)%nat ->
    firstn 16 (skipn (16 * id) (flat_map (fun i => be_enc 16 (E (iter_inc i (inc32 (j0_of iv))))) (seq s l))) =
    be_enc 16 (E (iter_inc (s + id) (inc32 (j0_of iv))))).
  { induction id0 as [|k IH]; intros s l Hl; destruct l as [|l]; try lia; cbn [seq flat_map].
    - change (16 * 0)%nat with 0%nat. rewrite skipn_O, firstn_app, be_enc_length, Nat.sub_diag, firstn_O, app_nil_r.
      rewrite firstn_all2 by (rewrite be_enc_length; lia). do 3 f_equal. lia.
    - replace (16 * S k)%nat with (16 + 16 * k)%nat by lia.
      rewrite skipn_app, be_enc_length, skipn_all2 by (rewrite be_enc_length; lia). cbn [app].
      replace (16 + 16 * k - 16)%nat with (16 * k)%nat by lia. rewrite IH by lia. do 3 f_equal. lia. }
  rewrite G by assumption. cbn [Nat.add]. rewrite iter_inc_add. do 2 f_equal.
  rewrite <- (ctr_add_0 (j0_of iv)) at 2. rewrite ctr_add_inc.
  rewrite ctr_add_add. f_equal. lia.
Qed.

Lemma memeq_spec a b : memeq a b = true <-> a = b.
Proof. unfold memeq. destruct (list_eq_dec N.eq_dec a b); split; congruence. Qed.
Lemma rev_inj {A} (a b : list A) : rev a = rev b <-> a = b.
Proof. split; [intro H; rewrite <- (rev_involutive a), H; apply rev_involutive|now intros ->]. Qed.
Lemma xor_move : forall k m c : list N, length k = length m -> length c = length m ->
  (k = map2 N.lxor m c <-> c = map2 N.lxor m k).
Proof.
  induction k as [|x k IH]; intros [|y m] [|z c] H1 H2; try discriminate; cbn [map2]; [tauto|].
  injection H1 as H1. injection H2 as H2. specialize (IH m c H1 H2).
  assert (A : x = N.lxor y z <-> z = N.lxor y x).
  { split; intros ->; rewrite <- N.lxor_assoc, N.lxor_nilpotent, N.lxor_0_l; reflexivity. }
  assert (CI : forall (a b : N) l l', a :: l = b :: l' <-> a = b /\ l = l') by (intros; split; [intro H; inversion H; auto|intros [-> ->]; reflexivity]).
  rewrite !CI, A, IH. reflexivity.
Qed.

Lemma ap_inc_ok n : ap_inc (bits_of_N 128 n) 32 = Ok (bits_of_N 128 (inc32 n)).
Proof. exact (inc_ok n). Qed.

Section P.
Variable enc : bristol.
Variable ek : Integer.
Variable E : N -> N.
Hypothesis CIP : cipher_ok enc ek E.
Variable fiv : list N.
Hypothesis V1 : length fiv = 4%nat.
Hypothesis V2 : bytes_ok fiv.

Lemma ap_gctr_loop_eq m : forall n tmp r,
  ap_gctr_loop enc m ek n tmp = (let* (t, n') := ap_gctr_loop enc m ek n [] in Ok (tmp ++ t, n'))%res /\
  pf_gctr enc m ek r n = (let* (t, n') := ap_gctr_loop enc m ek n [] in Ok (iconcat r t, n'))%res.
Proof.
  induction m as [|m IH]; intros n tmp r; cbn [ap_gctr_loop pf_gctr].
  - cbn [bind]. rewrite app_nil_r. split; reflexivity.
  - destruct (computeAES_KS enc ek n) as [t| |]; cbn [bind]; try (split; reflexivity).
    change (pf_inc n 32) with (ap_inc n 32).
    destruct (ap_inc n 32) as [n'| |]; cbn [bind]; try (split; reflexivity).
    destruct (IH n' (tmp ++ [t]) (iconcat r [t])) as [-> ->]. destruct (IH n' ([] ++ [t]) []) as [-> _].
    destruct (ap_gctr_loop enc m ek n' []) as [[t' n'']| |]; cbn [bind]; try (split; reflexivity).
    split; [now rewrite <- app_assoc|]. f_equal.
Qed.
Lemma ap_gctr_eq m n : ap_gctr enc m ek [] n = pf_gctr enc m ek [] n.
Proof.
  unfold ap_gctr. destruct (ap_gctr_loop_eq m n [] []) as [_ ->].
  destruct (ap_gctr_loop enc m ek n []) as [[t n']| |]; cbn [bind]; try reflexivity. now rewrite concat_opt_eq.
Qed.

Lemma computeCounter_ok p iv n : ap_key p = ek -> ap_fixed p = str_to_int fiv -> length iv = 8%nat -> bytes_ok iv ->
  exists n1, computeCounter enc p iv (N.of_nat n) = Ok (ksb E fiv (mk_call iv n true), ap_with p n1).
Proof.
  intros K F L B. set (q := {| pf_key := ap_key p; pf_nonce := []; pf_H := []; pf_fixed := ap_fixed p |}).
  destruct (pf_material_ok enc ek E CIP fiv V1 V2 q iv n true K F L B) as (n1 & X).
  unfold pf_material in X. unfold computeCounter. change (ap_set_nonce (ap_fixed p) iv) with (pf_set_nonce (pf_fixed q) iv).
  destruct (pf_set_nonce (pf_fixed q) iv) as [n0| |]; cbn [bind] in X |- *; try discriminate X.
  rewrite K, ap_gctr_eq. change (pf_key q) with (ap_key p) in X. rewrite K in X.
  destruct (pf_gctr enc _ ek [] n0) as [[Z nn]| |]; cbn [bind] in X |- *; try discriminate X.
  assert (OI : forall u v : Integer * Integer * Integer, Ok u = Ok v -> snd (fst u) = snd (fst v)) by (intros u v Y; now injection Y as ->).
  apply OI in X. cbn [fst snd] in X. exists nn. now rewrite X.
Qed.

Theorem public_ok p iv msgs ctxts : ap_key p = ek -> ap_fixed p = str_to_int fiv -> length iv = 8%nat -> bytes_ok iv ->
  length ctxts = length msgs ->
  exists b n1, prove_public_msgs enc p iv msgs ctxts = Ok (b, ap_with p n1) /\
    (b = true <-> ctxts = gcm_ctext E (fiv ++ iv) msgs).
Proof.
  intros K F L B LC. unfold prove_public_msgs. rewrite LC, Nat.eqb_refl. cbn [negb]. cbv zeta.
  destruct (computeCounter_ok p iv (length msgs) K F L B) as (n1 & X). rewrite X. cbn [bind].
  unfold reveal_buf. rewrite ksb_length. change (c_len (mk_call iv (length msgs) true)) with (length msgs).
  rewrite Nat.eqb_refl. cbn [bind]. rewrite reveal_ksb.
  eexists _, n1. split; [reflexivity|]. rewrite memeq_spec. unfold c_xor_m. rewrite rev_inj.
  rewrite xor_move by (rewrite ?call_ks_length; auto).
  assert (G : gcm_ctext E (fiv ++ iv) msgs = map2 N.lxor msgs (call_ks E fiv (mk_call iv (length msgs) true))).
  { symmetry. exact (ctext_xor E fiv iv msgs true). }
  now rewrite G.
Qed.

Theorem private_ok p iv msgs ctxts : ap_key p = ek -> ap_fixed p = str_to_int fiv -> length iv = 8%nat -> bytes_ok iv ->
  bytes_ok msgs -> length ctxts = length msgs ->
  exists b n1, prove_private_msgs enc p iv (str_to_int msgs) ctxts = Ok (b, ap_with p n1) /\
    (b = true <-> ctxts = gcm_ctext E (fiv ++ iv) msgs).
Proof.
  intros K F L B BM LC. unfold prove_private_msgs. rewrite str_bits8, bits8_length, rev_length, LC, Nat.eqb_refl. cbn [negb]. cbv zeta.
  destruct (computeCounter_ok p iv (length msgs) K F L B) as (n1 & X). rewrite X. cbn [bind].
  assert (U : ixor (ksb E fiv (mk_call iv (length msgs) true)) (bits8 (rev msgs)) = bits8 (rev (gcm_ctext E (fiv ++ iv) msgs))).
  { rewrite <- (str_bits8 (gcm_ctext E (fiv ++ iv) msgs)). rewrite <- (unmask_ok E fiv iv msgs true). unfold unmask, int_of_array. fold (bits8 (rev msgs)).
    rewrite firstn_all2; [reflexivity|]. rewrite bits8_length, rev_length. lia. }
  rewrite U. unfold reveal_buf. rewrite bits8_length, rev_length, ctext_length, Nat.eqb_refl. cbn [bind].
  rewrite reveal_bits8 by (apply Forall_rev, ctext_bytes; assumption).
  eexists _, n1. split; [reflexivity|]. rewrite memeq_spec, rev_involutive. split; congruence.
Qed.
End P.

(** * The loop of gctr_opt *)
Section Loop.
Variable enc : bristol.
Variable ek : Integer.
Variable E : N -> N.
Hypothesis CIP : cipher_ok enc ek E.
Let loop := gctr_opt_loop enc.
(** iterations before the target is met *)
Lemma loop_skip d : forall f i id rest n r, i < 2 ^ 64 ->
  (forall e, (e < d)%nat -> (i + N.of_nat e) mod 2 ^ 64 <> (id + 1) mod 2 ^ 64) ->
  loop (d + f) ek i (id :: rest) (bits_of_N 128 n) r =
  loop f ek ((i + N.of_nat d) mod 2 ^ 64) (id :: rest) (bits_of_N 128 (ctr_add n (N.of_nat d))) r.
Proof.
  induction d as [|d IH]; intros f i id rest n r Hi H.
  - cbn [Nat.add N.of_nat]. rewrite N.add_0_r, ctr_add_0, N.mod_small by assumption. reflexivity.
  - cbn [Nat.add]. unfold loop in *. cbn [gctr_opt_loop].
    destruct (N.eqb_spec i ((id + 1) mod 2 ^ 64)) as [X|_].
    + exfalso. apply (H 0%nat); [lia|]. cbn [N.of_nat]. rewrite N.add_0_r, N.mod_small by assumption. exact X.
    + rewrite ap_inc_ok. rewrite IH.
      * rewrite N.add_mod_idemp_l by discriminate. rewrite <- (ctr_add_0 n) at 1. rewrite ctr_add_inc, ctr_add_add.
        f_equal; [f_equal; lia|]. do 2 f_equal. lia.
      * apply N.mod_lt. discriminate.
      * intros e He. rewrite N.add_mod_idemp_l by discriminate.
        specialize (H (S e)). rewrite Nat2N.inj_succ in H. replace (i + 1 + N.of_nat e) with (i + N.succ (N.of_nat e)) by lia.
        apply H. lia.
Qed.
Lemma loop_running d : forall i id rest n r, i < 2 ^ 64 ->
  (forall e, (e < d)%nat -> (i + N.of_nat e) mod 2 ^ 64 <> (id + 1) mod 2 ^ 64) ->
  loop d ek i (id :: rest) (bits_of_N 128 n) r = None.
Proof.
  intros i id rest n r Hi H. rewrite <- (Nat.add_0_r d). rewrite loop_skip by assumption. reflexivity.
Qed.
Lemma loop_hit_last f i id n r : i = (id + 1) mod 2 ^ 64 ->
  loop (S f) ek i [id] (bits_of_N 128 n) r = Some (Ok (r ++ [bits_of_N 128 (E n)], bits_of_N 128 n)).
Proof. intros ->. unfold loop. cbn [gctr_opt_loop]. rewrite N.eqb_refl, (proj1 CIP). reflexivity. Qed.
Lemma loop_hit f i id id2 rest n r : i = (id + 1) mod 2 ^ 64 ->
  loop (S f) ek i (id :: id2 :: rest) (bits_of_N 128 n) r =
  loop f ek ((i + 1) mod 2 ^ 64) (id2 :: rest) (bits_of_N 128 (ctr_add n 1)) (r ++ [bits_of_N 128 (E n)]).
Proof.
  intros ->. unfold loop. cbn [gctr_opt_loop]. rewrite N.eqb_refl, (proj1 CIP), ap_inc_ok.
  rewrite <- (ctr_add_0 n) at 1. now rewrite ctr_add_inc.
Qed.

(** distance to the next target, counting modulo 2^64 *)
Definition dist (i id : N) : N := ((id + 1) mod 2 ^ 64 + (2 ^ 64 - i)) mod 2 ^ 64.
Lemma dist_lt i id : dist i id < 2 ^ 64.
Proof. apply N.mod_lt. discriminate. Qed.
Lemma dist_hit i id : i < 2 ^ 64 -> (i + dist i id) mod 2 ^ 64 = (id + 1) mod 2 ^ 64.
Proof.
  intro H. unfold dist. rewrite N.add_mod_idemp_r by discriminate.
  replace (i + ((id + 1) mod 2 ^ 64 + (2 ^ 64 - i))) with ((id + 1) mod 2 ^ 64 + 1 * 2 ^ 64) by lia.
  rewrite N.mod_add by discriminate. apply N.mod_mod. discriminate.
Qed.
Lemma dist_first i id e : i < 2 ^ 64 -> e < dist i id -> (i + e) mod 2 ^ 64 <> (id + 1) mod 2 ^ 64.
Proof.
  intros H He X. pose proof (dist_lt i id) as DL. revert He. unfold dist. rewrite <- X.
  rewrite N.add_mod_idemp_l by discriminate. replace (i + e + (2 ^ 64 - i)) with (e + 1 * 2 ^ 64) by lia.
  rewrite N.mod_add by discriminate. intro He.
  assert (e mod 2 ^ 64 <= e) by (apply N.mod_le; discriminate). lia.
Qed.
(** the number of iterations spent on each id: those that pass by, and the one that hits *)
Fixpoint gaps (i : N) (ids : list N) : list N :=
  match ids with
  | [] => []
  | id :: rest => (dist i id + 1) :: gaps (((id + 1) mod 2 ^ 64 + 1) mod 2 ^ 64) rest
  end.

(** any ids: the loop ends, with the key-stream block of every id; it needs exactly as many
    iterations as the distances between consecutive ids, modulo 2^64, add up to *)
Theorem loop_ok : forall ids i c n r f, i < 2 ^ 64 -> i = c mod 2 ^ 64 -> ids <> [] ->
  let total := fold_right (fun x acc => x + acc) 0 (gaps i ids) in
  (forall k, N.of_nat k < total -> loop k ek i ids (bits_of_N 128 (ctr_add n c)) r = None) /\
  exists n', loop (N.to_nat total + f) ek i ids (bits_of_N 128 (ctr_add n c)) r =
    Some (Ok (r ++ map (fun id => bits_of_N 128 (E (ctr_add n (id + 1)))) ids, n')).
Proof.
  induction ids as [|id rest IH]; intros i c n r f Hi Hc NE; [now elim NE|]. cbv zeta.
  set (d := dist i id).
  assert (SK : forall e, (e < N.to_nat d)%nat -> (i + N.of_nat e) mod 2 ^ 64 <> (id + 1) mod 2 ^ 64).
  { intros e He. apply dist_first; [assumption|]. fold d. lia. }
  assert (HIT : (i + N.of_nat (N.to_nat d)) mod 2 ^ 64 = (id + 1) mod 2 ^ 64).
  { rewrite N2Nat.id. now apply dist_hit. }
  assert (CTR : ctr_add (ctr_add n c) (N.of_nat (N.to_nat d)) = ctr_add n (id + 1)).
  { rewrite ctr_add_add, N2Nat.id. rewrite <- (ctr_add_mod n (c + d)), <- (ctr_add_mod n (id + 1)). f_equal.
    rewrite <- (dist_hit i id Hi). fold d. rewrite Hc. now rewrite N.add_mod_idemp_l by discriminate. }
  assert (BEF : forall k, (k <= N.to_nat d)%nat -> loop k ek i (id :: rest) (bits_of_N 128 (ctr_add n c)) r = None).
  { intros k Hk. apply loop_running; [assumption|]. intros e He. apply SK. lia. }
  cbn [gaps fold_right]. fold d. destruct rest as [|id2 rest].
  - cbn [gaps fold_right]. split.
    + intros k Hk. apply BEF. lia.
    + exists (bits_of_N 128 (ctr_add n (id + 1))).
      replace (N.to_nat (d + 1 + 0) + f)%nat with (N.to_nat d + S f)%nat by lia.
      rewrite loop_skip by assumption. rewrite HIT, CTR. now rewrite loop_hit_last.
  - set (i2 := ((id + 1) mod 2 ^ 64 + 1) mod 2 ^ 64).
    assert (Hi2 : i2 < 2 ^ 64) by (apply N.mod_lt; discriminate).
    assert (Hc2 : i2 = (id + 1 + 1) mod 2 ^ 64) by (unfold i2; now rewrite N.add_mod_idemp_l by discriminate).
    destruct (IH i2 (id + 1 + 1) n (r ++ [bits_of_N 128 (E (ctr_add n (id + 1)))]) f Hi2 Hc2 ltac:(discriminate)) as [I1 (n' & I2)].
    fold i2. set (tot := fold_right (fun x acc => x + acc) 0 (gaps i2 (id2 :: rest))) in *.
    assert (STEP : forall g, loop (N.to_nat d + S g) ek i (id :: id2 :: rest) (bits_of_N 128 (ctr_add n c)) r =
      loop g ek i2 (id2 :: rest) (bits_of_N 128 (ctr_add n (id + 1 + 1))) (r ++ [bits_of_N 128 (E (ctr_add n (id + 1)))])).
    { intro g. rewrite loop_skip by assumption. rewrite HIT, CTR. rewrite loop_hit by reflexivity. now rewrite ctr_add_add. }
    split.
    + intros k Hk. destruct (Nat.le_gt_cases k (N.to_nat d)) as [Hd|Hd]; [now apply BEF|].
      replace k with (N.to_nat d + S (k - N.to_nat d - 1))%nat by lia. rewrite STEP. apply I1. lia.
    + exists n'. replace (N.to_nat (d + 1 + tot) + f)%nat with (N.to_nat d + S (N.to_nat tot + f))%nat by lia.
      rewrite STEP, I2. cbn [map]. now rewrite <- app_assoc.
Qed.
End Loop.
