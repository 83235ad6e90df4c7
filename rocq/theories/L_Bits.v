(** General lemmas on bit lists (least significant bit first), used as the
    carrier of the cleartext semantics of emp-tool's [Integer].  No otls content. *)
From Coq Require Import List NArith ZArith Lia Bool Arith.
Import ListNotations.
Local Open Scope N_scope.

(** value of a little-endian bit list *)
Fixpoint N_of_bits (l : list bool) : N :=
  match l with
  | [] => 0
  | b :: t => N.b2n b + 2 * N_of_bits t
  end.

(** [n] low bits of [x], least significant first *)
Fixpoint bits_of_N (n : nat) (x : N) : list bool :=
  match n with
  | O => []
  | S k => N.odd x :: bits_of_N k (N.div2 x)
  end.

Fixpoint map2 {A B C : Type} (f : A -> B -> C) (la : list A) (lb : list B) : list C :=
  match la, lb with
  | a :: ta, b :: tb => f a b :: map2 f ta tb
  | _, _ => []
  end.

Lemma map2_length {A B C} (f : A -> B -> C) la lb :
  length (map2 f la lb) = Nat.min (length la) (length lb).
Proof. revert lb; induction la; destruct lb; simpl; auto. Qed.

Lemma map2_app {A B C} (f : A -> B -> C) a1 a2 b1 b2 :
  length a1 = length b1 ->
  map2 f (a1 ++ a2) (b1 ++ b2) = map2 f a1 b1 ++ map2 f a2 b2.
Proof.
  revert b1; induction a1; destruct b1; simpl; intros; try discriminate; auto.
  f_equal; auto.
Qed.

Lemma map2_nil_r {A B C} (f : A -> B -> C) la : map2 f la [] = [].
Proof. destruct la; auto. Qed.

Lemma map2_snoc {A B C} (f : A -> B -> C) la lb a b :
  length la = length lb ->
  map2 f (la ++ [a]) (lb ++ [b]) = map2 f la lb ++ [f a b].
Proof. intros; rewrite map2_app; auto. Qed.

Lemma map2_rev {A B C} (f : A -> B -> C) la lb :
  length la = length lb ->
  map2 f (rev la) (rev lb) = rev (map2 f la lb).
Proof.
  revert lb; induction la; destruct lb; simpl; intros; try discriminate; auto.
  rewrite map2_snoc by (rewrite !rev_length; congruence).
  rewrite IHla by congruence; auto.
Qed.

Lemma map2_nth {A B C} (f : A -> B -> C) la lb i da db dc :
  (i < length la)%nat -> (i < length lb)%nat ->
  nth i (map2 f la lb) dc = f (nth i la da) (nth i lb db).
Proof.
  revert lb i; induction la; destruct lb; simpl; intros; try lia.
  destruct i; auto. apply IHla; lia.
Qed.

Lemma map2_ext_in {A B C} (f g : A -> B -> C) la lb :
  (forall a b, In a la -> In b lb -> f a b = g a b) ->
  map2 f la lb = map2 g la lb.
Proof.
  revert lb; induction la; destruct lb; simpl; intros; auto.
  f_equal; auto.
Qed.

Lemma bits_of_N_length n x : length (bits_of_N n x) = n.
Proof. revert x; induction n; simpl; auto. Qed.

Lemma b2n_lt2 b : N.b2n b < 2.
Proof. destruct b; simpl; lia. Qed.

Lemma pow2_pos n : 0 < 2 ^ n.
Proof. apply N.neq_0_lt_0, N.pow_nonzero; lia. Qed.

Lemma pow2_S n : 2 ^ N.of_nat (S n) = 2 * 2 ^ N.of_nat n.
Proof. rewrite Nat2N.inj_succ, N.pow_succ_r'; auto. Qed.

Lemma N_of_bits_lt l : N_of_bits l < 2 ^ N.of_nat (length l).
Proof.
  induction l as [|b l IH]; simpl length.
  - simpl; lia.
  - rewrite pow2_S. cbn [N_of_bits]. pose proof (b2n_lt2 b). lia.
Qed.

Lemma N_of_bits_app l1 l2 :
  N_of_bits (l1 ++ l2) = N_of_bits l1 + 2 ^ N.of_nat (length l1) * N_of_bits l2.
Proof.
  induction l1 as [|b l IH]; simpl app; simpl length.
  - cbn [N_of_bits]. rewrite N.pow_0_r. lia.
  - rewrite pow2_S. cbn [N_of_bits]. rewrite IH. lia.
Qed.

Lemma testbit_N_of_bits l i : N.testbit (N_of_bits l) (N.of_nat i) = nth i l false.
Proof.
  revert i; induction l as [|b l IH]; intros i.
  - cbn [N_of_bits]. rewrite N.bits_0. destruct i; auto.
  - cbn [N_of_bits]. rewrite N.add_comm. destruct i as [|i].
    + simpl N.of_nat. rewrite N.testbit_0_r. auto.
    + rewrite Nat2N.inj_succ. rewrite N.testbit_succ_r. rewrite IH. auto.
Qed.

Lemma testbit_N_of_bits' l i :
  N.testbit (N_of_bits l) i = nth (N.to_nat i) l false.
Proof. rewrite <- (N2Nat.id i) at 1. apply testbit_N_of_bits. Qed.

Lemma bits_of_N_nth n x i :
  nth i (bits_of_N n x) false = if (i <? n)%nat then N.testbit x (N.of_nat i) else false.
Proof.
  revert x i; induction n; intros x i; simpl bits_of_N.
  - destruct i; auto.
  - destruct i; cbn [nth].
    + simpl N.of_nat. rewrite N.bit0_odd. auto.
    + rewrite IHn, Nat2N.inj_succ. change (S i <? S n)%nat with (i <? n)%nat.
      destruct (i <? n)%nat; auto.
      rewrite N.div2_spec, N.shiftr_spec', N.add_1_r; auto.
Qed.

Lemma N_of_bits_of_N n x : N_of_bits (bits_of_N n x) = x mod 2 ^ N.of_nat n.
Proof.
  apply N.bits_inj; intro i. rewrite testbit_N_of_bits', bits_of_N_nth.
  rewrite N2Nat.id.
  destruct (Nat.ltb_spec (N.to_nat i) n).
  - rewrite N.mod_pow2_bits_low; auto. lia.
  - rewrite N.mod_pow2_bits_high; auto. lia.
Qed.

Lemma N_of_bits_of_N_small n x : x < 2 ^ N.of_nat n -> N_of_bits (bits_of_N n x) = x.
Proof. intros; rewrite N_of_bits_of_N, N.mod_small; auto. Qed.

Lemma list_eq_nth (l1 l2 : list bool) :
  length l1 = length l2 ->
  (forall i, (i < length l1)%nat -> nth i l1 false = nth i l2 false) -> l1 = l2.
Proof.
  revert l2; induction l1; destruct l2; simpl; intros; try discriminate; auto.
  f_equal. apply (H0 0%nat); lia.
  apply IHl1; auto. intros i Hi. apply (H0 (S i)). lia.
Qed.

Lemma list_ext {A} (d : A) (l1 l2 : list A) :
  length l1 = length l2 ->
  (forall i, (i < length l1)%nat -> nth i l1 d = nth i l2 d) -> l1 = l2.
Proof.
  revert l2; induction l1; destruct l2; simpl; intros; try discriminate; auto.
  f_equal. apply (H0 0%nat); lia.
  apply IHl1; auto. intros i Hi. apply (H0 (S i)). lia.
Qed.

Lemma bits_of_N_of_bits l : bits_of_N (length l) (N_of_bits l) = l.
Proof.
  apply list_eq_nth. apply bits_of_N_length.
  rewrite bits_of_N_length; intros i Hi. rewrite bits_of_N_nth.
  apply Nat.ltb_lt in Hi as ->. apply testbit_N_of_bits.
Qed.

Lemma bits_of_N_of_bits' n l : length l = n -> bits_of_N n (N_of_bits l) = l.
Proof. intros <-; apply bits_of_N_of_bits. Qed.

Lemma N_of_bits_inj l1 l2 :
  length l1 = length l2 -> N_of_bits l1 = N_of_bits l2 -> l1 = l2.
Proof.
  intros Hl He. rewrite <- (bits_of_N_of_bits l1), <- (bits_of_N_of_bits l2).
  congruence.
Qed.

Lemma bits_of_N_mod n x : bits_of_N n (x mod 2 ^ N.of_nat n) = bits_of_N n x.
Proof.
  apply N_of_bits_inj. now rewrite !bits_of_N_length.
  rewrite !N_of_bits_of_N. apply N.mod_mod. apply N.pow_nonzero; lia.
Qed.

Lemma bits_of_N_0 n : bits_of_N n 0 = repeat false n.
Proof. induction n; simpl; auto. now rewrite IHn. Qed.

Lemma N_of_bits_repeat_false n : N_of_bits (repeat false n) = 0.
Proof. induction n; auto. cbn [repeat N_of_bits]. rewrite IHn. auto. Qed.

Lemma bits_of_N_app n m x :
  bits_of_N (n + m) x = bits_of_N n x ++ bits_of_N m (N.shiftr x (N.of_nat n)).
Proof.
  apply list_eq_nth.
  - rewrite app_length, !bits_of_N_length. auto.
  - rewrite bits_of_N_length; intros i Hi. rewrite bits_of_N_nth.
    assert (E: (i <? n + m)%nat = true) by (apply Nat.ltb_lt; auto). rewrite E.
    destruct (Nat.lt_ge_cases i n).
    + rewrite app_nth1 by (rewrite bits_of_N_length; auto).
      rewrite bits_of_N_nth. assert ((i <? n)%nat = true) by (apply Nat.ltb_lt; auto).
      rewrite H0; auto.
    + rewrite app_nth2 by (rewrite bits_of_N_length; auto).
      rewrite bits_of_N_length, bits_of_N_nth.
      assert (E2: (i - n <? m)%nat = true) by (apply Nat.ltb_lt; lia). rewrite E2.
      rewrite N.shiftr_spec'. f_equal. lia.
Qed.

(** bitwise operations *)
Definition bxor (a b : list bool) : list bool := map2 xorb a b.
Definition band (a b : list bool) : list bool := map2 andb a b.

Lemma N_of_bits_bxor a b :
  length a = length b -> N_of_bits (bxor a b) = N.lxor (N_of_bits a) (N_of_bits b).
Proof.
  intros Hl. apply N.bits_inj; intro i.
  rewrite N.lxor_spec, !testbit_N_of_bits'.
  destruct (Nat.lt_ge_cases (N.to_nat i) (length a)).
  - unfold bxor. erewrite map2_nth; auto. congruence.
  - rewrite !nth_overflow; auto. congruence.
    unfold bxor; rewrite map2_length; lia.
Qed.

Lemma N_of_bits_band a b :
  length a = length b -> N_of_bits (band a b) = N.land (N_of_bits a) (N_of_bits b).
Proof.
  intros Hl. apply N.bits_inj; intro i.
  rewrite N.land_spec, !testbit_N_of_bits'.
  destruct (Nat.lt_ge_cases (N.to_nat i) (length a)).
  - unfold band. erewrite map2_nth; auto. congruence.
  - rewrite !nth_overflow; auto. congruence.
    unfold band; rewrite map2_length; lia.
Qed.

Lemma bxor_length a b : length a = length b -> length (bxor a b) = length a.
Proof. intros; unfold bxor; rewrite map2_length; lia. Qed.
Lemma band_length a b : length a = length b -> length (band a b) = length a.
Proof. intros; unfold band; rewrite map2_length; lia. Qed.

Lemma bxor_comm a b : bxor a b = bxor b a.
Proof.
  revert b; induction a; destruct b; simpl; auto.
  unfold bxor in *; simpl. rewrite IHa, xorb_comm; auto.
Qed.

Lemma bxor_assoc a b c : bxor (bxor a b) c = bxor a (bxor b c).
Proof.
  unfold bxor.
  revert b c; induction a; destruct b; destruct c; simpl; auto.
  rewrite IHa, xorb_assoc; auto.
Qed.

Lemma bxor_nilpotent a : bxor a a = repeat false (length a).
Proof.
  unfold bxor. induction a; simpl; auto. rewrite IHa, xorb_nilpotent; auto.
Qed.

Lemma bxor_false_r a n : length a = n -> bxor a (repeat false n) = a.
Proof.
  unfold bxor. intros <-. induction a; simpl; auto. rewrite IHa, xorb_false_r; auto.
Qed.

Lemma bxor_cancel a b : length a = length b -> bxor (bxor a b) b = a.
Proof.
  intros. rewrite bxor_assoc, bxor_nilpotent, bxor_false_r; auto.
Qed.

Lemma lxor_lt a b n : a < 2 ^ n -> b < 2 ^ n -> N.lxor a b < 2 ^ n.
Proof.
  intros Ha Hb.
  destruct (N.eq_dec (N.lxor a b) 0) as [->|Hz]; [apply pow2_pos|].
  apply N.log2_lt_pow2; [lia|].
  eapply N.le_lt_trans; [apply N.log2_lxor|].
  apply N.max_lub_lt.
  - destruct (N.eq_dec a 0) as [->|]; [|apply N.log2_lt_pow2; lia].
    destruct (N.eq_dec n 0) as [->|]; [|simpl; lia].
    assert (b = 0) by (simpl in Hb; lia). subst. simpl in Hz. congruence.
  - destruct (N.eq_dec b 0) as [->|]; [|apply N.log2_lt_pow2; lia].
    destruct (N.eq_dec n 0) as [->|]; [|simpl; lia].
    assert (a = 0) by (simpl in Ha; lia). subst. simpl in Hz. congruence.
Qed.

Lemma testbit_high a n i : a < 2 ^ n -> n <= i -> N.testbit a i = false.
Proof.
  intros Ha Hi. destruct (N.eq_dec a 0) as [->|]; [apply N.bits_0|].
  apply N.bits_above_log2. apply N.lt_le_trans with n; auto.
  apply N.log2_lt_pow2; lia.
Qed.

Lemma lt_pow2_testbit a n : (forall i, n <= i -> N.testbit a i = false) -> a < 2 ^ n.
Proof.
  intros H. destruct (N.eq_dec a 0) as [->|Hz]; [apply pow2_pos|].
  apply N.log2_lt_pow2; [lia|].
  destruct (N.lt_ge_cases (N.log2 a) n); auto.
  specialize (H _ H0). rewrite N.bit_log2 in H; congruence.
Qed.

Lemma land_lt_l a b n : a < 2 ^ n -> N.land a b < 2 ^ n.
Proof.
  intros. apply lt_pow2_testbit; intros. rewrite N.land_spec.
  rewrite (testbit_high a n); auto.
Qed.

Lemma lor_lt a b n : a < 2 ^ n -> b < 2 ^ n -> N.lor a b < 2 ^ n.
Proof.
  intros. apply lt_pow2_testbit; intros. rewrite N.lor_spec.
  rewrite (testbit_high a n), (testbit_high b n); auto.
Qed.

Lemma shiftr_lt a k n : a < 2 ^ n -> N.shiftr a k < 2 ^ n.
Proof.
  intros. apply lt_pow2_testbit; intros. rewrite N.shiftr_spec'.
  apply (testbit_high a n); lia.
Qed.

Lemma bits_of_N_lxor n a b :
  bits_of_N n (N.lxor a b) = bxor (bits_of_N n a) (bits_of_N n b).
Proof.
  apply list_eq_nth.
  - rewrite bxor_length; rewrite ?bits_of_N_length; auto.
  - rewrite bits_of_N_length. intros i Hi. unfold bxor.
    erewrite map2_nth; rewrite ?bits_of_N_length; auto.
    rewrite !bits_of_N_nth, N.lxor_spec. apply Nat.ltb_lt in Hi as ->. auto.
Qed.

(** ripple-carry addition, truncated to the operand width *)
Fixpoint badd_c (c : bool) (a b : list bool) : list bool :=
  match a, b with
  | x :: ta, y :: tb =>
      xorb (xorb x y) c
      :: badd_c (xorb c (andb (xorb x c) (xorb y c))) ta tb
  | _, _ => []
  end.

Definition badd (a b : list bool) : list bool := badd_c false a b.

Lemma badd_c_length c a b :
  length a = length b -> length (badd_c c a b) = length a.
Proof.
  revert b c; induction a; destruct b; simpl; intros; try discriminate; auto.
Qed.

Lemma badd_length a b : length a = length b -> length (badd a b) = length a.
Proof. apply badd_c_length. Qed.

Lemma N_of_badd_c c a b :
  length a = length b ->
  N_of_bits (badd_c c a b) =
  (N.b2n c + N_of_bits a + N_of_bits b) mod 2 ^ N.of_nat (length a).
Proof.
  revert b c; induction a as [|x a IH]; destruct b as [|y b]; intros c Hl;
    try discriminate; simpl length.
  - simpl badd_c. cbn [N_of_bits]. rewrite N.pow_0_r, N.mod_1_r. auto.
  - cbn [badd_c N_of_bits]. rewrite IH by (simpl in Hl; congruence).
    rewrite pow2_S.
    set (A := N_of_bits a). set (B := N_of_bits b). set (P := 2 ^ N.of_nat (length a)).
    assert (HP: P <> 0) by (apply N.pow_nonzero; lia).
    replace (N.b2n c + (N.b2n x + 2 * A) + (N.b2n y + 2 * B))
      with (N.b2n (xorb (xorb x y) c)
            + 2 * (N.b2n (xorb c (andb (xorb x c) (xorb y c))) + A + B))
      by (destruct x, y, c; cbn [xorb andb N.b2n]; lia).
    set (T := N.b2n (xorb c (andb (xorb x c) (xorb y c))) + A + B).
    pose proof (b2n_lt2 (xorb (xorb x y) c)) as Hb.
    set (d := N.b2n (xorb (xorb x y) c)) in *.
    rewrite (N.div_mod T P) at 2 by auto.
    assert (Hm: T mod P < P) by (apply N.mod_lt; auto).
    apply N.mod_unique with (T / P); nia.
Qed.

Lemma N_of_badd a b :
  length a = length b ->
  N_of_bits (badd a b) = (N_of_bits a + N_of_bits b) mod 2 ^ N.of_nat (length a).
Proof. intros; unfold badd; rewrite N_of_badd_c; auto. Qed.

(** two's complement subtraction, truncated *)
Definition bsub (a b : list bool) : list bool := badd_c true a (map negb b).

Lemma N_of_map_negb b :
  N_of_bits (map negb b) + N_of_bits b = 2 ^ N.of_nat (length b) - 1.
Proof.
  induction b as [|x b IH]; simpl length.
  - reflexivity.
  - rewrite pow2_S. simpl map. cbn [N_of_bits].
    assert (0 < 2 ^ N.of_nat (length b)) by apply pow2_pos.
    destruct x; cbn [negb N.b2n]; lia.
Qed.

Lemma bsub_length a b : length a = length b -> length (bsub a b) = length a.
Proof. intros; unfold bsub; rewrite badd_c_length; rewrite ?map_length; auto. Qed.

Lemma N_of_bsub a b :
  length a = length b ->
  N_of_bits (bsub a b) =
  (2 ^ N.of_nat (length a) + N_of_bits a - N_of_bits b) mod 2 ^ N.of_nat (length a).
Proof.
  intros Hl. unfold bsub. rewrite N_of_badd_c by (rewrite map_length; auto).
  f_equal. pose proof (N_of_map_negb b). rewrite <- Hl in H.
  pose proof (pow2_pos (N.of_nat (length a))). cbn [N.b2n].
  pose proof (N_of_bits_lt b). rewrite <- Hl in H1. lia.
Qed.

(** big-endian reading of a bit string (first bit most significant) *)
Definition N_of_be (l : list bool) : N := N_of_bits (rev l).
Definition be_of_N (n : nat) (x : N) : list bool := rev (bits_of_N n x).

Lemma be_of_N_length n x : length (be_of_N n x) = n.
Proof. unfold be_of_N; rewrite rev_length, bits_of_N_length; auto. Qed.

(** chunking *)
Fixpoint chunks_fuel {A} (fuel n : nat) (l : list A) : list (list A) :=
  match fuel with
  | O => []
  | S f => match l with
           | [] => []
           | _ => firstn n l :: chunks_fuel f n (skipn n l)
           end
  end.
Definition chunks {A} (n : nat) (l : list A) : list (list A) :=
  chunks_fuel (length l) n l.

Lemma chunks_fuel_enough {A} n (l : list A) f1 f2 :
  (n > 0)%nat -> (length l <= f1)%nat -> (length l <= f2)%nat ->
  chunks_fuel f1 n l = chunks_fuel f2 n l.
Proof.
  intros Hn. revert f2 l; induction f1; intros f2 l H1 H2.
  - destruct l; simpl in *; [|lia]. destruct f2; auto.
  - destruct f2. destruct l; simpl in *; [auto|lia].
    simpl. destruct l; auto. f_equal. apply IHf1.
    + rewrite skipn_length. cbn [length] in *. lia.
    + rewrite skipn_length. cbn [length] in *. lia.
Qed.

Lemma chunks_nil {A} n : chunks n (@nil A) = [].
Proof. reflexivity. Qed.

Lemma chunks_app {A} n (a b : list A) :
  (n > 0)%nat -> length a = n -> chunks n (a ++ b) = a :: chunks n b.
Proof.
  intros Hn Ha. unfold chunks.
  destruct (length (a ++ b)) as [|f] eqn:E.
  { rewrite app_length in E; lia. }
  cbn [chunks_fuel]. destruct (a ++ b) eqn:E2.
  { simpl in E; lia. }
  rewrite <- E2. rewrite firstn_app, firstn_all2 by lia.
  replace (n - length a)%nat with 0%nat by lia. rewrite firstn_O, app_nil_r.
  rewrite skipn_app, skipn_all2 by lia.
  replace (n - length a)%nat with 0%nat by lia. rewrite skipn_O. cbn [app].
  f_equal. apply chunks_fuel_enough; auto.
  rewrite <- E2, app_length in E. lia.
Qed.

Lemma chunks_small {A} n (a : list A) :
  (n > 0)%nat -> a <> [] -> (length a <= n)%nat -> chunks n a = [a].
Proof.
  intros Hn Ha Hl. unfold chunks. destruct a; [congruence|].
  cbn [length chunks_fuel]. rewrite firstn_all2 by auto.
  rewrite skipn_all2 by auto. destruct (length a0); auto.
Qed.

Lemma chunks_cons {A} n (l : list A) :
  (n > 0)%nat -> l <> [] -> chunks n l = firstn n l :: chunks n (skipn n l).
Proof.
  intros Hn Hl. unfold chunks at 1. destruct l as [|x l]; [congruence|].
  cbn [length chunks_fuel]. f_equal. unfold chunks.
  apply chunks_fuel_enough; auto. rewrite skipn_length; cbn [length]; lia.
Qed.

Lemma chunks_concat {A} n (l : list A) : (n > 0)%nat -> concat (chunks n l) = l.
Proof.
  intros Hn. remember (length l) as k eqn:E. revert l E.
  induction k as [k IH] using lt_wf_ind; intros l E.
  destruct l as [|x l]; auto.
  rewrite chunks_cons by (auto; congruence). simpl concat.
  rewrite (IH (length (skipn n (x :: l)))); auto.
  - apply firstn_skipn.
  - rewrite skipn_length; cbn [length] in *; lia.
Qed.

Lemma chunks_all_length {A} n (l : list A) m :
  (n > 0)%nat -> length l = (n * m)%nat -> Forall (fun c => length c = n) (chunks n l).
Proof.
  intros Hn. revert l; induction m; intros l Hl.
  - destruct l; [constructor | simpl in Hl; lia].
  - rewrite chunks_cons; auto.
    + constructor. rewrite firstn_length; lia.
      apply IHm. rewrite skipn_length; lia.
    + intros ->; simpl in Hl; lia.
Qed.

Lemma chunks_length {A} n (l : list A) m :
  (n > 0)%nat -> length l = (n * m)%nat -> length (chunks n l) = m.
Proof.
  intros Hn. revert l; induction m; intros l Hl.
  - destruct l; [reflexivity | simpl in Hl; lia].
  - rewrite chunks_cons; auto.
    + simpl. f_equal. apply IHm. rewrite skipn_length; lia.
    + intros ->; simpl in Hl; lia.
Qed.

Lemma skipn_skipn {A} x y (l : list A) : skipn x (skipn y l) = skipn (x + y) l.
Proof.
  revert l; induction y; intros l.
  - rewrite skipn_O, Nat.add_0_r; auto.
  - rewrite Nat.add_succ_r. destruct l; [now rewrite !skipn_nil | apply IHy].
Qed.

Lemma chunks_nth {A} n (l : list A) i :
  (n > 0)%nat -> (i * n < length l)%nat ->
  nth i (chunks n l) [] = firstn n (skipn (i * n) l).
Proof.
  intros Hn. revert l; induction i; intros l Hi.
  - rewrite chunks_cons; auto. intros ->; simpl in Hi; lia.
  - rewrite chunks_cons; auto; [|intros ->; simpl in Hi; lia].
    cbn [nth]. rewrite IHi.
    + rewrite skipn_skipn. f_equal. f_equal. lia.
    + rewrite skipn_length. cbn [length Nat.mul] in *. lia.
Qed.

Arguments bits_of_N : simpl never.
Arguments be_of_N : simpl never.
