(** The field modulus of NIST P-256 is a prime: Pocklington's criterion, with Fermat's little theorem. *)
From Coq Require Import List ZArith Bool Lia Znumtheory Zpow_facts Permutation.
From Verif Require Import L_Res S_Ec M_Ole M_E2f P_E2f P_ViewMask.
Import ListNotations.
Local Open Scope Z_scope.

(** * Fermat's little theorem *)
Definition prodl (l : list Z) : Z := fold_right Z.mul 1 l.
Lemma prodl_perm l l' : Permutation l l' -> prodl l = prodl l'.
Proof. unfold prodl. induction 1; cbn; try lia. Qed.
Lemma prodl_map r a l : prodl (map (fun x => (a * x) mod r) l) mod r = (a ^ Z.of_nat (length l) * prodl l) mod r.
Proof.
  induction l as [|x l IH]; [reflexivity|]. unfold prodl in *. cbn [map fold_right length].
  rewrite Zmult_mod, Zmod_mod, IH, <- Zmult_mod. f_equal. rewrite Nat2Z.inj_succ, Z.pow_succ_r by lia. ring.
Qed.
Definition units (r : Z) : list Z := map (fun k => Z.of_nat k) (seq 1 (Z.to_nat (r - 1))).
Lemma in_units r x : In x (units r) <-> 1 <= x < r.
Proof.
  unfold units. rewrite in_map_iff. split.
  - intros (k & <- & H). apply in_seq in H. lia.
  - intro H. exists (Z.to_nat x). split; [lia|]. apply in_seq. lia.
Qed.
Lemma nodup_map {A B} (f : A -> B) l : (forall x y, In x l -> In y l -> f x = f y -> x = y) -> NoDup l -> NoDup (map f l).
Proof.
  intros I D. induction D as [|x l N D IH]; cbn; [constructor|]. constructor.
  - rewrite in_map_iff. intros (y & E & Y). apply N. rewrite (I x y); [exact Y|now left|now right|now symmetry].
  - apply IH. intros u v U V. apply I; now right.
Qed.
Lemma nodup_units r : NoDup (units r).
Proof. unfold units. apply nodup_map; [intros; lia|apply seq_NoDup]. Qed.
Lemma units_rel_prime r : prime r -> rel_prime r (prodl (units r)).
Proof.
  intro P. assert (G : forall l, (forall x, In x l -> 1 <= x < r) -> rel_prime r (prodl l)).
  { induction l as [|x l IH]; intro H; cbn; [apply rel_prime_sym, rel_prime_1|].
    apply rel_prime_mult; [|apply IH; intros; apply H; now right].
    apply prime_rel_prime; [exact P|]. intro D. apply Z.divide_pos_le in D; specialize (H x (or_introl eq_refl)); lia. }
  apply G. intros x. now rewrite in_units.
Qed.
Lemma mod_divide a b r : 0 < r -> a mod r = b mod r -> (r | a - b).
Proof. intros R H. apply Z.mod_divide; [lia|]. rewrite Zminus_mod, H, Z.sub_diag. apply Zmod_0_l. Qed.
Lemma divide_mod a b r : 0 < r -> (r | a - b) -> a mod r = b mod r.
Proof. intros R [k K]. replace a with (b + k * r) by lia. apply Z_mod_plus_full. Qed.
Theorem fermat r a : prime r -> ~ (r | a) -> a ^ (r - 1) mod r = 1.
Proof.
  intros P N. pose proof (prime_ge_2 _ P) as R2. pose proof (prime_rel_prime r P a N) as RA.
  assert (PE : Permutation (map (fun x => (a * x) mod r) (units r)) (units r)).
  { apply NoDup_Permutation_bis.
    - apply nodup_map; [|apply nodup_units]. intros x y X Y E. apply in_units in X, Y.
      apply mod_divide in E; [|lia]. replace (a * x - a * y) with (a * (x - y)) in E by ring.
      apply Gauss in E; [|exact RA]. destruct E as [k K]. assert (k = 0) by nia. lia.
    - rewrite map_length. lia.
    - intros z Z. apply in_map_iff in Z as (x & <- & X). apply in_units in X. apply in_units.
      pose proof (Z.mod_pos_bound (a * x) r ltac:(lia)) as B. assert ((a * x) mod r <> 0); [|lia].
      intro Z0. apply Z.mod_divide in Z0; [|lia]. apply Gauss in Z0; [|exact RA]. apply Z.divide_pos_le in Z0; lia. }
  pose proof (prodl_map r a (units r)) as E. rewrite (prodl_perm _ _ PE) in E.
  assert (L : Z.of_nat (length (units r)) = r - 1) by (unfold units; rewrite map_length, seq_length; lia). rewrite L in E.
  symmetry in E. apply mod_divide in E; [|lia].
  replace (a ^ (r - 1) * prodl (units r) - prodl (units r)) with (prodl (units r) * (a ^ (r - 1) - 1)) in E by ring.
  apply Gauss in E; [|now apply units_rel_prime]. rewrite (divide_mod _ 1 r) by (try lia; exact E). apply Z.mod_small. lia.
Qed.

(** * Pocklington's criterion *)
Lemma pow_one a r n : 1 < r -> 0 <= n -> a mod r = 1 -> a ^ n mod r = 1.
Proof. intros R N H. rewrite Zpower_mod, H, Z.pow_1_l by lia. apply Z.mod_small. lia. Qed.
Lemma pow_gcd a r : 1 < r -> forall n, (forall x y, 0 <= x -> 0 <= y < Z.of_nat n -> a ^ x mod r = 1 -> a ^ y mod r = 1 -> a ^ Z.gcd x y mod r = 1).
Proof.
  intros R. induction n as [|n IH]; intros x y X Y Ex Ey; [lia|].
  destruct (Z.eq_dec y 0) as [->|Y0]; [now rewrite Z.gcd_0_r, Z.abs_eq by lia|].
  assert (E : Z.gcd x y = Z.gcd y (x mod y)) by (rewrite (Z.gcd_comm x y), (Z.gcd_comm y (x mod y)); symmetry; apply Z.gcd_mod; lia).
  rewrite E. pose proof (Z.mod_pos_bound x y ltac:(lia)) as B. apply IH; [lia|lia|exact Ey|].
  pose proof (Z.div_mod x y ltac:(lia)) as D. pose proof (Z.div_pos x y X ltac:(lia)) as Q.
  rewrite D, Z.pow_add_r, Z.pow_mul_r, Zmult_mod in Ex by nia. rewrite (pow_one (a ^ y) r (x / y) R Q Ey), Z.mul_1_l, Zmod_mod in Ex. exact Ex.
Qed.
Lemma factor_divides N f a r : 1 < N -> prime f -> (f | N - 1) -> a ^ (N - 1) mod N = 1 -> Z.gcd (a ^ ((N - 1) / f) - 1) N = 1 ->
  prime r -> (r | N) -> (f | r - 1).
Proof.
  intros N1 Pf [k K] H G Pr D. pose proof (prime_ge_2 _ Pr) as R2. pose proof (prime_ge_2 _ Pf) as F2.
  assert (M : forall x, x mod N = 1 -> x mod r = 1).
  { intros x X. destruct D as [c C]. assert (r | x - 1) as D'.
    { apply Z.divide_trans with N; [exists c; exact C|]. apply mod_divide; [lia|]. rewrite X. symmetry. apply Z.mod_small. lia. }
    rewrite (divide_mod _ 1 r) by (try lia; exact D'). apply Z.mod_small. lia. }
  apply M in H.
  assert (Na : ~ (r | a)).
  { intros [c C]. rewrite C, Zpower_mod, Z_mod_mult, Z.pow_0_l, Zmod_0_l in H by lia. lia. }
  pose proof (fermat r a Pr Na) as Fe.
  destruct (Zdivide_dec f (r - 1)) as [|Nd]; [assumption|exfalso].
  assert (Hg : a ^ Z.gcd (N - 1) (r - 1) mod r = 1).
  { apply (pow_gcd a r ltac:(lia) (S (Z.to_nat (r - 1)))); try lia; assumption. }
  assert (Dk : (Z.gcd (N - 1) (r - 1) | k)).
  { apply Gauss with f.
    - rewrite Z.mul_comm, <- K. apply Z.gcd_divide_l.
    - apply rel_prime_sym, prime_rel_prime; [exact Pf|]. intro X. apply Nd. eapply Z.divide_trans; [exact X|apply Z.gcd_divide_r]. }
  assert (Ek : (N - 1) / f = k) by (rewrite K; apply Z_div_mult; lia). rewrite Ek in G.
  destruct Dk as [c C]. assert (K0 : 0 < k) by nia. pose proof (Z.gcd_nonneg (N - 1) (r - 1)) as G0. assert (0 <= c) by nia.
  assert (X : a ^ k mod r = 1) by (rewrite C, Z.mul_comm, Z.pow_mul_r by lia; apply pow_one; try lia; exact Hg).
  assert (Y : (r | a ^ k - 1)) by (apply mod_divide; [lia|]; rewrite X; symmetry; apply Z.mod_small; lia).
  pose proof (Z.gcd_greatest _ _ _ Y D) as Z1. rewrite G in Z1. apply Z.divide_pos_le in Z1; lia.
Qed.
(** a number that is not a prime has a prime divisor that is at most its square root *)
Lemma prime_divisor : forall n N, 1 < N < Z.of_nat n -> exists r, prime r /\ (r | N).
Proof.
  induction n as [|n IH]; intros N H; [lia|]. destruct (prime_dec N) as [P|P]; [exists N; split; [exact P|exists 1; ring]|].
  destruct (not_prime_divide N ltac:(lia) P) as (d & D & V). destruct (IH d ltac:(lia)) as (r & R & W).
  exists r. split; [exact R|]. now apply Z.divide_trans with d.
Qed.
Lemma small_divisor N : 1 < N -> ~ prime N -> exists r, prime r /\ (r | N) /\ r * r <= N.
Proof.
  intros H P. destruct (not_prime_divide N H P) as (d & D & c & C).
  assert (S : exists e, 1 < e /\ e * e <= N /\ (e | N)).
  { destruct (Z_le_dec (d * d) N); [exists d; repeat split; try lia; exists c; lia|]. exists c. repeat split; try nia. exists d. lia. }
  destruct S as (e & E1 & E2 & E3). destruct (prime_divisor (S (Z.to_nat e)) e ltac:(lia)) as (r & R & W).
  exists r. split; [exact R|]. split; [now apply Z.divide_trans with e|]. pose proof (prime_ge_2 _ R). apply Z.divide_pos_le in W; nia.
Qed.
(** the witness a for a factor f of N - 1, checked by computation; [witness1] leaves out the power N - 1 *)
Definition witness1 (N a f : Z) : bool :=
  ((N - 1) mod f =? 0) && (Z.gcd (Zpow_mod a ((N - 1) / f) N - 1) N =? 1).
Definition witness (N a f : Z) : bool :=
  let y := Zpow_mod a ((N - 1) / f) N in ((N - 1) mod f =? 0) && (Zpow_mod y f N =? 1) && (Z.gcd (y - 1) N =? 1).
Lemma witness_split N a f : 1 < N -> 1 < f -> witness N a f = true -> a ^ (N - 1) mod N = 1 /\ witness1 N a f = true.
Proof.
  intros N1 F W. unfold witness in W. cbv zeta in W. apply andb_prop in W as [W W3]. apply andb_prop in W as [W1 W2].
  split; [|unfold witness1; rewrite W1, W3; reflexivity].
  apply Z.eqb_eq in W1, W2. rewrite !Zpow_mod_correct in W2 by lia. rewrite <- Zpower_mod in W2 by lia.
  assert (E : N - 1 = (N - 1) / f * f) by (rewrite Z.mul_comm; apply Z_div_exact_full_2; lia).
  assert (0 <= (N - 1) / f) by (apply Z_div_pos; lia).
  rewrite E, Z.pow_mul_r by lia. exact W2.
Qed.
Lemma witness1_ok N a f r : 1 < N -> prime f -> a ^ (N - 1) mod N = 1 -> witness1 N a f = true -> prime r -> (r | N) -> (f | r - 1).
Proof.
  intros N1 Pf W2 W Pr D. unfold witness1 in W. apply andb_prop in W as [W1 W3].
  apply Z.eqb_eq in W1, W3. rewrite Zpow_mod_correct in W3 by lia. pose proof (prime_ge_2 _ Pf) as F2.
  apply (factor_divides N f a r); auto.
  - apply Z.mod_divide; [lia|exact W1].
  - assert (C : forall u v, u mod N = v mod N -> Z.gcd u N = Z.gcd v N).
    { intros u v H. rewrite (Z.gcd_comm u N), (Z.gcd_comm v N), <- (Z.gcd_mod u N), <- (Z.gcd_mod v N) by lia. now rewrite H. }
    etransitivity; [|exact W3]. apply C. symmetry. apply Zminus_mod_idemp_l.
Qed.
Lemma witness_ok N a f r : 1 < N -> prime f -> witness N a f = true -> prime r -> (r | N) -> (f | r - 1).
Proof.
  intros N1 Pf W Pr D. pose proof (prime_ge_2 _ Pf) as F2. destruct (witness_split N a f N1 ltac:(lia) W) as [A B].
  now apply (witness1_ok N a f r).
Qed.
Theorem pocklington N a f g : prime f -> prime g -> f <> g -> (N <? (f * g + 1) * (f * g + 1)) = true -> (1 <? N) = true ->
  witness N a f = true -> witness1 N a g = true -> prime N.
Proof.
  intros Pf Pg Nfg B N1 Wf Wg. apply Z.ltb_lt in B, N1. destruct (prime_dec N) as [|NP]; [assumption|exfalso].
  destruct (small_divisor N N1 NP) as (r & R & D & S). pose proof (prime_ge_2 _ R) as R2.
  pose proof (witness_ok N a f r N1 Pf Wf R D) as [u U]. pose proof (prime_ge_2 _ Pf) as F2. pose proof (witness1_ok N a g r N1 Pg (proj1 (witness_split N a f N1 ltac:(lia) Wf)) Wg R D) as Dg. rewrite U, Z.mul_comm in Dg.
  apply Gauss in Dg; [|apply prime_rel_prime; [exact Pg|]; intro X; apply prime_div_prime in X; auto].
  destruct Dg as [v V]. rewrite V in U. pose proof (prime_ge_2 _ Pf). pose proof (prime_ge_2 _ Pg). assert (0 < f * g) by nia. assert (1 <= v) by nia.
  assert (f * g + 1 <= r) by nia. nia.
Qed.
Theorem pocklington1 N a f : prime f -> (N <? (f + 1) * (f + 1)) = true -> (1 <? N) = true -> witness N a f = true -> prime N.
Proof.
  intros Pf B N1 W. apply Z.ltb_lt in B, N1. destruct (prime_dec N) as [|NP]; [assumption|exfalso].
  destruct (small_divisor N N1 NP) as (r & R & D & S). pose proof (prime_ge_2 _ R) as R2.
  pose proof (witness_ok N a f r N1 Pf W R D) as V. apply Z.divide_pos_le in V; [|lia]. pose proof (prime_ge_2 _ Pf). nia.
Qed.

(** * Trial division for the small factors *)
Fixpoint trial (fuel : nat) (d n : Z) : bool :=
  match fuel with
  | O => false
  | S k => if n <? d * d then true else if n mod d =? 0 then false else trial k (d + 1) n
  end.
Lemma trial_ok n : 1 < n -> forall fuel d, 1 < d -> trial fuel d n = true -> forall r, d <= r -> r * r <= n -> ~ (r | n).
Proof.
  intros N. induction fuel as [|k IH]; intros d D H r L S V; [discriminate|]. cbn [trial] in H.
  destruct (n <? d * d) eqn:E; [apply Z.ltb_lt in E; nia|]. destruct (n mod d =? 0) eqn:M; [discriminate|].
  destruct (Z.eq_dec r d) as [->|X].
  - apply Z.eqb_neq in M. apply M. now apply Z.mod_divide; [lia|].
  - exact (IH (d + 1) ltac:(lia) H r ltac:(lia) S V).
Qed.
Lemma trial_prime fuel n : (1 <? n) = true -> trial fuel 2 n = true -> prime n.
Proof.
  intros N T. apply Z.ltb_lt in N. destruct (prime_dec n) as [|P]; [assumption|exfalso].
  destruct (small_divisor n N P) as (r & R & D & S). exact (trial_ok n N fuel 2 ltac:(lia) T r (prime_ge_2 _ R) S D).
Qed.

(** * The chain of certificates *)
Lemma prime_a : prime 78283. Proof. apply (trial_prime (Z.to_nat 1000)); vm_compute; reflexivity. Qed.
Lemma prime_b : prime 704251. Proof. apply (trial_prime (Z.to_nat 1000)); vm_compute; reflexivity. Qed.
Lemma prime_c : prime 204061199. Proof. apply (trial_prime (Z.to_nat 15000)); vm_compute; reflexivity. Qed.
Lemma prime_d : prime 46076956964474543.
Proof. apply (pocklington _ 2 78283 704251 prime_a prime_b); [lia|vm_compute; reflexivity..]. Qed.
Lemma prime_e : prime 34282281433.
Proof. apply (pocklington1 _ 2 204061199 prime_c); vm_compute; reflexivity. Qed.
Lemma prime_f : prime 774023187263532362759620327192479577272145303.
Proof. apply (pocklington _ 2 46076956964474543 34282281433 prime_d prime_e); [lia|vm_compute; reflexivity..]. Qed.
Lemma prime_g : prime 835945042244614951780389953367877943453916927241.
Proof. apply (pocklington1 _ 2 774023187263532362759620327192479577272145303 prime_f); vm_compute; reflexivity. Qed.
Theorem p256_prime : prime p256.
Proof. apply (pocklington1 _ 2 835945042244614951780389953367877943453916927241 prime_g); vm_compute; reflexivity. Qed.
Theorem field_prime : prime (2 ^ 256 - 2 ^ 224 + 2 ^ 192 + 2 ^ 96 - 1).
Proof. assert (E : 2 ^ 256 - 2 ^ 224 + 2 ^ 192 + 2 ^ 96 - 1 = p256) by (vm_compute; reflexivity). rewrite E. exact p256_prime. Qed.

(** the order of the group (SEC 2, section 2.4.2) *)
Definition n256 : Z := 115792089210356248762697446949407573529996955224135760342422259061068512044369.
Lemma prime_h : prime 3023. Proof. apply (trial_prime (Z.to_nat 1000)); vm_compute; reflexivity. Qed.
Lemma prime_i : prime 191039911. Proof. apply (trial_prime (Z.to_nat 15000)); vm_compute; reflexivity. Qed.
Lemma prime_j : prime 3969899. Proof. apply (trial_prime (Z.to_nat 3000)); vm_compute; reflexivity. Qed.
Lemma prime_k : prime 208150935158385979.
Proof. apply (pocklington _ 2 191039911 3023 prime_i prime_h); [lia|vm_compute; reflexivity..]. Qed.
Lemma prime_l : prime 2624747550333869278416773953.
Proof. apply (pocklington1 _ 2 208150935158385979 prime_k); vm_compute; reflexivity. Qed.
Lemma prime_m : prime 1002328039319.
Proof. apply (pocklington1 _ 2 3969899 prime_j); vm_compute; reflexivity. Qed.
Theorem n256_prime : prime n256.
Proof. apply (pocklington _ 2 2624747550333869278416773953 1002328039319 prime_l prime_m); [lia|vm_compute; reflexivity..]. Qed.
Theorem order_prime : prime 115792089210356248762697446949407573529996955224135760342422259061068512044369.
Proof. assert (E : 115792089210356248762697446949407573529996955224135760342422259061068512044369 = n256) by (vm_compute; reflexivity). rewrite E. exact n256_prime. Qed.
Theorem conversion_p256 ccrh ra rb Delta raw xa ya xb yb : length raw = 5%nat -> Forall (fun r => length r = 256%nat) raw ->
  exists s t, e2f_offline ccrh p256 256 ra rb Delta raw = Ok (s, t) /\
    (((e_a s + e_a t) mod p256 = 0 \/ xa mod p256 = xb mod p256) -> e2f_online p256 s t xa ya xb yb = Err) /\
    ((e_a s + e_a t) mod p256 <> 0 -> xa mod p256 <> xb mod p256 ->
     exists oa ob y3, e2f_online p256 s t xa ya xb yb = Ok (oa, ob) /\ 0 <= oa < p256 /\ 0 <= ob < p256 /\
       chord_sum p256 xa ya xb yb (oa + ob) y3).
Proof. intros L F. apply e2f_correct; [exact p256_prime|exact p256_bound|vm_compute; reflexivity|exact L|exact F]. Qed.
