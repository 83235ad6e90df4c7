(** Hash commitments and Pedersen commitments. *)
From Coq Require Import List NArith ZArith Bool Arith Lia.
From Verif Require Import L_Bits L_Res L_Group M_Bn M_Ec M_Commit P_Dh.
Import ListNotations.
Local Open Scope Z_scope.

Lemma memcmp0_iff n : forall a b, length a = n -> length b = n ->
  memcmp0 n a b = Ok (if list_eq_dec N.eq_dec a b then true else false).
Proof.
  induction n as [|n IH]; intros [|x a] [|y b] La Lb; try discriminate; [reflexivity|].
  cbn [memcmp0]. rewrite IH by (cbn in La, Lb; lia). cbn [bind].
  destruct (list_eq_dec N.eq_dec a b) as [->|N], (N.eqb_spec x y) as [->|M]; cbn [andb];
    destruct (list_eq_dec _ _ _) as [E|E]; congruence.
Qed.
Lemma memcmp0_true n a b : length a = n -> length b = n -> (memcmp0 n a b = Ok true <-> a = b).
Proof.
  intros La Lb. rewrite memcmp0_iff by auto. destruct (list_eq_dec _ a b) as [E|E]; split; intro H; congruence.
Qed.

Section HC.
Variable hash : list N -> list N.
Hypothesis hash_len : forall m, length (hash m) = DIGEST_SIZE.

Theorem hc_complete rnd data : 
  let (com, p) := hc_commit hash [] rnd data in
  p = [] /\ hc_open hash [] com rnd data = Ok (true, []).
Proof.
  cbn. split; [reflexivity|]. unfold hc_open. cbn [app].
  rewrite (proj2 (memcmp0_true DIGEST_SIZE _ _ (hash_len _) (hash_len _)) eq_refl). reflexivity.
Qed.
Theorem hc_open_iff com rnd data : length com = DIGEST_SIZE ->
  hc_open hash [] com rnd data = Ok (if list_eq_dec N.eq_dec com (hash (data ++ firstn rand_length rnd)) then true else false, []).
Proof. intro L. unfold hc_open. cbn [app]. now rewrite memcmp0_iff by auto. Qed.
Theorem hc_binding com r1 d1 r2 d2 : length com = DIGEST_SIZE -> length r1 = rand_length -> length r2 = rand_length ->
  d1 <> d2 -> hc_open hash [] com r1 d1 = Ok (true, []) -> hc_open hash [] com r2 d2 = Ok (true, []) ->
  exists m1 m2, m1 <> m2 /\ hash m1 = hash m2 /\ m1 = d1 ++ r1 /\ m2 = d2 ++ r2.
Proof.
  intros L L1 L2 ND H1 H2. rewrite hc_open_iff in H1, H2 by auto.
  rewrite firstn_all2 in H1 by lia. rewrite firstn_all2 in H2 by lia.
  destruct (list_eq_dec N.eq_dec com (hash (d1 ++ r1))) as [E1|]; [|discriminate].
  destruct (list_eq_dec N.eq_dec com (hash (d2 ++ r2))) as [E2|]; [|discriminate].
  exists (d1 ++ r1), (d2 ++ r2). repeat split; [|congruence].
  intro E. apply ND. assert (Ld : length d1 = length d2).
  { apply (f_equal (@length N)) in E. rewrite !app_length in E. lia. }
  apply (f_equal (firstn (length d1))) in E. rewrite firstn_exact in E by auto. now rewrite firstn_exact in E by auto.
Qed.
(** every call of a sequence behaves as on a new object *)
Definition hc_one (o : hc_op) : hc_out :=
  match o with
  | HcCommit rnd data => HcCom (hash (data ++ firstn rand_length rnd))
  | HcOpen com rnd data => HcRes (if list_eq_dec N.eq_dec com (hash (data ++ firstn rand_length rnd)) then true else false)
  end.
Definition hc_wf (o : hc_op) : Prop := match o with HcCommit _ _ => True | HcOpen com _ _ => length com = DIGEST_SIZE end.
Theorem hc_sequence ops : Forall hc_wf ops -> hc_run hash [] ops = Ok (map hc_one ops).
Proof.
  induction 1 as [|o ops W _ IH]; [reflexivity|]. destruct o as [rnd data|com rnd data]; cbn [hc_run map hc_one].
  - unfold hc_commit. rewrite IH. reflexivity.
  - rewrite hc_open_iff by exact W. cbn [bind]. rewrite IH. reflexivity.
Qed.
End HC.

Section PED.
Context {C : Curve}.
Notation point := (pt (cgrp C)).
Variable h : point.
Notation q := (order (cgrp C)).

Lemma commit_val rnd msg : pc_commit h rnd msg = padd (smul msg gen) (smul rnd h).
Proof. reflexivity. Qed.
Theorem pc_open_iff com rnd msg : pc_open_check h com rnd msg = true <-> com = padd (smul msg gen) (smul rnd h).
Proof. unfold pc_open_check. rewrite Z.eqb_eq, cmp_iff. reflexivity. Qed.
Theorem pc_complete rnd msg : pc_open_check h (pc_commit h rnd msg) rnd msg = true.
Proof. now apply pc_open_iff. Qed.
(** the opening is only determined modulo the order *)
Theorem pc_open_mod com rnd msg rnd' msg' : annihilates C -> rnd mod q = rnd' mod q -> msg mod q = msg' mod q ->
  pc_open_check h com rnd msg = pc_open_check h com rnd' msg'.
Proof.
  intros A Er Em. apply eq_true_iff_eq. rewrite !pc_open_iff.
  now rewrite (smul_congr rnd rnd'), (smul_congr msg msg') by auto.
Qed.

Lemma comb_loop l : forall r, pc_comb_loop r l = padd r (lincomb (map snd l) (map (@fst point Z) l)).
Proof.
  induction l as [|[c k] l IH]; intro r; cbn [pc_comb_loop map lincomb fst snd].
  - now rewrite padd_0_r.
  - now rewrite IH, mul_pt, padd_assoc.
Qed.
Fixpoint dot (ks xs : list Z) : Z :=
  match ks, xs with k :: ks, x :: xs => k * x + dot ks xs | _, _ => 0 end.
Lemma rand_loop l : 0 < q -> forall r, 0 <= r < q -> @pc_rand_loop C r l = (r + dot (map snd l) (map fst l)) mod q.
Proof.
  intros Hq. induction l as [|[x k] l IH]; intros r Hr; cbn [pc_rand_loop map dot fst snd].
  - now rewrite Z.add_0_r, Z.mod_small.
  - unfold BN_mod_add, BN_mod_mul. rewrite IH by (apply Z.mod_pos_bound; lia).
    rewrite Z.add_mod_idemp_r by lia. rewrite Z.add_mod_idemp_l by lia. f_equal. ring.
Qed.
Lemma combine_fst {A B} (a : list A) : forall b : list B, length a = length b -> map fst (combine a b) = a.
Proof. induction a as [|x a IH]; intros [|y b] L; try discriminate; [reflexivity|]. cbn. f_equal. apply IH. cbn in L. lia. Qed.
Lemma combine_snd {A B} (a : list A) : forall b : list B, length a = length b -> map snd (combine a b) = b.
Proof. induction a as [|x a IH]; intros [|y b] L; try discriminate; [reflexivity|]. cbn. f_equal. apply IH. cbn in L. lia. Qed.
Theorem linear_com_ok coms coef : length coms = length coef ->
  pc_linear_comb_com coms coef = Ok (@lincomb C coef coms).
Proof.
  intro L. unfold pc_linear_comb_com. rewrite (proj2 (Nat.eqb_eq _ _) L). cbn [negb].
  now rewrite comb_loop, padd_0_l, combine_fst, combine_snd.
Qed.
Theorem linear_rand_ok rnds coef : 0 < q -> length rnds = length coef ->
  @pc_linear_comb_rand C rnds coef = Ok (dot coef rnds mod q).
Proof.
  intros Hq L. unfold pc_linear_comb_rand. rewrite (proj2 (Nat.eqb_eq _ _) L). cbn [negb].
  now rewrite rand_loop, Z.add_0_l, combine_fst, combine_snd by (auto; lia).
Qed.
Lemma lincomb_commit coef : forall rnds msgs, length rnds = length coef -> length msgs = length coef ->
  lincomb coef (map2 (pc_commit h) rnds msgs) = padd (smul (dot coef msgs) gen) (smul (dot coef rnds) h).
Proof.
  induction coef as [|k coef IH]; intros [|r rnds] [|m msgs] L1 L2; try discriminate; cbn [lincomb map2 dot].
  - now rewrite !smul_0, padd_0_l.
  - rewrite IH by (cbn in L1, L2; lia). rewrite commit_val, !smul_add_l, smul_add_r, <- !smul_mul. apply padd_swap.
Qed.
Theorem pc_homomorphic rnds msgs coef : annihilates C -> length rnds = length coef -> length msgs = length coef ->
  exists com r m, pc_linear_comb_com (map2 (pc_commit h) rnds msgs) coef = Ok com /\
    @pc_linear_comb_rand C rnds coef = Ok r /\ @pc_linear_comb_rand C msgs coef = Ok m /\
    r = dot coef rnds mod q /\ m = dot coef msgs mod q /\ pc_open_check h com r m = true.
Proof.
  intros A L1 L2. assert (Hq : 0 < q) by apply A.
  assert (L3 : length (map2 (pc_commit h) rnds msgs) = length coef).
  { rewrite map2_length. lia. }
  rewrite linear_com_ok, !linear_rand_ok by auto. do 3 eexists. repeat (split; [reflexivity|]).
  apply pc_open_iff. rewrite lincomb_commit by auto. now rewrite !smul_mod by auto.
Qed.
Theorem pc_extract com r1 m1 r2 m2 : pc_open_check h com r1 m1 = true -> pc_open_check h com r2 m2 = true ->
  smul (m1 - m2) gen = smul (r2 - r1) h.
Proof.
  rewrite !pc_open_iff. intros -> E. apply (padd_cancel (padd (smul m2 gen) (smul r1 h))).
  rewrite <- !Z.add_opp_r, !smul_add_l, !smul_opp.
  replace (padd (padd (smul m2 gen) (smul r1 h)) (padd (smul m1 gen) (popp (smul m2 gen))))
    with (padd (smul m1 gen) (smul r1 h)).
  2: { rewrite (padd_comm _ (smul m2 gen)), padd_swap, padd_opp, padd_0_r. apply padd_comm. }
  now rewrite E, padd_swap, padd_opp, padd_0_r.
Qed.
End PED.
