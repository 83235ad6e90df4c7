(** Commutative groups with a generator and an annihilating order, integer multiples, linear
    combinations.  No otls content. *)
From Coq Require Import List ZArith Lia Bool PArith.
Import ListNotations.
Local Open Scope Z_scope.

Record Grp : Type := MkGrp {
  pt : Type;
  pz : pt;
  padd : pt -> pt -> pt;
  popp : pt -> pt;
  peqb : pt -> pt -> bool;
  gen : pt;
  order : Z;
  peqb_ok : forall a b, peqb a b = true <-> a = b;
  padd_assoc : forall a b c, padd a (padd b c) = padd (padd a b) c;
  padd_comm : forall a b, padd a b = padd b a;
  padd_0_l : forall a, padd pz a = a;
  padd_opp : forall a, padd a (popp a) = pz;
}.
Arguments pz {_}.
Arguments padd {_}.
Arguments popp {_}.
Arguments peqb {_}.
Arguments gen {_}.

(** k-fold sum, by doubling and adding *)
Definition smul {g : Grp} (k : Z) (P : pt g) : pt g :=
  match k with
  | Z0 => pz
  | Zpos p => Pos.iter_op padd p P
  | Zneg p => popp (Pos.iter_op padd p P)
  end.
Arguments smul : simpl never.
(** every element is killed by the order *)
Definition annihilates (g : Grp) : Prop := 0 < order g /\ forall P : pt g, smul (order g) P = pz.
(** the generator has exactly that order *)
Definition exact_order (g : Grp) : Prop := forall k, smul k (@gen g) = pz -> (order g | k).
Fixpoint lincomb {g : Grp} (ks : list Z) (Ps : list (pt g)) : pt g :=
  match ks, Ps with
  | k :: ks, P :: Ps => padd (smul k P) (lincomb ks Ps)
  | _, _ => pz
  end.

Section G.
Context {g : Grp}.
Implicit Types P Q R : pt g.
Lemma padd_0_r P : padd P pz = P.
Proof. rewrite padd_comm. apply padd_0_l. Qed.
Lemma padd_cancel P Q R : padd P Q = padd P R -> Q = R.
Proof.
  intro E. assert (F : padd (popp P) (padd P Q) = padd (popp P) (padd P R)) by now rewrite E.
  now rewrite !padd_assoc, (padd_comm _ (popp P)), padd_opp, !padd_0_l in F.
Qed.
Lemma popp_uniq P Q : padd P Q = pz -> Q = popp P.
Proof. intro E. apply (padd_cancel P). now rewrite E, padd_opp. Qed.
Lemma popp_0 : popp pz = @pz g.
Proof. symmetry. apply popp_uniq. apply padd_0_l. Qed.
Lemma popp_popp P : popp (popp P) = P.
Proof. symmetry. apply popp_uniq. rewrite padd_comm. apply padd_opp. Qed.
Lemma padd_swap P Q R T : padd (padd P Q) (padd R T) = padd (padd P R) (padd Q T).
Proof. rewrite <- !padd_assoc. f_equal. rewrite !padd_assoc. f_equal. apply padd_comm. Qed.
Lemma popp_add P Q : popp (padd P Q) = padd (popp P) (popp Q).
Proof. symmetry. apply popp_uniq. rewrite padd_swap, !padd_opp. apply padd_0_l. Qed.
Lemma peqb_refl P : peqb P P = true.
Proof. now apply peqb_ok. Qed.

Lemma smul_0 P : smul 0 P = pz.
Proof. reflexivity. Qed.
Lemma smul_1 P : smul 1 P = P.
Proof. reflexivity. Qed.
Lemma smul_opp k P : smul (- k) P = popp (smul k P).
Proof. destruct k; cbn; unfold smul; [now rewrite popp_0|reflexivity|now rewrite popp_popp]. Qed.
Lemma smul_succ_pos p P : smul (Zpos (Pos.succ p)) P = padd P (smul (Zpos p) P).
Proof. unfold smul. apply Pos.iter_op_succ. intros. apply padd_assoc. Qed.
Lemma smul_succ k P : smul (Z.succ k) P = padd P (smul k P).
Proof.
  destruct k as [|p|p].
  - cbn. now rewrite smul_1, smul_0, padd_0_r.
  - rewrite <- Pos2Z.inj_succ. apply smul_succ_pos.
  - apply (padd_cancel (popp P)). rewrite !padd_assoc, (padd_comm _ (popp P) P), padd_opp, padd_0_l.
    change (Zneg p) with (- Zpos p). rewrite !smul_opp.
    replace (Z.succ (- Zpos p)) with (- Z.pred (Zpos p)) by lia. rewrite smul_opp, <- popp_add. f_equal.
    destruct (Z.eq_dec (Z.pred (Zpos p)) 0) as [E|N].
    + assert (p = 1%positive) by lia. subst p. cbn. now rewrite smul_0, smul_1, padd_0_r.
    + replace (Zpos p) with (Zpos (Pos.succ (Pos.pred p))) by (rewrite Pos.succ_pred; auto; intros ->; cbn in N; lia).
      rewrite smul_succ_pos. f_equal. f_equal. lia.
Qed.
Lemma smul_pred k P : smul (Z.pred k) P = padd (popp P) (smul k P).
Proof.
  rewrite <- (Z.succ_pred k) at 2. now rewrite smul_succ, padd_assoc, (padd_comm _ (popp P)), padd_opp, padd_0_l.
Qed.
Lemma smul_add_l a b P : smul (a + b) P = padd (smul a P) (smul b P).
Proof.
  induction a as [|a IH|a IH] using Z.peano_ind.
  - now rewrite Z.add_0_l, smul_0, padd_0_l.
  - now rewrite Z.add_succ_l, !smul_succ, IH, padd_assoc.
  - now rewrite Z.add_pred_l, !smul_pred, IH, padd_assoc.
Qed.
Lemma smul_add_r k P Q : smul k (padd P Q) = padd (smul k P) (smul k Q).
Proof.
  induction k as [|k IH|k IH] using Z.peano_ind.
  - now rewrite !smul_0, padd_0_l.
  - now rewrite !smul_succ, IH, padd_swap.
  - now rewrite !smul_pred, IH, popp_add, padd_swap.
Qed.
Lemma smul_z k : smul k pz = @pz g.
Proof.
  induction k as [|k IH|k IH] using Z.peano_ind.
  - apply smul_0.
  - now rewrite smul_succ, IH, padd_0_l.
  - now rewrite smul_pred, IH, popp_0, padd_0_l.
Qed.
Lemma smul_mul a b P : smul (a * b) P = smul a (smul b P).
Proof.
  induction a as [|a IH|a IH] using Z.peano_ind.
  - now rewrite Z.mul_0_l, !smul_0.
  - now rewrite Z.mul_succ_l, smul_add_l, IH, smul_succ, padd_comm.
  - now rewrite Z.mul_pred_l, <- Z.add_opp_r, smul_add_l, IH, smul_opp, smul_pred, padd_comm.
Qed.

Lemma smul_dvd k P : annihilates g -> (order g | k) -> smul k P = pz.
Proof. intros [_ A] [m ->]. rewrite smul_mul. rewrite A. apply smul_z. Qed.
Lemma smul_mod k P : annihilates g -> smul (k mod order g) P = smul k P.
Proof.
  intro A. assert (N : order g <> 0) by (destruct A; lia).
  rewrite (Z.div_mod k (order g)) at 2 by auto. rewrite smul_add_l.
  rewrite (smul_dvd (order g * (k / order g))), padd_0_l; auto. exists (k / order g). ring.
Qed.
Lemma smul_congr a b P : annihilates g -> a mod order g = b mod order g -> smul a P = smul b P.
Proof. intros A E. rewrite <- (smul_mod a), <- (smul_mod b); auto. now rewrite E. Qed.
Lemma smul_eq_gen a b : annihilates g -> exact_order g ->
  (smul a (@gen g) = smul b gen <-> a mod order g = b mod order g).
Proof.
  intros A X. split; [|now apply smul_congr]. intro E.
  assert (D : (order g | a - b)).
  { apply X. rewrite <- Z.add_opp_r, smul_add_l, smul_opp, E. apply padd_opp. }
  destruct D as [k D]. replace a with (b + k * order g) by lia. apply Z_mod_plus_full.
Qed.

Lemma lincomb_app ks Ps : forall ks' Ps', length ks = length Ps ->
  lincomb (ks ++ ks') (Ps ++ Ps') = padd (lincomb ks Ps) (@lincomb g ks' Ps').
Proof.
  revert Ps. induction ks as [|k ks IH]; intros [|P Ps] ks' Ps' L; try discriminate; cbn [lincomb app].
  - now rewrite padd_0_l.
  - rewrite IH by (cbn in L; lia). apply padd_assoc.
Qed.
End G.

(** ** Instance: the integers modulo n, any generator; [tbl_ok] carries the range as a boolean
    equation so that equal representatives are equal elements *)
Definition Zn (n : Z) : Type := { k : Z | (0 <=? k) && (k <? n) = true }.
Lemma Zn_eq n (a b : Zn n) : proj1_sig a = proj1_sig b -> a = b.
Proof.
  destruct a as [a Ha], b as [b Hb]. cbn. intros ->. f_equal. apply Eqdep_dec.UIP_dec. apply bool_dec.
Qed.
Lemma Zn_range n (a : Zn n) : 0 <= proj1_sig a < n.
Proof. destruct a as [a H]. cbn. apply andb_true_iff in H as [H1 H2]. lia. Qed.
Lemma Zn_mk_ok n k : 0 < n -> (0 <=? k mod n) && (k mod n <? n) = true.
Proof. intro H. pose proof (Z.mod_pos_bound k n H). apply andb_true_iff. lia. Qed.
Definition Zn_mk n (H : 0 < n) (k : Z) : Zn n := exist _ (k mod n) (Zn_mk_ok n k H).
Definition ZnGrp (n : Z) (H : 0 < n) (g0 : Z) : Grp.
Proof.
  refine {| pt := Zn n; pz := Zn_mk n H 0; padd a b := Zn_mk n H (proj1_sig a + proj1_sig b);
            popp a := Zn_mk n H (- proj1_sig a); peqb a b := proj1_sig a =? proj1_sig b;
            gen := Zn_mk n H g0; order := n |}.
  - intros a b. rewrite Z.eqb_eq. split; [apply Zn_eq|now intros ->].
  - intros a b c. apply Zn_eq. cbn. rewrite Z.add_mod_idemp_r, Z.add_mod_idemp_l by lia. f_equal. lia.
  - intros a b. apply Zn_eq. cbn. f_equal. lia.
  - intros a. apply Zn_eq. cbn. apply Z.mod_small. apply Zn_range.
  - intros a. apply Zn_eq. cbn. rewrite Z.add_mod_idemp_r by lia. rewrite Z.add_opp_diag_r. reflexivity.
Defined.
Lemma Zn_smul n H g0 k (P : Zn n) : proj1_sig (@smul (ZnGrp n H g0) k P) = (k * proj1_sig P) mod n.
Proof.
  induction k as [|k IH|k IH] using Z.peano_ind.
  - reflexivity.
  - rewrite smul_succ. cbn [padd ZnGrp proj1_sig Zn_mk]. rewrite IH, Z.add_mod_idemp_r by lia. f_equal. lia.
  - rewrite smul_pred. cbn [padd popp ZnGrp proj1_sig Zn_mk]. rewrite IH, Z.add_mod_idemp_r, Z.add_mod_idemp_l by lia. f_equal. lia.
Qed.
Lemma Zn_annihilates n H g0 : annihilates (ZnGrp n H g0).
Proof.
  split; [exact H|]. intro P. apply Zn_eq. rewrite Zn_smul. cbn [order ZnGrp pz Zn_mk proj1_sig].
  rewrite Z.mul_comm, Z.mod_mul, Z.mod_0_l; lia.
Qed.
Lemma Zn_exact n H : 1 < n -> exact_order (ZnGrp n H 1).
Proof.
  intros N k E. apply (f_equal (@proj1_sig _ _)) in E. rewrite Zn_smul in E.
  cbn [gen ZnGrp pz Zn_mk proj1_sig order] in *. rewrite Z.mul_mod_idemp_r, Z.mul_1_r, Z.mod_0_l in E by lia.
  apply Z.mod_divide; lia.
Qed.
