(** A concrete curve for the examples: y^2 = x^3 + 2x + 2 over F_17, whose 19 points form a
    group of prime order generated by (5, 1); the k-th entry is k * (5, 1). *)
From Coq Require Import List NArith ZArith Bool Lia Znumtheory.
From Verif Require Import L_Group S_Ec M_Ec.
Import ListNotations.
Local Open Scope Z_scope.

Definition toy_tbl : list (option (Z * Z)) :=
  [None; Some (5, 1); Some (6, 3); Some (10, 6); Some (3, 1); Some (9, 16); Some (16, 13); Some (0, 6); Some (13, 7); Some (7, 6); Some (7, 11); Some (13, 10); Some (0, 11); Some (16, 4); Some (9, 1); Some (3, 16); Some (10, 11); Some (6, 14); Some (5, 16)].
Lemma n19 : 0 < 19.
Proof. reflexivity. Qed.
Definition toy_grp : Grp := ZnGrp 19 n19 1.
Definition toy_coords (k : Z) : option (Z * Z) := nth (Z.to_nat k) toy_tbl None.
Definition opt_eqb (a b : option (Z * Z)) : bool :=
  match a, b with
  | Some (x, y), Some (x', y') => (x =? x') && (y =? y')
  | None, None => true
  | _, _ => false
  end.
Definition toy_find (x y : Z) : option Z :=
  find (fun k => opt_eqb (toy_coords k) (Some (x, y))) (map Z.of_nat (seq 0 19)).

Lemma opt_eqb_ok a b : opt_eqb a b = true <-> a = b.
Proof.
  destruct a as [[x y]|], b as [[x' y']|]; cbn; split; intro H; try discriminate; try reflexivity.
  - apply andb_true_iff in H as [H1 H2]. apply Z.eqb_eq in H1, H2. now subst.
  - injection H as -> ->. now rewrite !Z.eqb_refl.
Qed.
Lemma in19 (a : Zn 19) : In (proj1_sig a) (map Z.of_nat (seq 0 19)).
Proof.
  pose proof (Zn_range 19 a) as R. apply in_map_iff. exists (Z.to_nat (proj1_sig a)).
  rewrite Z2Nat.id by lia. split; [reflexivity|]. apply in_seq. lia.
Qed.
(** the facts about the table, by enumeration *)
Definition ks : list Z := map Z.of_nat (seq 0 19).
Definition chk_pz : bool := forallb (fun k => Bool.eqb (opt_eqb (toy_coords k) None) (k =? 0)) ks.
Definition chk_inj : bool :=
  forallb (fun k => match toy_coords k with Some (x, y) => match toy_find x y with Some k' => k' =? k | None => false end
                    | None => true end) ks.
Definition chk_range : bool :=
  forallb (fun k => match toy_coords k with
                    | Some (x, y) => (0 <=? x) && (x <? 17) && (0 <=? y) && (y <? 17) | None => true end) ks.
Definition slope (x1 y1 x2 y2 : Z) : Z :=
  match find (fun l => (l * (x2 - x1)) mod 17 =? (y2 - y1) mod 17) (map Z.of_nat (seq 0 17)) with Some l => l | None => 0 end.
Definition chk_chord : bool :=
  forallb (fun k => forallb (fun k' =>
    match toy_coords k, toy_coords k' with
    | Some (x1, y1), Some (x2, y2) =>
        (x1 =? x2) ||
        match toy_coords ((k + k') mod 19) with
        | Some (x3, y3) =>
            let l := slope x1 y1 x2 y2 in
            ((l * (x2 - x1)) mod 17 =? (y2 - y1) mod 17) && (x3 mod 17 =? (l * l - x1 - x2) mod 17) &&
            (y3 mod 17 =? (l * (x1 - x3) - y1) mod 17)
        | None => false
        end
    | _, _ => true
    end) ks) ks.

Definition toy : Curve.
Proof.
  refine {| cgrp := toy_grp; cp := 17;
            coords := fun P => toy_coords (proj1_sig P);
            of_coords := fun x y => option_map (Zn_mk 19 n19) (toy_find x y) |}.
  - intro P. assert (A : chk_pz = true) by reflexivity. unfold chk_pz in A. rewrite forallb_forall in A.
    specialize (A _ (in19 P)). apply eqb_prop in A.
    split; intro H.
    + apply Zn_eq. apply opt_eqb_ok in H. rewrite H in A. symmetry in A. apply Z.eqb_eq in A. rewrite A. reflexivity.
    + subst P. reflexivity.
  - intros x y P. split.
    + unfold toy_find. intro H. destruct (find _ _) as [k|] eqn:E; [|discriminate]. cbn [option_map] in H. injection H as <-.
      apply find_some in E as [I E]. apply opt_eqb_ok in E. cbn [proj1_sig Zn_mk].
      rewrite Z.mod_small; [exact E|]. apply in_map_iff in I as (n & <- & I). apply in_seq in I. lia.
    + intro H. assert (A : chk_inj = true) by reflexivity. unfold chk_inj in A. rewrite forallb_forall in A.
      specialize (A _ (in19 P)). rewrite H in A.
      destruct (toy_find x y) as [k|]; [|discriminate]. apply Z.eqb_eq in A. subst k. cbn [option_map]. f_equal.
      apply Zn_eq. cbn [proj1_sig Zn_mk]. apply Z.mod_small. apply Zn_range.
  - intros P x y H. assert (A : chk_range = true) by reflexivity. unfold chk_range in A. rewrite forallb_forall in A.
    specialize (A _ (in19 P)). rewrite H in A. rewrite !andb_true_iff in A. lia.
  - intros P Q x1 y1 x2 y2 HP HQ N. assert (A : chk_chord = true) by reflexivity. unfold chk_chord in A.
    rewrite forallb_forall in A. specialize (A _ (in19 P)). rewrite forallb_forall in A. specialize (A _ (in19 Q)).
    rewrite HP, HQ in A. apply orb_true_iff in A as [A|A]; [apply Z.eqb_eq in A; contradiction|].
    change (proj1_sig (padd P Q)) with ((proj1_sig P + proj1_sig Q) mod 19).
    destruct (toy_coords ((proj1_sig P + proj1_sig Q) mod 19)) as [[x3 y3]|]; [|discriminate]. exists x3, y3. split; [reflexivity|].
    rewrite !andb_true_iff in A. destruct A as [[A1 A2] A3]. apply Z.eqb_eq in A1, A2, A3.
    exists (slope x1 y1 x2 y2). unfold congr. auto.
  - reflexivity.
Defined.
Lemma toy_annihilates : annihilates toy.
Proof. exact (Zn_annihilates 19 n19 1). Qed.
Lemma toy_exact : exact_order toy.
Proof. apply Zn_exact. reflexivity. Qed.
(** the k-th point *)
Definition toy_pt (k : Z) : pt (cgrp toy) := Zn_mk 19 n19 k.
