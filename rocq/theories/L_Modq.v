(** Congruence of integers modulo q as a ring.  No otls content. *)
From Coq Require Import ZArith Lia Ring Setoid Morphisms Znumtheory.
Local Open Scope Z_scope.

Definition cong (q a b : Z) : Prop := (q | a - b).

Section Q.
Variable q : Z.
Notation "a == b" := (cong q a b) (at level 70).
Lemma cong_refl a : a == a.
Proof. exists 0. lia. Qed.
Lemma cong_sym a b : a == b -> b == a.
Proof. intros [k H]. exists (-k). lia. Qed.
Lemma cong_trans a b c : a == b -> b == c -> a == c.
Proof. intros [k H] [l H']. exists (k + l). lia. Qed.
Global Instance cong_equiv : Equivalence (cong q).
Proof. split; red; [exact cong_refl|exact cong_sym|exact cong_trans]. Qed.
Global Instance cong_add : Proper (cong q ==> cong q ==> cong q) Z.add.
Proof. intros a b [k H] c d [l H']. exists (k + l). lia. Qed.
Global Instance cong_sub : Proper (cong q ==> cong q ==> cong q) Z.sub.
Proof. intros a b [k H] c d [l H']. exists (k - l). lia. Qed.
Global Instance cong_opp : Proper (cong q ==> cong q) Z.opp.
Proof. intros a b [k H]. exists (-k). lia. Qed.
Global Instance cong_mul : Proper (cong q ==> cong q ==> cong q) Z.mul.
Proof.
  intros a b [k H] c d [l H']. exists (k * c + b * l).
  replace (a * c - b * d) with ((a - b) * c + b * (c - d)) by ring. rewrite H, H'. ring.
Qed.
Lemma cong_ring : ring_theory 0 1 Z.add Z.mul Z.sub Z.opp (cong q).
Proof. split; intros; match goal with |- ?a == ?b => replace a with b by ring; apply cong_refl end. Qed.
Lemma cong_ext : ring_eq_ext Z.add Z.mul Z.opp (cong q).
Proof. split; [exact cong_add|exact cong_mul|exact cong_opp]. Qed.

Lemma mod_cong a : a mod q == a.
Proof.
  destruct (Z.eq_dec q 0) as [E|N]; [unfold cong; rewrite E, Zmod_0_r; exists 0; lia|].
  exists (- (a / q)). rewrite Z.mod_eq by auto. ring.
Qed.
(** lets [rewrite] work under "mod q" *)
Definition at_q (x y : Z) : Prop := x = q /\ y = q.
Global Instance cong_modulo : Proper (cong q ==> at_q ==> cong q) Z.modulo.
Proof. intros a b H c d [-> ->]. transitivity a; [apply mod_cong|]. rewrite H. symmetry. apply mod_cong. Qed.
Global Instance at_q_proxy : ProperProxy at_q q.
Proof. split; reflexivity. Qed.
Lemma rem_cong a : Z.rem a q == a.
Proof.
  destruct (Z.eq_dec q 0) as [E|N]; [unfold cong; rewrite E, Z.rem_0_r_ext by auto; exists 0; lia|].
  exists (- (Z.quot a q)). rewrite Z.rem_eq by auto. ring.
Qed.
Lemma q_cong : q == 0.
Proof. exists 1. lia. Qed.
Lemma q_minus_cong p : q - p == - p.
Proof. exists 1. lia. Qed.
Lemma cong_iff a b : q <> 0 -> (a == b <-> a mod q = b mod q).
Proof.
  intro N. split.
  - intros [k H]. replace a with (b + k * q) by lia. apply Z_mod_plus_full.
  - intro E. rewrite <- (mod_cong a), E. apply mod_cong.
Qed.
Lemma cong_small a b : 0 <= a < q -> 0 <= b < q -> a == b -> a = b.
Proof. intros Ha Hb H. apply cong_iff in H; [|lia]. rewrite !Z.mod_small in H; auto. Qed.
Lemma cong_0 a : q <> 0 -> (a == 0 <-> a mod q = 0).
Proof. intro N. rewrite cong_iff by auto. now rewrite Zmod_0_l. Qed.
Lemma cong_prime_mul a b : prime q -> a * b == 0 -> a == 0 \/ b == 0.
Proof.
  intros P [k H]. destruct (prime_mult q P a b) as [D|D]; [exists k; lia| |].
  - left. destruct D as [l D]. exists l. lia.
  - right. destruct D as [l D]. exists l. lia.
Qed.
End Q.
(** close a congruence that is already an identity of integers *)
Lemma cong_eq q a b : a = b -> cong q a b.
Proof. intros ->. apply cong_refl. Qed.
Ltac cring := apply cong_eq; ring.
