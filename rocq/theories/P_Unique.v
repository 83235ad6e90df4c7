(** Lifetimes of the owning wrappers. *)
From Coq Require Import List NArith Permutation.
From Verif Require Import M_Unique.
Import ListNotations.

Lemma life_from rs : forall s, u_dtor (fold_left u_reset rs s) = u_freed s ++ flat_map free_if (u_ptr s :: rs).
Proof.
  induction rs as [|r rs IH]; intro s; cbn [fold_left flat_map]; [unfold u_dtor; now rewrite app_nil_r|].
  rewrite IH. cbn [u_reset u_ptr u_freed flat_map]. now rewrite <- app_assoc.
Qed.
Theorem owning_life k p rs : k = KBN \/ k = KGroup \/ k = KBytes -> u_life k p rs = flat_map free_if (p :: rs).
Proof. intro H. unfold u_life. rewrite life_from. destruct H as [->|[->| ->]]; reflexivity. Qed.
(** the other two free everything except the pointer they were constructed from *)
Theorem dropping_life k p rs : k = KPoint \/ k = KCtx -> u_life k p rs = flat_map free_if rs.
Proof. intro H. unfold u_life. rewrite life_from. destruct H as [->| ->]; reflexivity. Qed.
Theorem unique_leak_refuted : exists k p rs, ~ In p (u_life k (Some p) rs).
Proof. exists KPoint, 7%N, []. intros []. Qed.
Theorem move_life s : let (t, s') := u_move s in u_dtor t ++ u_dtor s' = free_if (u_ptr s) ++ u_freed s.
Proof. cbn. unfold u_dtor. cbn. now rewrite app_nil_r. Qed.
Theorem unique_once k p rs a : k = KBN \/ k = KGroup \/ k = KBytes ->
  NoDup (flat_map free_if (p :: rs)) -> In (Some a) (p :: rs) -> count_occ N.eq_dec (u_life k p rs) a = 1.
Proof.
  intros H ND I. rewrite (owning_life k p rs H). apply NoDup_count_occ'; [exact ND|].
  apply in_flat_map. exists (Some a). split; [exact I|now left].
Qed.

(** moves and releases *)
Definition op_arg (o : uop) : list N := match o with UReset p => free_if p | _ => [] end.
Lemma ops_from os : forall s gone given, let '(s', gone', given') := fold_left u_op os (s, gone, given) in
  Permutation (gone' ++ u_dtor s' ++ given') (gone ++ u_dtor s ++ given ++ flat_map op_arg os).
Proof.
  induction os as [|o os IH]; intros s gone given; cbn [fold_left flat_map]; [now rewrite app_nil_r|].
  destruct o as [p| |]; cbn [u_op u_release u_move op_arg].
  - specialize (IH (u_reset s p) gone given). destruct (fold_left u_op os _) as [[s' g'] r'].
    eapply Permutation_trans; [exact IH|]. unfold u_dtor at 1 2, u_reset. cbn [u_ptr u_freed].
    apply Permutation_app_head. rewrite <- !app_assoc. apply Permutation_app_head, Permutation_app_head.
    rewrite !app_assoc. apply Permutation_app_tail, Permutation_app_comm.
  - specialize (IH {| u_ptr := None; u_freed := u_freed s |} gone (given ++ free_if (u_ptr s))).
    destruct (fold_left u_op os _) as [[s' g'] r']. eapply Permutation_trans; [exact IH|].
    unfold u_dtor at 1 2. cbn [u_ptr u_freed free_if app]. rewrite app_nil_r, <- !app_assoc.
    apply Permutation_app_head, Permutation_app_head. rewrite !app_assoc. apply Permutation_app_tail, Permutation_app_comm.
  - match goal with |- context [fold_left u_op os (?a, ?b, ?c)] => specialize (IH a b c); destruct (fold_left u_op os (a, b, c)) as [[s' g'] r'] end.
    eapply Permutation_trans; [exact IH|]. unfold u_dtor, u_reset, u_default. cbn [u_ptr u_freed free_if app].
    rewrite app_nil_r, <- !app_assoc. apply Permutation_app_head, Permutation_app_head. apply Permutation_refl.
Qed.
Theorem moves_once p os : let (freed, given) := u_ops p os in
  Permutation (freed ++ given) (free_if p ++ flat_map op_arg os).
Proof.
  unfold u_ops. generalize (ops_from os (u_ctor KBytes p) [] []). destruct (fold_left u_op os _) as [[s g] r].
  rewrite <- app_assoc. exact (fun x => x).
Qed.
