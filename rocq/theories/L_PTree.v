(** Finite maps from [N] as binary tries. *)
From Coq Require Import List NArith PArith Lia.
Import ListNotations.

Inductive ptree (A : Type) : Type :=
| PLeaf
| PNode (l : ptree A) (o : option A) (r : ptree A).
Arguments PLeaf {A}.
Arguments PNode {A} l o r.

Fixpoint pget {A} (p : positive) (t : ptree A) : option A :=
  match t with
  | PLeaf => None
  | PNode l o r =>
      match p with
      | xH => o
      | xO q => pget q l
      | xI q => pget q r
      end
  end.

Fixpoint pset {A} (p : positive) (a : A) (t : ptree A) : ptree A :=
  match t with
  | PLeaf =>
      match p with
      | xH => PNode PLeaf (Some a) PLeaf
      | xO q => PNode (pset q a PLeaf) None PLeaf
      | xI q => PNode PLeaf None (pset q a PLeaf)
      end
  | PNode l o r =>
      match p with
      | xH => PNode l (Some a) r
      | xO q => PNode (pset q a l) o r
      | xI q => PNode l o (pset q a r)
      end
  end.

Lemma pget_leaf {A} p : pget p (@PLeaf A) = None.
Proof. destruct p; reflexivity. Qed.

Lemma pgss {A} p (a : A) : forall t, pget p (pset p a t) = Some a.
Proof. induction p as [p IH|p IH|]; intros [|l o r]; cbn; auto. Qed.

Lemma pgso {A} p q (a : A) : forall t, p <> q -> pget p (pset q a t) = pget p t.
Proof.
  revert q. induction p as [p IH|p IH|]; intros [q|q|] [|l o r] H; cbn; auto;
    try (rewrite IH by congruence; rewrite ?pget_leaf; reflexivity);
    try apply pget_leaf; try congruence; destruct p; reflexivity.
Qed.

Definition nget {A} (n : N) (t : ptree A) : option A := pget (N.succ_pos n) t.
Definition nset {A} (n : N) (a : A) (t : ptree A) : ptree A := pset (N.succ_pos n) a t.

Lemma succ_pos_inj m n : N.succ_pos m = N.succ_pos n -> m = n.
Proof.
  intro H. assert (E : N.pos (N.succ_pos m) = N.pos (N.succ_pos n)) by congruence.
  rewrite !N.succ_pos_spec in E. lia.
Qed.
Lemma nget_leaf {A} n : nget n (@PLeaf A) = None.
Proof. apply pget_leaf. Qed.
Lemma ngss {A} n (a : A) t : nget n (nset n a t) = Some a.
Proof. apply pgss. Qed.
Lemma ngso {A} m n (a : A) t : m <> n -> nget m (nset n a t) = nget m t.
Proof. intro H. apply pgso. intro E. apply succ_pos_inj in E. contradiction. Qed.
Lemma ngsspec {A} m n (a : A) t : nget m (nset n a t) = if N.eqb m n then Some a else nget m t.
Proof. destruct (N.eqb_spec m n) as [->|H]; [apply ngss|now apply ngso]. Qed.
