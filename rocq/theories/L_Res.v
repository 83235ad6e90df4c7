(** Outcomes of a C++ call: normal return, [error()] (emp-tool: print and exit),
    or undefined behaviour.  Kept distinct so that no theorem holds because a
    partial operation was totalised. *)
Inductive res (A : Type) : Type :=
| Ok (a : A)
| Err
| UB.
Arguments Ok {A} a.
Arguments Err {A}.
Arguments UB {A}.

Definition bind {A B : Type} (m : res A) (f : A -> res B) : res B :=
  match m with
  | Ok a => f a
  | Err => Err
  | UB => UB
  end.

Declare Scope res_scope.
Delimit Scope res_scope with res.
Notation "'let*' x ':=' m 'in' k" := (bind m (fun x => k))
  (at level 200, x pattern, m at level 100, k at level 200) : res_scope.

Lemma bind_Ok {A B} (a : A) (f : A -> res B) : bind (Ok a) f = f a.
Proof. reflexivity. Qed.

(** array read: out of bounds is UB *)
Definition read {A} (o : option A) : res A :=
  match o with Some a => Ok a | None => UB end.
