(** Byte values of a character string. *)
From Coq Require Import List NArith Ascii String.
Import ListNotations.

Fixpoint ascii_bytes (s : string) : list N :=
  match s with
  | EmptyString => []
  | String c t => N_of_ascii c :: ascii_bytes t
  end.

Lemma ascii_bytes_byte s : Forall (fun b => (b < 256)%N) (ascii_bytes s).
Proof. induction s; constructor; [apply N_ascii_bounded|assumption]. Qed.
