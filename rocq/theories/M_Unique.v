(** Model of the owning wrappers UniqueBN, UniquePoint, UniqueGroup, UniqueCtx, UniqueBytes
    (/repo/backend/bn_utils.h:133-189).  A pointer is an optional address (None is nullptr);
    the state is the std::unique_ptr inside, the effect is the list of addresses freed. *)
From Coq Require Import List NArith.
Import ListNotations.

(** the five classes at /repo/backend/bn_utils.h:133, 144, 155, 166, 177 *)
Inductive ukind : Type := KBN | KPoint | KGroup | KCtx | KBytes.
(** a wrapper and the frees done so far, in order
    (/repo/backend/bn_utils.h:133-189) *)
Record ustate : Type := { u_ptr : option N; u_freed : list N }.
(** /repo/backend/bn_utils.h:133-189 *)
Definition free_if (p : option N) : list N := match p with Some a => [a] | None => [] end.

(** default constructors: /repo/backend/bn_utils.h:137, 148, 159, 170, 181 *)
Definition u_default : ustate := {| u_ptr := None; u_freed := [] |}.
(** constructors from a pointer: lines 138, 149, 160, 171, 182.  UniquePoint and UniqueCtx
    initialise the member with nullptr.
    (/repo/backend/bn_utils.h:138, 149, 160, 171, 182) *)
Definition u_ctor (k : ukind) (p : option N) : ustate :=
  match k with
  | KBN | KGroup | KBytes => {| u_ptr := p; u_freed := [] |}
  | KPoint | KCtx => {| u_ptr := None; u_freed := [] |}
  end.
(** reset: lines 139-141, 150-152, 161-163, 172-174 (std::unique_ptr::reset frees the old
    pointer if it is not null)
    (/repo/backend/bn_utils.h:139-174) *)
Definition u_reset (s : ustate) (p : option N) : ustate :=
  {| u_ptr := p; u_freed := u_freed s ++ free_if (u_ptr s) |}.
(** destructor (implicit)
    (/repo/backend/bn_utils.h:133-189) *)
Definition u_dtor (s : ustate) : list N := u_freed s ++ free_if (u_ptr s).
(** release of UniqueBytes: lines 186-188
    (/repo/backend/bn_utils.h:186-188) *)
Definition u_release (s : ustate) : option N * ustate := (u_ptr s, {| u_ptr := None; u_freed := u_freed s |}).
(** move constructor of UniqueBytes: lines 183-185; (new wrapper, moved-from wrapper)
    (/repo/backend/bn_utils.h:183-185) *)
Definition u_move (s : ustate) : ustate * ustate :=
  let (p, s') := u_release s in (u_reset u_default p, s').

(** a lifetime: construct from a pointer, any number of resets, destroy
    (/repo/backend/bn_utils.h:133-189) *)
Definition u_life (k : ukind) (p : option N) (rs : list (option N)) : list N :=
  u_dtor (fold_left u_reset rs (u_ctor k p)).

(** a lifetime of UniqueBytes: reset to a pointer, give the pointer away, or be moved into a
    new wrapper (as by push_back of a deque) and destroyed
    (/repo/backend/bn_utils.h:177-189, /repo/protocol/aead.h:213, 229, 360, 376) *)
Inductive uop : Type := UReset (p : option N) | URelease | UMove.
(** state: the current wrapper, the frees of the destroyed ones, the pointers given away
    (/repo/backend/bn_utils.h:177-189) *)
Definition u_op (x : ustate * list N * list N) (o : uop) : ustate * list N * list N :=
  let '(s, gone, given) := x in
  match o with
  | UReset p => (u_reset s p, gone, given)
  | URelease => let (p, s) := u_release s in (s, gone, given ++ free_if p)
  | UMove => let (t, s) := u_move s in (t, gone ++ u_dtor s, given)
  end.
(** all addresses freed, and all given away, until the last wrapper is destroyed
    (/repo/backend/bn_utils.h:177-189) *)
Definition u_ops (p : option N) (os : list uop) : list N * list N :=
  let '(s, gone, given) := fold_left u_op os (u_ctor KBytes p, [], []) in (gone ++ u_dtor s, given).
