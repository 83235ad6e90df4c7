(** Cleartext semantics of emp-tool's [Integer] (external library, not in /repo).
    An [Integer] is the list of its bits, least significant first, exactly the
    layout of [Integer::bits].  The operations below are those the otls code uses;
    their meaning is the documented emp-tool one.  Simplification: values only, the
    wire labels behind each bit are modelled separately (M_Garble, M_Backend). *)
From Coq Require Import List NArith ZArith Bool Arith.
From Verif Require Import L_Bits.
Import ListNotations.

Notation Integer := (list bool).

(** [Integer(n, v, party)] with a non-negative scalar [v]
    (used e.g. in /repo/cipher/sha256.h:53-57, /repo/protocol/aead.h:90). *)
Definition int_of (n : nat) (v : N) : Integer := bits_of_N n v.

(** [Integer(n, T* data, party)]: the array is read little-endian, [w] bits per
    element (used e.g. in /repo/protocol/aead.h:132, /repo/cipher/prf.h:150).
    Simplification: reading past the array is excluded by the callers' lengths. *)
Definition int_of_array (n w : nat) (data : list N) : Integer :=
  firstn n (flat_map (bits_of_N w) data).

(** [a + b], [a - b], [a ^ b], [a & b] on equal widths
    (emp-tool, used e.g. in /repo/cipher/sha256.h:429-455). *)
Definition iadd (a b : Integer) : Integer := badd a b.
(** Integer operators of emp-tool, used in /repo/protocol/addmod.h:10-25 *)
Definition isub (a b : Integer) : Integer := bsub a b.
(** same code: /repo/cipher/sha256.h:429-455 *)
Definition ixor (a b : Integer) : Integer := bxor a b.
(** same code: /repo/cipher/sha256.h:429-455 *)
Definition iand (a b : Integer) : Integer := band a b.

(** [a << s] and [a >> s] (logical), zero filled
    (emp-tool, used e.g. in /repo/cipher/utils.h:30). *)
Definition ishl (a : Integer) (s : nat) : Integer :=
  firstn (length a) (repeat false s ++ a).
(** same code: /repo/cipher/utils.h:30 *)
Definition ishr (a : Integer) (s : nat) : Integer :=
  skipn s a ++ repeat false (Nat.min s (length a)).

(** [a.resize(n, signed=false)] (emp-tool, used in /repo/cipher/utils.h:119). *)
Definition iresize (a : Integer) (n : nat) : Integer :=
  firstn n a ++ repeat false (n - length a).

(** [a.geq(b)]: emp-tool compares in two's complement: the sign bit of a - b
    (used in /repo/protocol/addmod.h). *)
Definition igeq (a b : Integer) : bool := negb (last (isub a b) false).

(** [a.select(s, b)]: b if s else a (emp-tool, used in /repo/protocol/addmod.h). *)
Definition iselect (a : Integer) (s : bool) (b : Integer) : Integer :=
  if s then b else a.

(** [x.reveal<T>(buf, PUBLIC)] for a [w]-bit element type: little-endian array
    (used e.g. in /repo/cipher/sha256.h:283, /repo/protocol/aead.h:208). *)
Definition reveal_as (w : nat) (x : Integer) : list N := map N_of_bits (chunks w x).
