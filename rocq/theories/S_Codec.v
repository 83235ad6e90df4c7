(** Positional encodings, written from first principles (no otls content). *)
From Coq Require Import List NArith Arith.
Import ListNotations.
Local Open Scope N_scope.

(** value of a byte string, most significant byte first *)
Definition be_val (l : list N) : N := fold_left (fun a b => 256 * a + b) l 0.
(** value of a byte string, least significant byte first *)
Definition le_val (l : list N) : N := fold_right (fun b a => b + 256 * a) 0 l.
(** the [n]-byte big-endian representation *)
Fixpoint be_enc (n : nat) (x : N) : list N :=
  match n with
  | O => []
  | S k => be_enc k (x / 256) ++ [x mod 256]
  end.
(** the [n]-byte little-endian representation *)
Fixpoint le_enc (n : nat) (x : N) : list N :=
  match n with
  | O => []
  | S k => x mod 256 :: le_enc k (x / 256)
  end.

(** ASCII code of a lower-case hexadecimal digit *)
Definition hex_char (d : N) : N :=
  nth (N.to_nat d) [48; 49; 50; 51; 52; 53; 54; 55; 56; 57; 97; 98; 99; 100; 101; 102] 0.
(** a byte as two hexadecimal digits, a byte string as hexadecimal text *)
Definition hex_byte (b : N) : list N := [hex_char (b / 16); hex_char (b mod 16)].
Definition hex_text (l : list N) : list N := flat_map hex_byte l.
