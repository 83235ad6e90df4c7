(** FIPS 180-4 SHA-256, written from the standard.  Independent of the model.
    Messages are bit strings (first bit first). *)
From Coq Require Import List NArith Bool Arith.
From Verif Require Import L_Bits.
Import ListNotations.
Local Open Scope N_scope.

Definition mask32 : N := 2 ^ 32.
Definition add32 (x y : N) : N := (x + y) mod mask32.

(** FIPS 180-4 section 3.2 and 4.1.2 *)
Definition SHR (n x : N) : N := N.shiftr x n.
Definition ROTR (n x : N) : N := N.lor (N.shiftr x n) ((N.shiftl x (32 - n)) mod mask32).
Definition NOT32 (x : N) : N := mask32 - 1 - x.
Definition Ch (x y z : N) : N := N.lxor (N.land x y) (N.land (NOT32 x) z).
Definition Maj (x y z : N) : N :=
  N.lxor (N.lxor (N.land x y) (N.land x z)) (N.land y z).
Definition Sigma0 (x : N) : N := N.lxor (N.lxor (ROTR 2 x) (ROTR 13 x)) (ROTR 22 x).
Definition Sigma1 (x : N) : N := N.lxor (N.lxor (ROTR 6 x) (ROTR 11 x)) (ROTR 25 x).
Definition sigma0 (x : N) : N := N.lxor (N.lxor (ROTR 7 x) (ROTR 18 x)) (SHR 3 x).
Definition sigma1 (x : N) : N := N.lxor (N.lxor (ROTR 17 x) (ROTR 19 x)) (SHR 10 x).

(** Section 4.2.2: the constants are the first 32 bits of the fractional parts of
    the cube roots of the first 64 primes; section 5.3.3: the initial hash value is
    the first 32 bits of the fractional parts of the square roots of the first 8. *)
Definition is_prime (p : nat) : bool :=
  (Nat.leb 2 p) && forallb (fun d => negb (Nat.eqb (Nat.modulo p d) 0)) (seq 2 (p - 2)).
Definition primes : list N := map N.of_nat (filter is_prime (seq 2 310)).

(** floor of the cube root, one result bit at a time *)
Fixpoint icbrt_aux (bit : nat) (r x : N) : N :=
  match bit with
  | O => r
  | S b => let c := r + 2 ^ N.of_nat b in
           icbrt_aux b (if c * c * c <=? x then c else r) x
  end.
Definition icbrt (x : N) : N := icbrt_aux 40 0 x.

Definition K256 : list N := map (fun p => icbrt (p * 2 ^ 96) mod mask32) primes.
Definition H256 : list N :=
  map (fun p => N.sqrt (p * 2 ^ 64) mod mask32) (firstn 8 primes).

(** Section 5.1.1: padding *)
Definition pad_zeros (l : nat) : nat := ((447 + 512 - l mod 512) mod 512)%nat.
Definition pad (m : list bool) : list bool :=
  m ++ [true] ++ repeat false (pad_zeros (length m)) ++ be_of_N 64 (N.of_nat (length m)).

(** Section 5.2.1: parsing into 512-bit blocks of sixteen 32-bit words *)
Definition words (b : list bool) : list N := map N_of_be (chunks 32 b).

(** Section 6.2.2 *)
Definition nthw (W : list N) (i : nat) : N := nth i W 0.
Definition sched_next (W : list N) : N :=
  let t := length W in
  add32 (add32 (add32 (sigma1 (nthw W (t - 2))) (nthw W (t - 7)))
               (sigma0 (nthw W (t - 15)))) (nthw W (t - 16)).
Fixpoint sched (n : nat) (W : list N) : list N :=
  match n with
  | O => W
  | S k => sched k (W ++ [sched_next W])
  end.

Definition st8 : Type := (N * N * N * N * N * N * N * N)%type.

Definition round (s : st8) (kw : N * N) : st8 :=
  let '(a, b, c, d, e, f, g, h) := s in
  let T1 := add32 (add32 (add32 (add32 h (Sigma1 e)) (Ch e f g)) (fst kw)) (snd kw) in
  let T2 := add32 (Sigma0 a) (Maj a b c) in
  (add32 T1 T2, a, b, c, add32 d T1, e, f, g).

Definition st_of (H : list N) : st8 :=
  (nthw H 0, nthw H 1, nthw H 2, nthw H 3, nthw H 4, nthw H 5, nthw H 6, nthw H 7).
Definition list_of (s : st8) : list N :=
  let '(a, b, c, d, e, f, g, h) := s in [a; b; c; d; e; f; g; h].

Definition compress (H : list N) (M : list N) : list N :=
  let W := sched 48 M in
  let s := fold_left round (combine K256 W) (st_of H) in
  map2 add32 (list_of s) H.

(** hash of a bit string, eight words *)
Definition sha256_words (m : list bool) : list N :=
  fold_left compress (map words (chunks 512 (pad m))) H256.

(** byte-string interface *)
Definition bits_of_byte (b : N) : list bool := be_of_N 8 b.
Definition bits_of_bytes (m : list N) : list bool := flat_map bits_of_byte m.
Definition sha256_bits (m : list bool) : list bool := flat_map (be_of_N 32) (sha256_words m).
Definition bytes_of_bits (l : list bool) : list N := map N_of_be (chunks 8 l).
Definition sha256 (m : list N) : list N := bytes_of_bits (sha256_bits (bits_of_bytes m)).
