(** AES-128, transcribed from FIPS 197 (bytes are numbers below 256). *)
From Coq Require Import List NArith Bool Arith.
Import ListNotations.
Local Open Scope N_scope.

(** Section 4.2: multiplication in GF(2^8) modulo x^8+x^4+x^3+x+1 *)
Definition xtime (b : N) : N :=
  let d := N.double b in if d <? 256 then d else N.lxor d 0x11b.
Fixpoint gmul_bits (k : nat) (a b : N) : N :=
  match k with
  | O => 0
  | S j => N.lxor (if N.odd b then a else 0) (gmul_bits j (xtime a) (N.div2 b))
  end.
Definition gmul (a b : N) : N := gmul_bits 8 a b.
Fixpoint gpow (a : N) (n : nat) : N := match n with O => 1 | S k => gmul a (gpow a k) end.
(** multiplicative inverse, 0 mapped to itself: b^254 *)
Definition ginv (b : N) : N := gpow b 254.

(** Section 5.1.1: the affine transformation and the S-box *)
Definition affine_bit (b : N) (i : N) : bool :=
  let t k := N.testbit b ((i + k) mod 8) in
  xorb (xorb (xorb (xorb (xorb (t 0) (t 4)) (t 5)) (t 6)) (t 7)) (N.testbit 0x63 i).
Definition sbox (b : N) : N :=
  let x := ginv b in
  fold_right (fun i acc => N.double acc + N.b2n (affine_bit x i)) 0 [0; 1; 2; 3; 4; 5; 6; 7].

(** state: 16 bytes, column by column (Section 3.4); byte i is row i mod 4, column i/4 *)
Definition sub_bytes (s : list N) : list N := map sbox s.
Definition nb (s : list N) (i : nat) : N := nth i s 0.
(** Section 5.1.2: s'[r,c] = s[r, (c+r) mod 4] *)
Definition shift_src (i : nat) : nat := (4 * ((i / 4 + i mod 4) mod 4) + i mod 4)%nat.
Definition shift_rows (s : list N) : list N := map (fun i => nb s (shift_src i)) (seq 0 16).
(** Section 5.1.3 *)
Definition mix_byte (s : list N) (i : nat) : N :=
  let c := (4 * (i / 4))%nat in
  let r := (i mod 4)%nat in
  let at_ k := nb s (c + (r + k) mod 4) in
  N.lxor (N.lxor (N.lxor (gmul 2 (at_ 0%nat)) (gmul 3 (at_ 1%nat))) (at_ 2%nat)) (at_ 3%nat).
Definition mix_columns (s : list N) : list N := map (mix_byte s) (seq 0 16).
(** Section 5.1.4 *)
Definition xor_bytes (a b : list N) : list N :=
  map (fun p => N.lxor (fst p) (snd p)) (combine a b).
Definition add_round_key (s rk : list N) : list N := xor_bytes s rk.

(** Section 5.2, Nk = 4: words are lists of four bytes *)
Definition rot_word (w : list N) : list N := tl w ++ firstn 1 w.
Fixpoint rcon_byte (i : nat) : N := match i with O => 1 | S k => xtime (rcon_byte k) end.
Definition rcon (i : nat) : list N := [rcon_byte (i - 1); 0; 0; 0].
Definition next_word (ws : list (list N)) : list N :=
  let i := length ws in
  let temp := nth (i - 1) ws [] in
  let temp := if (i mod 4 =? 0)%nat then xor_bytes (map sbox (rot_word temp)) (rcon (i / 4)) else temp in
  xor_bytes (nth (i - 4) ws []) temp.
Fixpoint expand (n : nat) (ws : list (list N)) : list (list N) :=
  match n with
  | O => ws
  | S k => expand k (ws ++ [next_word ws])
  end.
Definition key_words (key : list N) : list (list N) :=
  map (fun i => firstn 4 (skipn (4 * i) key)) (seq 0 4).
(** the 44 words w[0..43] *)
Definition key_expansion (key : list N) : list (list N) := expand 40 (key_words key).
Definition round_key (ws : list (list N)) (r : nat) : list N :=
  concat (firstn 4 (skipn (4 * r) ws)).

(** Section 5.1: cipher *)
Definition aes_round (s rk : list N) : list N :=
  add_round_key (mix_columns (shift_rows (sub_bytes s))) rk.
Definition aes_last (s rk : list N) : list N :=
  add_round_key (shift_rows (sub_bytes s)) rk.
Definition cipher (ws : list (list N)) (blk : list N) : list N :=
  let s := add_round_key blk (round_key ws 0) in
  let s := fold_left (fun s r => aes_round s (round_key ws r)) (seq 1 9) s in
  aes_last s (round_key ws 10).
Definition aes128 (key blk : list N) : list N := cipher (key_expansion key) blk.
