(** RFC 2104 HMAC with SHA-256 and the RFC 5246 section 5 PRF, written from the RFCs
    over bit strings (first bit first); byte-string versions at the end. *)
From Coq Require Import List NArith Bool Arith.
From Verif Require Import L_Bits S_Sha256.
Import ListNotations.
Local Open Scope nat_scope.

(** RFC 2104: B = 64 bytes = 512 bits *)
Definition key_block (key : list bool) : list bool :=
  let k := if length key <=? 512 then key else sha256_bits key in
  k ++ repeat false (512 - length k).

Definition ipad : list bool := bits_of_bytes (repeat 0x36%N 64).
Definition opad : list bool := bits_of_bytes (repeat 0x5c%N 64).

Definition hmac_bits (key msg : list bool) : list bool :=
  sha256_bits (map2 xorb (key_block key) opad ++
               sha256_bits (map2 xorb (key_block key) ipad ++ msg)).

(** RFC 5246 section 5 *)
Fixpoint A_i (secret seed : list bool) (i : nat) : list bool :=
  match i with
  | O => seed
  | S j => hmac_bits secret (A_i secret seed j)
  end.

(** first [k] blocks of P_SHA256(secret, seed) *)
Definition p_stream (secret seed : list bool) (k : nat) : list bool :=
  flat_map (fun i => hmac_bits secret (A_i secret seed i ++ seed)) (seq 1 k).

(** the first [n] bits of P_SHA256: as many 256-bit blocks as needed, rounded up *)
Definition p_hash (n : nat) (secret seed : list bool) : list bool :=
  firstn n (p_stream secret seed ((n + 255) / 256)).

Definition prf (n : nat) (secret label seed : list bool) : list bool :=
  p_hash n secret (label ++ seed).

(** byte strings *)
Definition hmac_sha256_bytes (key msg : list N) : list N :=
  bytes_of_bits (hmac_bits (bits_of_bytes key) (bits_of_bytes msg)).
Definition prf_bytes (nbytes : nat) (secret label seed : list N) : list N :=
  bytes_of_bits (prf (8 * nbytes) (bits_of_bytes secret) (bits_of_bytes label) (bits_of_bytes seed)).
