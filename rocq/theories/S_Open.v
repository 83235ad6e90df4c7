(** What a TLS 1.2 session opens to both parties on the garbled circuit, written from RFC 2104,
    RFC 5246 and RFC 5288.  An opened vector is written least significant bit first. *)
From Coq Require Import List NArith Bool String.
From Verif Require Import L_Bits L_Str S_Sha256 S_Hmac S_Tls.
From Verif Require Import S_Netlist.
Import ListNotations.
Local Open Scope string_scope.
Local Open Scope list_scope.

(** words of 32 bits, first word first *)
Definition open_words (ws : list N) : owner * list bool := (OPub, flat_map (bits_of_N 32) ws).
(** a byte string, as one big-endian number *)
Definition open_bytes (bs : list N) : owner * list bool := (OPub, rev (bits_of_bytes bs)).
(** the chaining value of SHA-256 after the block key XOR ipad *)
Definition inner_state (secret : list bool) : list N :=
  compress H256 (words (map2 xorb (S_Hmac.key_block secret) ipad)).
(** the PRF with local inner hashes: the chaining value on the first use of a key, then A(1), ..,
    A(k) *)
Definition prf_opened (first : bool) (secret seed : list N) (k : nat) : list (owner * list bool) :=
  (if first then [open_words (inner_state (bits_of_bytes secret))] else []) ++
  map (fun i => open_words (words (A_i (bits_of_bytes secret) (bits_of_bytes seed) i))) (seq 1 k).
(** label and seed of the master secret *)
Definition master_seed (rc rs : list N) (session_hash : option (list N)) : list N :=
  match session_hash with
  | Some h => ascii_bytes "extended master secret" ++ h
  | None => ascii_bytes "master secret" ++ rc ++ rs
  end.
(** a handshake: premaster secret, master secret, randoms, Finished messages (label, hash) *)
Definition tls_opened (rounds : bool) (pms ms rc rs : list N) (sh : option (list N))
           (fins : list (list N * list N)) : list (owner * list bool) :=
  (if rounds then [] else
     prf_opened true pms (master_seed rc rs sh) 2 ++
     prf_opened true ms (ascii_bytes "key expansion" ++ rs ++ rc) 2) ++
  flat_map (fun f => (if rounds then [] else prf_opened false ms (fst f ++ snd f) 1) ++
                     [open_bytes (verify_data ms (fst f) (snd f))]) fins.
