(** Model of /repo/backend/check_zero.h and of itmac_hom_add_check in
    /repo/protocol/aead_izk.h.
    An izk Integer (emp-zk, external) is a list of wires; a wire is the pair (prover's
    block, verifier's block) stored in [Bit::bit] on the two sides.  For a bit b
    authenticated under the verifier's key K the prover holds K xor b*Delta; XOR of izk
    Integers is the XOR of the blocks on both sides.  The running hash
    [auth_helper->hash] of a party is the list of blocks put so far; emp-zk compares the
    two digests when the proof is flushed or finalised. *)
From Coq Require Import List NArith Bool Arith.
From Verif Require Import L_Bits L_Res M_EmpInteger M_Utils M_Shares M_Aead.
Import ListNotations.
Local Open Scope N_scope.

Notation wire := (N * N)%type (only parsing).
Notation zint := (list (N * N)) (only parsing).
(** used in /repo/protocol/aead_izk.h:13-47 *)
Definition wxor (a b : wire) : wire := (N.lxor (fst a) (fst b), N.lxor (snd a) (snd b)).
(** used in /repo/protocol/aead_izk.h:13-47 *)
Definition zxor (a b : zint) : zint := map2 wxor a b.

(** blocks put into the hash by ALICE (prover) and BOB (verifier)
    (hash of emp-zk fed by /repo/backend/check_zero.h:9-57) *)
Record czst := { cz_a : list N; cz_b : list N }.
(** hash of emp-zk fed by /repo/backend/check_zero.h:9-57 *)
Definition cz0 : czst := {| cz_a := []; cz_b := [] |}.

(** check_zero on blocks: /repo/backend/check_zero.h:8-17; each party puts its own *)
Definition check_zero_blocks (t : czst) (blka blkb : list N) : czst :=
  {| cz_a := cz_a t ++ blka; cz_b := cz_b t ++ blkb |}.
(** check_zero on an Integer: /repo/backend/check_zero.h:19-32 *)
Definition check_zero (t : czst) (input : zint) : czst :=
  fold_left (fun t w => check_zero_blocks t [fst w] [snd w]) input t.

(** the digest comparison made by emp-zk (external) at the end
    (reached through /repo/backend/check_zero.h:9-57) *)
Definition cz_accept (hash : list N -> list N) (t : czst) : bool :=
  bytes_eqb (hash (flat_map bytes_of_block (cz_a t))) (hash (flat_map bytes_of_block (cz_b t))).

Section Mac.
(** the verifier's global key: ostriple->delta *)
Variable Delta : N.
(** used for /repo/protocol/aead_izk.h:13-47 *)
Definition dmul (b : bool) : N := if b then Delta else 0.
(** an authenticated value under given verifier keys (emp-zk, external)
    (used for /repo/protocol/aead_izk.h:13-47) *)
Definition zauth (keys : list N) (bits : Integer) : zint :=
  map2 (fun k b => (N.lxor k (dmul b), k)) keys bits.
(** emp-zk's blocks for PUBLIC bits: a common block per value on the prover's side; the
    verifier removes Delta when its bit is 1.  The two sides may hold different bits. *)
Variable pub : bool -> N.
(** Integer(…, PUBLIC) in /repo/protocol/aead_izk.h:111-113, 182 *)
Definition zpublic (bitsa bitsb : Integer) : zint :=
  map2 (fun a b => (pub a, N.lxor (pub b) (dmul b))) bitsa bitsb.

(** getLSB of the prover's block: the prover's view of the value
    (used in /repo/backend/check_zero.h:37-57) *)
Definition lsb_of (w : wire) : bool := N.odd (fst w).

(** check_zero against public data: /repo/backend/check_zero.h:34-58.  [data] has [len]
    elements of [sz] bytes; [da], [db] are its memory images at the two parties (shorter
    arrays: undefined).  from_bool packs little-endian; memcmp is on [len] BYTES (l. 50).
    error() exits: [Err] for the whole run. *)
Definition check_zero_data (t : czst) (input : zint) (sz : nat) (da db : list N) (len : nat) : res czst :=
  if negb (length input =? len * sz * 8)%nat then Err
  else if negb ((length da =? len * sz) && (length db =? len * sz))%nat then UB
  else
    let tmp := map lsb_of input in
    let expected_data := map N_of_bits (chunks 8 tmp) in
    if bytes_eqb (firstn len expected_data) (firstn len da) then
      let expected_input := zpublic (int_of_array (len * sz * 8) 8 da) (int_of_array (len * sz * 8) 8 db) in
      Ok (check_zero t (zxor expected_input input))
    else Err.

(** BOB's loop over the bits of a block: /repo/protocol/aead_izk.h:17-25; set_bit(zero, i)
    is the block with bit i set *)
Definition add_delta_blk (blk : N) (pre_res : zint) : zint :=
  map2 (fun i w => let tmp := N.shiftl 1 (N.of_nat i) in
                   let tmpx := N.land tmp blk in
                   if tmpx =? tmp then (fst w, N.lxor (snd w) Delta) else w)
       (seq 0 (length pre_res)) pre_res.
(** itmac_hom_add_check with a block: /repo/protocol/aead_izk.h:11-27; the reference
    parameter [pre_res] is changed on BOB's side, so it is returned *)
Definition hom_add_block (t : czst) (rs pre_res : zint) (blk : N) : res (czst * zint) :=
  if negb ((length pre_res =? 128) && (length rs =? 128))%nat then Err
  else
    let pre_res := add_delta_blk blk pre_res in
    Ok (check_zero t (zxor rs pre_res), pre_res).

(** BOB's loop over the bits of a byte array: /repo/protocol/aead_izk.h:36-43; to_bool
    unpacks little-endian *)
Definition add_delta_bits (data : list bool) (pre_res : zint) : zint :=
  map2 (fun (b : bool) w => if b then (fst w, N.lxor (snd w) Delta) else w) data pre_res.
(** itmac_hom_add_check with a byte array: /repo/protocol/aead_izk.h:29-47; [lena], [lenb]
    are the two parties' [len], [share] BOB's array *)
Definition hom_add_bytes (t : czst) (rs pre_res : zint) (lena : nat) (share : list N) (lenb : nat)
  : res (czst * zint) :=
  if negb ((length pre_res =? lena * 8) && (length rs =? lena * 8) &&
           (length pre_res =? lenb * 8) && (length rs =? lenb * 8))%nat then Err
  else if (length share <? lenb)%nat then UB
  else
    let data := firstn (lenb * 8) (flat_map (bits_of_N 8) share) in
    let pre_res := add_delta_bits data pre_res in
    Ok (check_zero t (zxor rs pre_res), pre_res).
End Mac.
