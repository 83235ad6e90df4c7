(** Model of /repo/cipher/utils.h (the parts on [Integer], strings and byte order).
    Block arithmetic is in M_Block.v, netlists in M_Bristol.v. *)
From Coq Require Import List NArith ZArith Bool Arith.
From Verif Require Import L_Bits L_Res M_EmpInteger.
Import ListNotations.
Local Open Scope N_scope.

(** rrot on Integer: /repo/cipher/utils.h:29-31 *)
Definition rrot_int (rhs : Integer) (sht : nat) : Integer :=
  ixor (ishr rhs sht) (ishl rhs (length rhs - sht)).

(** rrot on uint32_t: /repo/cipher/utils.h:37-39; [uint32_t] shifts drop high bits.
    Only called with 0 < sht < 32 (a shift by 32 would be undefined). *)
Definition rrot_u32 (rhs : N) (sht : N) : N :=
  N.lor (N.shiftr rhs sht) ((N.shiftl rhs (32 - sht)) mod 2 ^ 32).

(** lrot on Integer: /repo/cipher/utils.h:42-45 *)
Definition lrot_int (rhs : Integer) (sht : nat) : Integer :=
  ixor (ishl rhs sht) (ishr rhs (length rhs - sht)).

(** concat: /repo/cipher/utils.h:124-127 (insert at the low end) *)
Definition iconcat (res : Integer) (ins : list Integer) : Integer :=
  fold_left (fun r i => i ++ r) ins res.

(** concat_opt: /repo/cipher/utils.h:129-141 (descending loop appending to tmp,
    then the old result; [reserve]/[swap] have no observable effect) *)
Definition concat_opt (res : Integer) (ins : list Integer) : Integer :=
  (fold_left (fun tmp i => tmp ++ i) (rev ins) []) ++ res.

(** reverse_concat: /repo/cipher/utils.h:143-146 (append at the high end) *)
Definition reverse_concat (res : Integer) (ins : list Integer) : Integer :=
  fold_left (fun r i => r ++ i) ins res.

(** move_concat: /repo/cipher/utils.h:148-152; [in] is const so the move iterators copy *)
Definition move_concat (res : Integer) (ins : list Integer) : Integer :=
  fold_left (fun r i => i ++ r) ins res.

(** intvec_to_int: /repo/cipher/utils.h:114-122.  Returns the output; the resize of
    the caller's array elements is the second component.  [len = 0] reads in[0]
    (undefined).  The shift amount is an int; sizes here are far below 2^31. *)
Definition intvec_to_int (ins : list Integer) : res (Integer * list Integer) :=
  match ins with
  | [] => UB
  | i0 :: _ =>
      let s := length i0 in
      let len := length ins in
      let ins' := map (fun x => iresize x (s * len)) ins in
      let tmp := int_of (s * len) 0 in
      Ok (fold_left
            (fun out p => ixor out (ishl (ixor tmp (snd p)) ((len - 1 - fst p) * s)))
            (combine (seq 0 len) ins') (int_of (s * len) 0), ins')
  end.

(** extract_integer: /repo/cipher/utils.h:332-335; iterators before [begin] are
    undefined *)
Definition extract_integer (src : Integer) (offset size : nat) : res Integer :=
  if (offset + size <=? length src)%nat
  then Ok (firstn size (skipn (length src - offset - size) src))
  else UB.

(** str_to_int: /repo/cipher/utils.h:47-58; a string is its byte list *)
Definition str_to_int (str : list N) : Integer :=
  int_of_array (length str * 8) 8 (rev str).

(** snprintf "%02x" on a byte: used at /repo/cipher/utils.h:69, 86 *)
Definition hexdigit (d : N) : N := if d <? 10 then 48 + d else 87 + d.
(** same code: /repo/cipher/utils.h:69, 86 *)
Definition fmt02x (b : N) : list N := [hexdigit (b / 16); hexdigit (b mod 16)].

(** int_to_hex on uint32_t words: /repo/cipher/utils.h:60-75 *)
Definition int_to_hex32 (vint : list N) : list N :=
  flat_map (fun v =>
    flat_map (fun j => fmt02x (N.shiftr (N.land v (N.shiftl 255 (8 * j))) (8 * j)))
             [3; 2; 1; 0]) vint.

(** int_to_hex on uint64_t words: /repo/cipher/utils.h:77-92 *)
Definition int_to_hex64 (vint : list N) : list N :=
  flat_map (fun v =>
    flat_map (fun j => fmt02x (N.shiftr (N.land v (N.shiftl 255 (8 * j))) (8 * j)))
             [7; 6; 5; 4; 3; 2; 1; 0]) vint.

(** memory image of a block: byte k holds bits 8k..8k+7 (x86, little-endian)
    (used in /repo/cipher/utils.h:306-330) *)
Definition bytes_of_block (b : N) : list N := map N_of_bits (chunks 8 (bits_of_N 128 b)).
(** used in /repo/cipher/utils.h:306-330 *)
Definition block_of_bytes (l : list N) : N := N_of_bits (flat_map (bits_of_N 8) l).

(** block_to_hex: /repo/cipher/utils.h:306-316: reverse the blocks, then reverse all
    bytes *)
Definition block_to_hex (ins : list N) : list N :=
  rev (flat_map bytes_of_block (rev ins)).

(** hex_to_block: /repo/cipher/utils.h:318-330 *)
Definition hex_to_block (ins : list N) : res (list N) :=
  if (length ins mod 16 =? 0)%nat
  then Ok (rev (map block_of_bytes (chunks 16 (rev ins))))
  else Err.
