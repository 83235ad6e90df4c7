(** Model of the OpenSSL BIGNUM operations the code uses (external library; BIGNUM values
    are integers) and of the wire encoding in /repo/backend/bn_utils.h. *)
From Coq Require Import List NArith ZArith Bool Arith.
From Verif Require Import L_Bits L_Res M_Block M_Utils.
Import ListNotations.
Local Open Scope Z_scope.

(** BN_mod (sign of the dividend), BN_mod_add, BN_mod_sub, BN_mod_mul, BN_mod_sqr
    (non-negative result): OpenSSL, used e.g. in /repo/backend/ole.h:34, 59-64, 86-89 *)
Definition BN_mod (a q : Z) : Z := Z.rem a q.
(** same code: /repo/backend/ole.h:34, 59-64, 86-89 *)
Definition BN_mod_add (a b q : Z) : Z := (a + b) mod q.
(** same code: /repo/backend/ole.h:34, 59-64, 86-89 *)
Definition BN_mod_sub (a b q : Z) : Z := (a - b) mod q.
(** same code: /repo/backend/ole.h:34, 59-64, 86-89 *)
Definition BN_mod_mul (a b q : Z) : Z := (a * b) mod q.
(** same code: /repo/backend/ole.h:34, 59-64, 86-89 *)
Definition BN_mod_sqr (a q : Z) : Z := (a * a) mod q.
(** BN_mod_inverse: None when there is no inverse (OpenSSL returns NULL), used in
    /repo/protocol/e2f.h:168; by the extended Euclidean algorithm *)
Fixpoint egcd (fuel : nat) (r0 r1 s0 s1 : Z) : Z * Z :=
  match fuel with
  | O => (r0, s0)
  | S f => if r1 =? 0 then (r0, s0) else egcd f r1 (r0 mod r1) s1 (s0 - (r0 / r1) * s1)
  end.
(** same code: /repo/protocol/e2f.h:168 *)
Definition BN_mod_inverse (a q : Z) : option Z :=
  let (g, s) := egcd (Z.to_nat (2 * Z.log2 q + 4)) q (a mod q) 0 1 in
  if g =? 1 then Some (s mod q) else None.

(** BN_is_bit_set: bits of the absolute value, used in /repo/backend/ole.h:75 *)
Definition BN_is_bit_set (a : Z) (j : nat) : bool := N.testbit (Z.abs_N a) (N.of_nat j).

(** BN_num_bytes and BN_bn2bin: big-endian bytes of the absolute value, no leading zero;
    BN_bin2bn (OpenSSL, used in /repo/backend/bn_utils.h:15, 23, 39) *)
Definition BN_num_bytes (a : Z) : nat := N.to_nat ((N.size (Z.abs_N a) + 7) / 8).
(** same code: /repo/backend/bn_utils.h:15, 23, 39 *)
Fixpoint be_bytes (n : nat) (x : N) : list N :=
  match n with O => [] | S k => be_bytes k (x / 256)%N ++ [(x mod 256)%N] end.
(** same code: /repo/backend/bn_utils.h:15, 23, 39 *)
Definition BN_bn2bin (a : Z) : list N := be_bytes (BN_num_bytes a) (Z.abs_N a).
(** same code: /repo/backend/bn_utils.h:15, 23, 39 *)
Definition BN_bin2bn (l : list N) : Z := Z.of_N (fold_left (fun a b => 256 * a + b)%N l 0%N).

(** ** Wire encoding *)
Local Open Scope N_scope.
(** a uint32_t as four little-endian bytes (x86)
    (length field sent in /repo/backend/bn_utils.h:24, 34) *)
Definition u32_bytes (n : N) : list N := map (fun i => (n / 256 ^ i) mod 256) [0; 1; 2; 3].
(** length field sent in /repo/backend/bn_utils.h:24, 34 *)
Definition u32_value (l : list N) : N := fold_right (fun b a => b + 256 * a) 0 l.
(** size of arr: /repo/backend/bn_utils.h:22, 33 *)
Definition bn_buf : nat := 1000.

(** send_bn: /repo/backend/bn_utils.h:20-28.  The bytes put on the channel; writing more
    than 1000 bytes into arr is undefined.  The optional hash absorbs the second part. *)
Definition send_bn (x : Z) : res (list N) :=
  let arr := BN_bn2bin x in
  if (bn_buf <? length arr)%nat then UB
  else Ok (u32_bytes (N.of_nat (length arr)) ++ arr).

(** recv_bn: /repo/backend/bn_utils.h:31-40, on the bytes that will arrive; the rest of
    the stream is returned.  The length is not checked against the buffer: undefined when
    it exceeds it.  A stream that ends early blocks the receiver, modelled as [Err]. *)
Definition recv_bn (stream : list N) : res (Z * list N) :=
  if (length stream <? 4)%nat then Err
  else
    let len := u32_value (firstn 4 stream) in
    let rest := skipn 4 stream in
    if (N.of_nat bn_buf <? len) then UB
    else if (length rest <? N.to_nat len)%nat then Err
    else Ok (BN_bin2bn (firstn (N.to_nat len) rest), skipn (N.to_nat len) rest).
(** several values sent one after another over a channel that never blocks:
    /repo/backend/ole.h:66, /repo/protocol/e2f.h:59-60, and the matching receives *)
Fixpoint send_bns (l : list Z) : res (list N) :=
  match l with
  | [] => Ok []
  | x :: t => (let* a := send_bn x in let* b := send_bns t in Ok (a ++ b))%res
  end.
(** same code: /repo/backend/ole.h:66 *)
Fixpoint recv_bns (n : nat) (stream : list N) : res (list Z * list N) :=
  match n with
  | O => Ok ([], stream)
  | S k => (let* (x, s) := recv_bn stream in let* (l, s') := recv_bns k s in Ok (x :: l, s'))%res
  end.

(** H: /repo/backend/bn_utils.h:9-17; [ccrh] is emp's correlation robust hash on blocks;
    the two output blocks are read as 32 big-endian bytes of memory *)
Definition bn_H (ccrh : N -> N) (b : N) (q : Z) : Z :=
  BN_mod (BN_bin2bn (bytes_of_block (ccrh (N.lxor b 1)) ++ bytes_of_block (ccrh (N.lxor b 2)))) q.
