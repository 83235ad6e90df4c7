(** Model of the block (128-bit register) functions of /repo/cipher/utils.h.
    A block is the number held by the __m128i register. *)
From Coq Require Import List NArith Bool Arith.
From Verif Require Import L_Bits.
Import ListNotations.
Local Open Scope N_scope.

(** ** The SSE/PCLMUL instructions used (Intel SDM; not in /repo) *)
Definition mask128 : N := N.ones 128.
(** carry-less product of two 64-bit words
    (_mm_clmulepi64_si128 as used in /repo/cipher/utils.h:156-159) *)
Fixpoint clmul64 (n : nat) (a b : N) : N :=
  match n with
  | O => 0
  | S k => N.lxor (clmul64 k a b) (if N.testbit b (N.of_nat k) then N.shiftl a (N.of_nat k) else 0)
  end.
(** halves selected in /repo/cipher/utils.h:156-159 *)
Definition lo64 (x : N) : N := N.land x (N.ones 64).
(** halves selected in /repo/cipher/utils.h:156-159 *)
Definition hi64 (x : N) : N := N.land (N.shiftr x 64) (N.ones 64).
(** _mm_clmulepi64_si128(a, b, imm): bit 0 of imm selects a's half, bit 4 b's half
    (_mm_clmulepi64_si128 as used in /repo/cipher/utils.h:156-159) *)
Definition clmul (a b : N) (ahi bhi : bool) : N :=
  clmul64 64 (if ahi then hi64 a else lo64 a) (if bhi then hi64 b else lo64 b).
(** byte shifts of the whole register
    (used in /repo/cipher/utils.h:162-163, 172-174, 184-185) *)
Definition slli_si128 (x n : N) : N := N.land (N.shiftl x (8 * n)) mask128.
(** used in /repo/cipher/utils.h:162-163, 172-174, 184-185 *)
Definition srli_si128 (x n : N) : N := N.shiftr (N.land x mask128) (8 * n).
(** shifts of the four 32-bit lanes: shift the register and clear the bits that crossed
    a lane boundary (shown lane-wise in P_Gf128.slli_epi32_lane, srli_epi32_lane)
    (used in /repo/cipher/utils.h:167-190) *)
Definition rep4 (m : N) : N :=
  N.lor m (N.lor (N.shiftl m 32) (N.lor (N.shiftl m 64) (N.shiftl m 96))).
(** used in /repo/cipher/utils.h:167-190 *)
Definition slli_epi32 (x n : N) : N :=
  N.land (N.shiftl x n) (rep4 (N.shiftl (N.ones (32 - n)) n)).
(** used in /repo/cipher/utils.h:167-190 *)
Definition srli_epi32 (x n : N) : N := N.land (N.shiftr x n) (rep4 (N.ones (32 - n))).

(** mulBlock: /repo/cipher/utils.h:154-196 *)
Definition mulBlock (a b : N) : N :=
  let tmp3 := clmul a b false false in
  let tmp4 := clmul a b false true in
  let tmp5 := clmul a b true false in
  let tmp6 := clmul a b true true in
  let tmp4 := N.lxor tmp4 tmp5 in
  let tmp5 := slli_si128 tmp4 8 in
  let tmp4 := srli_si128 tmp4 8 in
  let tmp3 := N.lxor tmp3 tmp5 in
  let tmp6 := N.lxor tmp6 tmp4 in
  let tmp7 := srli_epi32 tmp3 31 in
  let tmp8 := srli_epi32 tmp6 31 in
  let tmp3 := slli_epi32 tmp3 1 in
  let tmp6 := slli_epi32 tmp6 1 in
  let tmp9 := srli_si128 tmp7 12 in
  let tmp8 := slli_si128 tmp8 4 in
  let tmp7 := slli_si128 tmp7 4 in
  let tmp3 := N.lor tmp3 tmp7 in
  let tmp6 := N.lor tmp6 tmp8 in
  let tmp6 := N.lor tmp6 tmp9 in
  let tmp7 := slli_epi32 tmp3 31 in
  let tmp8 := slli_epi32 tmp3 30 in
  let tmp9 := slli_epi32 tmp3 25 in
  let tmp7 := N.lxor tmp7 tmp8 in
  let tmp7 := N.lxor tmp7 tmp9 in
  let tmp8 := srli_si128 tmp7 4 in
  let tmp7 := slli_si128 tmp7 12 in
  let tmp3 := N.lxor tmp3 tmp7 in
  let tmp2 := srli_epi32 tmp3 1 in
  let tmp4 := srli_epi32 tmp3 2 in
  let tmp5 := srli_epi32 tmp3 7 in
  let tmp2 := N.lxor tmp2 tmp4 in
  let tmp2 := N.lxor tmp2 tmp5 in
  let tmp2 := N.lxor tmp2 tmp8 in
  let tmp3 := N.lxor tmp3 tmp2 in
  N.lxor tmp6 tmp3.

(** the leading_zeros loop of powBlock: /repo/cipher/utils.h:202-207, [i] counts down
    from 63 to 0 and the loop stops at the first set bit *)
Fixpoint leading_zeros (i : nat) (len : N) : nat :=
  match i with
  | O => O
  | S k => if N.testbit len (N.of_nat k) then O else S (leading_zeros k len)
  end.
(** powBlock: /repo/cipher/utils.h:198-219; [len] is a uint64_t; set_bit(zero_block, 127)
    is the register with only bit 127 set *)
Definition pow_step (len : N) (hr : N * N) (i : nat) : N * N :=
  let h := mulBlock (fst hr) (fst hr) in
  (h, if N.testbit len (N.of_nat i) then mulBlock h (snd hr) else snd hr).
(** same code: /repo/cipher/utils.h:198-219 *)
Definition powBlock (a len : N) : N :=
  let lz := leading_zeros 64 len in
  let res := if N.testbit len 0 then a else N.shiftl 1 127 in
  snd (fold_left (pow_step len) (seq 1 (64 - lz - 1)) (a, res)).

(** invBlock: /repo/cipher/utils.h:221-231 *)
Definition inv_step (hr : N * N) (_ : nat) : N * N :=
  let h := mulBlock (fst hr) (fst hr) in (h, mulBlock h (snd hr)).
(** same code: /repo/cipher/utils.h:221-231 *)
Definition invBlock (a : N) : N :=
  let res := snd (fold_left inv_step (seq 1 126) (a, a)) in
  mulBlock res res.

(** ghash: /repo/cipher/utils.h:233-239 *)
Definition ghash (h : N) (x : list N) : N :=
  fold_left (fun y xi => mulBlock (N.lxor y xi) h) x 0.
