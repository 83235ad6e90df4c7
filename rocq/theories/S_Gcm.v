(** GCM, transcribed from NIST SP 800-38D.  A 128-bit block is the number whose binary
    representation it is, leftmost bit most significant. *)
From Coq Require Import List NArith Bool Arith.
From Verif Require Import S_Codec S_Aes.
Import ListNotations.
Local Open Scope N_scope.

(** Section 6.3: multiplication of blocks, R = 11100001 || 0^120 *)
Definition gcm_R : N := N.shiftl 0xe1 120.
Definition gf_shift (v : N) : N :=
  if N.odd v then N.lxor (N.div2 v) gcm_R else N.div2 v.
Fixpoint gf_mul_from (n : nat) (x v z : N) : N :=
  match n with
  | O => z
  | S k => gf_mul_from k x (gf_shift v) (if N.testbit x (N.of_nat k) then N.lxor z v else z)
  end.
(** bit x_0 is bit 127 of the number: the loop runs i = 0..127, k = 127 - i *)
Definition gf_mul (x y : N) : N := gf_mul_from 128 x y 0.
(** the multiplicative identity 1 0^127 *)
Definition gf_one : N := N.shiftl 1 127.
Fixpoint gf_pow (x : N) (n : nat) : N :=
  match n with O => gf_one | S k => gf_mul x (gf_pow x k) end.

(** Section 6.4: GHASH_H *)
Definition ghash_spec (h : N) (xs : list N) : N :=
  fold_left (fun y x => gf_mul (N.lxor y x) h) xs 0.

(** zero padding to a multiple of 16 bytes *)
Definition pad16 (l : list N) : list N := l ++ repeat 0 ((16 - length l mod 16) mod 16).
Fixpoint blocks_fuel (fuel : nat) (l : list N) : list N :=
  match fuel with
  | O => []
  | S f => match l with [] => [] | _ => be_val (firstn 16 l) :: blocks_fuel f (skipn 16 l) end
  end.
Definition blocks_of (l : list N) : list N := blocks_fuel (length l) l.

(** Section 6.2: inc_32 *)
Definition inc32 (x : N) : N :=
  N.shiftl (N.shiftr x 32) 32 + (x mod 2 ^ 32 + 1) mod 2 ^ 32.
Fixpoint iter_inc (n : nat) (x : N) : N := match n with O => x | S k => iter_inc k (inc32 x) end.

Section GCM.
(** the block cipher under the fixed key *)
Variable E : N -> N.

(** Section 6.5: GCTR on byte strings *)
Definition keystream (n : nat) (icb : N) : list N :=
  flat_map (fun i => be_enc 16 (E (iter_inc i icb))) (seq 0 n).
Definition xor_str (a b : list N) : list N :=
  map (fun p => N.lxor (fst p) (snd p)) (combine a b).
Definition gctr_spec (icb : N) (x : list N) : list N :=
  xor_str x (keystream ((length x + 15) / 16) icb).

(** J0 for a 96-bit IV *)
Definition j0_of (iv : list N) : N := N.shiftl (be_val iv) 32 + 1.

Definition gcm_ghash_input (aad c : list N) : list N :=
  pad16 aad ++ pad16 c ++ be_enc 8 (8 * N.of_nat (length aad)) ++ be_enc 8 (8 * N.of_nat (length c)).
(** the tag from H, E(J0), A and C *)
Definition gcm_tag_from (h ej0 : N) (aad c : list N) : list N :=
  be_enc 16 (N.lxor (ghash_spec h (blocks_of (gcm_ghash_input aad c))) ej0).
Definition gcm_tag (iv aad c : list N) : list N := gcm_tag_from (E 0) (E (j0_of iv)) aad c.

(** Section 7.1: authenticated encryption; Section 7.2: authenticated decryption *)
Definition gcm_ctext (iv p : list N) : list N := gctr_spec (inc32 (j0_of iv)) p.
Definition gcm_ae (iv p aad : list N) : list N * list N :=
  let c := gcm_ctext iv p in (c, gcm_tag iv aad c).
Definition gcm_ad (iv c aad tag : list N) : option (list N) :=
  if list_eq_dec N.eq_dec tag (gcm_tag iv aad c) then Some (gcm_ctext iv c) else None.
End GCM.

(** The block cipher of this code base: AES-128 (FIPS-197) on blocks seen as numbers *)
Definition aesE (key : list N) (n : N) : N := be_val (aes128 key (be_enc 16 n)).
