(** Properties C10, C11, C12 and C18: GF(2^128), GHASH and the oblivious product. *)
From Coq Require Import List NArith Bool Arith.
From Verif Require Import L_Bits L_Res S_Codec S_Gcm M_Block M_Ole2k M_Aead P_Gf128 P_Ole2k P_Gcm.
Import ListNotations.
Local Open Scope N_scope.
Local Opaque mulBlock gf_mul powBlock invBlock ghash compute_tag compare_tag.

(** ** C10 *)
Theorem C10_mulBlock_is_gcm_product : forall a b, a < 2 ^ 128 -> b < 2 ^ 128 -> mulBlock a b = gf_mul a b.
Proof. exact mulBlock_gf. Qed.
Print Assumptions C10_mulBlock_is_gcm_product.
(** the specification is a field multiplication: commutative, associative, distributive,
    with unit, without zero divisors *)
Theorem C10_field : forall a b c, a < 2 ^ 128 -> b < 2 ^ 128 -> c < 2 ^ 128 ->
  gf_mul a b = gf_mul b a /\ gf_mul a (gf_mul b c) = gf_mul (gf_mul a b) c /\
  gf_mul a (N.lxor b c) = N.lxor (gf_mul a b) (gf_mul a c) /\ gf_mul a gf_one = a /\
  (gf_mul a b = 0 -> a = 0 \/ b = 0).
Proof.
  exact (fun a b c Ha Hb Hc => conj (gf_mul_comm a b Ha Hb) (conj (gf_mul_assoc a b c Ha Hb Hc)
    (conj (gf_mul_add_r a b c) (conj (gf_mul_1_r a Ha) (gf_no_zero_div a b Ha Hb))))).
Qed.
Print Assumptions C10_field.
Example C10_ex : (* SP 800-38D / GCM test case 2: X1 * H *)
  mulBlock 0x0388dace60b6a392f328c2b971b2fe78 0x66e94bd4ef8a2c3b884cfa59ca342b2e
    = 0x5e2ec746917062882c85b0685353deb7.
Proof. vm_compute. reflexivity. Qed.

(** ** C11 *)
Theorem C11_powBlock : forall a n, a < 2 ^ 128 -> n < 2 ^ 64 -> powBlock a n = gf_pow a (N.to_nat n).
Proof. exact powBlock_ok. Qed.
Print Assumptions C11_powBlock.
Theorem C11_invBlock : forall a, a < 2 ^ 128 -> a <> 0 ->
  gf_mul a (invBlock a) = gf_one /\ invBlock a < 2 ^ 128.
Proof. exact (fun a H N => conj (invBlock_ok a H N) (invBlock_blk a H)). Qed.
Print Assumptions C11_invBlock.
(** at zero, where no inverse exists, the result is zero *)
Theorem C11_invBlock_zero : invBlock 0 = 0.
Proof. exact invBlock_0. Qed.
Print Assumptions C11_invBlock_zero.
Example C11_ex :
  powBlock 0x66e94bd4ef8a2c3b884cfa59ca342b2e 5 = gf_pow 0x66e94bd4ef8a2c3b884cfa59ca342b2e 5 /\
  mulBlock 0x66e94bd4ef8a2c3b884cfa59ca342b2e (invBlock 0x66e94bd4ef8a2c3b884cfa59ca342b2e) = gf_one.
Proof. vm_compute. auto. Qed.

(** ** C12 *)
Theorem C12_ghash : forall h xs, h < 2 ^ 128 -> Forall (fun x => x < 2 ^ 128) xs -> ghash h xs = ghash_spec h xs.
Proof. exact ghash_ok. Qed.
Print Assumptions C12_ghash.
Theorem C12_compute_tag : forall h z0 c aad, h < 2 ^ 128 ->
  Forall (fun b => b < 256) aad -> Forall (fun b => b < 256) c ->
  compute_tag h z0 c aad = gcm_tag_from h z0 aad c.
Proof. exact compute_tag_ok. Qed.
Print Assumptions C12_compute_tag.
Theorem C12_compare_tag : forall tag h z0 c aad, h < 2 ^ 128 ->
  Forall (fun b => b < 256) aad -> Forall (fun b => b < 256) c ->
  (compare_tag tag h z0 c aad = true <-> tag = gcm_tag_from h z0 aad c).
Proof. exact compare_tag_ok. Qed.
Print Assumptions C12_compare_tag.
Example C12_ex : (* GCM test case 2 *)
  compute_tag 0x66e94bd4ef8a2c3b884cfa59ca342b2e 0x58e2fccefa7e3061367f1d57a4e7455a
    [0x03; 0x88; 0xda; 0xce; 0x60; 0xb6; 0xa3; 0x92; 0xf3; 0x28; 0xc2; 0xb9; 0x71; 0xb2; 0xfe; 0x78] [] =
  [0xab; 0x6e; 0x47; 0xd4; 0x2c; 0xec; 0x13; 0xbd; 0xf5; 0x3a; 0x67; 0xb2; 0x12; 0x57; 0xbd; 0xdf].
Proof. vm_compute. reflexivity. Qed.

(** ** C18: for any product additive in each argument, in particular the GCM product *)
Theorem C18_ole_f2k : forall gf : N -> N -> N,
  (forall b x y, gf (N.lxor x y) b = N.lxor (gf x b) (gf y b)) ->
  (forall a x y, gf a (N.lxor x y) = N.lxor (gf a x) (gf a y)) ->
  forall ins_s ins_r raw0 raw1,
  length ins_r = length ins_s -> length raw0 = length ins_s -> length raw1 = length ins_s ->
  Forall (fun r => length r = 128%nat) raw0 -> Forall (fun r => length r = 128%nat) raw1 ->
  Forall (fun y => y < 2 ^ 128) ins_r ->
  let (os, or_) := ole_run gf raw0 raw1 ins_s ins_r in
  length os = length ins_s /\ length or_ = length ins_s /\
  map2 N.lxor os or_ = map2 gf ins_s ins_r.
Proof. exact ole_run_ok. Qed.
Print Assumptions C18_ole_f2k.
Theorem C18_gcm_product_is_additive :
  (forall b x y, gf_mul (N.lxor x y) b = N.lxor (gf_mul x b) (gf_mul y b)) /\
  (forall a x y, gf_mul a (N.lxor x y) = N.lxor (gf_mul a x) (gf_mul a y)).
Proof. exact gf_mul_bi. Qed.
Print Assumptions C18_gcm_product_is_additive.
Example C18_ex :
  let r0 := [map (fun i => N.of_nat i * 12345678901234567) (seq 0 128)] in
  let r1 := [map (fun i => N.of_nat (i + 5) * 98765432109876543) (seq 0 128)] in
  let (o, p) := ole_run gf_mul r0 r1 [0x66e94bd4ef8a2c3b884cfa59ca342b2e] [0x0388dace60b6a392f328c2b971b2fe78] in
  map2 N.lxor o p = [0x5e2ec746917062882c85b0685353deb7] /\ o <> [0].
Proof. vm_compute. split; [reflexivity|discriminate]. Qed.
