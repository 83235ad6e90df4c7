(** Properties C13 - C16 and C31: two-party AES-128-GCM. *)
From Coq Require Import List NArith Bool Arith.
From Verif Require Import L_Bits L_Res M_EmpInteger M_Utils M_Bristol M_Block M_Shares M_Aead.
From Verif Require Import S_Codec S_Aes S_Gcm D_AesKs D_AesEnc P_AesNet P_Shares P_Gcm P_Aead P_AeadInst.
Import ListNotations.
Local Open Scope N_scope.
Local Opaque computeKS computeAES_KS key_expansion cipher aes128 aesE aes_ks_file aes_enc_file str_to_int
  gf_mul mulBlock encrypt decrypt decrypt_shares aead_new gcm_tag gcm_ctext gcm_ae dec_verdict ks_layout.

(** ** C13 *)
Theorem C13_set_nonce : forall fiv iv,
  length fiv = 4%nat -> Forall (fun b => b < 256) fiv -> length iv = 8%nat -> Forall (fun b => b < 256) iv ->
  set_nonce (str_to_int fiv) iv = Ok (bits_of_N 128 (j0_of (fiv ++ iv))).
Proof. exact set_nonce_ok. Qed.
Print Assumptions C13_set_nonce.
Theorem C13_gctr : forall key, length key = 16%nat -> Forall (fun b => b < 256) key -> forall m n,
  exists ek, computeKS aes_ks_file (str_to_int key) = Ok ek /\
  gctr aes_enc_file m ek [] (bits_of_N 128 n) =
    Ok (concat (map (fun i => bits_of_N 128 (aesE key (iter_inc i n))) (rev (seq 0 m))),
        bits_of_N 128 (iter_inc m n)).
Proof. exact gctr_files. Qed.
Print Assumptions C13_gctr.
(** the counter field wraps without touching the nonce *)
Theorem C13_inc_wraps : forall n, inc (bits_of_N 128 n) 32 =
  Ok (bits_of_N 128 (N.shiftl (N.shiftr n 32) 32 + (n mod 2 ^ 32 + 1) mod 2 ^ 32)).
Proof. exact inc_ok. Qed.
Print Assumptions C13_inc_wraps.
Example C13_ex : inc (bits_of_N 128 (2 ^ 96 + 2 ^ 32 - 1)) 32 = Ok (bits_of_N 128 (2 ^ 96)).
Proof. vm_compute. reflexivity. Qed.

(** ** C14 and C15: whatever calls came before on the same object *)
Theorem C14_encrypt_is_gcm : forall gfr hash, gfr_ok gfr -> forall key fiv mh r ro ops,
  length key = 16%nat -> Forall (fun b => b < 256) key -> length fiv = 4%nat -> Forall (fun b => b < 256) fiv ->
  length mh = 128%nat -> r < 2 ^ 128 -> r <> 0 -> ole_rand_ok ro 1 -> Forall aop_wf ops ->
  exists s0 s outs,
    aead_new aes_ks_file aes_enc_file gfr (str_to_int key) (str_to_int fiv) mh r ro = Ok s0 /\
    aops_run aes_enc_file gfr hash s0 ops = Ok (s, outs) /\
    forall msga msgb aad iv sec rnd,
      Forall (fun b => b < 256) msga -> Forall (fun b => b < 256) aad ->
      length iv = 8%nat -> Forall (fun b => b < 256) iv -> rand_ok rnd aad msga -> (sec = false -> msgb = msga) ->
      exists s', encrypt aes_enc_file gfr s msga msgb aad iv sec rnd =
        Ok (s', gcm_ae (aesE key) (fiv ++ iv) msga aad, gcm_ae (aesE key) (fiv ++ iv) msga aad).
Proof. exact encrypt_files. Qed.
Print Assumptions C14_encrypt_is_gcm.

Theorem C15_decrypt_is_gcm : forall gfr hash, gfr_ok gfr -> forall key fiv mh r ro ops,
  length key = 16%nat -> Forall (fun b => b < 256) key -> length fiv = 4%nat -> Forall (fun b => b < 256) fiv ->
  length mh = 128%nat -> r < 2 ^ 128 -> r <> 0 -> ole_rand_ok ro 1 -> Forall aop_wf ops ->
  exists s0 s outs,
    aead_new aes_ks_file aes_enc_file gfr (str_to_int key) (str_to_int fiv) mh r ro = Ok s0 /\
    aops_run aes_enc_file gfr hash s0 ops = Ok (s, outs) /\
    forall ctxt tag aad iv sec rnd rnda rndb,
      Forall (fun b => b < 256) ctxt -> Forall (fun b => b < 256) aad ->
      length iv = 8%nat -> Forall (fun b => b < 256) iv -> rand_ok rnd aad ctxt ->
      exists s' va vb,
        decrypt aes_enc_file gfr hash s ctxt tag aad iv sec rnd rnda rndb =
          Ok (s', (gcm_ctext (aesE key) (fiv ++ iv) ctxt, va),
              (if sec then None else Some (gcm_ctext (aesE key) (fiv ++ iv) ctxt), vb)) /\
        (va = true <-> tag = gcm_tag (aesE key) (fiv ++ iv) aad ctxt) /\
        (vb = true <-> tag = gcm_tag (aesE key) (fiv ++ iv) aad ctxt).
Proof. exact decrypt_files. Qed.
Print Assumptions C15_decrypt_is_gcm.
(** in the specification decryption undoes encryption, so the two calls compose *)
Theorem C15_round_trip : forall E iv p, (forall n, E n < 2 ^ 128) ->
  gcm_ctext E iv (gcm_ctext E iv p) = p.
Proof. exact ctext_involutive. Qed.
Print Assumptions C15_round_trip.
(** the hypotheses on the emp multiplication are met by the GCM product and by mulBlock *)
Theorem C14_hypothesis_met : gfr_ok gf_mul /\ gfr_ok mulBlock.
Proof. exact (conj gfr_gf_mul gfr_mulBlock). Qed.
Print Assumptions C14_hypothesis_met.

(** one concrete run: GCM test case 2 (zero key, IV and block), secret mode, then the
    decryption of the result, on the circuits themselves *)
Example C14_C15_ex :
  let z16 := repeat 0 16 in let iv := repeat 0 8 in
  let rows n := repeat (map N.of_nat (seq 0 128)) n in
  let ro n := {| raw0 := rows n; raw1 := rows n |} in
  let rnd := {| m_z0 := repeat true 128; m_z := repeat true 128; m_ole := ro 2%nat |} in
  let ct := [0x03; 0x88; 0xda; 0xce; 0x60; 0xb6; 0xa3; 0x92; 0xf3; 0x28; 0xc2; 0xb9; 0x71; 0xb2; 0xfe; 0x78] in
  let tag := [0xab; 0x6e; 0x47; 0xd4; 0x2c; 0xec; 0x13; 0xbd; 0xf5; 0x3a; 0x67; 0xb2; 0x12; 0x57; 0xbd; 0xdf] in
  (let* s := aead_new aes_ks_file aes_enc_file gf_mul (str_to_int z16) (str_to_int (repeat 0 4)) (repeat true 128) 77 (ro 1%nat) in
   let* (s, a, b) := encrypt aes_enc_file gf_mul s z16 [] [] iv true rnd in
   let* (s, c, d) := decrypt aes_enc_file gf_mul (fun x => x) s ct tag [] iv true rnd [1] [2] in
   Ok (a, b, c, d))%res = Ok ((ct, tag), (ct, tag), (z16, true), (None, true)).
Proof. vm_compute. reflexivity. Qed.

(** ** C16: the expectation is false.  BOB answers with ALICE's own commitment and
    opening; ALICE then accepts the all-zero tag, whatever the right tag is. *)
Theorem C16_reflection_accepted : forall hash out rnd,
  dec_verdict hash (repeat 0 16) out (dec_msg1 hash out rnd) (dec_msg2 out rnd) = true.
Proof. exact reflection. Qed.
Print Assumptions C16_reflection_accepted.
Theorem C16_wrong_tag_accepted_refuted :
  exists key fiv iv ctxt aad sec rnd mh r ro gfr s s' ma mb oa ob,
    gfr_ok gfr /\
    aead_new aes_ks_file aes_enc_file gfr (str_to_int key) (str_to_int fiv) mh r ro = Ok s /\
    decrypt_shares aes_enc_file gfr s ctxt aad iv sec rnd = Ok (s', ma, mb, oa, ob) /\
    (forall hash rnda, dec_verdict hash (repeat 0 16) oa (dec_msg1 hash oa rnda) (dec_msg2 oa rnda) = true) /\
    repeat 0 16 <> gcm_tag (aesE key) (fiv ++ iv) aad ctxt.
Proof. exact reflection_refuted. Qed.
Print Assumptions C16_wrong_tag_accepted_refuted.
(** what does hold: BOB's accepted opening is fixed by the commitment, unless BOB has a
    hash collision *)
Theorem C16_commitment_binds : forall hash tag out com o1 o2,
  fst o1 < 2 ^ 128 -> fst o2 < 2 ^ 128 ->
  dec_verdict hash tag out com o1 = true -> dec_verdict hash tag out com o2 = true ->
  fst o1 = fst o2 \/ exists x y : list N, x <> y /\ hash x = hash y.
Proof. exact verdict_binding. Qed.
Print Assumptions C16_commitment_binds.
