(** Properties C08 and C09: the shipped AES-128 circuit files. *)
From Coq Require Import List NArith Bool Arith.
From Verif Require Import L_Bits L_Res M_EmpInteger M_Utils M_Bristol S_Aes.
From Verif Require Import D_AesKs D_AesEnc P_AesNet.
Import ListNotations.
Local Open Scope N_scope.
Local Opaque computeKS computeAES_KS key_expansion cipher aes128 aes_ks_file aes_enc_file str_to_int.

(** ** C08: the key-schedule circuit is FIPS-197 key expansion.  Word order is kept; inside
    a word the bytes are reversed and each byte is most-significant-bit first. *)
Theorem C08_key_schedule : forall key,
  length key = 16%nat -> Forall (fun b => b < 256) key ->
  computeKS aes_ks_file (str_to_int key) =
    Ok (flat_map (fun w => flat_map (be_of_N 8) (rev w)) (key_expansion key)).
Proof. exact computeKS_ok. Qed.
Print Assumptions C08_key_schedule.

(** every 128-bit Integer is covered by the previous theorem *)
Theorem C08_every_integer_is_a_key : forall x : Integer, length x = 128%nat ->
  exists key, length key = 16%nat /\ Forall (fun b => b < 256) key /\ str_to_int key = x.
Proof. intros x H. exists (int_bytes x). exact (int_bytes_ok x H). Qed.
Print Assumptions C08_every_integer_is_a_key.

Example C08_ex : (* FIPS-197 Appendix A.1: w[4] = a0fafe17, w[43] = b6630ca6 *)
  let key := [0x2b; 0x7e; 0x15; 0x16; 0x28; 0xae; 0xd2; 0xa6; 0xab; 0xf7; 0x15; 0x88; 0x09; 0xcf; 0x4f; 0x3c] in
  nth 4 (key_expansion key) [] = [0xa0; 0xfa; 0xfe; 0x17] /\
  nth 43 (key_expansion key) [] = [0xb6; 0x63; 0x0c; 0xa6].
Proof. vm_compute. auto. Qed.

(** ** C09: the encryption circuit is the FIPS-197 cipher, for any 44 words *)
Theorem C09_cipher : forall ws blk,
  length blk = 16%nat -> Forall (fun b => b < 256) blk ->
  length ws = 44%nat -> Forall (fun w => length w = 4%nat /\ Forall (fun b => b < 256) w) ws ->
  computeAES_KS aes_enc_file (flat_map (fun w => flat_map (be_of_N 8) (rev w)) ws) (str_to_int blk) =
    Ok (str_to_int (cipher ws blk)).
Proof. exact computeAES_KS_ok. Qed.
Print Assumptions C09_cipher.

Theorem C09_aes128 : forall key blk,
  length key = 16%nat -> Forall (fun b => b < 256) key ->
  length blk = 16%nat -> Forall (fun b => b < 256) blk ->
  (let* ks := computeKS aes_ks_file (str_to_int key) in
   computeAES_KS aes_enc_file ks (str_to_int blk))%res = Ok (str_to_int (aes128 key blk)).
Proof. exact aes_encrypt_ok. Qed.
Print Assumptions C09_aes128.

Example C09_ex : (* FIPS-197 Appendix C.1 *)
  aes128 [0; 1; 2; 3; 4; 5; 6; 7; 8; 9; 10; 11; 12; 13; 14; 15]
    [0x00; 0x11; 0x22; 0x33; 0x44; 0x55; 0x66; 0x77; 0x88; 0x99; 0xaa; 0xbb; 0xcc; 0xdd; 0xee; 0xff] =
  [0x69; 0xc4; 0xe0; 0xd8; 0x6a; 0x7b; 0x04; 0x30; 0xd8; 0xcd; 0xb7; 0x80; 0x70; 0xb4; 0xc5; 0x5a].
Proof. vm_compute. reflexivity. Qed.
(** and running the circuits themselves *)
Example C09_ex_model :
  (let* ks := computeKS aes_ks_file
     (str_to_int [0; 1; 2; 3; 4; 5; 6; 7; 8; 9; 10; 11; 12; 13; 14; 15]) in
   computeAES_KS aes_enc_file ks (str_to_int
    [0x00; 0x11; 0x22; 0x33; 0x44; 0x55; 0x66; 0x77; 0x88; 0x99; 0xaa; 0xbb; 0xcc; 0xdd; 0xee; 0xff]))%res =
  Ok (str_to_int [0x69; 0xc4; 0xe0; 0xd8; 0x6a; 0x7b; 0x04; 0x30; 0xd8; 0xcd; 0xb7; 0x80; 0x70; 0xb4; 0xc5; 0x5a]).
Proof. vm_compute. reflexivity. Qed.
