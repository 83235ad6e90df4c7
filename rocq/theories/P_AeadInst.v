(** The AEAD theorems on the shipped AES circuits. *)
From Coq Require Import List NArith Bool Arith Lia.
From Verif Require Import L_Bits L_Res L_Xor M_EmpInteger M_Utils M_Bristol M_Block M_Shares M_Aead.
From Verif Require Import S_Codec S_Aes S_Gcm D_AesKs D_AesEnc P_Gf128 P_Utils P_AesNet P_Shares P_Gcm P_Aead.
Import ListNotations.
Local Open Scope N_scope.
Local Opaque computeKS computeAES_KS key_expansion cipher aes128 aesE aes_ks_file aes_enc_file str_to_int ks_layout
  gf_mul mulBlock encrypt decrypt decrypt_shares aead_new gctr.

Lemma aes_files_ok : aes_net_ok aes_ks_file aes_enc_file.
Proof. exact (conj computeKS_ok computeAES_KS_ok). Qed.
Lemma files_cipher_ok key : length key = 16%nat -> Forall (fun b => b < 256) key ->
  cipher_ok aes_enc_file (EK key) (aesE key).
Proof. exact (net_cipher_ok aes_ks_file aes_enc_file aes_files_ok key). Qed.
Lemma files_ks key : length key = 16%nat -> Forall (fun b => b < 256) key ->
  computeKS aes_ks_file (str_to_int key) = Ok (EK key).
Proof. exact (proj1 aes_files_ok key). Qed.

(** generic in the block cipher, so that nothing heavy is unfolded *)
Lemma gctr_gen enc ek E : cipher_ok enc ek E -> forall m n,
  gctr enc m ek [] (bits_of_N 128 n) =
    Ok (concat (map (fun i => bits_of_N 128 (E (iter_inc i n))) (rev (seq 0 m))), bits_of_N 128 (iter_inc m n)).
Proof.
  intros [C _] m n. rewrite (gctr_ok enc ek E C). rewrite app_nil_r. unfold ks_blocks, ksb.
  rewrite <- map_rev, map_map. reflexivity.
Qed.
Lemma gctr_files key : length key = 16%nat -> Forall (fun b => b < 256) key -> forall m n,
  exists ek, computeKS aes_ks_file (str_to_int key) = Ok ek /\
  gctr aes_enc_file m ek [] (bits_of_N 128 n) =
    Ok (concat (map (fun i => bits_of_N 128 (aesE key (iter_inc i n))) (rev (seq 0 m))), bits_of_N 128 (iter_inc m n)).
Proof.
  intros H1 H2 m n. exists (EK key). split; [exact (files_ks key H1 H2)|].
  exact (gctr_gen aes_enc_file (EK key) (aesE key) (files_cipher_ok key H1 H2) m n).
Qed.

Section Gen.
Variable ks enc : bristol.
Variable gfr : N -> N -> N.
Variable hash : list N -> list N.
Hypothesis GFR : gfr_ok gfr.
Variable key : Integer.
Variable ek : Integer.
Variable E : N -> N.
Hypothesis CIP : cipher_ok enc ek E.
Hypothesis KS : computeKS ks key = Ok ek.
Variable fiv : list N.
Hypothesis V1 : length fiv = 4%nat.
Hypothesis V2 : Forall (fun b => b < 256) fiv.
Variable mh : list bool.
Variable r : N.
Variable ro : ole_rand.
Hypothesis HM : length mh = 128%nat.
Hypothesis HR : r < 2 ^ 128.
Hypothesis HR0 : r <> 0.
Hypothesis HRO : ole_rand_ok ro 1.

Lemma gen_run ops : Forall aop_wf ops -> exists s0 s,
  aead_new ks enc gfr key (str_to_int fiv) mh r ro = Ok s0 /\
  aops_run enc gfr hash s0 ops = Ok (s, map (aop_spec E fiv) ops) /\ aead_inv ek E fiv (map aop_call ops) s.
Proof.
  intro F. destruct (aead_new_ok ks enc gfr GFR ek E CIP fiv key mh r ro KS HM HR HR0 HRO) as (s0 & E0 & I0).
  destruct (aops_ok enc gfr GFR ek E CIP fiv V1 V2 hash ops [] s0 I0 F) as (s & E1 & I1).
  exists s0, s. auto.
Qed.
Lemma encrypt_gen ops : Forall aop_wf ops -> exists s0 s outs,
    aead_new ks enc gfr key (str_to_int fiv) mh r ro = Ok s0 /\
    aops_run enc gfr hash s0 ops = Ok (s, outs) /\
    forall msga msgb aad iv sec rnd,
      Forall (fun b => b < 256) msga -> Forall (fun b => b < 256) aad ->
      length iv = 8%nat -> Forall (fun b => b < 256) iv -> rand_ok rnd aad msga -> (sec = false -> msgb = msga) ->
      exists s', encrypt enc gfr s msga msgb aad iv sec rnd =
        Ok (s', gcm_ae E (fiv ++ iv) msga aad, gcm_ae E (fiv ++ iv) msga aad).
Proof.
  intro F. destruct (gen_run ops F) as (s0 & s & E0 & E1 & I). exists s0, s, (map (aop_spec E fiv) ops).
  split; [exact E0|]. split; [exact E1|]. intros msga msgb aad iv sec rnd H1 H2 H3 H4 H5 H6.
  destruct (encrypt_ok enc gfr GFR ek E CIP fiv V1 V2 _ s msga msgb aad iv sec rnd I H1 H2 H3 H4 H5 H6) as (s' & X & _).
  exists s'. exact X.
Qed.
Lemma decrypt_gen ops : Forall aop_wf ops -> exists s0 s outs,
    aead_new ks enc gfr key (str_to_int fiv) mh r ro = Ok s0 /\
    aops_run enc gfr hash s0 ops = Ok (s, outs) /\
    forall ctxt tag aad iv sec rnd rnda rndb,
      Forall (fun b => b < 256) ctxt -> Forall (fun b => b < 256) aad ->
      length iv = 8%nat -> Forall (fun b => b < 256) iv -> rand_ok rnd aad ctxt ->
      exists s' va vb,
        decrypt enc gfr hash s ctxt tag aad iv sec rnd rnda rndb =
          Ok (s', (gcm_ctext E (fiv ++ iv) ctxt, va),
              (if sec then None else Some (gcm_ctext E (fiv ++ iv) ctxt), vb)) /\
        (va = true <-> tag = gcm_tag E (fiv ++ iv) aad ctxt) /\
        (vb = true <-> tag = gcm_tag E (fiv ++ iv) aad ctxt).
Proof.
  intro F. destruct (gen_run ops F) as (s0 & s & E0 & E1 & I). exists s0, s, (map (aop_spec E fiv) ops).
  split; [exact E0|]. split; [exact E1|]. intros ctxt tag aad iv sec rnd rnda rndb H1 H2 H3 H4 H5.
  destruct (decrypt_ok enc gfr GFR ek E CIP fiv V1 V2 hash _ s ctxt tag aad iv sec rnd rnda rndb I H1 H2 H3 H4 H5) as (s' & X & _).
  exists s', (bytes_eqb tag (gcm_tag E (fiv ++ iv) aad ctxt)), (bytes_eqb tag (gcm_tag E (fiv ++ iv) aad ctxt)).
  split; [exact X|]. split; apply bytes_eqb_spec.
Qed.
Lemma refl_gen ctxt aad iv sec rnd : Forall (fun b => b < 256) ctxt -> Forall (fun b => b < 256) aad ->
  length iv = 8%nat -> Forall (fun b => b < 256) iv -> rand_ok rnd aad ctxt ->
  exists s s' ma mb oa ob,
    aead_new ks enc gfr key (str_to_int fiv) mh r ro = Ok s /\
    decrypt_shares enc gfr s ctxt aad iv sec rnd = Ok (s', ma, mb, oa, ob) /\
    (forall hash rnda, dec_verdict hash (repeat 0 16) oa (dec_msg1 hash oa rnda) (dec_msg2 oa rnda) = true).
Proof.
  intros H1 H2 H3 H4 H5. destruct (gen_run [] (Forall_nil _)) as (s0 & s & E0 & E1 & I). cbn [aops_run] in E1.
  assert (s = s0) by congruence. subst s.
  destruct (decrypt_shares_ok enc gfr GFR ek E CIP fiv V1 V2 _ s0 ctxt aad iv sec rnd I H1 H2 H3 H4 H5) as (s' & oa & ob & X & _).
  eexists _, _, _, _, _, _. split; [exact E0|]. split; [exact X|]. intros. apply reflection.
Qed.
End Gen.

Lemma encrypt_files gfr hash : gfr_ok gfr -> forall key fiv mh r ro ops,
  length key = 16%nat -> Forall (fun b => b < 256) key -> length fiv = 4%nat -> Forall (fun b => b < 256) fiv ->
  length mh = 128%nat -> r < 2 ^ 128 -> r <> 0 -> ole_rand_ok ro 1 -> Forall aop_wf ops ->
  exists s0 s outs,
    aead_new aes_ks_file aes_enc_file gfr (str_to_int key) (str_to_int fiv) mh r ro = Ok s0 /\
    aops_run aes_enc_file gfr hash s0 ops = Ok (s, outs) /\
    forall msga msgb aad iv sec rnd,
      Forall (fun b => b < 256) msga -> Forall (fun b => b < 256) aad ->
      length iv = 8%nat -> Forall (fun b => b < 256) iv -> rand_ok rnd aad msga -> (sec = false -> msgb = msga) ->
      exists s', encrypt aes_enc_file gfr s msga msgb aad iv sec rnd =
        Ok (s', gcm_ae (aesE key) (fiv ++ iv) msga aad, gcm_ae (aesE key) (fiv ++ iv) msga aad).
Proof.
  intros G key fiv mh r ro ops K1 K2 V1 V2 HM HR HR0 HRO F.
  exact (encrypt_gen aes_ks_file aes_enc_file gfr hash G (str_to_int key) (EK key) (aesE key)
    (files_cipher_ok key K1 K2) (files_ks key K1 K2) fiv V1 V2 mh r ro HM HR HR0 HRO ops F).
Qed.
Lemma decrypt_files gfr hash : gfr_ok gfr -> forall key fiv mh r ro ops,
  length key = 16%nat -> Forall (fun b => b < 256) key -> length fiv = 4%nat -> Forall (fun b => b < 256) fiv ->
  length mh = 128%nat -> r < 2 ^ 128 -> r <> 0 -> ole_rand_ok ro 1 -> Forall aop_wf ops ->
  exists s0 s outs,
    aead_new aes_ks_file aes_enc_file gfr (str_to_int key) (str_to_int fiv) mh r ro = Ok s0 /\
    aops_run aes_enc_file gfr hash s0 ops = Ok (s, outs) /\
    forall ctxt tag aad iv sec rnd rnda rndb,
      Forall (fun b => b < 256) ctxt -> Forall (fun b => b < 256) aad ->
      length iv = 8%nat -> Forall (fun b => b < 256) iv -> rand_ok rnd aad ctxt ->
      exists s' va vb,
        decrypt aes_enc_file gfr hash s ctxt tag aad iv sec rnd rnda rndb =
          Ok (s', (gcm_ctext (aesE key) (fiv ++ iv) ctxt, va),
              (if sec then None else Some (gcm_ctext (aesE key) (fiv ++ iv) ctxt), vb)) /\
        (va = true <-> tag = gcm_tag (aesE key) (fiv ++ iv) aad ctxt) /\
        (vb = true <-> tag = gcm_tag (aesE key) (fiv ++ iv) aad ctxt).
Proof.
  intros G key fiv mh r ro ops K1 K2 V1 V2 HM HR HR0 HRO F.
  exact (decrypt_gen aes_ks_file aes_enc_file gfr hash G (str_to_int key) (EK key) (aesE key)
    (files_cipher_ok key K1 K2) (files_ks key K1 K2) fiv V1 V2 mh r ro HM HR HR0 HRO ops F).
Qed.

Lemma ctext_involutive E iv p : (forall n, E n < 2 ^ 128) -> gcm_ctext E iv (gcm_ctext E iv p) = p.
Proof.
  intros _. unfold gcm_ctext, gctr_spec.
  assert (L : forall m n, length (keystream E m n) = (16 * m)%nat) by (intros; apply keystream_length).
  assert (X : forall (a k : list N), (length a <= length k)%nat -> length (xor_str a k) = length a /\ xor_str (xor_str a k) k = a).
  { unfold xor_str. induction a as [|x a IH]; intros [|y k] H; try (cbn in H; lia); [split; reflexivity|split; reflexivity|].
    cbn [combine map length fst snd]. destruct (IH k) as [A B]; [cbn in H; lia|]. split; [now rewrite A|].
    rewrite B. f_equal. xor_solve. }
  set (k := keystream E ((length p + 15) / 16) (inc32 (j0_of iv))).
  destruct (X p k) as [A B]; [unfold k; rewrite L, ctr_pad; lia|]. rewrite A. exact B.
Qed.

Lemma zero_tag_case : repeat 0 16 <> gcm_tag (aesE (repeat 0 16)) (repeat 0 4 ++ repeat 0 8) [] [].
Proof.
  assert (X : gcm_tag (aesE (repeat 0 16)) (repeat 0 4 ++ repeat 0 8) [] [] =
    [0x58; 0xe2; 0xfc; 0xce; 0xfa; 0x7e; 0x30; 0x61; 0x36; 0x7f; 0x1d; 0x57; 0xa4; 0xe7; 0x45; 0x5a])
    by (vm_compute; reflexivity).
  rewrite X. discriminate.
Qed.
Definition ex_ro (n : nat) : ole_rand := {| raw0 := repeat (repeat 0 128) n; raw1 := repeat (repeat 0 128) n |}.
Lemma ex_ro_ok n : ole_rand_ok (ex_ro n) n.
Proof.
  unfold ole_rand_ok, ex_ro. cbn [raw0 raw1]. rewrite repeat_length.
  assert (F : Forall (fun x : list N => length x = 128%nat) (repeat (repeat 0 128) n)).
  { apply Forall_forall. intros x Hx. apply repeat_spec in Hx. subst. apply repeat_length. }
  auto.
Qed.
Lemma zeros_bytes n : Forall (fun b => b < 256) (repeat 0 n).
Proof. apply Forall_forall. intros x Hx. apply repeat_spec in Hx. subst. reflexivity. Qed.
Lemma reflection_refuted :
  exists key fiv iv ctxt aad sec rnd mh r ro gfr s s' ma mb oa ob,
    gfr_ok gfr /\
    aead_new aes_ks_file aes_enc_file gfr (str_to_int key) (str_to_int fiv) mh r ro = Ok s /\
    decrypt_shares aes_enc_file gfr s ctxt aad iv sec rnd = Ok (s', ma, mb, oa, ob) /\
    (forall hash rnda, dec_verdict hash (repeat 0 16) oa (dec_msg1 hash oa rnda) (dec_msg2 oa rnda) = true) /\
    repeat 0 16 <> gcm_tag (aesE key) (fiv ++ iv) aad ctxt.
Proof.
  set (rnd := {| m_z0 := repeat false 128; m_z := []; m_ole := ex_ro 1 |}).
  assert (K1 : length (repeat 0 16) = 16%nat) by apply repeat_length.
  assert (R : rand_ok rnd [] []).
  { split; [apply repeat_length|]. split; [reflexivity|]. exact (ex_ro_ok 1). }
  destruct (refl_gen aes_ks_file aes_enc_file gf_mul (fun x => x) gfr_gf_mul (str_to_int (repeat 0 16)) (EK (repeat 0 16)) (aesE (repeat 0 16))
    (files_cipher_ok _ K1 (zeros_bytes 16)) (files_ks _ K1 (zeros_bytes 16)) (repeat 0 4) (repeat_length _ 4) (zeros_bytes 4)
    (repeat false 128) 1 (ex_ro 1) (repeat_length _ 128) eq_refl (fun H => ltac:(discriminate H)) (ex_ro_ok 1)
    [] [] (repeat 0 8) true rnd (Forall_nil _) (Forall_nil _) (repeat_length _ 8) (zeros_bytes 8) R)
    as (s & s' & ma & mb & oa & ob & E1 & E2 & E3).
  exists (repeat 0 16), (repeat 0 4), (repeat 0 8), [], [], true, rnd, (repeat false 128), 1, (ex_ro 1), gf_mul, s, s', ma, mb, oa, ob.
  split; [exact gfr_gf_mul|]. split; [exact E1|]. split; [exact E2|]. split; [exact E3|]. exact zero_tag_case.
Qed.
