(** Properties C73, C74 and C75: what a party learns from the messages of an AEAD session. *)
From Coq Require Import List NArith Bool Arith Lia.
From Verif Require Import L_Bits L_Res S_Sched S_View S_Codec S_Aes S_Gcm M_Utils M_Bristol M_Block M_Ole2k M_Commit M_Aead M_Exch M_View D_AesKs D_AesEnc.
From Verif Require Import P_Gf128 P_Aead P_ViewPriv P_ViewTag.
Import ListNotations.
Local Open Scope N_scope.
Local Opaque aes_ks_file aes_enc_file aesE str_to_int gf_mul bytes_of_block block_of_bytes.

(** ** C73: BOB *)
Theorem C73_bob_view : forall gfr hash, gfr_ok gfr -> (forall l, length (hash l) = DIGEST_SIZE) ->
  forall key fiv key' fiv', length key = 16%nat -> Forall (fun b => b < 256) key -> length key' = 16%nat -> Forall (fun b => b < 256) key' ->
  length fiv = 4%nat -> Forall (fun b => b < 256) fiv -> length fiv' = 4%nat -> Forall (fun b => b < 256) fiv' ->
  aesE key 0 <> 0 -> aesE key' 0 <> 0 ->
  forall ins ins', ins <> [] -> Forall2 (alike_bob (aesE key) fiv (aesE key') fiv') ins ins' -> Forall ain_ok ins -> Forall ain_ok ins' ->
  exists F G : arand -> arand,
    (forall u, arand_ok ins u -> arand_ok ins' (F u) /\ G (F u) = u) /\
    (forall u, arand_ok ins' u -> arand_ok ins (G u) /\ F (G u) = u) /\
    forall u, arand_ok ins u -> exists pa oa sa pa' oa' sa' pb ob sb,
      runs_with_views (p_run aes_ks_file aes_enc_file gfr hash true (str_to_int key) (str_to_int fiv) ins u)
                      (p_run aes_ks_file aes_enc_file gfr hash false (str_to_int key) (str_to_int fiv) ins u)
        (Ok (pa, oa)) (Ok (pb, ob)) sa sb /\
      runs_with_views (p_run aes_ks_file aes_enc_file gfr hash true (str_to_int key') (str_to_int fiv') ins' (F u))
                      (p_run aes_ks_file aes_enc_file gfr hash false (str_to_int key') (str_to_int fiv') ins' (F u))
        (Ok (pa', oa')) (Ok (pb, ob)) sa' sb /\
      bob_ots pb (F u) = bob_ots pb u.
Proof. exact bob_view_files. Qed.
Print Assumptions C73_bob_view.
(** two keys, two messages of one block, the same ciphertext and tag *)
Definition text_a : list N := [202; 135; 122; 26; 3; 223; 56; 226; 182; 146; 114; 2; 50; 151; 11; 56].
Definition text_b : list N := [58; 59; 242; 167; 69; 252; 152; 89; 221; 143; 78; 72; 68; 225; 100; 221].
Example C73_ex :
  let i := InEnc text_a [] [] iv_zero true in let i' := InEnc text_b [] [] iv_zero true in
  aesE k_zero 0 <> 0 /\ aesE k_one 0 <> 0 /\ alike_bob (aesE k_zero) fiv_zero (aesE k_one) fiv_zero i i' /\
  ain_ok i /\ ain_ok i' /\ exists u, arand_ok [i] u.
Proof.
  intros i i'. destruct aes_values as [V1 V2].
  destruct (values_of _ _ _ _ V1) as (A1 & _). destruct (values_of _ _ _ _ V2) as (A2 & _).
  split; [rewrite A1; discriminate|]. split; [rewrite A2; discriminate|]. split; [|split; [|split]].
  - do 4 (split; [reflexivity|]). split; [|discriminate]. 
    etransitivity; [exact (ae_values _ _ _ _ text_b [] V2 eq_refl)|]. symmetry.
    etransitivity; [exact (ae_values _ _ _ _ text_a [] V1 eq_refl)|]. vm_compute. reflexivity.
  - cbn [ain_ok i]. split; [repeat constructor|split; [constructor|split; [reflexivity|split; [repeat constructor|discriminate]]]].
  - cbn [ain_ok i']. split; [repeat constructor|split; [constructor|split; [reflexivity|split; [repeat constructor|discriminate]]]].
  - eexists. apply some_rand_ok.
Qed.

(** ** C74: ALICE *)
Theorem C74_alice_view : forall gfr hash, gfr_ok gfr -> (forall l, length (hash l) = DIGEST_SIZE) ->
  forall key fiv key' fiv', length key = 16%nat -> Forall (fun b => b < 256) key -> length key' = 16%nat -> Forall (fun b => b < 256) key' ->
  length fiv = 4%nat -> Forall (fun b => b < 256) fiv -> length fiv' = 4%nat -> Forall (fun b => b < 256) fiv' ->
  forall ins ins', ins <> [] -> Forall2 (alike_alice (aesE key) fiv (aesE key') fiv') ins ins' -> Forall ain_ok ins -> Forall ain_ok ins' ->
  forall u, arand_ok ins u -> arand_ok ins' u /\ exists pa oa sa pb ob sb pb' ob' sb',
    runs_with_views (p_run aes_ks_file aes_enc_file gfr hash true (str_to_int key) (str_to_int fiv) ins u)
                    (p_run aes_ks_file aes_enc_file gfr hash false (str_to_int key) (str_to_int fiv) ins u)
      (Ok (pa, oa)) (Ok (pb, ob)) sa sb /\
    runs_with_views (p_run aes_ks_file aes_enc_file gfr hash true (str_to_int key') (str_to_int fiv') ins' u)
                    (p_run aes_ks_file aes_enc_file gfr hash false (str_to_int key') (str_to_int fiv') ins' u)
      (Ok (pa, oa)) (Ok (pb', ob')) sa sb'.
Proof. exact alice_view_files. Qed.
Print Assumptions C74_alice_view.
(** two keys and a block of additional data with the same tag *)
Definition aad_ab : list N := [196; 183; 95; 37; 188; 205; 200; 196; 87; 197; 93; 5; 179; 58; 12; 124].
Example C74_ex :
  let i := InEnc [] [] aad_ab iv_zero true in
  alike_alice (aesE k_zero) fiv_zero (aesE k_one) fiv_zero i i /\ ain_ok i /\ k_zero <> k_one /\ exists u, arand_ok [i] u.
Proof.
  intros i. destruct aes_values as [V1 V2]. split; [|split; [|split]].
  - do 4 (split; [reflexivity|]). etransitivity; [exact (ae_values_nil _ _ _ _ aad_ab V2)|]. symmetry.
    etransitivity; [exact (ae_values_nil _ _ _ _ aad_ab V1)|]. vm_compute. reflexivity.
  - cbn [ain_ok i]. split; [constructor|split; [repeat constructor|split; [reflexivity|split; [repeat constructor|discriminate]]]].
  - discriminate.
  - eexists. apply some_rand_ok.
Qed.

(** ** C75: a rejected decryption *)
Theorem C75_tag_from_views : forall gfr hash, gfr_ok gfr -> (forall l, length (hash l) = DIGEST_SIZE) ->
  forall key fiv, length key = 16%nat -> Forall (fun b => b < 256) key -> length fiv = 4%nat -> Forall (fun b => b < 256) fiv ->
  forall ins c t aad iv sec ra rb u, let all := ins ++ [InDec c t aad iv sec ra rb] in
  Forall ain_ok all -> arand_ok all u ->
  let m := gcm_ctext (aesE key) (fiv ++ iv) c in
  let v := if list_eq_dec N.eq_dec t (gcm_tag (aesE key) (fiv ++ iv) aad c) then true else false in
  exists pa oa pb ob sa sb, length oa = length ins /\ length ob = length ins /\
    runs_with_views (p_run aes_ks_file aes_enc_file gfr hash true (str_to_int key) (str_to_int fiv) all u)
                    (p_run aes_ks_file aes_enc_file gfr hash false (str_to_int key) (str_to_int fiv) all u)
      (Ok (pa, oa ++ [PDec (Some m, v)])) (Ok (pb, ob ++ [PDec (if sec then None else Some m, v)])) sa sb /\
    rev (bytes_of_block (N.lxor (block_of_bytes (before_last rand_length (on_io sb))) (block_of_bytes (before_last rand_length (on_opt sa)))))
      = gcm_tag (aesE key) (fiv ++ iv) aad c.
Proof. exact decrypt_views_files. Qed.
Print Assumptions C75_tag_from_views.
Theorem C75_reject_refuted : forall gfr hash, gfr_ok gfr -> (forall l, length (hash l) = DIGEST_SIZE) ->
  exists key fiv key' c t aad iv ra rb,
  length key = 16%nat /\ Forall (fun b => b < 256) key /\ length key' = 16%nat /\ Forall (fun b => b < 256) key' /\
  length fiv = 4%nat /\ Forall (fun b => b < 256) fiv /\
  let ins := [InDec c t aad iv true ra rb] in
  Forall ain_ok ins /\ (exists u, arand_ok ins u) /\
  forall u u', arand_ok ins u -> arand_ok ins u' -> exists pa pb sa sb pa' pb' sa' sb' m,
    runs_with_views (p_run aes_ks_file aes_enc_file gfr hash true (str_to_int key) (str_to_int fiv) ins u)
                    (p_run aes_ks_file aes_enc_file gfr hash false (str_to_int key) (str_to_int fiv) ins u)
      (Ok (pa, [PDec (Some m, false)])) (Ok (pb, [PDec (None, false)])) sa sb /\
    runs_with_views (p_run aes_ks_file aes_enc_file gfr hash true (str_to_int key') (str_to_int fiv) ins u')
                    (p_run aes_ks_file aes_enc_file gfr hash false (str_to_int key') (str_to_int fiv) ins u')
      (Ok (pa', [PDec (Some m, false)])) (Ok (pb', [PDec (None, false)])) sa' sb' /\
    (sa, sb) <> (sa', sb').
Proof. exact reject_refuted. Qed.
Print Assumptions C75_reject_refuted.
Example C75_ex : gfr_ok gf_mul /\ (forall l : list N, length (repeat 0 DIGEST_SIZE) = DIGEST_SIZE) /\
  let i := InDec [1; 2] (repeat 0 16) [] iv_zero true (repeat 0 16) (repeat 0 16) in ain_ok i /\ exists u, arand_ok ([] ++ [i]) u.
Proof.
  split; [exact gfr_gf_mul|]. split; [intro; apply repeat_length|]. intro i. split.
  - cbn [ain_ok i]. split; [repeat constructor|]. split; [constructor|]. split; [reflexivity|]. split; [repeat constructor|]. split; reflexivity.
  - eexists. apply (some_rand_ok i).
Qed.
