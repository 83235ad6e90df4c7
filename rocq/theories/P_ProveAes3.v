(** The AES prover on the shipped circuits. *)
From Coq Require Import List NArith Bool Arith Lia.
From Verif Require Import L_Bits L_Res M_EmpInteger M_Utils M_Bristol M_Aead M_ProveAes.
From Verif Require Import S_Codec S_Aes S_Gcm S_Disclose D_AesKs D_AesEnc P_Utils P_AesNet P_Gcm P_Aead P_AeadInst P_ItMac P_ProveAes P_ProveAes2.
Import ListNotations.
Local Open Scope N_scope.
Local Opaque computeKS computeAES_KS key_expansion cipher aes128 aesE aes_ks_file aes_enc_file str_to_int ks_layout.

Section Files.
Variable key fiv : list N.
Hypothesis K1 : length key = 16%nat.
Hypothesis K2 : bytes_ok key.
Hypothesis F1 : length fiv = 4%nat.
Hypothesis F2 : bytes_ok fiv.
(** the object the constructor makes, after any number of calls *)
Definition is_prover (p : aesprover) : Prop :=
  exists p0 n, ap_new aes_ks_file (str_to_int key) (str_to_int fiv) = Ok p0 /\ p = ap_with p0 n.
Lemma new_gen ek : computeKS aes_ks_file (str_to_int key) = Ok ek ->
  ap_new aes_ks_file (str_to_int key) (str_to_int fiv) = Ok {| ap_key := ek; ap_fixed := str_to_int fiv; ap_nonce := [] |}.
Proof.
  intro KS. unfold ap_new.
  assert (Lk : length (str_to_int key) = 128%nat) by (rewrite (proj2 (str_to_int_value key K2)), K1; reflexivity).
  assert (Lf : length (str_to_int fiv) = 32%nat) by (rewrite (proj2 (str_to_int_value fiv F2)), F1; reflexivity).
  rewrite Lk, KS. cbn [Nat.eqb negb bind]. rewrite Lf. reflexivity.
Qed.
Lemma prover_new : exists p, ap_new aes_ks_file (str_to_int key) (str_to_int fiv) = Ok p /\ is_prover p.
Proof.
  pose proof (new_gen (EK key) (files_ks key K1 K2)) as X. revert X. generalize (EK key). intros ek X.
  eexists. split; [exact X|]. eexists _, []. split; [exact X|]. reflexivity.
Qed.
Lemma prover_fields p : is_prover p -> ap_key p = EK key /\ ap_fixed p = str_to_int fiv.
Proof.
  intros (p0 & n & X & ->). pose proof (new_gen (EK key) (files_ks key K1 K2)) as Y. rewrite X in Y. revert Y.
  generalize (EK key). intros ek Y.
  assert (OI : forall u v : aesprover, Ok u = Ok v -> u = v) by (intros u v Z; now injection Z).
  apply OI in Y. rewrite Y. split; reflexivity.
Qed.
Lemma prover_with p n : is_prover p -> is_prover (ap_with p n).
Proof. intros (p0 & n0 & X & ->). exists p0, n. split; [exact X|reflexivity]. Qed.

Theorem files_public p iv msgs ctxts : is_prover p -> length iv = 8%nat -> bytes_ok iv -> length ctxts = length msgs ->
  exists b p', prove_public_msgs aes_enc_file p iv msgs ctxts = Ok (b, p') /\ is_prover p' /\
    (b = true <-> ctxts = gcm_ctext (aesE key) (fiv ++ iv) msgs).
Proof.
  intros P I1 I2 L. destruct (prover_fields p P) as [PK PF].
  destruct (public_ok aes_enc_file (EK key) (aesE key) (files_cipher_ok key K1 K2) fiv F1 F2 p iv msgs ctxts PK PF I1 I2 L) as (b & n1 & X & Y).
  exists b, (ap_with p n1). split; [exact X|]. split; [now apply prover_with|exact Y].
Qed.
Theorem files_private p iv msgs ctxts : is_prover p -> length iv = 8%nat -> bytes_ok iv -> bytes_ok msgs -> length ctxts = length msgs ->
  exists b p', prove_private_msgs aes_enc_file p iv (str_to_int msgs) ctxts = Ok (b, p') /\ is_prover p' /\
    (b = true <-> ctxts = gcm_ctext (aesE key) (fiv ++ iv) msgs).
Proof.
  intros P I1 I2 BM L. destruct (prover_fields p P) as [PK PF].
  destruct (private_ok aes_enc_file (EK key) (aesE key) (files_cipher_ok key K1 K2) fiv F1 F2 p iv msgs ctxts PK PF I1 I2 BM L) as (b & n1 & X & Y).
  exists b, (ap_with p n1). split; [exact X|]. split; [now apply prover_with|exact Y].
Qed.
Theorem files_public_opt p infos iv msgs ctxts f : is_prover p -> length iv = 8%nat -> bytes_ok iv ->
  Forall info_wf infos -> length ctxts = length msgs ->
  let sel := selected (aesE key) (fiv ++ iv) (req infos) in
  let run := prove_public_msgs_opt aes_enc_file (N.to_nat (total (map ci_id infos)) + f) p infos iv msgs ctxts in
  (length sel <> length msgs -> run = Some UB) /\
  (length sel = length msgs -> exists b p', run = Some (Ok (b, p')) /\ is_prover p' /\ (b = true <-> ctxts = map2 N.lxor msgs sel)).
Proof.
  intros P I1 I2 W L sel run. destruct (prover_fields p P) as [PK PF].
  destruct (public_opt aes_enc_file (EK key) (aesE key) (files_cipher_ok key K1 K2) fiv F1 F2 p infos iv msgs ctxts f PK PF I1 I2 W L) as [X Y].
  split; [exact X|]. intro H. destruct (Y H) as (b & n1 & Z1 & Z2).
  exists b, (ap_with p n1). split; [exact Z1|]. split; [now apply prover_with|exact Z2].
Qed.
Theorem files_private_opt p infos iv msgs ctxts f : is_prover p -> length iv = 8%nat -> bytes_ok iv ->
  Forall info_wf infos -> bytes_ok msgs -> length ctxts = length msgs ->
  let sel := selected (aesE key) (fiv ++ iv) (req infos) in
  let run := prove_private_msgs_opt aes_enc_file (N.to_nat (total (map ci_id infos)) + f) p infos iv (str_to_int msgs) ctxts in
  (length sel <> length msgs -> run = Some UB) /\
  (length sel = length msgs -> exists b p', run = Some (Ok (b, p')) /\ is_prover p' /\ (b = true <-> ctxts = map2 N.lxor msgs sel)).
Proof.
  intros P I1 I2 W BM L sel run. destruct (prover_fields p P) as [PK PF].
  destruct (private_opt aes_enc_file (EK key) (aesE key) (files_cipher_ok key K1 K2) fiv F1 F2 p infos iv msgs ctxts f PK PF I1 I2 W BM L) as [X Y].
  split; [exact X|]. intro H. destruct (Y H) as (b & n1 & Z1 & Z2).
  exists b, (ap_with p n1). split; [exact Z1|]. split; [now apply prover_with|exact Z2].
Qed.
Theorem files_running p infos iv msgs ctxts k : is_prover p -> length iv = 8%nat -> bytes_ok iv ->
  Forall info_wf infos -> length ctxts = length msgs ->
  ~ increasing (map (fun x => tgt (ci_id x)) infos) -> N.of_nat k <= 2 ^ 64 ->
  prove_public_msgs_opt aes_enc_file k p infos iv msgs ctxts = None.
Proof.
  intros P I1 I2 W L. destruct (prover_fields p P) as [PK PF].
  exact (opt_running aes_enc_file (EK key) (aesE key) (files_cipher_ok key K1 K2) fiv F1 F2 p infos iv msgs ctxts k PK PF I1 I2 W L).
Qed.
End Files.

(** the fuel needed for increasing ids, and the key-stream position of a block *)
Lemma total_increasing ids : ids <> [] -> Forall (fun id => id < 2 ^ 64 - 1) ids -> increasing ids -> total ids = last ids 0 + 2.
Proof.
  intros NE F I. rewrite total_fast; auto; [|now apply increasing_tgt].
  assert (G : forall l, l <> [] -> Forall (fun id => id < 2 ^ 64 - 1) l -> last (map tgt l) 0 = last l 0 + 1).
  { induction l as [|a l IH]; intros Hn Hf; [now elim Hn|]. inversion Hf; subst. destruct l as [|b l].
    - cbn [map last]. now apply tgt_small.
    - change (last (map tgt (a :: b :: l)) 0) with (last (map tgt (b :: l)) 0).
      change (last (a :: b :: l) 0) with (last (b :: l) 0). apply IH; [discriminate|assumption]. }
  rewrite G by assumption. lia.
Qed.
Lemma max_id_is_j0 E iv : stream_block E iv (2 ^ 64 - 1) = be_enc 16 (E (j0_of iv)).
Proof.
  unfold stream_block. do 2 f_equal. change (2 ^ 64 - 1 + 1) with (2 ^ 64).
  rewrite <- ctr_add_mod. change (2 ^ 64 mod 2 ^ 64) with 0. apply ctr_add_0.
Qed.

Definition mk_info (id : N) (m : list N) : ctrinfo := {| ci_id := id; ci_mask := m |}.
Lemma runs_forever : exists key fiv iv p infos msgs ctxts,
  length key = 16%nat /\ bytes_ok key /\ length fiv = 4%nat /\ bytes_ok fiv /\ length iv = 8%nat /\ bytes_ok iv /\
  is_prover key fiv p /\ Forall info_wf infos /\ length ctxts = length msgs /\
  forall k, N.of_nat k <= 2 ^ 64 -> prove_public_msgs_opt aes_enc_file k p infos iv msgs ctxts = None.
Proof.
  pose proof (zeros_bytes 16) as B1. pose proof (zeros_bytes 4) as B2. pose proof (zeros_bytes 8) as B3.
  pose proof (repeat_length 0 16) as L1. pose proof (repeat_length 0 4) as L2. pose proof (repeat_length 0 8) as L3.
  revert B1 L1 B2 L2 B3 L3. generalize (repeat 0 16), (repeat 0 4), (repeat 0 8). intros key fiv iv B1 L1 B2 L2 B3 L3.
  destruct (prover_new key fiv L1 B1 L2 B2) as (p & _ & P).
  set (infos := [mk_info 3 (repeat 1 16); mk_info 3 (repeat 1 16)]).
  assert (W : Forall info_wf infos) by (repeat constructor).
  exists key, fiv, iv, p, infos, (repeat 0 32), (repeat 0 32).
  repeat (split; [assumption|]). split; [reflexivity|]. intros k Hk.
  apply (files_running key fiv L1 B1 L2 B2 p infos iv _ _ k P L3 B3 W); auto.
  intros [X _]. revert X. cbn. discriminate.
Qed.
Lemma overflow : exists key fiv iv p infos msgs ctxts k,
  length key = 16%nat /\ bytes_ok key /\ length fiv = 4%nat /\ bytes_ok fiv /\ length iv = 8%nat /\ bytes_ok iv /\
  is_prover key fiv p /\ Forall info_wf infos /\ length ctxts = length msgs /\ increasing (map ci_id infos) /\
  prove_public_msgs_opt aes_enc_file k p infos iv msgs ctxts = Some UB.
Proof.
  pose proof (zeros_bytes 16) as B1. pose proof (zeros_bytes 4) as B2. pose proof (zeros_bytes 8) as B3.
  pose proof (repeat_length 0 16) as L1. pose proof (repeat_length 0 4) as L2. pose proof (repeat_length 0 8) as L3.
  revert B1 L1 B2 L2 B3 L3. generalize (repeat 0 16), (repeat 0 4), (repeat 0 8). intros key fiv iv B1 L1 B2 L2 B3 L3.
  destruct (prover_new key fiv L1 B1 L2 B2) as (p & _ & P).
  set (infos := [mk_info 0 (repeat 1 16)]).
  assert (W : Forall info_wf infos) by (repeat constructor).
  exists key, fiv, iv, p, infos, [0], [0], (N.to_nat (total (map ci_id infos)) + 0)%nat.
  repeat (split; [assumption|]). split; [reflexivity|]. split; [cbn; auto|].
  apply (files_public_opt key fiv L1 B1 L2 B2 p infos iv [0] [0] 0 P L3 B3 W eq_refl).
  unfold selected, infos, req. cbn [map flat_map fst snd mk_info ci_id ci_mask]. rewrite app_nil_r.
  assert (G : forall l, length l = 16%nat -> length (select (repeat 1 16) l) = 16%nat).
  { intros l H. do 16 (destruct l; [discriminate|]). destruct l; [reflexivity|discriminate]. }
  rewrite G; [discriminate|]. unfold stream_block. apply be_enc_length.
Qed.
