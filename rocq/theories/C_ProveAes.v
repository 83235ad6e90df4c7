(** Properties C49-C51: proofs about messages in the proxy mode. *)
From Coq Require Import List NArith Bool Arith.
From Verif Require Import L_Bits L_Res M_EmpInteger M_Utils M_Bristol M_Aead M_ProveAes.
From Verif Require Import S_Codec S_Aes S_Gcm S_Disclose D_AesKs D_AesEnc P_Aead P_AeadInst P_ProveAes P_ProveAes2 P_ProveAes3 P_Tight.
Import ListNotations.
Local Open Scope N_scope.

(** ** C49: whole messages.  [is_prover key fiv p]: p is what the constructor makes of the
    key and the fixed IV, with any nonce left behind by earlier calls. *)
Theorem C49_constructor : forall key fiv, length key = 16%nat -> bytes_ok key -> length fiv = 4%nat -> bytes_ok fiv ->
  exists p, ap_new aes_ks_file (str_to_int key) (str_to_int fiv) = Ok p /\ is_prover key fiv p.
Proof. exact prover_new. Qed.
Print Assumptions C49_constructor.
Theorem C49_public : forall key fiv, length key = 16%nat -> bytes_ok key -> length fiv = 4%nat -> bytes_ok fiv ->
  forall p iv msgs ctxts, is_prover key fiv p -> length iv = 8%nat -> bytes_ok iv -> length ctxts = length msgs ->
  exists b p', prove_public_msgs aes_enc_file p iv msgs ctxts = Ok (b, p') /\ is_prover key fiv p' /\
    (b = true <-> ctxts = gcm_ctext (aesE key) (fiv ++ iv) msgs).
Proof. exact files_public. Qed.
Print Assumptions C49_public.
Theorem C49_private : forall key fiv, length key = 16%nat -> bytes_ok key -> length fiv = 4%nat -> bytes_ok fiv ->
  forall p iv msgs ctxts, is_prover key fiv p -> length iv = 8%nat -> bytes_ok iv -> bytes_ok msgs -> length ctxts = length msgs ->
  exists b p', prove_private_msgs aes_enc_file p iv (str_to_int msgs) ctxts = Ok (b, p') /\ is_prover key fiv p' /\
    (b = true <-> ctxts = gcm_ctext (aesE key) (fiv ++ iv) msgs).
Proof. exact files_private. Qed.
Print Assumptions C49_private.
(** wrong lengths: arrays of different lengths are read out of bounds in the public variant and
    refused in the private one; a nonce of other than eight bytes is refused everywhere *)
Theorem C49_lengths : forall enc f p infos iv msgs ctxts,
  (length ctxts <> length msgs ->
   prove_public_msgs enc p iv msgs ctxts = UB /\ prove_public_msgs_opt enc f p infos iv msgs ctxts = Some UB) /\
  (forall bits, length bits <> (8 * length ctxts)%nat ->
   prove_private_msgs enc p iv bits ctxts = Err /\ prove_private_msgs_opt enc f p infos iv bits ctxts = Some Err).
Proof.
  exact (fun enc f p infos iv msgs ctxts => conj
    (fun H => conj (public_lengths enc p iv msgs ctxts H) (public_opt_lengths enc f p infos iv msgs ctxts H))
    (fun bits H => conj (private_lengths enc p iv bits ctxts H) (private_opt_lengths enc f p infos iv bits ctxts H))).
Qed.
Print Assumptions C49_lengths.
Theorem C49_nonce_length : forall enc f p infos iv msgs ctxts bits ctxts', length iv <> 8%nat ->
  length ctxts = length msgs -> length bits = (8 * length ctxts')%nat ->
  prove_public_msgs enc p iv msgs ctxts = Err /\ prove_private_msgs enc p iv bits ctxts' = Err /\
  prove_public_msgs_opt enc f p infos iv msgs ctxts = Some Err /\ prove_private_msgs_opt enc f p infos iv bits ctxts' = Some Err.
Proof. exact nonce_refused. Qed.
Print Assumptions C49_nonce_length.
(** GCM test case 2: zero key and IV *)
Example C49_ex :
  let ct := [0x03; 0x88; 0xda; 0xce; 0x60; 0xb6; 0xa3; 0x92; 0xf3; 0x28; 0xc2; 0xb9; 0x71; 0xb2; 0xfe; 0x78] in
  (let* p := ap_new aes_ks_file (str_to_int (repeat 0 16)) (str_to_int (repeat 0 4)) in
   let* (b1, p) := prove_public_msgs aes_enc_file p (repeat 0 8) (repeat 0 16) ct in
   let* (b2, p) := prove_public_msgs aes_enc_file p (repeat 0 8) (repeat 0 15 ++ [1]) ct in
   Ok (b1, b2))%res = Ok (true, false).
Proof. vm_compute. reflexivity. Qed.

(** ** C50: selected bytes.  With ids in increasing order the loop takes last id + 2
    iterations; the verdict compares exactly the selected bytes, in order. *)
Theorem C50_public : forall key fiv, length key = 16%nat -> bytes_ok key -> length fiv = 4%nat -> bytes_ok fiv ->
  forall p infos iv msgs ctxts f, is_prover key fiv p -> length iv = 8%nat -> bytes_ok iv ->
  Forall info_wf infos -> length ctxts = length msgs ->
  let sel := selected (aesE key) (fiv ++ iv) (req infos) in
  let run := prove_public_msgs_opt aes_enc_file (N.to_nat (total (map ci_id infos)) + f) p infos iv msgs ctxts in
  (length sel <> length msgs -> run = Some UB) /\
  (length sel = length msgs -> exists b p', run = Some (Ok (b, p')) /\ is_prover key fiv p' /\ (b = true <-> ctxts = map2 N.lxor msgs sel)).
Proof. exact files_public_opt. Qed.
Print Assumptions C50_public.
Theorem C50_private : forall key fiv, length key = 16%nat -> bytes_ok key -> length fiv = 4%nat -> bytes_ok fiv ->
  forall p infos iv msgs ctxts f, is_prover key fiv p -> length iv = 8%nat -> bytes_ok iv ->
  Forall info_wf infos -> bytes_ok msgs -> length ctxts = length msgs ->
  let sel := selected (aesE key) (fiv ++ iv) (req infos) in
  let run := prove_private_msgs_opt aes_enc_file (N.to_nat (total (map ci_id infos)) + f) p infos iv (str_to_int msgs) ctxts in
  (length sel <> length msgs -> run = Some UB) /\
  (length sel = length msgs -> exists b p', run = Some (Ok (b, p')) /\ is_prover key fiv p' /\ (b = true <-> ctxts = map2 N.lxor msgs sel)).
Proof. exact files_private_opt. Qed.
Print Assumptions C50_private.
Theorem C50_iterations : forall ids, ids <> [] -> Forall (fun id => id < 2 ^ 64 - 1) ids -> increasing ids ->
  total ids = last ids 0 + 2.
Proof. exact total_increasing. Qed.
Print Assumptions C50_iterations.
(** block [id] of a request is bytes 16 id .. 16 id + 15 of the record's key stream *)
Theorem C50_block_position : forall E iv n id, (id < n)%nat ->
  stream_block E iv (N.of_nat id) = firstn 16 (skipn (16 * id) (keystream E n (inc32 (j0_of iv)))).
Proof. exact stream_block_keystream. Qed.
Print Assumptions C50_block_position.
(** GCM test case 2 again: block 0, bytes 1, 2 and 15 *)
Definition ex50 : list ctrinfo := [mk_info 0 [0; 1; 255; 0; 0; 0; 0; 0; 0; 0; 0; 0; 0; 0; 0; 7]].
Example C50_ex : Forall info_wf ex50 /\ increasing (map ci_id ex50) /\
  match ap_new aes_ks_file (str_to_int (repeat 0 16)) (str_to_int (repeat 0 4)) with
  | Ok p => match prove_public_msgs_opt aes_enc_file 2 p ex50 (repeat 0 8) [0; 0; 0] [0x88; 0xda; 0x78] with
            | Some (Ok (b, _)) => b = true | _ => False end
  | _ => False
  end.
Proof. split; [repeat constructor|]. split; [cbn; auto|]. vm_compute. reflexivity. Qed.

(** ** C51: the expectation is false. *)
(** a repeated id keeps the loop running for more than 2^64 iterations *)
Theorem C51_terminates_refuted : exists key fiv iv p infos msgs ctxts,
  length key = 16%nat /\ bytes_ok key /\ length fiv = 4%nat /\ bytes_ok fiv /\ length iv = 8%nat /\ bytes_ok iv /\
  is_prover key fiv p /\ Forall info_wf infos /\ length ctxts = length msgs /\
  forall k, N.of_nat k <= 2 ^ 64 -> prove_public_msgs_opt aes_enc_file k p infos iv msgs ctxts = None.
Proof. exact runs_forever. Qed.
Print Assumptions C51_terminates_refuted.
(** a mask with more bytes than msg_len makes reveal write past the buffer *)
Theorem C51_in_bounds_refuted : exists key fiv iv p infos msgs ctxts k,
  length key = 16%nat /\ bytes_ok key /\ length fiv = 4%nat /\ bytes_ok fiv /\ length iv = 8%nat /\ bytes_ok iv /\
  is_prover key fiv p /\ Forall info_wf infos /\ length ctxts = length msgs /\ increasing (map ci_id infos) /\
  prove_public_msgs_opt aes_enc_file k p infos iv msgs ctxts = Some UB.
Proof. exact overflow. Qed.
Print Assumptions C51_in_bounds_refuted.
(** in general: more than 2^64 iterations exactly when the ids, plus one modulo 2^64, do not
    increase; otherwise one more than the last of them *)
Theorem C51_iterations : forall ids,
  (ids <> [] -> increasing (map tgt ids) -> total ids = last (map tgt ids) 0 + 1) /\
  (~ increasing (map tgt ids) -> 2 ^ 64 < total ids).
Proof. exact (fun ids => conj (total_fast ids) (total_slow ids)). Qed.
Print Assumptions C51_iterations.
(** the id SIZE_MAX wraps around to the block that masks the record's tag *)
Theorem C51_max_id : forall E iv, stream_block E iv (2 ^ 64 - 1) = be_enc 16 (E (j0_of iv)).
Proof. exact max_id_is_j0. Qed.
Print Assumptions C51_max_id.
