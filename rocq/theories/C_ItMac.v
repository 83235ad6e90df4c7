(** Properties C43-C48: the authenticated zero test, the homomorphic correction of shares,
    the proofs of records and the final check of a session. *)
From Coq Require Import List NArith Bool Arith.
From Verif Require Import L_Bits L_Res M_EmpInteger M_Utils M_Bristol M_Block M_Aead M_ItMac M_AeadProof.
From Verif Require Import S_Codec S_Aes S_Gcm D_AesKs D_AesEnc P_Shares P_Gcm P_Aead P_AeadInst P_ItMac P_AeadProof P_AeadProof2 P_Tight.
Import ListNotations.
Local Open Scope N_scope.

(** ** C43: the zero test *)
(** wires whose two halves carry authenticated bits: the two hashes agree when all bits are
    zero, and agree only then unless the hash has a collision *)
Theorem C43_zero_test : forall Delta hash zs bs, Delta <> 0 ->
  Forall2 (fun z b => Forall2 (carries Delta) z b) zs bs ->
  Forall (Forall (fun w => fst w < 2 ^ 128 /\ snd w < 2 ^ 128)) zs ->
  (Forall (Forall (fun b => b = false)) bs -> cz_accept hash (fold_left check_zero zs cz0) = true) /\
  (cz_accept hash (fold_left check_zero zs cz0) = true ->
   Forall (Forall (fun b => b = false)) bs \/ exists x y : list N, x <> y /\ hash x = hash y).
Proof. exact batch_accept. Qed.
Print Assumptions C43_zero_test.
(** a prover who absorbs blocks of its own choosing: the verdict is equality of the two
    transcripts, up to collision; and matching the verifier on a wire that carries one means
    knowing Delta *)
Theorem C43_any_prover : forall hash t,
  Forall (fun x => x < 2 ^ 128) (cz_a t) -> Forall (fun x => x < 2 ^ 128) (cz_b t) ->
  (cz_a t = cz_b t -> cz_accept hash t = true) /\
  (cz_accept hash t = true -> cz_a t = cz_b t \/ exists x y : list N, x <> y /\ hash x = hash y).
Proof. exact accept_iff. Qed.
Print Assumptions C43_any_prover.
Theorem C43_forging_needs_delta : forall Delta m k m', carries Delta (m, k) true -> m' = k -> N.lxor m m' = Delta.
Proof. exact forge_delta. Qed.
Print Assumptions C43_forging_needs_delta.
(** the comparison with public data ([ba] at the prover, [bb] at the verifier) *)
Theorem C43_public_data : forall Delta, Delta <> 0 -> forall pub, pub true <> pub false ->
  N.lxor (pub true) (pub false) <> Delta -> forall t in_ bits ba bb, length (cz_a t) = length (cz_b t) ->
  Forall2 (carries Delta) in_ bits -> length ba = length bits -> length bb = length bits ->
  let t' := check_zero t (zxor (zpublic Delta pub ba bb) in_) in
  cz_a t' = cz_b t' <-> cz_a t = cz_b t /\ ba = bits /\ bb = bits.
Proof. exact sync_public. Qed.
Print Assumptions C43_public_data.
Example C43_ex : let D := 2 ^ 127 + 5 in
  Forall2 (carries D) (zauth D [2; 4; 6] [false; true; false]) [false; true; false] /\
  cz_accept (fun x => x) (check_zero cz0 (zauth D [2; 4; 6] [false; true; false])) = false /\
  cz_accept (fun x => x) (check_zero cz0 (zauth D [2; 4; 6] [false; false; false])) = true.
Proof. cbv zeta. split; [repeat constructor; reflexivity|]. split; vm_compute; reflexivity. Qed.

(** ** C44: the expectation is false.  The local comparison of the prover looks at [len]
    bytes instead of [len] elements, so for elements of more than one byte it misses the
    rest; the hash comparison still sees all the data. *)
Theorem C44_covers_len_bytes : forall Delta, Delta <> 0 -> forall pub, pub true <> pub false ->
  N.lxor (pub true) (pub false) <> Delta -> forall t in_ bits sz da db len, length (cz_a t) = length (cz_b t) ->
  Forall2 (carries Delta) in_ bits -> Forall2 lsb_ok in_ bits -> length bits = (len * sz * 8)%nat ->
  length da = (len * sz)%nat -> length db = (len * sz)%nat ->
  (firstn len (reveal_as 8 bits) <> firstn len da -> check_zero_data Delta pub t in_ sz da db len = Err) /\
  (firstn len (reveal_as 8 bits) = firstn len da -> exists t', check_zero_data Delta pub t in_ sz da db len = Ok t' /\
    length (cz_a t') = length (cz_b t') /\
    (cz_a t' = cz_b t' <-> cz_a t = cz_b t /\ bits8 da = bits /\ bits8 db = bits)).
Proof. exact check_zero_data_ok. Qed.
Print Assumptions C44_covers_len_bytes.
Theorem C44_local_check_refuted : exists Delta pub in_ bits sz len da db t',
  Delta <> 0 /\ Forall2 (carries Delta) in_ bits /\ Forall2 lsb_ok in_ bits /\ length bits = (len * sz * 8)%nat /\
  length da = (len * sz)%nat /\ reveal_as 8 bits <> da /\
  check_zero_data Delta pub cz0 in_ sz da db len = Ok t'.
Proof.
  exists 1, (fun b : bool => if b then 2 else 4), (zauth 1 (repeat 0 64) (bits8 [1; 2; 3; 4; 5; 6; 7; 8])),
    (bits8 [1; 2; 3; 4; 5; 6; 7; 8]), 4%nat, 2%nat, [1; 2; 9; 9; 9; 9; 9; 9], [1; 2; 9; 9; 9; 9; 9; 9]. eexists.
  split; [discriminate|]. split; [apply zauth_carries; reflexivity|]. split; [repeat constructor|].
  split; [reflexivity|]. split; [reflexivity|]. split; [discriminate|]. vm_compute. reflexivity.
Qed.
Print Assumptions C44_local_check_refuted.
Example C44_ex : let D := 2 ^ 127 + 5 in let pub := fun b : bool => if b then 2 else 4 in
  pub true <> pub false /\ N.lxor (pub true) (pub false) <> D /\
  check_zero_data D pub cz0 (zauth D (map N.double (map N.of_nat (seq 0 16))) (bits8 [7; 8])) 1 [7; 9] [7; 8] 2 = Err /\
  match check_zero_data D pub cz0 (zauth D (map N.double (map N.of_nat (seq 0 16))) (bits8 [7; 8])) 1 [7; 8] [7; 8] 2 with
  | Ok t => cz_a t = cz_b t | _ => False end.
Proof. cbv zeta. split; [discriminate|]. split; [discriminate|]. split; vm_compute; reflexivity. Qed.

(** ** C45: homomorphic correction *)
Theorem C45_block : forall Delta, Delta <> 0 -> forall t rs pre rb pb blk, length (cz_a t) = length (cz_b t) ->
  Forall2 (carries Delta) rs rb -> Forall2 (carries Delta) pre pb -> length rb = 128%nat -> length pb = 128%nat ->
  exists t' pre', hom_add_block Delta t rs pre blk = Ok (t', pre') /\ length (cz_a t') = length (cz_b t') /\
    Forall2 (carries Delta) pre' (bxor pb (bits_of_N 128 blk)) /\
    (cz_a t' = cz_b t' <-> cz_a t = cz_b t /\ rb = bxor pb (bits_of_N 128 blk)).
Proof. exact hom_add_block_ok. Qed.
Print Assumptions C45_block.
Theorem C45_bytes : forall Delta, Delta <> 0 -> forall t rs pre rb pb share, length (cz_a t) = length (cz_b t) ->
  Forall2 (carries Delta) rs rb -> Forall2 (carries Delta) pre pb ->
  length rb = (8 * length share)%nat -> length pb = (8 * length share)%nat ->
  exists t' pre', hom_add_bytes Delta t rs pre (length share) share (length share) = Ok (t', pre') /\
    length (cz_a t') = length (cz_b t') /\ Forall2 (carries Delta) pre' (bxor pb (bits8 share)) /\
    (cz_a t' = cz_b t' <-> cz_a t = cz_b t /\ rb = bxor pb (bits8 share)).
Proof. exact hom_add_bytes_ok. Qed.
Print Assumptions C45_bytes.
Example C45_ex : let D := 2 ^ 127 + 5 in let k := map N.of_nat (seq 7 16) in let k' := map N.of_nat (seq 300 16) in
  let go s := match hom_add_bytes D cz0 (zauth D k (bits8 [0xa5; 0x3c])) (zauth D k' (bits8 [0xff; 0x3c])) 2 s 2 with
              | Ok (t, _) => cz_accept (fun x => x) t | _ => false end in
  go [0x5a; 0] = true /\ go [0x5a; 1] = false.
Proof. vm_compute. split; reflexivity. Qed.

(** ** C46: proofs of records *)
(** the honest run: any sequence of encryptions and decryptions, then proofs with the same
    IVs, lengths and visibility; all checks pass, each proof yields its record's E(J0) and
    (for private records) plaintext, and the queues end empty *)
Theorem C46_honest : forall gfr hash, gfr_ok gfr -> forall key fiv, length key = 16%nat -> bytes_ok key ->
  length fiv = 4%nat -> bytes_ok fiv -> forall mh r ro ops cs Delta pub kh kz0 kz kH,
  length mh = 128%nat -> r < 2 ^ 128 -> r <> 0 -> ole_rand_ok ro 1 ->
  Forall aop_wf ops -> Delta <> 0 -> N.odd Delta = true -> pub true <> pub false -> N.lxor (pub true) (pub false) <> Delta ->
  map aop_call ops = map pcall_call cs -> Forall pcall_wf cs -> keys_fit kh kz0 kz cs -> length kH = 128%nat ->
  exists s0 s outs p t za t' za',
    aead_new aes_ks_file aes_enc_file gfr (str_to_int key) (str_to_int fiv) mh r ro = Ok s0 /\
    aops_run aes_enc_file gfr hash s0 ops = Ok (s, outs) /\
    proof_new aes_ks_file aes_enc_file Delta cz0 (zk_enter Delta kh kz0 kz s) (str_to_int key) (str_to_int fiv) kH = Ok (p, t, za) /\
    proves aes_enc_file Delta pub p t za cs = Ok (t', za', map (pcall_out (aesE key) fiv) cs) /\
    cz_a t' = cz_b t' /\ queues_empty za' /\ pf_H p = bits_of_N 128 (aesE key 0).
Proof. exact session_files. Qed.
Print Assumptions C46_honest.
(** any committed shares: the checks pass exactly when the i-th proof's E(J0) and key stream
    are the XOR of the i-th committed share and the i-th clear share (private records), or
    equal the i-th opened key stream on both sides (public records), and H likewise *)
Theorem C46_first_in_first_out : forall key fiv, length key = 16%nat -> bytes_ok key -> length fiv = 4%nat -> bytes_ok fiv ->
  forall Delta, Delta <> 0 -> N.odd Delta = true -> forall pub, pub true <> pub false -> N.lxor (pub true) (pub false) <> Delta ->
  forall cs t za K0 Kz kh kH, Forall pcall_wf cs -> queues_fit Delta za K0 Kz cs -> cz_a t = cz_b t ->
  Forall2 (carries Delta) (za_h za) kh -> length kh = 128%nat -> length kH = 128%nat ->
  ((exists p t1 za1 t2 za2 outs,
      proof_new aes_ks_file aes_enc_file Delta t za (str_to_int key) (str_to_int fiv) kH = Ok (p, t1, za1) /\
      proves aes_enc_file Delta pub p t1 za1 cs = Ok (t2, za2, outs) /\ cz_a t2 = cz_b t2) <->
   bits_of_N 128 (aesE key 0) = bxor kh (bits_of_N 128 (p_gc_h (za_b za))) /\ shares_good (aesE key) fiv za K0 Kz cs).
Proof. exact proves_files. Qed.
Print Assumptions C46_first_in_first_out.
(** more proofs than records: with nothing left in a queue the call is refused *)
Theorem C46_no_record_left : forall key fiv, length key = 16%nat -> bytes_ok key -> length fiv = 4%nat -> bytes_ok fiv ->
  forall Delta pub p t za ctxt iv sec kz0 kz, Delta <> 0 ->
  pf_key p = EK key -> pf_fixed p = str_to_int fiv -> length iv = 8%nat -> bytes_ok iv ->
  (za_z0 za = [] -> prove_aead aes_enc_file Delta pub p t za ctxt iv sec kz0 kz = Err) /\
  (forall w ws k a as_ s bs, za_z0 za = w :: ws -> p_gc_z0 (za_a za) = a :: as_ -> p_gc_z0 (za_b za) = s :: bs ->
   Forall2 (carries Delta) w k -> length k = 128%nat -> length kz0 = 128%nat -> length (cz_a t) = length (cz_b t) ->
   (if sec then za_z za = [] else p_open_z (za_a za) = []) -> prove_aead aes_enc_file Delta pub p t za ctxt iv sec kz0 kz = Err).
Proof. exact no_record_left. Qed.
Print Assumptions C46_no_record_left.
(** the last record: same outputs as a private record; the transcript and the queues are not
    even arguments, so nothing about the record's shares is checked *)
Theorem C46_last_record : forall key fiv, length key = 16%nat -> bytes_ok key -> length fiv = 4%nat -> bytes_ok fiv ->
  forall p ctxt iv, pf_key p = EK key -> pf_fixed p = str_to_int fiv -> length iv = 8%nat -> bytes_ok iv -> bytes_ok ctxt ->
  exists p', prove_aead_last aes_enc_file p ctxt iv =
    Ok (p', bits_of_N 128 (aesE key (j0_of (fiv ++ iv))), str_to_int (gcm_ctext (aesE key) (fiv ++ iv) ctxt)).
Proof. exact last_files. Qed.
Print Assumptions C46_last_record.
(** a run with a secret encryption and an open decryption *)
Definition ex46_ops : list aop :=
  [ OpEnc [1; 2; 3] [0; 0; 0] [9] (repeat 7 8) true {| m_z0 := repeat true 128; m_z := repeat true 24; m_ole := ex_ro 3 |};
    OpDec [4; 5] (repeat 0 16) [9] (repeat 8 8) false {| m_z0 := repeat true 128; m_z := repeat true 16; m_ole := ex_ro 3 |} [1] [2] ].
Definition ex46_cs : list pcall :=
  [ {| pc_iv := repeat 7 8; pc_ctxt := [1; 2; 3]; pc_sec := true; pc_kz0 := repeat 4 128; pc_kz := repeat 4 24 |};
    {| pc_iv := repeat 8 8; pc_ctxt := [4; 5]; pc_sec := false; pc_kz0 := repeat 6 128; pc_kz := repeat 2 16 |} ].
Example C46_ex : map aop_call ex46_ops = map pcall_call ex46_cs /\ Forall pcall_wf ex46_cs /\ Forall aop_wf ex46_ops /\
  keys_fit (repeat 3 128) [repeat 5 128; repeat 5 128] [repeat 7 24] ex46_cs.
Proof.
  assert (B : forall n x, x < 256 -> bytes_ok (repeat x n)).
  { intros n x H. apply Forall_forall. intros y Hy. apply repeat_spec in Hy. now subst. }
  split; [reflexivity|]. split.
  { repeat constructor. }
  split; [|repeat constructor].
  assert (R : forall (l : list aop) x y, l = [x; y] -> aop_wf x -> aop_wf y -> Forall aop_wf l).
  { intros l x y -> X Y. auto. }
  apply (R _ _ _ eq_refl); cbn [aop_wf]; repeat match goal with |- _ /\ _ => split end;
    try reflexivity; try (apply B; reflexivity); try discriminate; try (repeat constructor; fail); try (exact (ex_ro_ok 3)).
Qed.

(** ** C47: the expectation is false.  The constructor adds Delta into the stored wires of
    the share of H, so a second proof object over the same AEAD passes only when the
    verifier's share of H is zero. *)
Theorem C47_second_proof : forall gfr hash, gfr_ok gfr -> forall key fiv, length key = 16%nat -> bytes_ok key ->
  length fiv = 4%nat -> bytes_ok fiv -> forall mh r ro ops Delta kh kz0 kz kH kH2,
  length mh = 128%nat -> r < 2 ^ 128 -> r <> 0 -> ole_rand_ok ro 1 ->
  Forall aop_wf ops -> Delta <> 0 -> length kh = 128%nat -> length kH = 128%nat -> length kH2 = 128%nat ->
  exists s0 s outs p t za p2 t2 za2,
    aead_new aes_ks_file aes_enc_file gfr (str_to_int key) (str_to_int fiv) mh r ro = Ok s0 /\
    aops_run aes_enc_file gfr hash s0 ops = Ok (s, outs) /\
    proof_new aes_ks_file aes_enc_file Delta cz0 (zk_enter Delta kh kz0 kz s) (str_to_int key) (str_to_int fiv) kH = Ok (p, t, za) /\
    cz_a t = cz_b t /\
    proof_new aes_ks_file aes_enc_file Delta t za (str_to_int key) (str_to_int fiv) kH2 = Ok (p2, t2, za2) /\
    (cz_a t2 = cz_b t2 <-> p_gc_h (st_b s) = 0).
Proof. exact second_files. Qed.
Print Assumptions C47_second_proof.
Theorem C47_second_proof_refuted : exists gfr key fiv mh r ro Delta kh kH s p t za p2 t2 za2,
  gfr_ok gfr /\ aead_new aes_ks_file aes_enc_file gfr (str_to_int key) (str_to_int fiv) mh r ro = Ok s /\
  proof_new aes_ks_file aes_enc_file Delta cz0 (zk_enter Delta kh [] [] s) (str_to_int key) (str_to_int fiv) kH = Ok (p, t, za) /\
  cz_a t = cz_b t /\
  proof_new aes_ks_file aes_enc_file Delta t za (str_to_int key) (str_to_int fiv) kH = Ok (p2, t2, za2) /\
  cz_a t2 <> cz_b t2.
Proof. exact second_refuted. Qed.
Print Assumptions C47_second_proof_refuted.

(** ** C48: the final check of a session *)
Theorem C48_finalize : forall Hc Hs zc zs finc fins ez encs dz decs,
  Hc < 2 ^ 128 -> Hs < 2 ^ 128 -> zc < 2 ^ 128 -> zs < 2 ^ 128 ->
  Forall (fun x => x < 2 ^ 128) ez -> Forall (fun x => x < 2 ^ 128) dz ->
  length ez = length encs -> length dz = length decs ->
  rec_bytes finc -> rec_bytes fins -> Forall rec_bytes encs -> Forall rec_bytes decs ->
  exists b, finalize_check (bits_of_N 128 Hc) (bits_of_N 128 Hs) (bits_of_N 128 zc) (bits_of_N 128 zs) finc fins
      (map (bits_of_N 128) ez) encs (map (bits_of_N 128) dz) decs = Ok b /\
    (b = true <-> rec_tag_ok Hc zc finc /\ rec_tag_ok Hs zs fins /\
                  Forall2 (rec_tag_ok Hc) ez encs /\ Forall2 (rec_tag_ok Hs) dz decs).
Proof. exact finalize_check_ok. Qed.
Print Assumptions C48_finalize.
(** with the values that the proofs of C46 yield: exactly the GCM tags under the two keys *)
Theorem C48_session : forall kc ks fivc fivs finc fins ivc ivs encs decs,
  length kc = 16%nat -> bytes_ok kc -> length ks = 16%nat -> bytes_ok ks ->
  rec_bytes finc -> rec_bytes fins -> Forall (fun r => rec_bytes (snd r)) encs -> Forall (fun r => rec_bytes (snd r)) decs ->
  exists b, finalize_check (bits_of_N 128 (aesE kc 0)) (bits_of_N 128 (aesE ks 0))
      (bits_of_N 128 (aesE kc (j0_of (fivc ++ ivc)))) (bits_of_N 128 (aesE ks (j0_of (fivs ++ ivs)))) finc fins
      (map (fun r => bits_of_N 128 (aesE kc (j0_of (fivc ++ fst r)))) encs) (map snd encs)
      (map (fun r => bits_of_N 128 (aesE ks (j0_of (fivs ++ fst r)))) decs) (map snd decs) = Ok b /\
    (b = true <->
     fr_tag finc = gcm_tag (aesE kc) (fivc ++ ivc) (fr_aad finc) (fr_ctxt finc) /\
     fr_tag fins = gcm_tag (aesE ks) (fivs ++ ivs) (fr_aad fins) (fr_ctxt fins) /\
     Forall (fun r => fr_tag (snd r) = gcm_tag (aesE kc) (fivc ++ fst r) (fr_aad (snd r)) (fr_ctxt (snd r))) encs /\
     Forall (fun r => fr_tag (snd r) = gcm_tag (aesE ks) (fivs ++ fst r) (fr_aad (snd r)) (fr_ctxt (snd r))) decs).
Proof. exact finalize_session. Qed.
Print Assumptions C48_session.
(** GCM test case 1 as client Finished, two wrong tags elsewhere *)
Example C48_ex :
  let tag := [0x58; 0xe2; 0xfc; 0xce; 0xfa; 0x7e; 0x30; 0x61; 0x36; 0x7f; 0x1d; 0x57; 0xa4; 0xe7; 0x45; 0x5a] in
  let h := 0x66e94bd4ef8a2c3b884cfa59ca342b2e in let z := 0x58e2fccefa7e3061367f1d57a4e7455a in
  let r t := {| fr_ctxt := []; fr_tag := t; fr_aad := [] |} in let b := bits_of_N 128 in
  finalize_check (b h) (b h) (b z) (b z) (r tag) (r tag) [b z] [r tag] [] [] = Ok true /\
  finalize_check (b h) (b h) (b z) (b z) (r tag) (r tag) [b z] [r (repeat 0 16)] [] [] = Ok false.
Proof. vm_compute. split; reflexivity. Qed.
