(** Property C96: what the proof phase shows the verifier, and what is opened at its end. *)
From Coq Require Import List NArith ZArith Bool Arith.
From Verif Require Import L_Bits L_Res M_EmpInteger M_Utils M_Bn M_Bristol M_Block M_Shares M_Aead M_ItMac M_AeadProof M_Handshake M_Session M_Digest M_Final.
From Verif Require Import S_Hmac S_Codec S_Aes S_Gcm S_Tls D_AesKs D_AesEnc P_Shares P_Gcm P_Aead P_AeadInst P_ItMac P_AeadProof P_AeadProof2.
From Verif Require Import P_Handshake P_HandshakeZk P_Session P_Session2 P_Session3 P_Digest P_Digest2 P_ProofView P_ProofView2.
Import ListNotations.
Local Open Scope N_scope.

(** ** C96: the verifier's blocks do not depend on the prover's secrets *)
(** Two runs of the proof phase at the same verifier: same keys, same records, same recorded data
    of the verifier ([vlike]: only the prover's blocks and data may differ), and handshake
    comparisons made with the same values.  The secret, the prover's shares, and so the messages
    may differ.  The verifier's transcript is the same; if both digests are accepted, the prover
    has sent the same digest; and the verdict is the same if the blocks opened in finalize_check
    are. *)
Theorem C96_view : forall Delta pub ks enc kc own own' s t zc zs pms s' t' zc' zs' pms' rc rs tc ts sh rc' rs' tc' ts' sh' kHc kHs fc fs os p xs p' xs',
  length (hs_zk s) = length (hs_zk s') -> cz_b t = cz_b t' -> vlike zc zc' -> vlike zs zs' ->
  dpost_record ks enc Delta pub kc own s t zc zs pms rc rs tc ts sh kHc kHs fc fs os = Ok (p, xs) ->
  dpost_record ks enc Delta pub kc own' s' t' zc' zs' pms' rc' rs' tc' ts' sh' kHc kHs fc fs os = Ok (p', xs') ->
  compared s p = compared s' p' ->
  cz_b (pr_t p) = cz_b (pr_t p') /\
  (forall h, cz_accept h (pr_t p) = true -> cz_accept h (pr_t p') = true ->
     h (flat_map bytes_of_block (cz_a (pr_t p))) = h (flat_map bytes_of_block (cz_a (pr_t p')))) /\
  (final_blocks p os xs = final_blocks p' os xs' -> finalize p fc fs os xs = finalize p' fc fs os xs').
Proof. exact verifier_view. Qed.
Print Assumptions C96_view.
(** the members entered after the garbled phase look the same whatever the prover's values *)
Theorem C96_enter : forall Delta kh kz0 kz a a', st_b a = st_b a' -> length (k_h (st_zk a)) = length (k_h (st_zk a')) ->
  map (@length bool) (k_z0 (st_zk a)) = map (@length bool) (k_z0 (st_zk a')) -> map (@length bool) (k_z (st_zk a)) = map (@length bool) (k_z (st_zk a')) ->
  vlike (zk_enter Delta kh kz0 kz a) (zk_enter Delta kh kz0 kz a').
Proof. exact zk_enter_vlike. Qed.
Print Assumptions C96_enter.
(** what is opened: when the comparisons of the handshake hold, H of both directions and E(J0) of
    every record, under the TLS keys of the joint secret, and nothing else *)
Theorem C96_opened : forall S pms rc rs tc ts sh a t zc zs khc khs K0c Kzc K0s Kzs Delta pub kc own kHc kHs fc fs os p outs, let q := hs_q S in
  (0 <= a < q)%Z -> hs_zk_pms S = share_int q a -> (0 <= hs_bnb S < q)%Z ->
  zst S -> opt_bytes (hs_cufin S) -> opt_bytes (hs_sufin S) ->
  Forall byte8 rc -> Forall byte8 rs -> Forall byte8 tc -> Forall byte8 ts -> opt_wf sh ->
  Delta <> 0 -> N.odd Delta = true -> pub true <> pub false -> N.lxor (pub true) (pub false) <> Delta -> cz_a t = cz_b t ->
  Forall2 (carries Delta) (za_h zc) khc -> length khc = 128%nat -> length kHc = 128%nat ->
  Forall2 (carries Delta) (za_h zs) khs -> length khs = 128%nat -> length kHs = 128%nat ->
  let csc := to_pcall false fc :: pops_c os in let css := to_pcall false fs :: pops_s os in
  pcall_wf (to_pcall false fc) -> pcall_wf (to_pcall false fs) -> Forall pop_wf os ->
  queues_fit Delta zc K0c Kzc csc -> queues_fit Delta zs K0s Kzs css ->
  dpost_record aes_ks_file aes_enc_file Delta pub kc own S t zc zs pms rc rs tc ts sh kHc kHs fc fs os = Ok (p, outs) ->
  checks_hold (pr_hs p) ->
  let kb := key_block (ms_spec (pms_of q a (hs_bnb S)) rc rs sh) rc rs in
  final_blocks p os outs = final_spec (aesE (tls_client_key kb)) (aesE (tls_server_key kb)) (tls_client_iv kb) (tls_server_iv kb) fc fs os.
Proof. exact final_opened. Qed.
Print Assumptions C96_opened.

(** ** The expectation that opening H leaves the connection usable is false *)
(** Whoever has H and one record that opens makes tags that open for any other data under the
    same iv; with the text of that record, for any other text of the same length.  The proof
    phase must come after the last record that anyone still trusts. *)
Theorem C96_forge : forall E iv aad c tag m, gcm_ad E iv c aad tag = Some m ->
  (forall aad' c', gcm_ad E iv c' aad' (forged (E 0) tag aad c aad' c') = Some (gcm_ctext E iv c')) /\
  (forall aad' m', length m' = length c -> exists c', c' = xor_str m' (xor_str m c) /\
     gcm_ad E iv c' aad' (forged (E 0) tag aad c aad' c') = Some m').
Proof.
  intros E iv aad c tag m H. split; [intros; eapply forge_opens; exact H|]. intros aad' m' L. eexists. split; [reflexivity|].
  rewrite (forge_opens _ _ _ _ _ _ _ _ H). f_equal. unfold gcm_ad in H. destruct (list_eq_dec _ _ _) in H; [|discriminate]. injection H as <-.
  apply forge_text, L.
Qed.
Print Assumptions C96_forge.
(** a witness: a key, a record and another record made from H alone *)
Definition ex96_E : N -> N := aesE (repeat 0 16).
Definition ex96_iv : list N := repeat 0 12.
Definition ex96_rec : list N * list N := gcm_ae ex96_E ex96_iv [1; 2; 3] [9].
Theorem C96_forge_refuted : exists E iv aad c tag m h c' tag' m', h = E 0 /\
  gcm_ad E iv c aad tag = Some m /\ c' = xor_str m' (xor_str m c) /\ tag' = forged h tag aad c aad c' /\
  gcm_ad E iv c' aad tag' = Some m' /\ m' <> m.
Proof.
  exists ex96_E, ex96_iv, [9], (fst ex96_rec), (snd ex96_rec), [1; 2; 3], (ex96_E 0).
  exists (xor_str [7; 7; 7] (xor_str [1; 2; 3] (fst ex96_rec))), (forged (ex96_E 0) (snd ex96_rec) [9] (fst ex96_rec) [9] (xor_str [7; 7; 7] (xor_str [1; 2; 3] (fst ex96_rec)))), [7; 7; 7].
  split; [reflexivity|]. split; [vm_compute; reflexivity|]. split; [reflexivity|]. split; [reflexivity|]. split; [vm_compute; reflexivity|discriminate].
Qed.
Print Assumptions C96_forge_refuted.

(** two provers with different recorded shares and different proved values: the verifier's blocks
    are the same, the provers' are not *)
Definition ex96_za (v : N) : zaead :=
  {| za_h := zauth (2 ^ 127 + 1) (repeat 4 128) (bits_of_N 128 v); za_z0 := [zauth (2 ^ 127 + 1) (repeat 6 128) (bits_of_N 128 (v + 1))];
     za_z := []; za_a := {| p_gc_h := 0; p_mul_hs := []; p_gc_z0 := [v]; p_gc_z := []; p_open_z := [] |};
     za_b := {| p_gc_h := 5; p_mul_hs := []; p_gc_z0 := [77]; p_gc_z := []; p_open_z := [] |} |}.
Definition ex96_run (v : N) : res (czst * zaead) := check_z0 (2 ^ 127 + 1) cz0 (ex96_za v) (bits_of_N 128 (3 * v)) (repeat 8 128).
Example C96_ex : vlike (ex96_za 12) (ex96_za 34) /\
  match ex96_run 12, ex96_run 34 with
  | Ok (t, _), Ok (t', _) => cz_b t = cz_b t' /\ cz_b t <> [] /\ cz_a t <> cz_a t'
  | _, _ => False
  end.
Proof.
  split.
  - unfold vlike. split; [vm_compute; reflexivity|]. split; [constructor; [vm_compute; reflexivity|constructor]|]. split; [constructor|reflexivity].
  - vm_compute. split; [reflexivity|]. split; discriminate.
Qed.
(** the runs of C68 meet the hypotheses of C96_opened; the opened blocks of three records
    and the two Finished records *)
Example C96_ex_opened : forall Ec Es fivc fivs, let r x c := {| rr_iv := repeat x 8; rr_ctxt := c; rr_tag := repeat 0 16; rr_aad := [9]; rr_kz0 := repeat 4 128; rr_kz := repeat 2 (8 * length c) |} in
  final_spec Ec Es fivc fivs (r 7 [1]) (r 8 [2]) [PServer (r 5 [3]); PClient (r 6 [4]); PLast (r 3 [5])] =
  [Ec 0; Es 0; Ec (j0_of (fivc ++ repeat 7 8)); Es (j0_of (fivs ++ repeat 8 8)); Ec (j0_of (fivc ++ repeat 6 8));
   Es (j0_of (fivs ++ repeat 5 8)); Es (j0_of (fivs ++ repeat 3 8))].
Proof. reflexivity. Qed.
