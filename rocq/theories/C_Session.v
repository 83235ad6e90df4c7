(** Properties C68-C71: whole sessions, from the key agreement to the tag check. *)
From Coq Require Import List NArith ZArith Bool Arith Znumtheory.
From Verif Require Import L_Bits L_Res L_Group S_Ec M_EmpInteger M_Utils M_Bn M_Ole M_E2f M_Ec M_Bristol M_Block M_Shares M_Aead M_ItMac M_AeadProof M_Handshake M_Session.
From Verif Require Import S_Hmac S_Codec S_Aes S_Gcm S_Tls D_AesKs D_AesEnc P_Shares P_Gcm P_Aead P_AeadInst P_ItMac P_AeadProof P_AeadProof2.
From Verif Require Import P_Dh P_Handshake P_HandshakeZk P_Session P_Session2 P_Session3 P_Finalize.
Import ListNotations.
Local Open Scope N_scope.

(** ** C68: an honest session is accepted *)
(** From the scalars of the parties and of the server: key agreement, garbled key schedule, any
    sequence of record calls, opening of the secret, zero-knowledge proof of all records and
    final tag check.  The records carry the TLS 1.2 / AES-GCM bytes of the secret the server
    computes, the comparisons agree, and the verdict is true when the records are authentic. *)
Theorem C68_session : forall (C : Curve) ccrh bl ra rb Delta0 raw ta tb s rounds rc rs sh tc ts xa ya xb yb gfr hash,
  annihilates C -> prime (cp C) -> (cp C < 2 ^ Z.of_nat bl)%Z -> (order C <= 256 ^ Z.of_nat bn_buf)%Z ->
  length raw = 5%nat -> Forall (fun r => length r = bl) raw -> (0 <= ta < order C)%Z ->
  Forall byte8 rc -> Forall byte8 rs -> opt_wf sh -> Forall byte8 tc -> Forall byte8 ts ->
  let Ts := smul s (@gen C) in
  smul ta (@gen C) <> pz ->
  coords (smul tb Ts) = Some (xa, ya) -> coords (smul ta Ts) = Some (xb, yb) -> xa <> xb -> gfr_ok gfr ->
  exists Tc Va Vb Ta sa sb, dh_exchange ta tb Ts = Ok (Tc, Va, Vb, Ta) /\
    e2f_offline ccrh (cp C) bl ra rb Delta0 raw = Ok (sa, sb) /\
    (((e_a sa + e_a sb) mod cp C <> 0)%Z ->
     exists x y pa pb S,
       coords (smul s Tc) = Some (x, y) /\
       e2f_online (cp C) sa sb (fst (affine Vb)) (snd (affine Vb)) (fst (affine Va)) (snd (affine Va)) = Ok (pa, pb) /\
       session (cp C) rounds pa pb rc rs sh (fins tc ts) = Ok S /\ dh_reveal ta tb Ts Ta = Ok x /\
       let kb := key_block (ms_spec (premaster (BN_num_bytes (cp C)) (Z.to_N x)) rc rs sh) rc rs in
       let Ec := aesE (tls_client_key kb) in let Es := aesE (tls_server_key kb) in
       let fivc := tls_client_iv kb in let fivs := tls_server_iv kb in
       forall mhc rdc roc mhs rds ros l,
       length mhc = 128%nat -> rdc < 2 ^ 128 -> rdc <> 0 -> ole_rand_ok roc 1 ->
       length mhs = 128%nat -> rds < 2 ^ 128 -> rds <> 0 -> ole_rand_ok ros 1 -> Forall rcall_wf l ->
       exists c0 s0 c s,
         aead_new aes_ks_file aes_enc_file gfr (hs_cwk S) (hs_civ S) mhc rdc roc = Ok c0 /\
         aead_new aes_ks_file aes_enc_file gfr (hs_swk S) (hs_siv S) mhs rds ros = Ok s0 /\
         rcalls_run aes_enc_file gfr hash (c0, s0) l = Ok (c, s, map (rcall_spec Ec Es fivc fivs) l) /\
         forall Delta pub khc kz0c kzc khs kz0s kzs kHc kHs fc fs os,
           Delta <> 0 -> N.odd Delta = true -> pub true <> pub false -> N.lxor (pub true) (pub false) <> Delta ->
           let csc := to_pcall false fc :: pops_c os in let css := to_pcall false fs :: pops_s os in
           map aop_call (flat_map on_c l) = map pcall_call csc -> map aop_call (flat_map on_s l) = map pcall_call css ->
           pcall_wf (to_pcall false fc) -> pcall_wf (to_pcall false fs) -> Forall pop_wf os ->
           rrec_bytes fc -> rrec_bytes fs -> Forall pop_bytes os ->
           keys_fit khc kz0c kzc csc -> keys_fit khs kz0s kzs css -> length kHc = 128%nat -> length kHs = 128%nat ->
           exists p outs, post_record aes_ks_file aes_enc_file Delta pub S cz0 (zk_enter Delta khc kz0c kzc c) (zk_enter Delta khs kz0s kzs s)
               x rc rs tc ts sh kHc kHs fc fs os = Ok (p, outs) /\
             checks_hold (pr_hs p) /\ cz_a (pr_t p) = cz_b (pr_t p) /\ queues_empty (pr_zc p) /\ queues_empty (pr_zs p) /\
             forall mc msv msgs, opens Ec fivc fc mc -> opens Es fivs fs msv -> Forall2 (pop_opens Ec Es fivc fivs) os msgs ->
               finalize p fc fs os outs = Ok true /\ map snd outs = map str_to_int msgs).
Proof. exact whole_session. Qed.
Print Assumptions C68_session.
(** the record and proof phases alone, for any session whose handshake proof succeeded, with the
    exact verdict for any tags *)
Theorem C68_records : forall gfr hash,
  gfr_ok gfr ->
  forall S x rc rs tc ts sh S' ms kc ksv fivc fivs, key_ok kc -> key_ok ksv -> iv_ok fivc -> iv_ok fivs ->
  prove_handshake S x rc rs tc ts sh = Ok (S', ms, (str_to_int kc, str_to_int ksv, str_to_int fivc, str_to_int fivs)) -> checks_hold S' ->
  forall mhc rdc roc mhs rds ros l,
  length mhc = 128%nat -> rdc < 2 ^ 128 -> rdc <> 0 -> ole_rand_ok roc 1 ->
  length mhs = 128%nat -> rds < 2 ^ 128 -> rds <> 0 -> ole_rand_ok ros 1 ->
  Forall rcall_wf l ->
  exists c0 s0 c s,
    aead_new aes_ks_file aes_enc_file gfr (str_to_int kc) (str_to_int fivc) mhc rdc roc = Ok c0 /\
    aead_new aes_ks_file aes_enc_file gfr (str_to_int ksv) (str_to_int fivs) mhs rds ros = Ok s0 /\
    rcalls_run aes_enc_file gfr hash (c0, s0) l = Ok (c, s, map (rcall_spec (aesE kc) (aesE ksv) fivc fivs) l) /\
    forall Delta pub khc kz0c kzc khs kz0s kzs kHc kHs fc fs os,
      Delta <> 0 -> N.odd Delta = true -> pub true <> pub false -> N.lxor (pub true) (pub false) <> Delta ->
      let csc := to_pcall false fc :: pops_c os in let css := to_pcall false fs :: pops_s os in
      map aop_call (flat_map on_c l) = map pcall_call csc -> map aop_call (flat_map on_s l) = map pcall_call css ->
      pcall_wf (to_pcall false fc) -> pcall_wf (to_pcall false fs) -> Forall pop_wf os ->
      rrec_bytes fc -> rrec_bytes fs -> Forall pop_bytes os ->
      keys_fit khc kz0c kzc csc -> keys_fit khs kz0s kzs css -> length kHc = 128%nat -> length kHs = 128%nat ->
      exists p, post_record aes_ks_file aes_enc_file Delta pub S cz0 (zk_enter Delta khc kz0c kzc c) (zk_enter Delta khs kz0s kzs s)
          x rc rs tc ts sh kHc kHs fc fs os = Ok (p, map (pop_out (aesE kc) (aesE ksv) fivc fivs) os) /\
        checks_hold (pr_hs p) /\ cz_a (pr_t p) = cz_b (pr_t p) /\ queues_empty (pr_zc p) /\ queues_empty (pr_zs p) /\
        exists b, finalize p fc fs os (map (pop_out (aesE kc) (aesE ksv) fivc fivs) os) = Ok b /\
          (b = true <-> tag_ok (aesE kc) fivc fc /\ tag_ok (aesE ksv) fivs fs /\ Forall (pop_tag_ok (aesE kc) (aesE ksv) fivc fivs) os).
Proof. exact session_honest. Qed.
Print Assumptions C68_records.
(** a session: both Finished records, two private records of the client with a server record in
    between, and a last server record that only the proof decrypts *)
Definition ex68_rnd (n : nat) : call_rand := {| m_z0 := repeat true 128; m_z := repeat false (8 * n); m_ole := ex_ro 3 |}.
Definition ex68_l : list rcall :=
  [ FinEnc [1; 2; 3] [1; 2; 3] [9] (repeat 7 8) (ex68_rnd 3);
    FinDec [4; 5] (repeat 0 16) [9] (repeat 8 8) (ex68_rnd 2) [1] [2];
    RecEnc [1; 2] [0; 0] [9] (repeat 6 8) (ex68_rnd 2);
    RecDec [4; 5; 6] (repeat 0 16) [9] (repeat 5 8) (ex68_rnd 3) [1] [2];
    RecEnc [8] [0] [9] (repeat 4 8) (ex68_rnd 1) ].
Definition ex68_rec (x : N) (c : list N) : rrec :=
  {| rr_iv := repeat x 8; rr_ctxt := c; rr_tag := repeat 0 16; rr_aad := [9]; rr_kz0 := repeat 4 128; rr_kz := repeat 2 (8 * length c) |}.
Definition ex68_os : list pop :=
  [ PServer (ex68_rec 5 [4; 5; 6]); PClient (ex68_rec 6 [7; 7]); PClient (ex68_rec 4 [3]); PLast (ex68_rec 3 [1; 2; 3; 4]) ].
Example C68_ex : let fc := ex68_rec 7 [1; 2; 3] in let fs := ex68_rec 8 [4; 5] in
  let csc := to_pcall false fc :: pops_c ex68_os in let css := to_pcall false fs :: pops_s ex68_os in
  map aop_call (flat_map on_c ex68_l) = map pcall_call csc /\ map aop_call (flat_map on_s ex68_l) = map pcall_call css /\
  Forall rcall_wf ex68_l /\ pcall_wf (to_pcall false fc) /\ pcall_wf (to_pcall false fs) /\ Forall pop_wf ex68_os /\
  rrec_bytes fc /\ rrec_bytes fs /\ Forall pop_bytes ex68_os /\
  keys_fit (repeat 3 128) (repeat (repeat 5 128) 3) [repeat 7 16; repeat 7 8] csc /\
  keys_fit (repeat 3 128) (repeat (repeat 5 128) 2) [repeat 7 24] css.
Proof.
  assert (B : forall n x, x < 256 -> bytes_ok (repeat x n)).
  { intros n x H. apply Forall_forall. intros y Hy. apply repeat_spec in Hy. now subst. }
  split; [reflexivity|]. split; [reflexivity|]. split.
  { assert (X : forall o, aop_wf o -> Forall aop_wf [o]) by (intros; auto).
    unfold ex68_l. do 5 (apply Forall_cons; [unfold rcall_wf; cbn [on_c on_s app]; apply X; cbn [aop_wf];
      unfold rand_ok, ex68_rnd; cbn [m_z0 m_z m_ole];
      repeat match goal with |- _ /\ _ => split end; try reflexivity; try (apply B; reflexivity); try discriminate;
      try (repeat constructor; fail); try (exact (ex_ro_ok 3))|]). apply Forall_nil. }
  repeat match goal with |- _ /\ _ => split end; try reflexivity; try (apply B; reflexivity); repeat constructor.
Qed.

(** ** C69: what acceptance proves *)
(** The prover announces any share [a] and any shares of H, Z0 and Z (the carried values [kh],
    [K0], [Kz]).  If the key-schedule comparisons hold, then the transcripts agree exactly when
    those shares add up to the right values under the TLS 1.2 keys of the joint secret, the
    verdict is true exactly when every record opens under those keys, and the messages handed
    to the caller are then the decryptions. *)
Theorem C69_proves : forall S pms rc rs tc ts sh a t zc zs khc khs K0c Kzc K0s Kzs Delta pub kHc kHs fc fs os p outs,
  let q := hs_q S in
  (0 <= a < q)%Z -> hs_zk_pms S = share_int q a -> (0 <= hs_bnb S < q)%Z ->
  zst S -> opt_bytes (hs_cufin S) -> opt_bytes (hs_sufin S) ->
  Forall byte8 rc -> Forall byte8 rs -> Forall byte8 tc -> Forall byte8 ts -> opt_wf sh ->
  Delta <> 0 -> N.odd Delta = true -> pub true <> pub false -> N.lxor (pub true) (pub false) <> Delta -> cz_a t = cz_b t ->
  Forall2 (carries Delta) (za_h zc) khc -> length khc = 128%nat -> length kHc = 128%nat ->
  Forall2 (carries Delta) (za_h zs) khs -> length khs = 128%nat -> length kHs = 128%nat ->
  let csc := to_pcall false fc :: pops_c os in let css := to_pcall false fs :: pops_s os in
  pcall_wf (to_pcall false fc) -> pcall_wf (to_pcall false fs) -> Forall pop_wf os ->
  rrec_bytes fc -> rrec_bytes fs -> Forall pop_bytes os ->
  queues_fit Delta zc K0c Kzc csc -> queues_fit Delta zs K0s Kzs css ->
  post_record aes_ks_file aes_enc_file Delta pub S t zc zs pms rc rs tc ts sh kHc kHs fc fs os = Ok (p, outs) ->
  checks_hold (pr_hs p) ->
  let kb := key_block (ms_spec (pms_of q a (hs_bnb S)) rc rs sh) rc rs in
  let Ec := aesE (tls_client_key kb) in let Es := aesE (tls_server_key kb) in
  let fivc := tls_client_iv kb in let fivs := tls_server_iv kb in
  (cz_a (pr_t p) = cz_b (pr_t p) <-> recorded Ec fivc khc zc K0c Kzc csc /\ recorded Es fivs khs zs K0s Kzs css) /\
  exists b, finalize p fc fs os outs = Ok b /\
    (b = true <-> (exists m, opens Ec fivc fc m) /\ (exists m, opens Es fivs fs m) /\ exists msgs, Forall2 (pop_opens Ec Es fivc fivs) os msgs) /\
    forall msgs, Forall2 (pop_opens Ec Es fivc fivs) os msgs -> map snd outs = map str_to_int msgs.
Proof. exact session_proves. Qed.
Print Assumptions C69_proves.
(** the hypotheses hold in the honest runs of C68; the example there is one *)

(** ** C70: the expectation is false.  Acceptance does not bind the Finished records to the
    verify data. *)
(** In every session there are empty Finished records that pass every check, although the verify
    data of the session is not empty. *)
Theorem C70_empty_finished : forall q rounds pa pb rc rs sh tc ts,
  (0 <= pa < q)%Z -> (0 <= pb < q)%Z ->
  Forall byte8 rc -> Forall byte8 rs -> opt_wf sh -> Forall byte8 tc -> Forall byte8 ts ->
  let m := ms_spec (pms_of q pa pb) rc rs sh in
  let kb := key_block m rc rs in
  let Ec := aesE (tls_client_key kb) in let Es := aesE (tls_server_key kb) in
  let fivc := tls_client_iv kb in let fivs := tls_server_iv kb in
  exists S gfr hash mhc mhs rd ro l c0 s0 c s outs1 Delta pub kh kz0 kH fc fs p,
    gfr_ok gfr /\ session q rounds pa pb rc rs sh (fins tc ts) = Ok S /\
    aead_new aes_ks_file aes_enc_file gfr (hs_cwk S) (hs_civ S) mhc rd ro = Ok c0 /\
    aead_new aes_ks_file aes_enc_file gfr (hs_swk S) (hs_siv S) mhs rd ro = Ok s0 /\
    rcalls_run aes_enc_file gfr hash (c0, s0) l = Ok (c, s, outs1) /\
    post_record aes_ks_file aes_enc_file Delta pub S cz0 (zk_enter Delta kh kz0 [] c) (zk_enter Delta kh kz0 [] s)
      ((pa + pb) mod q)%Z rc rs tc ts sh kH kH fc fs [] = Ok (p, []) /\
    checks_hold (pr_hs p) /\ cz_a (pr_t p) = cz_b (pr_t p) /\ finalize p fc fs [] [] = Ok true /\
    opens Ec fivc fc [] /\ opens Es fivs fs [] /\
    client_verify_data m tc <> [] /\ server_verify_data m ts <> [].
Proof. exact empty_finished. Qed.
Print Assumptions C70_empty_finished.
Theorem C70_finished_content_refuted : exists q rounds pa pb rc rs sh tc ts S gfr hash mhc mhs rd ro l c0 s0 c s outs1 Delta pub kh kz0 kH fc fs p,
  let m := ms_spec (pms_of q pa pb) rc rs sh in
  let kb := key_block m rc rs in
  gfr_ok gfr /\ session q rounds pa pb rc rs sh (fins tc ts) = Ok S /\
  aead_new aes_ks_file aes_enc_file gfr (hs_cwk S) (hs_civ S) mhc rd ro = Ok c0 /\
  aead_new aes_ks_file aes_enc_file gfr (hs_swk S) (hs_siv S) mhs rd ro = Ok s0 /\
  rcalls_run aes_enc_file gfr hash (c0, s0) l = Ok (c, s, outs1) /\
  post_record aes_ks_file aes_enc_file Delta pub S cz0 (zk_enter Delta kh kz0 [] c) (zk_enter Delta kh kz0 [] s)
    ((pa + pb) mod q)%Z rc rs tc ts sh kH kH fc fs [] = Ok (p, []) /\
  checks_hold (pr_hs p) /\ cz_a (pr_t p) = cz_b (pr_t p) /\ finalize p fc fs [] [] = Ok true /\
  opens (aesE (tls_client_key kb)) (tls_client_iv kb) fc [] /\ opens (aesE (tls_server_key kb)) (tls_server_iv kb) fs [] /\
  client_verify_data m tc <> [] /\ server_verify_data m ts <> [].
Proof. exact finished_content_refuted. Qed.
Print Assumptions C70_finished_content_refuted.

(** ** C71: the expectation is false.  A z0 that was never set makes finalize_check read a
    block that reveal did not write; test/protocol.cpp passes such a z0. *)
(** all other values of full width: undefined, whatever the records *)
Local Open Scope nat_scope.
Theorem C71_unset_z0 : forall Hc Hs zc zs finc fins ez encs dz1 dz2 decs,
  Forall (fun x : Integer => length x = 128) ([Hc; Hs; zc; zs] ++ ez ++ dz1 ++ dz2) ->
  length ez = length encs -> length (dz1 ++ [] :: dz2) = length decs ->
  finalize_check Hc Hs zc zs finc fins ez encs (dz1 ++ [] :: dz2) decs = UB.
Proof. exact unset_z0. Qed.
Print Assumptions C71_unset_z0.
Theorem C71_unset_z0_refuted : exists (H z : Integer) (r : frec), length H = 128 /\ length z = 128 /\
  finalize_check H H z z r r [z] [r] [z] [r] <> UB /\ finalize_check H H z z r r [z] [r] [[]] [r] = UB.
Proof.
  exists (repeat false 128), (repeat true 128), {| fr_ctxt := []; fr_tag := []; fr_aad := [] |}.
  split; [reflexivity|]. split; [reflexivity|]. split; [discriminate|].
  apply (unset_z0 _ _ _ _ _ _ [_] _ [] []); [|reflexivity|reflexivity]. repeat constructor.
Qed.
Print Assumptions C71_unset_z0_refuted.
