(** Property C94: one running hash, and so one digest comparison, decides the whole proof phase. *)
From Coq Require Import List NArith ZArith Bool Arith Lia Znumtheory.
From Verif Require Import L_Bits L_Res L_Group S_Ec M_EmpInteger M_Utils M_Bn M_Ole M_E2f M_Ec M_Bristol M_Block M_Shares M_Aead M_ItMac M_AeadProof M_Handshake M_Session M_Digest.
From Verif Require Import S_Hmac S_Codec S_Aes S_Gcm S_Tls D_AesKs D_AesEnc P_Shares P_Gcm P_Aead P_AeadInst P_ItMac P_AeadProof P_AeadProof2.
From Verif Require Import P_Dh P_Handshake P_HandshakeZk P_Session P_Session2 P_Session3 P_Digest P_Digest2 P_Digest3.
Import ListNotations.
Local Open Scope N_scope.

(** ** C94: the digest comparison alone *)
(** Putting the blocks of the handshake comparisons between those of the AEAD proofs changes
    neither the outcome nor any member; the transcripts agree exactly when every comparison of
    the handshake holds and the transcripts of the AEAD proofs alone agree. *)
Theorem C94_one_digest : forall ks enc Delta pub kc own,
  Delta <> 0 -> pub true <> pub false -> N.lxor (pub true) (pub false) <> Delta ->
  forall s t zc zs pms rc rs tc ts sh kHc kHs fc fs os p outs,
  dpost_record ks enc Delta pub kc own s t zc zs pms rc rs tc ts sh kHc kHs fc fs os = Ok (p, outs) ->
  exists p0, post_record ks enc Delta pub s t zc zs pms rc rs tc ts sh kHc kHs fc fs os = Ok (p0, outs) /\
    p = mkPrd (pr_hs p0) (pr_t p) (pr_pc p0) (pr_zc p0) (pr_ps p0) (pr_zs p0) (pr_cz0 p0) (pr_sz0 p0) /\
    hs_zk (pr_hs p) = hs_zk s ++ fresh s p /\
    (cz_a t = cz_b t ->
     (cz_a (pr_t p) = cz_b (pr_t p) <-> Forall (fun c => fst c = snd c) (fresh s p) /\ cz_a (pr_t p0) = cz_b (pr_t p0))) /\
    (gsmall Delta pub kc -> Forall small kHc -> Forall small kHs -> zasmall zc -> zasmall zs -> rsmall fc -> rsmall fs -> Forall osmall os ->
     czsmall t -> czsmall (pr_t p)).
Proof. exact one_digest. Qed.
Print Assumptions C94_one_digest.
(** a run whose comparisons hold goes through, the prover's own memcmp included *)
Theorem C94_honest : forall ks enc Delta pub kc own,
  Delta <> 0 -> pub true <> pub false -> N.lxor (pub true) (pub false) <> Delta ->
  forall s t zc zs pms rc rs tc ts sh kHc kHs fc fs os p0 outs,
  (own = true -> N.odd Delta = true /\ forall i j, N.odd (kc i j) = false) ->
  post_record ks enc Delta pub s t zc zs pms rc rs tc ts sh kHc kHs fc fs os = Ok (p0, outs) ->
  Forall (fun c => fst c = snd c) (fresh s p0) ->
  exists p, dpost_record ks enc Delta pub kc own s t zc zs pms rc rs tc ts sh kHc kHs fc fs os = Ok (p, outs) /\
    p = mkPrd (pr_hs p0) (pr_t p) (pr_pc p0) (pr_zc p0) (pr_ps p0) (pr_zs p0) (pr_cz0 p0) (pr_sz0 p0).
Proof. exact one_digest_honest. Qed.
Print Assumptions C94_honest.
(** an honest session, from the scalars on, is accepted whatever the hash function *)
Theorem C94_session : forall (C : Curve) ccrh bl ra rb Delta0 raw ta tb s rounds rc rs sh tc ts xa ya xb yb gfr hash,
  annihilates C -> prime (cp C) -> (cp C < 2 ^ Z.of_nat bl)%Z -> (order C <= 256 ^ Z.of_nat bn_buf)%Z ->
  length raw = 5%nat -> Forall (fun r => length r = bl) raw -> (0 <= ta < order C)%Z ->
  Forall byte8 rc -> Forall byte8 rs -> opt_wf sh -> Forall byte8 tc -> Forall byte8 ts ->
  let Ts := smul s (@gen C) in
  smul ta (@gen C) <> pz ->
  coords (smul tb Ts) = Some (xa, ya) -> coords (smul ta Ts) = Some (xb, yb) -> xa <> xb -> gfr_ok gfr ->
  exists Tc Va Vb Ta sa sb, dh_exchange ta tb Ts = Ok (Tc, Va, Vb, Ta) /\
    e2f_offline ccrh (cp C) bl ra rb Delta0 raw = Ok (sa, sb) /\
    (((e_a sa + e_a sb) mod cp C <> 0)%Z ->
     exists x y pa pb S,
       coords (smul s Tc) = Some (x, y) /\
       e2f_online (cp C) sa sb (fst (affine Vb)) (snd (affine Vb)) (fst (affine Va)) (snd (affine Va)) = Ok (pa, pb) /\
       session (cp C) rounds pa pb rc rs sh (fins tc ts) = Ok S /\ dh_reveal ta tb Ts Ta = Ok x /\
       let kb := key_block (ms_spec (premaster (BN_num_bytes (cp C)) (Z.to_N x)) rc rs sh) rc rs in
       let Ec := aesE (tls_client_key kb) in let Es := aesE (tls_server_key kb) in
       let fivc := tls_client_iv kb in let fivs := tls_server_iv kb in
       forall mhc rdc roc mhs rds ros l,
       length mhc = 128%nat -> rdc < 2 ^ 128 -> rdc <> 0 -> ole_rand_ok roc 1 ->
       length mhs = 128%nat -> rds < 2 ^ 128 -> rds <> 0 -> ole_rand_ok ros 1 -> Forall rcall_wf l ->
       exists c0 s0 c s,
         aead_new aes_ks_file aes_enc_file gfr (hs_cwk S) (hs_civ S) mhc rdc roc = Ok c0 /\
         aead_new aes_ks_file aes_enc_file gfr (hs_swk S) (hs_siv S) mhs rds ros = Ok s0 /\
         rcalls_run aes_enc_file gfr hash (c0, s0) l = Ok (c, s, map (rcall_spec Ec Es fivc fivs) l) /\
         forall Delta pub kc khc kz0c kzc khs kz0s kzs kHc kHs fc fs os,
           Delta <> 0 -> N.odd Delta = true -> pub true <> pub false -> N.lxor (pub true) (pub false) <> Delta ->
           (forall i j, N.odd (kc i j) = false) ->
           let csc := to_pcall false fc :: pops_c os in let css := to_pcall false fs :: pops_s os in
           map aop_call (flat_map on_c l) = map pcall_call csc -> map aop_call (flat_map on_s l) = map pcall_call css ->
           pcall_wf (to_pcall false fc) -> pcall_wf (to_pcall false fs) -> Forall pop_wf os ->
           rrec_bytes fc -> rrec_bytes fs -> Forall pop_bytes os ->
           keys_fit khc kz0c kzc csc -> keys_fit khs kz0s kzs css -> length kHc = 128%nat -> length kHs = 128%nat ->
           exists p outs, dpost_record aes_ks_file aes_enc_file Delta pub kc true S cz0 (zk_enter Delta khc kz0c kzc c) (zk_enter Delta khs kz0s kzs s)
               x rc rs tc ts sh kHc kHs fc fs os = Ok (p, outs) /\
             (forall h, cz_accept h (pr_t p) = true) /\
             forall mc msv msgs, opens Ec fivc fc mc -> opens Es fivs fs msv -> Forall2 (pop_opens Ec Es fivc fivs) os msgs ->
               finalize p fc fs os outs = Ok true /\ map snd outs = map str_to_int msgs).
Proof. exact digest_session. Qed.
Print Assumptions C94_session.
(** What acceptance proves, with no assumption that any comparison holds: equal digests mean a
    collision of the hash, or the Finished values opened in the session are the TLS verify data,
    the recorded shares are the right ones, and the verdict is true exactly when every record
    opens under the TLS keys of the joint secret.  This also holds for a prover that skips its
    own memcmp ([own] = false). *)
Theorem C94_proves : forall S pms rc rs tc ts sh a t zc zs khc khs K0c Kzc K0s Kzs Delta pub kc own kHc kHs fc fs os p outs h,
  let q := hs_q S in
  (0 <= a < q)%Z -> hs_zk_pms S = share_int q a -> (0 <= hs_bnb S < q)%Z ->
  zst S -> opt_bytes (hs_cufin S) -> opt_bytes (hs_sufin S) -> checks_hold S ->
  Forall byte8 rc -> Forall byte8 rs -> Forall byte8 tc -> Forall byte8 ts -> opt_wf sh ->
  Delta <> 0 -> N.odd Delta = true -> pub true <> pub false -> N.lxor (pub true) (pub false) <> Delta -> cz_a t = cz_b t ->
  Forall2 (carries Delta) (za_h zc) khc -> length khc = 128%nat -> length kHc = 128%nat ->
  Forall2 (carries Delta) (za_h zs) khs -> length khs = 128%nat -> length kHs = 128%nat ->
  let csc := to_pcall false fc :: pops_c os in let css := to_pcall false fs :: pops_s os in
  pcall_wf (to_pcall false fc) -> pcall_wf (to_pcall false fs) -> Forall pop_wf os ->
  rrec_bytes fc -> rrec_bytes fs -> Forall pop_bytes os ->
  queues_fit Delta zc K0c Kzc csc -> queues_fit Delta zs K0s Kzs css ->
  gsmall Delta pub kc -> Forall small kHc -> Forall small kHs -> zasmall zc -> zasmall zs -> rsmall fc -> rsmall fs -> Forall osmall os -> czsmall t ->
  dpost_record aes_ks_file aes_enc_file Delta pub kc own S t zc zs pms rc rs tc ts sh kHc kHs fc fs os = Ok (p, outs) ->
  let m := ms_spec (pms_of q a (hs_bnb S)) rc rs sh in
  let kb := key_block m rc rs in
  let Ec := aesE (tls_client_key kb) in let Es := aesE (tls_server_key kb) in
  let fivc := tls_client_iv kb in let fivs := tls_server_iv kb in
  cz_accept h (pr_t p) = true ->
  (exists x y : list N, x <> y /\ h x = h y) \/
  (hs_cufin S = Some (rev (client_verify_data m tc)) /\ hs_sufin S = Some (rev (server_verify_data m ts)) /\
   recorded Ec fivc khc zc K0c Kzc csc /\ recorded Es fivs khs zs K0s Kzs css /\
   exists b, finalize p fc fs os outs = Ok b /\
    (b = true <-> (exists m, opens Ec fivc fc m) /\ (exists m, opens Es fivs fs m) /\ exists msgs, Forall2 (pop_opens Ec Es fivc fivs) os msgs) /\
    forall msgs, Forall2 (pop_opens Ec Es fivc fivs) os msgs -> map snd outs = map str_to_int msgs).
Proof. exact digest_proves. Qed.
Print Assumptions C94_proves.

(** concrete comparisons: equal words pass; a wrong fifth word escapes the prover's memcmp,
    which looks at eight bytes, but separates the transcripts; a wrong first word stops an honest
    prover and separates the transcripts of one that goes on *)
Definition ex94_pub (b : bool) : N := if b then 2 ^ 100 else 2 ^ 90.
Definition ex94_kc (i j : nat) : N := N.of_nat (2 * (i + 7 * j)).
Definition ex94_w (a b : N) : Integer := int_of_array 256 32 [a; 2; 3; 4; b; 6; 7; 8].
Definition ex94_put (own : bool) (c : Integer * Integer) : res bool :=
  bind (cmp_puts (2 ^ 127 + 1) ex94_pub ex94_kc own cz0 4 0 [(ex94_w 1 5, ex94_w 1 5); c]) (fun t => Ok (cz_accept (fun x => x) t)).
Example C94_ex :
  ex94_put true (ex94_w 1 5, ex94_w 1 5) = Ok true /\ ex94_put true (ex94_w 1 5, ex94_w 1 9) = Ok false /\
  ex94_put true (ex94_w 1 5, ex94_w 9 5) = Err /\ ex94_put false (ex94_w 1 5, ex94_w 9 5) = Ok false.
Proof. vm_compute. auto. Qed.
(** the hypotheses of C94_session and C94_proves are met in the honest runs of C68, whose
    example gives the records; keys as here are below 2^128 and even *)
Example C94_ex_keys : gsmall (2 ^ 127 + 1) ex94_pub (fun i j => N.of_nat (2 * (i mod 5 + j mod 7))) /\
  (forall i j, N.odd (ex94_kc i j) = false) /\ ex94_pub true <> ex94_pub false /\ N.lxor (ex94_pub true) (ex94_pub false) <> 2 ^ 127 + 1.
Proof.
  split; [|split; [|split; discriminate]].
  - split; [split; [reflexivity|intros []; reflexivity]|]. intros i j. unfold small.
    assert (A : (i mod 5 < 5)%nat) by (apply Nat.mod_upper_bound; discriminate).
    assert (B : (j mod 7 < 7)%nat) by (apply Nat.mod_upper_bound; discriminate).
    apply N.lt_trans with 100; [lia|reflexivity].
  - intros i j. unfold ex94_kc. rewrite Nat2N.inj_mul. change (N.of_nat 2) with 2. rewrite N.odd_mul. reflexivity.
Qed.
