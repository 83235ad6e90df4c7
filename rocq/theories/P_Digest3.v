(** Acceptance of a whole session by the one digest comparison. *)
From Coq Require Import List NArith ZArith Bool Arith Lia Znumtheory.
From Verif Require Import L_Bits L_Res L_Group S_Ec M_EmpInteger M_Utils M_Bn M_Ole M_E2f M_Ec M_Bristol M_Block M_Shares M_Aead M_ItMac M_AeadProof M_Handshake M_Session M_Digest.
From Verif Require Import S_Hmac S_Codec S_Aes S_Gcm S_Tls D_AesKs D_AesEnc P_Gf128 P_Utils P_AesNet P_Shares P_Gcm P_Aead P_AeadInst P_ItMac P_AeadProof P_AeadProof2.
From Verif Require Import P_Dh P_Handshake P_HandshakeZk P_Session P_Session2 P_Session3 P_Digest P_Digest2.
Import ListNotations.
Local Open Scope N_scope.
Local Opaque computeKS computeAES_KS key_expansion cipher aes128 aesE aes_ks_file aes_enc_file str_to_int ks_layout
  gf_mul mulBlock encrypt decrypt decrypt_shares aead_new gctr step1_hs handshake_check prove_aead prove_aead_last
  prf_bytes key_block gcm_tag gcm_ctext session prove_handshake ms_spec e2f_offline e2f_online post_record dpost_record rcalls_run finalize
  client_verify_data server_verify_data cz_accept.

Lemma accept_sync h t : sync t -> cz_accept h t = true.
Proof.
  Local Transparent cz_accept. unfold sync, cz_accept. intros ->. now apply bytes_eqb_spec. Local Opaque cz_accept.
Qed.
Lemma held_fresh s p : checks_hold (pr_hs p) -> Forall (fun c => fst c = snd c) (fresh s p).
Proof.
  unfold checks_hold, fresh. intro H. rewrite <- (firstn_skipn (length (hs_zk s)) (hs_zk (pr_hs p))) in H.
  now apply Forall_app in H.
Qed.

Theorem digest_proves S pms rc rs tc ts sh a t zc zs khc khs K0c Kzc K0s Kzs Delta pub kc own kHc kHs fc fs os p outs h :
  let q := hs_q S in
  (0 <= a < q)%Z -> hs_zk_pms S = share_int q a -> (0 <= hs_bnb S < q)%Z ->
  zst S -> opt_bytes (hs_cufin S) -> opt_bytes (hs_sufin S) -> checks_hold S ->
  Forall byte8 rc -> Forall byte8 rs -> Forall byte8 tc -> Forall byte8 ts -> opt_wf sh ->
  Delta <> 0 -> N.odd Delta = true -> pub true <> pub false -> N.lxor (pub true) (pub false) <> Delta -> cz_a t = cz_b t ->
  Forall2 (carries Delta) (za_h zc) khc -> length khc = 128%nat -> length kHc = 128%nat ->
  Forall2 (carries Delta) (za_h zs) khs -> length khs = 128%nat -> length kHs = 128%nat ->
  let csc := to_pcall false fc :: pops_c os in let css := to_pcall false fs :: pops_s os in
  pcall_wf (to_pcall false fc) -> pcall_wf (to_pcall false fs) -> Forall pop_wf os ->
  rrec_bytes fc -> rrec_bytes fs -> Forall pop_bytes os ->
  queues_fit Delta zc K0c Kzc csc -> queues_fit Delta zs K0s Kzs css ->
  gsmall Delta pub kc -> Forall small kHc -> Forall small kHs -> zasmall zc -> zasmall zs -> rsmall fc -> rsmall fs -> Forall osmall os -> czsmall t ->
  dpost_record aes_ks_file aes_enc_file Delta pub kc own S t zc zs pms rc rs tc ts sh kHc kHs fc fs os = Ok (p, outs) ->
  let m := ms_spec (pms_of q a (hs_bnb S)) rc rs sh in
  let kb := key_block m rc rs in
  let Ec := aesE (tls_client_key kb) in let Es := aesE (tls_server_key kb) in
  let fivc := tls_client_iv kb in let fivs := tls_server_iv kb in
  cz_accept h (pr_t p) = true ->
  (exists x y : list N, x <> y /\ h x = h y) \/
  (hs_cufin S = Some (rev (client_verify_data m tc)) /\ hs_sufin S = Some (rev (server_verify_data m ts)) /\
   recorded Ec fivc khc zc K0c Kzc csc /\ recorded Es fivs khs zs K0s Kzs css /\
   exists b, finalize p fc fs os outs = Ok b /\
    (b = true <-> (exists m, opens Ec fivc fc m) /\ (exists m, opens Es fivs fs m) /\ exists msgs, Forall2 (pop_opens Ec Es fivc fivs) os msgs) /\
    forall msgs, Forall2 (pop_opens Ec Es fivc fivs) os msgs -> map snd outs = map str_to_int msgs).
Proof.
  intros q Ha Hz Hb Z HC HS CS Hrc Hrs Htc Hts Hsh D0 DO P1 P2 ST Cc Lc1 Lc2 Cs Ls1 Ls2 csc css Wc Ws W Bc Bs B Qc Qs
    G K1 K2 Zc Zs R1 R2 R3 St R m kb Ec Es fivc fivs AC.
  destruct (one_digest aes_ks_file aes_enc_file Delta pub kc own D0 P1 P2 _ _ _ _ _ _ _ _ _ _ _ _ _ _ _ _ _ R) as (p0 & X1 & X2 & X3 & X4 & X5).
  pose proof (X5 G K1 K2 Zc Zs R1 R2 R3 St) as [SA SB].
  destruct (accept_iff h (pr_t p) SA SB) as [_ X6]. destruct (X6 AC) as [SY|COL]; [right|left; exact COL].
  apply (X4 ST) in SY as [F S0].
  assert (EH : pr_hs p = pr_hs p0) by (rewrite X2; reflexivity).
  assert (CK : checks_hold (pr_hs p0)).
  { unfold checks_hold. rewrite <- EH, X3. apply Forall_app. split; [exact CS|exact F]. }
  destruct (post_hs _ _ _ _ _ _ _ _ _ _ _ _ _ _ _ _ _ _ _ _ _ X1) as (s1 & ms & k & E1 & E2 & E3).
  destruct (prove_handshake_sound S pms rc rs tc ts sh (pr_hs p0) ms k a Ha Hz Hb Z HC HS Hrc Hrs Htc Hts Hsh E3 CK) as (_ & _ & V1 & V2).
  pose proof (session_proves S pms rc rs tc ts sh a t zc zs khc khs K0c Kzc K0s Kzs Delta pub kHc kHs fc fs os p0 outs
    Ha Hz Hb Z HC HS Hrc Hrs Htc Hts Hsh D0 DO P1 P2 ST Cc Lc1 Lc2 Cs Ls1 Ls2 Wc Ws W Bc Bs B Qc Qs X1 CK) as [Y1 Y2].
  apply Y1 in S0 as [S1 S2].
  split; [exact V1|]. split; [exact V2|]. split; [exact S1|]. split; [exact S2|].
  destruct Y2 as (b & Y2 & Y3). exists b. split; [|exact Y3]. rewrite X2. rewrite finalize_set_t. exact Y2.
Qed.

Theorem digest_session (C : Curve) ccrh bl ra rb Delta0 raw ta tb s rounds rc rs sh tc ts xa ya xb yb gfr hash :
  annihilates C -> prime (cp C) -> (cp C < 2 ^ Z.of_nat bl)%Z -> (order C <= 256 ^ Z.of_nat bn_buf)%Z ->
  length raw = 5%nat -> Forall (fun r => length r = bl) raw -> (0 <= ta < order C)%Z ->
  Forall byte8 rc -> Forall byte8 rs -> opt_wf sh -> Forall byte8 tc -> Forall byte8 ts ->
  let Ts := smul s (@gen C) in
  smul ta (@gen C) <> pz ->
  coords (smul tb Ts) = Some (xa, ya) -> coords (smul ta Ts) = Some (xb, yb) -> xa <> xb -> gfr_ok gfr ->
  exists Tc Va Vb Ta sa sb, dh_exchange ta tb Ts = Ok (Tc, Va, Vb, Ta) /\
    e2f_offline ccrh (cp C) bl ra rb Delta0 raw = Ok (sa, sb) /\
    (((e_a sa + e_a sb) mod cp C <> 0)%Z ->
     exists x y pa pb S,
       coords (smul s Tc) = Some (x, y) /\
       e2f_online (cp C) sa sb (fst (affine Vb)) (snd (affine Vb)) (fst (affine Va)) (snd (affine Va)) = Ok (pa, pb) /\
       session (cp C) rounds pa pb rc rs sh (fins tc ts) = Ok S /\ dh_reveal ta tb Ts Ta = Ok x /\
       let kb := key_block (ms_spec (premaster (BN_num_bytes (cp C)) (Z.to_N x)) rc rs sh) rc rs in
       let Ec := aesE (tls_client_key kb) in let Es := aesE (tls_server_key kb) in
       let fivc := tls_client_iv kb in let fivs := tls_server_iv kb in
       forall mhc rdc roc mhs rds ros l,
       length mhc = 128%nat -> rdc < 2 ^ 128 -> rdc <> 0 -> ole_rand_ok roc 1 ->
       length mhs = 128%nat -> rds < 2 ^ 128 -> rds <> 0 -> ole_rand_ok ros 1 -> Forall rcall_wf l ->
       exists c0 s0 c s,
         aead_new aes_ks_file aes_enc_file gfr (hs_cwk S) (hs_civ S) mhc rdc roc = Ok c0 /\
         aead_new aes_ks_file aes_enc_file gfr (hs_swk S) (hs_siv S) mhs rds ros = Ok s0 /\
         rcalls_run aes_enc_file gfr hash (c0, s0) l = Ok (c, s, map (rcall_spec Ec Es fivc fivs) l) /\
         forall Delta pub kc khc kz0c kzc khs kz0s kzs kHc kHs fc fs os,
           Delta <> 0 -> N.odd Delta = true -> pub true <> pub false -> N.lxor (pub true) (pub false) <> Delta ->
           (forall i j, N.odd (kc i j) = false) ->
           let csc := to_pcall false fc :: pops_c os in let css := to_pcall false fs :: pops_s os in
           map aop_call (flat_map on_c l) = map pcall_call csc -> map aop_call (flat_map on_s l) = map pcall_call css ->
           pcall_wf (to_pcall false fc) -> pcall_wf (to_pcall false fs) -> Forall pop_wf os ->
           rrec_bytes fc -> rrec_bytes fs -> Forall pop_bytes os ->
           keys_fit khc kz0c kzc csc -> keys_fit khs kz0s kzs css -> length kHc = 128%nat -> length kHs = 128%nat ->
           exists p outs, dpost_record aes_ks_file aes_enc_file Delta pub kc true S cz0 (zk_enter Delta khc kz0c kzc c) (zk_enter Delta khs kz0s kzs s)
               x rc rs tc ts sh kHc kHs fc fs os = Ok (p, outs) /\
             (forall h, cz_accept h (pr_t p) = true) /\
             forall mc msv msgs, opens Ec fivc fc mc -> opens Es fivs fs msv -> Forall2 (pop_opens Ec Es fivc fivs) os msgs ->
               finalize p fc fs os outs = Ok true /\ map snd outs = map str_to_int msgs).
Proof.
  intros A P Bl OB L F Rta Brc Brs Bsh Btc Bts Ts NTa Ca Cb Nx GF.
  destruct (whole_session C ccrh bl ra rb Delta0 raw ta tb s rounds rc rs sh tc ts xa ya xb yb gfr hash A P Bl OB L F Rta Brc Brs Bsh Btc Bts NTa Ca Cb Nx GF)
    as (Tc & Va & Vb & Ta & sa & sb & X1 & X2 & X3).
  exists Tc, Va, Vb, Ta, sa, sb. split; [exact X1|]. split; [exact X2|]. intro Nz.
  destruct (X3 Nz) as (x & y & pa & pb & S & Y1 & Y2 & Y3 & Y4 & Y5). clear X3.
  exists x, y, pa, pb, S. split; [exact Y1|]. split; [exact Y2|]. split; [exact Y3|]. split; [exact Y4|].
  intros kb Ec Es fivc fivs mhc rdc roc mhs rds ros l M1 M2 M3 M4 N1 N2 N3 N4 WL.
  destruct (Y5 mhc rdc roc mhs rds ros l M1 M2 M3 M4 N1 N2 N3 N4 WL) as (c0 & s0 & c & s' & Z1 & Z2 & Z3 & Z4).
  exists c0, s0, c, s'. split; [exact Z1|]. split; [exact Z2|]. split; [exact Z3|].
  intros Delta pub kc khc kz0c kzc khs kz0s kzs kHc kHs fc fs os H1 H2 H3 H4 HK csc css H5 H6 H7 H8 H9 H10 H11 H12 H13 H14 H15 H16.
  destruct (Z4 Delta pub khc kz0c kzc khs kz0s kzs kHc kHs fc fs os H1 H2 H3 H4 H5 H6 H7 H8 H9 H10 H11 H12 H13 H14 H15 H16)
    as (p0 & outs & W1 & W2 & W3 & _ & _ & W6).
  destruct (one_digest_honest aes_ks_file aes_enc_file Delta pub kc true H1 H3 H4 _ _ _ _ _ _ _ _ _ _ _ _ _ _ _ p0 outs
    (fun _ => conj H2 HK) W1 (held_fresh S p0 W2)) as (p & V1 & V2).
  destruct (one_digest aes_ks_file aes_enc_file Delta pub kc true H1 H3 H4 _ _ _ _ _ _ _ _ _ _ _ _ _ _ _ _ _ V1) as (p1 & U1 & U2 & U3 & U4 & _).
  assert (E : p1 = p0).
  { assert (PJ : forall u v : prd * list (Integer * Integer), Ok u = Ok v -> u = v) by (intros u v Y; now injection Y).
    rewrite W1 in U1. apply PJ in U1. symmetry. exact (f_equal fst U1). }
  subst p1. exists p, outs. split; [exact V1|]. split.
  - intro h. apply accept_sync. apply U4; [reflexivity|]. split; [|exact W3].
    apply held_fresh. rewrite V2. exact W2.
  - intros mc msv msgs O1 O2 O3. destruct (W6 mc msv msgs O1 O2 O3) as [T1 T2]. split; [|exact T2].
    rewrite V2. rewrite finalize_set_t. exact T1.
Qed.
