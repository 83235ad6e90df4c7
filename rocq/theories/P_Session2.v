(** A whole session on the shipped circuits: record phase, proof phase, tag check. *)
From Coq Require Import List NArith ZArith Bool Arith Lia.
From Verif Require Import L_Bits L_Res L_Xor M_EmpInteger M_Utils M_Bristol M_Block M_Shares M_Aead M_ItMac M_AeadProof M_Handshake M_Session.
From Verif Require Import S_Hmac S_Codec S_Aes S_Gcm S_Tls D_AesKs D_AesEnc P_Gf128 P_Utils P_AesNet P_Shares P_Gcm P_Aead P_AeadInst P_ItMac P_AeadProof P_AeadProof2.
From Verif Require Import P_Handshake P_HandshakeZk P_Session.
Import ListNotations.
Local Open Scope N_scope.
Local Opaque computeKS computeAES_KS key_expansion cipher aes128 aesE aes_ks_file aes_enc_file str_to_int ks_layout
  gf_mul mulBlock encrypt decrypt decrypt_shares aead_new gctr step1_hs handshake_check prove_aead prove_aead_last
  prf_bytes key_block gcm_tag gcm_ctext.

Definition key_ok (k : list N) : Prop := length k = 16%nat /\ bytes_ok k.
Definition iv_ok (v : list N) : Prop := length v = 4%nat /\ bytes_ok v.

(** the verdict of finalize_check on what the proof phase handed out *)
Lemma finalize_iff kc ksv fivc fivs p fc fs os : key_ok kc -> key_ok ksv -> rrec_bytes fc -> rrec_bytes fs -> Forall pop_bytes os ->
  pf_H (pr_pc p) = bits_of_N 128 (aesE kc 0) -> pf_H (pr_ps p) = bits_of_N 128 (aesE ksv 0) ->
  pr_cz0 p = fst (rec_out (aesE kc) fivc fc) -> pr_sz0 p = fst (rec_out (aesE ksv) fivs fs) ->
  exists b, finalize p fc fs os (map (pop_out (aesE kc) (aesE ksv) fivc fivs) os) = Ok b /\
    (b = true <-> tag_ok (aesE kc) fivc fc /\ tag_ok (aesE ksv) fivs fs /\ Forall (pop_tag_ok (aesE kc) (aesE ksv) fivc fivs) os).
Proof.
  intros [K1 K2] [K3 K4] B1 B2 B3 H1 H2 H3 H4. destruct (encp_bytes os B3) as [B4 B5].
  unfold finalize. rewrite H1, H2, H3, H4, encs_encp, decs_decp, enc_z0s_encp, dec_z0s_decp. unfold rec_out. cbn [fst].
  destruct (finalize_session kc ksv fivc fivs (to_frec fc) (to_frec fs) (rr_iv fc) (rr_iv fs) (encp os) (decp os) K1 K2 K3 K4 B1 B2 B4 B5)
    as (b & X & Y).
  exists b. split; [exact X|]. rewrite Y, tags_split. unfold tag_ok. cbn [to_frec fr_tag fr_aad fr_ctxt]. tauto.
Qed.

(** ** Honest session *)
Theorem session_honest gfr hash : gfr_ok gfr ->
  forall S x rc rs tc ts sh S' ms kc ksv fivc fivs, key_ok kc -> key_ok ksv -> iv_ok fivc -> iv_ok fivs ->
  prove_handshake S x rc rs tc ts sh = Ok (S', ms, (str_to_int kc, str_to_int ksv, str_to_int fivc, str_to_int fivs)) -> checks_hold S' ->
  forall mhc rdc roc mhs rds ros l,
  length mhc = 128%nat -> rdc < 2 ^ 128 -> rdc <> 0 -> ole_rand_ok roc 1 ->
  length mhs = 128%nat -> rds < 2 ^ 128 -> rds <> 0 -> ole_rand_ok ros 1 ->
  Forall rcall_wf l ->
  exists c0 s0 c s,
    aead_new aes_ks_file aes_enc_file gfr (str_to_int kc) (str_to_int fivc) mhc rdc roc = Ok c0 /\
    aead_new aes_ks_file aes_enc_file gfr (str_to_int ksv) (str_to_int fivs) mhs rds ros = Ok s0 /\
    rcalls_run aes_enc_file gfr hash (c0, s0) l = Ok (c, s, map (rcall_spec (aesE kc) (aesE ksv) fivc fivs) l) /\
    forall Delta pub khc kz0c kzc khs kz0s kzs kHc kHs fc fs os,
      Delta <> 0 -> N.odd Delta = true -> pub true <> pub false -> N.lxor (pub true) (pub false) <> Delta ->
      let csc := to_pcall false fc :: pops_c os in let css := to_pcall false fs :: pops_s os in
      map aop_call (flat_map on_c l) = map pcall_call csc -> map aop_call (flat_map on_s l) = map pcall_call css ->
      pcall_wf (to_pcall false fc) -> pcall_wf (to_pcall false fs) -> Forall pop_wf os ->
      rrec_bytes fc -> rrec_bytes fs -> Forall pop_bytes os ->
      keys_fit khc kz0c kzc csc -> keys_fit khs kz0s kzs css -> length kHc = 128%nat -> length kHs = 128%nat ->
      exists p, post_record aes_ks_file aes_enc_file Delta pub S cz0 (zk_enter Delta khc kz0c kzc c) (zk_enter Delta khs kz0s kzs s)
          x rc rs tc ts sh kHc kHs fc fs os = Ok (p, map (pop_out (aesE kc) (aesE ksv) fivc fivs) os) /\
        checks_hold (pr_hs p) /\ cz_a (pr_t p) = cz_b (pr_t p) /\ queues_empty (pr_zc p) /\ queues_empty (pr_zs p) /\
        exists b, finalize p fc fs os (map (pop_out (aesE kc) (aesE ksv) fivc fivs) os) = Ok b /\
          (b = true <-> tag_ok (aesE kc) fivc fc /\ tag_ok (aesE ksv) fivs fs /\ Forall (pop_tag_ok (aesE kc) (aesE ksv) fivc fivs) os).
Proof.
  intros G S x rc rs tc ts sh S' ms kc ksv fivc fivs KC KS [Ic1 Ic2] [Is1 Is2] PH CK mhc rdc roc mhs rds ros l M1 M2 M3 M4 N1 N2 N3 N4 WL.
  assert (FIN := fun p fc fs os => finalize_iff kc ksv fivc fivs p fc fs os KC KS).
  destruct KC as [K1 K2]. destruct KS as [K3 K4].
  pose proof (files_cipher_ok kc K1 K2) as CIPc. pose proof (files_ks kc K1 K2) as KSc.
  pose proof (files_cipher_ok ksv K3 K4) as CIPs. pose proof (files_ks ksv K3 K4) as KSs.
  revert CIPc KSc CIPs KSs FIN. generalize (EK kc), (aesE kc), (EK ksv), (aesE ksv). intros ekc Ec eks Es CIPc KSc CIPs KSs FIN.
  destruct (aead_new_ok aes_ks_file aes_enc_file gfr G ekc Ec CIPc fivc (str_to_int kc) mhc rdc roc KSc M1 M2 M3 M4) as (c0 & C0 & IC0).
  destruct (aead_new_ok aes_ks_file aes_enc_file gfr G eks Es CIPs fivs (str_to_int ksv) mhs rds ros KSs N1 N2 N3 N4) as (s0 & S0 & IS0).
  destruct (rcalls_ok aes_enc_file gfr hash G ekc eks Ec Es CIPc CIPs fivc fivs Ic1 Ic2 Is1 Is2 l [] [] c0 s0 IC0 IS0 WL)
    as (c & s & R & IC & IS). cbn [app] in IC, IS.
  exists c0, s0, c, s. split; [exact C0|]. split; [exact S0|]. split; [exact R|].
  intros Delta pub khc kz0c kzc khs kz0s kzs kHc kHs fc fs os D0 DO P1 P2 csc css HMc HMs Wc Ws W Bc Bs B KFc KFs LHc LHs.
  rewrite HMc in IC. rewrite HMs in IS.
  destruct (honest_fits ekc Ec fivc Delta c csc khc kz0c kzc IC KFc) as [QFc SGc].
  destruct (honest_fits eks Es fivs Delta s css khs kz0s kzs IS KFs) as [QFs SGs].
  rewrite prove_handshake_split in PH.
  destruct (step1_hs S x rc rs tc ts sh) as [[[s1 ms1] k]| |] eqn:E1; cbn [bind] in PH; try discriminate PH.
  destruct (handshake_check s1) as [s2| |] eqn:E2; cbn [bind] in PH; try discriminate PH.
  assert (PI : forall u v : hs * Integer * (Integer * Integer * Integer * Integer), Ok u = Ok v -> u = v) by (intros u v Y; now injection Y).
  apply PI in PH. assert (Y1 : s2 = S') by exact (f_equal (fun u => fst (fst u)) PH).
  assert (Y2 : k = (str_to_int kc, str_to_int ksv, str_to_int fivc, str_to_int fivs)) by exact (f_equal snd PH).
  subst s2 k. clear PH PI.
  assert (LKc : length (k_h (st_zk c)) = 128%nat) by (rewrite (i_zk_h _ _ _ _ _ IC); apply bits_of_N_length).
  assert (LKs : length (k_h (st_zk s)) = 128%nat) by (rewrite (i_zk_h _ _ _ _ _ IS); apply bits_of_N_length).
  pose proof (post_iff aes_ks_file aes_enc_file ekc eks Ec Es CIPc CIPs fivc fivs Ic1 Ic2 Is1 Is2 Delta D0 DO pub P1 P2 S cz0
    (zk_enter Delta khc kz0c kzc c) (zk_enter Delta khs kz0s kzs s) x rc rs tc ts sh kHc kHs fc fs os s1 ms1 (str_to_int kc) (str_to_int ksv)
    (k_h (st_zk c)) (k_h (st_zk s)) (k_z0 (st_zk c)) (k_z (st_zk c)) (k_z0 (st_zk s)) (k_z (st_zk s)) E1 KSc KSs eq_refl) as PI.
  cbv zeta in PI. rewrite E2 in PI.
  assert (Gd : recorded Ec fivc (k_h (st_zk c)) (zk_enter Delta khc kz0c kzc c) (k_z0 (st_zk c)) (k_z (st_zk c)) csc /\
    recorded Es fivs (k_h (st_zk s)) (zk_enter Delta khs kz0s kzs s) (k_z0 (st_zk s)) (k_z (st_zk s)) css).
  { split; (split; [|assumption]).
    - rewrite (i_zk_h _ _ _ _ _ IC). cbn [zk_enter za_b]. rewrite <- (i_h _ _ _ _ _ IC). apply bits_of_N_lxor.
    - rewrite (i_zk_h _ _ _ _ _ IS). cbn [zk_enter za_b]. rewrite <- (i_h _ _ _ _ _ IS). apply bits_of_N_lxor. }
  destruct PI as [[_ X]|(p & X1 & X2 & X3 & X4 & X5 & X6 & X7 & X8 & X9)]; auto.
  { apply zauth_carries. rewrite LKc. apply KFc. } { apply zauth_carries. rewrite LKs. apply KFs. }
  { contradiction. }
  exists p. split; [exact X1|]. split; [rewrite X2; exact CK|]. split; [now apply X9|]. split; [exact X7|]. split; [exact X8|].
  apply FIN; assumption.
Qed.

(** ** Soundness of the proof phase *)
Lemma slice_key off n kb : length kb = 40%nat -> (off + n <= 40)%nat -> length (slice off n kb) = n.
Proof. intros H L. unfold slice. rewrite firstn_length, skipn_length, H. lia. Qed.
Lemma slice_bytes off n kb : Forall byte8 kb -> bytes_ok (slice off n kb).
Proof. intros F. unfold slice, bytes_ok. apply Forall_firstn'. rewrite Forall_forall in *. intros x H. apply F. rewrite <- (firstn_skipn off kb). apply in_or_app. now right. Qed.
Lemma key_block_shape m rc rs : length (key_block m rc rs) = 40%nat /\ Forall byte8 (key_block m rc rs).
Proof. Local Transparent key_block. unfold key_block. Local Opaque key_block. split; [apply prf_bytes_length|apply prf_bytes_byte]. Qed.
Lemma tls_keys_ok m rc rs : let kb := key_block m rc rs in
  key_ok (tls_client_key kb) /\ key_ok (tls_server_key kb) /\ iv_ok (tls_client_iv kb) /\ iv_ok (tls_server_iv kb).
Proof.
  intro kb. destruct (key_block_shape m rc rs) as [L B]. fold kb in L, B.
  repeat split; try (apply slice_key; [exact L|lia]); now apply slice_bytes.
Qed.

Theorem session_sound S pms rc rs tc ts sh a t zc zs khc khs K0c Kzc K0s Kzs Delta pub kHc kHs fc fs os p outs : let q := hs_q S in
  (0 <= a < q)%Z -> hs_zk_pms S = share_int q a -> (0 <= hs_bnb S < q)%Z ->
  zst S -> opt_bytes (hs_cufin S) -> opt_bytes (hs_sufin S) ->
  Forall byte8 rc -> Forall byte8 rs -> Forall byte8 tc -> Forall byte8 ts -> opt_wf sh ->
  Delta <> 0 -> N.odd Delta = true -> pub true <> pub false -> N.lxor (pub true) (pub false) <> Delta -> cz_a t = cz_b t ->
  Forall2 (carries Delta) (za_h zc) khc -> length khc = 128%nat -> length kHc = 128%nat ->
  Forall2 (carries Delta) (za_h zs) khs -> length khs = 128%nat -> length kHs = 128%nat ->
  let csc := to_pcall false fc :: pops_c os in let css := to_pcall false fs :: pops_s os in
  pcall_wf (to_pcall false fc) -> pcall_wf (to_pcall false fs) -> Forall pop_wf os ->
  rrec_bytes fc -> rrec_bytes fs -> Forall pop_bytes os ->
  queues_fit Delta zc K0c Kzc csc -> queues_fit Delta zs K0s Kzs css ->
  post_record aes_ks_file aes_enc_file Delta pub S t zc zs pms rc rs tc ts sh kHc kHs fc fs os = Ok (p, outs) ->
  checks_hold (pr_hs p) ->
  let kb := key_block (ms_spec (pms_of q a (hs_bnb S)) rc rs sh) rc rs in
  let Ec := aesE (tls_client_key kb) in let Es := aesE (tls_server_key kb) in
  let fivc := tls_client_iv kb in let fivs := tls_server_iv kb in
  outs = map (pop_out Ec Es fivc fivs) os /\
  (cz_a (pr_t p) = cz_b (pr_t p) <-> recorded Ec fivc khc zc K0c Kzc csc /\ recorded Es fivs khs zs K0s Kzs css) /\
  exists b, finalize p fc fs os outs = Ok b /\
    (b = true <-> tag_ok Ec fivc fc /\ tag_ok Es fivs fs /\ Forall (pop_tag_ok Ec Es fivc fivs) os).
Proof.
  intros q Ha Hz Hb Z HC HS Hrc Hrs Htc Hts Hsh D0 DO P1 P2 ST Cc Lc1 Lc2 Cs Ls1 Ls2 csc css Wc Ws W Bc Bs B Qc Qs R CK kb.
  destruct (post_hs _ _ _ _ _ _ _ _ _ _ _ _ _ _ _ _ _ _ _ _ _ R) as (s1 & ms & k & E1 & E2 & E3).
  destruct (prove_handshake_sound S pms rc rs tc ts sh (pr_hs p) ms k a Ha Hz Hb Z HC HS Hrc Hrs Htc Hts Hsh E3 CK) as (_ & Hk & _).
  fold q in Hk. fold kb in Hk. clear E3.
  destruct (tls_keys_ok (ms_spec (pms_of q a (hs_bnb S)) rc rs sh) rc rs) as (KC & KS & [Ic1 Ic2] & [Is1 Is2]).
  fold kb in KC, KS, Ic1, Ic2, Is1, Is2.
  revert Hk KC KS Ic1 Ic2 Is1 Is2. generalize (tls_client_key kb), (tls_server_key kb), (tls_client_iv kb), (tls_server_iv kb).
  clear kb. intros kc ksv fivc fivs Hk KC KS Ic1 Ic2 Is1 Is2. cbv zeta. subst k.
  assert (FIN := fun p fc fs os => finalize_iff kc ksv fivc fivs p fc fs os KC KS).
  destruct KC as [K1 K2]. destruct KS as [K3 K4].
  pose proof (files_cipher_ok kc K1 K2) as CIPc. pose proof (files_ks kc K1 K2) as KSc.
  pose proof (files_cipher_ok ksv K3 K4) as CIPs. pose proof (files_ks ksv K3 K4) as KSs.
  revert CIPc KSc CIPs KSs FIN. generalize (EK kc), (aesE kc), (EK ksv), (aesE ksv). intros ekc Ec eks Es CIPc KSc CIPs KSs FIN.
  pose proof (post_iff aes_ks_file aes_enc_file ekc eks Ec Es CIPc CIPs fivc fivs Ic1 Ic2 Is1 Is2 Delta D0 DO pub P1 P2 S t
    zc zs pms rc rs tc ts sh kHc kHs fc fs os s1 ms (str_to_int kc) (str_to_int ksv)
    khc khs K0c Kzc K0s Kzs E1 KSc KSs ST Cc Lc1 Lc2 Cs Ls1 Ls2 Wc Ws W Qc Qs) as PI.
  cbv zeta in PI. rewrite E2 in PI. rewrite R in PI.
  destruct PI as [[X _]|(p' & X1 & X2 & X3 & X4 & X5 & X6 & X7 & X8 & X9)]; [discriminate X|].
  assert (PJ : forall u v : prd * list (Integer * Integer), Ok u = Ok v -> u = v) by (intros u v Y; now injection Y).
  apply PJ in X1. assert (Y1 : p = p') by exact (f_equal fst X1). assert (Y2 : outs = map (pop_out Ec Es fivc fivs) os) by exact (f_equal snd X1).
  subst p' outs. split; [reflexivity|]. split; [exact X9|]. apply FIN; assumption.
Qed.
