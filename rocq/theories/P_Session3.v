(** Whole sessions, from the key agreement to the tag check. *)
From Coq Require Import List NArith ZArith Bool Arith Lia Znumtheory.
From Verif Require Import L_Bits L_Res L_Group S_Ec M_EmpInteger M_Utils M_Bn M_Ole M_E2f M_Ec M_Bristol M_Block M_Shares M_Aead M_ItMac M_AeadProof M_Handshake M_Session.
From Verif Require Import S_Hmac S_Codec S_Aes S_Gcm S_Tls D_AesKs D_AesEnc P_Gf128 P_Utils P_AesNet P_Shares P_Gcm P_Aead P_AeadInst P_ItMac P_AeadProof P_AeadProof2.
From Verif Require Import P_Dh P_Handshake P_HandshakeZk P_FullHs P_Session P_Session2.
Import ListNotations.
Local Open Scope N_scope.
Local Opaque computeKS computeAES_KS key_expansion cipher aes128 aesE aes_ks_file aes_enc_file str_to_int ks_layout
  gf_mul mulBlock encrypt decrypt decrypt_shares aead_new gctr step1_hs handshake_check prove_aead prove_aead_last
  prf_bytes key_block gcm_tag gcm_ctext session prove_handshake ms_spec e2f_offline e2f_online post_record rcalls_run finalize.

(** authenticated decryption of a record under the key of its direction *)
Definition opens (E : N -> N) (fiv : list N) (r : rrec) (m : list N) : Prop :=
  gcm_ad E (fiv ++ rr_iv r) (rr_ctxt r) (rr_aad r) (rr_tag r) = Some m.
Definition pop_opens (Ec Es : N -> N) (fivc fivs : list N) (o : pop) (m : list N) : Prop :=
  match o with PClient r => opens Ec fivc r m | PServer r | PLast r => opens Es fivs r m end.
Lemma opens_tag E fiv r m : opens E fiv r m -> tag_ok E fiv r /\ gcm_ctext E (fiv ++ rr_iv r) (rr_ctxt r) = m.
Proof. unfold opens, gcm_ad, tag_ok. destruct (list_eq_dec _ _ _); [|discriminate]. intro H. injection H as H. auto. Qed.
Lemma tag_opens E fiv r : tag_ok E fiv r -> opens E fiv r (gcm_ctext E (fiv ++ rr_iv r) (rr_ctxt r)).
Proof. unfold opens, gcm_ad, tag_ok. intro H. destruct (list_eq_dec _ _ _); [reflexivity|contradiction]. Qed.
Lemma pops_open Ec Es fivc fivs : forall os msgs, Forall2 (pop_opens Ec Es fivc fivs) os msgs ->
  Forall (pop_tag_ok Ec Es fivc fivs) os /\ map snd (map (pop_out Ec Es fivc fivs) os) = map str_to_int msgs.
Proof.
  induction 1 as [|o m os msgs H F [I1 I2]]; [split; [constructor|reflexivity]|]. cbn [map]. rewrite I2.
  destruct o as [r|r|r]; cbn [pop_opens] in H; apply opens_tag in H as [H1 H2]; (split; [constructor; [exact H1|exact I1]|]);
    cbn [pop_out rec_out snd]; now rewrite H2.
Qed.
Lemma pops_open' Ec Es fivc fivs : forall os, Forall (pop_tag_ok Ec Es fivc fivs) os ->
  exists msgs, Forall2 (pop_opens Ec Es fivc fivs) os msgs.
Proof.
  induction 1 as [|o os H F [msgs I]]; [exists []; constructor|].
  destruct o as [r|r|r]; cbn [pop_tag_ok] in H; apply tag_opens in H; eexists (_ :: msgs); constructor; eauto.
Qed.
Lemma opens_tags E fiv r : tag_ok E fiv r <-> exists m, opens E fiv r m.
Proof. split; [intro H; eexists; now apply tag_opens|intros [m H]; now apply opens_tag in H]. Qed.

(** an accepted proof phase shows the plaintexts of genuine records under the TLS keys *)
Theorem session_proves S pms rc rs tc ts sh a t zc zs khc khs K0c Kzc K0s Kzs Delta pub kHc kHs fc fs os p outs : let q := hs_q S in
  (0 <= a < q)%Z -> hs_zk_pms S = share_int q a -> (0 <= hs_bnb S < q)%Z ->
  zst S -> opt_bytes (hs_cufin S) -> opt_bytes (hs_sufin S) ->
  Forall byte8 rc -> Forall byte8 rs -> Forall byte8 tc -> Forall byte8 ts -> opt_wf sh ->
  Delta <> 0 -> N.odd Delta = true -> pub true <> pub false -> N.lxor (pub true) (pub false) <> Delta -> cz_a t = cz_b t ->
  Forall2 (carries Delta) (za_h zc) khc -> length khc = 128%nat -> length kHc = 128%nat ->
  Forall2 (carries Delta) (za_h zs) khs -> length khs = 128%nat -> length kHs = 128%nat ->
  let csc := to_pcall false fc :: pops_c os in let css := to_pcall false fs :: pops_s os in
  pcall_wf (to_pcall false fc) -> pcall_wf (to_pcall false fs) -> Forall pop_wf os ->
  rrec_bytes fc -> rrec_bytes fs -> Forall pop_bytes os ->
  queues_fit Delta zc K0c Kzc csc -> queues_fit Delta zs K0s Kzs css ->
  post_record aes_ks_file aes_enc_file Delta pub S t zc zs pms rc rs tc ts sh kHc kHs fc fs os = Ok (p, outs) ->
  checks_hold (pr_hs p) ->
  let kb := key_block (ms_spec (pms_of q a (hs_bnb S)) rc rs sh) rc rs in
  let Ec := aesE (tls_client_key kb) in let Es := aesE (tls_server_key kb) in
  let fivc := tls_client_iv kb in let fivs := tls_server_iv kb in
  (cz_a (pr_t p) = cz_b (pr_t p) <-> recorded Ec fivc khc zc K0c Kzc csc /\ recorded Es fivs khs zs K0s Kzs css) /\
  exists b, finalize p fc fs os outs = Ok b /\
    (b = true <-> (exists m, opens Ec fivc fc m) /\ (exists m, opens Es fivs fs m) /\ exists msgs, Forall2 (pop_opens Ec Es fivc fivs) os msgs) /\
    forall msgs, Forall2 (pop_opens Ec Es fivc fivs) os msgs -> map snd outs = map str_to_int msgs.
Proof.
  intros q Ha Hz Hb Z HC HS Hrc Hrs Htc Hts Hsh D0 DO P1 P2 ST Cc Lc1 Lc2 Cs Ls1 Ls2 csc css Wc Ws W Bc Bs B Qc Qs R CK kb.
  pose proof (session_sound S pms rc rs tc ts sh a t zc zs khc khs K0c Kzc K0s Kzs Delta pub kHc kHs fc fs os p outs
    Ha Hz Hb Z HC HS Hrc Hrs Htc Hts Hsh D0 DO P1 P2 ST Cc Lc1 Lc2 Cs Ls1 Ls2 Wc Ws W Bc Bs B Qc Qs R CK) as X.
  cbv zeta in X. fold q kb in X. cbv zeta. destruct X as (X1 & X2 & b & X3 & X4). split; [exact X2|].
  exists b. split; [exact X3|]. rewrite X4, <- !opens_tags. split.
  - split; intros (A1 & A2 & A3); (split; [exact A1|split; [exact A2|]]).
    + now apply pops_open'.
    + destruct A3 as [msgs A3]. now apply pops_open in A3.
  - intros msgs F. rewrite X1. now apply pops_open in F.
Qed.

(** from the scalars to the verdict *)
Theorem whole_session (C : Curve) ccrh bl ra rb Delta0 raw ta tb s rounds rc rs sh tc ts xa ya xb yb gfr hash :
  annihilates C -> prime (cp C) -> (cp C < 2 ^ Z.of_nat bl)%Z -> (order C <= 256 ^ Z.of_nat bn_buf)%Z ->
  length raw = 5%nat -> Forall (fun r => length r = bl) raw -> (0 <= ta < order C)%Z ->
  Forall byte8 rc -> Forall byte8 rs -> opt_wf sh -> Forall byte8 tc -> Forall byte8 ts ->
  let Ts := smul s (@gen C) in
  smul ta (@gen C) <> pz ->
  coords (smul tb Ts) = Some (xa, ya) -> coords (smul ta Ts) = Some (xb, yb) -> xa <> xb -> gfr_ok gfr ->
  exists Tc Va Vb Ta sa sb, dh_exchange ta tb Ts = Ok (Tc, Va, Vb, Ta) /\
    e2f_offline ccrh (cp C) bl ra rb Delta0 raw = Ok (sa, sb) /\
    (((e_a sa + e_a sb) mod cp C <> 0)%Z ->
     exists x y pa pb S,
       coords (smul s Tc) = Some (x, y) /\
       e2f_online (cp C) sa sb (fst (affine Vb)) (snd (affine Vb)) (fst (affine Va)) (snd (affine Va)) = Ok (pa, pb) /\
       session (cp C) rounds pa pb rc rs sh (fins tc ts) = Ok S /\ dh_reveal ta tb Ts Ta = Ok x /\
       let kb := key_block (ms_spec (premaster (BN_num_bytes (cp C)) (Z.to_N x)) rc rs sh) rc rs in
       let Ec := aesE (tls_client_key kb) in let Es := aesE (tls_server_key kb) in
       let fivc := tls_client_iv kb in let fivs := tls_server_iv kb in
       forall mhc rdc roc mhs rds ros l,
       length mhc = 128%nat -> rdc < 2 ^ 128 -> rdc <> 0 -> ole_rand_ok roc 1 ->
       length mhs = 128%nat -> rds < 2 ^ 128 -> rds <> 0 -> ole_rand_ok ros 1 -> Forall rcall_wf l ->
       exists c0 s0 c s,
         aead_new aes_ks_file aes_enc_file gfr (hs_cwk S) (hs_civ S) mhc rdc roc = Ok c0 /\
         aead_new aes_ks_file aes_enc_file gfr (hs_swk S) (hs_siv S) mhs rds ros = Ok s0 /\
         rcalls_run aes_enc_file gfr hash (c0, s0) l = Ok (c, s, map (rcall_spec Ec Es fivc fivs) l) /\
         forall Delta pub khc kz0c kzc khs kz0s kzs kHc kHs fc fs os,
           Delta <> 0 -> N.odd Delta = true -> pub true <> pub false -> N.lxor (pub true) (pub false) <> Delta ->
           let csc := to_pcall false fc :: pops_c os in let css := to_pcall false fs :: pops_s os in
           map aop_call (flat_map on_c l) = map pcall_call csc -> map aop_call (flat_map on_s l) = map pcall_call css ->
           pcall_wf (to_pcall false fc) -> pcall_wf (to_pcall false fs) -> Forall pop_wf os ->
           rrec_bytes fc -> rrec_bytes fs -> Forall pop_bytes os ->
           keys_fit khc kz0c kzc csc -> keys_fit khs kz0s kzs css -> length kHc = 128%nat -> length kHs = 128%nat ->
           exists p outs, post_record aes_ks_file aes_enc_file Delta pub S cz0 (zk_enter Delta khc kz0c kzc c) (zk_enter Delta khs kz0s kzs s)
               x rc rs tc ts sh kHc kHs fc fs os = Ok (p, outs) /\
             checks_hold (pr_hs p) /\ cz_a (pr_t p) = cz_b (pr_t p) /\ queues_empty (pr_zc p) /\ queues_empty (pr_zs p) /\
             forall mc msv msgs, opens Ec fivc fc mc -> opens Es fivs fs msv -> Forall2 (pop_opens Ec Es fivc fivs) os msgs ->
               finalize p fc fs os outs = Ok true /\ map snd outs = map str_to_int msgs).
Proof.
  intros A P Bl OB L F Rta Brc Brs Bsh Btc Bts Ts NTa Ca Cb Nx GF.
  destruct (full_handshake C ccrh bl ra rb Delta0 raw ta tb s rounds rc rs sh tc ts xa ya xb yb A P Bl OB L F Rta Brc Brs Bsh Btc Bts NTa Ca Cb Nx)
    as (Tc & Va & Vb & Ta & sa & sb & X1 & X2 & X3).
  exists Tc, Va, Vb, Ta, sa, sb. split; [exact X1|]. split; [exact X2|]. intro Nz. destruct (X3 Nz) as
    (x & y & pa & pb & S & S' & ms & ks & Y1 & Y2 & Y3 & (Y4 & Y5 & Y6 & Y7 & Y8) & Y9 & Y10 & Y11 & _ & Y12). clear X3.
  exists x, y, pa, pb, S. split; [exact Y1|]. split; [exact Y2|]. split; [exact Y3|]. split; [exact Y9|].
  intros kb Ec Es fivc fivs mhc rdc roc mhs rds ros l M1 M2 M3 M4 N1 N2 N3 N4 WL.
  destruct (tls_keys_ok (ms_spec (premaster (BN_num_bytes (cp C)) (Z.to_N x)) rc rs sh) rc rs) as (KC & KS & IC & IS).
  fold kb in KC, KS, IC, IS, Y5, Y6, Y7, Y8. rewrite Y5, Y6, Y7, Y8 in *. rewrite Y12 in Y10.
  destruct (session_honest gfr hash GF S x rc rs tc ts sh S' ms (tls_client_key kb) (tls_server_key kb) (tls_client_iv kb) (tls_server_iv kb)
    KC KS IC IS Y10 Y11 mhc rdc roc mhs rds ros l M1 M2 M3 M4 N1 N2 N3 N4 WL) as (c0 & s0 & c & s' & Z1 & Z2 & Z3 & Z4).
  exists c0, s0, c, s'. split; [exact Z1|]. split; [exact Z2|]. split; [exact Z3|].
  intros Delta pub khc kz0c kzc khs kz0s kzs kHc kHs fc fs os H1 H2 H3 H4 csc css H5 H6 H7 H8 H9 H10 H11 H12 H13 H14 H15 H16.
  destruct (Z4 Delta pub khc kz0c kzc khs kz0s kzs kHc kHs fc fs os H1 H2 H3 H4 H5 H6 H7 H8 H9 H10 H11 H12 H13 H14 H15 H16)
    as (p & W1 & W2 & W3 & W4 & W5 & b & W6 & W7).
  eexists p, _. split; [exact W1|]. split; [exact W2|]. split; [exact W3|]. split; [exact W4|]. split; [exact W5|].
  intros mc msv msgs O1 O2 O3. destruct (pops_open _ _ _ _ _ _ O3) as [T1 T2]. split; [|exact T2].
  rewrite W6. f_equal. apply W7. apply opens_tag in O1, O2. tauto.
Qed.

(** Finished records that carry no verify data at all pass every check, in every session *)
Definition empty_rec (iv tag : list N) : rrec :=
  {| rr_iv := iv; rr_ctxt := []; rr_tag := tag; rr_aad := []; rr_kz0 := repeat 2 128; rr_kz := [] |}.
Lemma empty_ctext E iv : gcm_ctext E iv [] = [].
Proof. Local Transparent gcm_ctext. reflexivity. Local Opaque gcm_ctext. Qed.
Theorem empty_finished q rounds pa pb rc rs sh tc ts : (0 <= pa < q)%Z -> (0 <= pb < q)%Z ->
  Forall byte8 rc -> Forall byte8 rs -> opt_wf sh -> Forall byte8 tc -> Forall byte8 ts ->
  let m := ms_spec (pms_of q pa pb) rc rs sh in
  let kb := key_block m rc rs in
  let Ec := aesE (tls_client_key kb) in let Es := aesE (tls_server_key kb) in
  let fivc := tls_client_iv kb in let fivs := tls_server_iv kb in
  exists S gfr hash mhc mhs rd ro l c0 s0 c s outs1 Delta pub kh kz0 kH fc fs p,
    gfr_ok gfr /\ session q rounds pa pb rc rs sh (fins tc ts) = Ok S /\
    aead_new aes_ks_file aes_enc_file gfr (hs_cwk S) (hs_civ S) mhc rd ro = Ok c0 /\
    aead_new aes_ks_file aes_enc_file gfr (hs_swk S) (hs_siv S) mhs rd ro = Ok s0 /\
    rcalls_run aes_enc_file gfr hash (c0, s0) l = Ok (c, s, outs1) /\
    post_record aes_ks_file aes_enc_file Delta pub S cz0 (zk_enter Delta kh kz0 [] c) (zk_enter Delta kh kz0 [] s)
      ((pa + pb) mod q)%Z rc rs tc ts sh kH kH fc fs [] = Ok (p, []) /\
    checks_hold (pr_hs p) /\ cz_a (pr_t p) = cz_b (pr_t p) /\ finalize p fc fs [] [] = Ok true /\
    opens Ec fivc fc [] /\ opens Es fivs fs [] /\
    client_verify_data m tc <> [] /\ server_verify_data m ts <> [].
Proof.
  intros Ha Hb Hc Hs Hh Htc Hts m kb Ec Es fivc fivs.
  destruct (prove_handshake_complete q rounds pa pb rc rs sh tc ts Ha Hb Hc Hs Hh Htc Hts) as (S & S' & ms & k & Y1 & Y2 & Y3 & _ & Y4).
  destruct (session_ok q rounds pa pb rc rs sh (fins tc ts) Ha Hb Hc Hs Hh) as (S2 & Z1 & _ & Z2 & Z3 & Z4 & Z5 & _).
  { repeat constructor; try apply ascii_bytes_byte; assumption. }
  rewrite Y1 in Z1. assert (S2 = S) by congruence. subst S2. clear Z1. fold m kb in Z2, Z3, Z4, Z5.
  rewrite Y4, Z2, Z3, Z4, Z5 in Y2. clear Y4.
  destruct (tls_keys_ok m rc rs) as (KC & KS & IC & IS). fold kb in KC, KS, IC, IS.
  set (iv := repeat 0 8). assert (Liv : length iv = 8%nat) by reflexivity. assert (Biv : bytes_ok iv) by apply zeros_bytes.
  set (fc := empty_rec iv (gcm_tag Ec (fivc ++ iv) [] [])). set (fs := empty_rec iv (gcm_tag Es (fivs ++ iv) [] [])).
  set (rnd := {| m_z0 := repeat false 128; m_z := []; m_ole := ex_ro 1 |}).
  assert (RO : rand_ok rnd [] []).
  { split; [apply repeat_length|]. split; [reflexivity|]. exact (ex_ro_ok 1). }
  set (l := [FinEnc [] [] [] iv rnd; FinDec [] (rr_tag fs) [] iv rnd [] []]).
  assert (WL : Forall rcall_wf l).
  { assert (E0 : bytes_ok []) by constructor. unfold l. constructor; [|constructor; [|constructor]].
    - unfold rcall_wf. cbn [on_c on_s app]. constructor; [|constructor]. cbn [aop_wf]. auto 10.
    - unfold rcall_wf. cbn [on_c on_s app]. constructor; [|constructor]. cbn [aop_wf]. auto 10. }
  assert (RO1 : ole_rand_ok (ex_ro 1) 1) by exact (ex_ro_ok 1).
  assert (R1 : 1 < 2 ^ 128) by reflexivity. assert (R2 : 1 <> 0) by discriminate.
  destruct (session_honest gf_mul (fun x => x) gfr_gf_mul S _ rc rs tc ts sh S' ms _ _ _ _ KC KS IC IS Y2 Y3
    (repeat false 128) 1 (ex_ro 1) (repeat false 128) 1 (ex_ro 1) l (repeat_length _ 128) R1 R2 RO1 (repeat_length _ 128) R1 R2 RO1 WL)
    as (c0 & s0 & c & s & X1 & X2 & X3 & X4).
  set (pub := fun b : bool => if b then 2 else 4).
  assert (W0 : forall tg, pcall_wf (to_pcall false (empty_rec iv tg))).
  { intro tg. repeat split; try assumption; constructor. }
  assert (B0 : forall tg, rrec_bytes (empty_rec iv tg)) by (intro; split; constructor).
  assert (KF : forall tg, keys_fit (repeat 3 128) [repeat 5 128] [] [to_pcall false (empty_rec iv tg)]).
  { intro tg. repeat split; [repeat constructor|constructor]. }
  destruct (X4 3 pub (repeat 3 128) [repeat 5 128] [] (repeat 3 128) [repeat 5 128] [] (repeat 3 128) (repeat 3 128) fc fs [])
    as (p & W1 & W2 & W3 & _ & _ & b & W6 & W7); try discriminate; try reflexivity; try apply W0; try apply B0; try apply KF; try constructor.
  exists S, gf_mul, (fun x => x), (repeat false 128), (repeat false 128), 1, (ex_ro 1), l, c0, s0, c, s.
  eexists. exists 3, pub, (repeat 3 128), [repeat 5 128], (repeat 3 128), fc, fs, p.
  rewrite Z2, Z3, Z4, Z5.
  split; [exact gfr_gf_mul|]. split; [exact Y1|]. split; [exact X1|]. split; [exact X2|]. split; [exact X3|].
  split; [exact W1|]. split; [exact W2|]. split; [exact W3|]. cbn [map] in W6. split.
  { rewrite W6. f_equal. apply W7. repeat split; constructor. }
  split; [|split].
  - rewrite <- (empty_ctext Ec (fivc ++ iv)) at 1. apply tag_opens. reflexivity.
  - rewrite <- (empty_ctext Es (fivs ++ iv)) at 1. apply tag_opens. reflexivity.
  - unfold client_verify_data, server_verify_data, verify_data.
    split; intro H; apply (f_equal (@length N)) in H; rewrite prf_bytes_length in H; discriminate H.
Qed.
Theorem finished_content_refuted : exists q rounds pa pb rc rs sh tc ts S gfr hash mhc mhs rd ro l c0 s0 c s outs1 Delta pub kh kz0 kH fc fs p,
  let m := ms_spec (pms_of q pa pb) rc rs sh in
  let kb := key_block m rc rs in
  gfr_ok gfr /\ session q rounds pa pb rc rs sh (fins tc ts) = Ok S /\
  aead_new aes_ks_file aes_enc_file gfr (hs_cwk S) (hs_civ S) mhc rd ro = Ok c0 /\
  aead_new aes_ks_file aes_enc_file gfr (hs_swk S) (hs_siv S) mhs rd ro = Ok s0 /\
  rcalls_run aes_enc_file gfr hash (c0, s0) l = Ok (c, s, outs1) /\
  post_record aes_ks_file aes_enc_file Delta pub S cz0 (zk_enter Delta kh kz0 [] c) (zk_enter Delta kh kz0 [] s)
    ((pa + pb) mod q)%Z rc rs tc ts sh kH kH fc fs [] = Ok (p, []) /\
  checks_hold (pr_hs p) /\ cz_a (pr_t p) = cz_b (pr_t p) /\ finalize p fc fs [] [] = Ok true /\
  opens (aesE (tls_client_key kb)) (tls_client_iv kb) fc [] /\ opens (aesE (tls_server_key kb)) (tls_server_iv kb) fs [] /\
  client_verify_data m tc <> [] /\ server_verify_data m ts <> [].
Proof.
  exists 251%Z, true, 200%Z, 100%Z, (repeat 1 32), (repeat 2 32), None, (repeat 3 32), (repeat 4 32).
  assert (B : forall n x, x < 256 -> Forall byte8 (repeat x n)).
  { intros n x H. apply Forall_forall. intros y Hy. apply repeat_spec in Hy. now subst. }
  assert (H1 : (0 <= 200 < 251)%Z) by lia. assert (H2 : (0 <= 100 < 251)%Z) by lia.
  apply (empty_finished 251 true 200 100 (repeat 1 32) (repeat 2 32) None (repeat 3 32) (repeat 4 32) H1 H2);
    try (apply B; reflexivity). exact I.
Qed.
