(** What a whole TLS 1.2 session opens on the garbled circuit. *)
From Coq Require Import List NArith ZArith Bool Arith Lia.
From Verif Require Import L_Bits L_Res L_Str S_Netlist S_Codec S_Aes S_Gcm S_Sha256 S_Tls S_Open M_EmpInteger M_Utils M_Bristol M_Bn M_Sym M_SymOn M_SymOff M_SymSess.
From Verif Require Import M_Sha256 M_Hmac M_Block M_Shares M_Handshake M_Aead D_AesKs D_AesEnc P_Utils P_Shares P_Gcm P_Aead P_AeadInst P_AeadProof.
From Verif Require P_ItMac.
From Verif Require Import P_Sha256Opt P_Hmac P_Prf P_PrfHist P_Handshake P_Sym P_SymVal P_SymTls P_Session2 P_SymGcm P_Open P_Open2.
Import ListNotations.
Local Open Scope N_scope.
Local Opaque aes_ks_file aes_enc_file computeKS computeAES_KS aesE str_to_int key_material gcm_ctext key_block ms_spec verify_data prf_opened.
Local Opaque on_master on_ext_master on_expand on_finished on_aead_new on_crypt compute_master_key compute_extended_master_key compute_expansion_keys finished_bytes.

Definition fin_pair (o : fin_op) : list N * list N := match o with FinC l t | FinS l t => (l, t) end.
Lemma sfold_app {A B} (f : A -> B -> M A) l1 : forall l2 a s a' s', sfold f (l1 ++ l2) a s = Ok (a', s') ->
  exists a1 s1, sfold f l1 a s = Ok (a1, s1) /\ sfold f l2 a1 s1 = Ok (a', s').
Proof.
  induction l1 as [|b l1 IH]; intros l2 a s a' s' E; cbn [app sfold] in E |- *.
  - exists a, s. auto.
  - mi E. destruct (IH _ _ _ _ _ E) as (a1 & s1 & H1 & H2). exists a1, s1. split; [|exact H2].
    unfold mbind. rewrite E0. cbn [bind fst snd]. exact H1.
Qed.

Section T.
Variable aes_ks aes_enc : bristol.
Notation step := (on_do honest aes_ks aes_enc).
Lemma open_fins ms os : forall s a b a' s', wf s -> vsess s a b ->
  hinv (str_to_int ms) (hs_mode (v_hs b)) (hs_hmac (v_hs b)) -> Forall fin_wf os ->
  (on_rounds (os_hs a) = false -> opened_flag (os_hs a) = true) ->
  sfold step (map fin_call os) a s = Ok (a', s') ->
  opn s' = opn s ++ flat_map (fun f => (if on_rounds (os_hs a) then [] else prf_opened false ms (fst f ++ snd f) 1) ++
                     [open_bytes (verify_data ms (fst f) (snd f))]) (map fin_pair os).
Proof.
  induction os as [|f os IH]; intros s a b a' s' W Hv Hi Ho F E; cbn [map sfold flat_map] in *.
  - injection E as _ <-. symmetry. apply app_nil_r.
  - mi E. rename t into t0. inversion Ho as [|? ? Hf Ho']; subst.
    pose proof (tri_do aes_ks aes_enc s a b (fin_call f) W Hv) as T.
    assert (X : exists l t, fin_pair f = (l, t) /\ Forall byte8 l /\ Forall byte8 t /\
      (exists h u, on_finished honest (os_hs a) l t s = Ok (h, u, t0) /\ os_hs x = h) /\
      (exists b1, v_do aes_ks aes_enc b (fin_call f) = Ok b1 /\ hinv (str_to_int ms) (hs_mode (v_hs b1)) (hs_hmac (v_hs b1)))).
    { destruct f as [l t|l t]; destruct Hf as [Hl Ht]; cbn [fin_call fin_pair on_do v_do] in *; mi E0; destruct x0 as [h u]; injection E0 as <- <-;
        exists l, t; (split; [reflexivity|]); (split; [exact Hl|]); (split; [exact Ht|]);
        (split; [exists h, u; split; [exact E1|reflexivity]|]);
        destruct (finished_ok (v_hs b) ms l t Hi Hl Ht) as (p & h' & A & V'); rewrite A; cbn [bind]; eexists; (split; [reflexivity|]); exact V'. }
    destruct X as (l & t & -> & Hl & Ht & (h & u & Ef & <-) & (b1 & A & Hi1)). rewrite A in T.
    destruct (tri_okv _ _ _ _ _ _ T E0) as (W1 & _ & V1).
    destruct (open_finished _ _ _ ms _ _ _ _ _ W (vse_hs _ _ _ Hv) Hi Hl Ht F Ef) as (O & F1 & R).
    rewrite <- R in F1. rewrite (IH _ _ _ _ _ W1 V1 Hi1 Ho' F1 E), R, O. cbn [fst snd]. rewrite <- !app_assoc. reflexivity.
Qed.
Lemma open_tls q rounds pa pb rc rs sh os a s : (0 <= pa < q)%Z -> (0 <= pb < q)%Z ->
  Forall byte8 rc -> Forall byte8 rs -> opt_wf sh -> Forall fin_wf os ->
  on_session honest aes_ks aes_enc q rounds (tls_calls pa pb rc rs sh os) cst0 = Ok (a, s) ->
  let ms := ms_spec (pms_of q pa pb) rc rs sh in
  opn s = tls_opened rounds (pms_of q pa pb) ms rc rs sh (map fin_pair os).
Proof.
  intros Ha Hb Hc Hs Hh Ho E ms. unfold on_session, tls_calls in E. cbn [sfold] in E.
  set (a0 := mkOnSess (on_hs_new q rounds) [] [] []) in E.
  set (b0 := mkVSess (hs_new q rounds) [] [] []).
  assert (W0 : wf cst0) by (split; [reflexivity|exact I]).
  assert (V0 : vsess cst0 a0 b0).
  { constructor; [|constructor|reflexivity|constructor]. repeat (constructor; cbn; auto). }
  mi E. mi E.
  assert (X : exists p h, v_do aes_ks aes_enc b0 (match sh with Some h => NExtMaster pa pb h | None => NMaster pa pb rc rs end) =
     Ok (mkVSess (set_ms (after_pms (hs_new q rounds) pa p h) (str_to_int ms)) [] [] []) /\
     hinv (str_to_int (pms_of q pa pb)) (hs_mode (hs_new q rounds)) h).
  { destruct sh as [h|]; cbn [v_do v_hs v_aeads v_out v_sh b0].
    - destruct (ext_master_ok (hs_new q rounds) pa pb h Ha Hb eq_refl Hh) as (p & h' & m & A & Vh & R).
      exists p, h'. rewrite A, R. split; [|exact Vh]. cbn [hs_new hs_ms bind]. now rewrite app_nil_r.
    - destruct (master_ok (hs_new q rounds) pa pb rc rs Ha Hb eq_refl Hc Hs) as (p & h' & m & A & Vh & R).
      exists p, h'. rewrite A, R. split; [|exact Vh]. cbn [hs_new hs_ms bind]. now rewrite app_nil_r. }
  destruct X as (p & h & A & Vh).
  pose proof (tri_do aes_ks aes_enc cst0 a0 b0 (match sh with Some h => NExtMaster pa pb h | None => NMaster pa pb rc rs end) W0 V0) as T.
  rewrite A in T. clear A.
  destruct (tri_okv _ _ _ _ _ _ T E0) as (W1 & _ & V1). clear T.
  assert (O1 : opn t = (if rounds then [] else prf_opened true (pms_of q pa pb) (master_seed rc rs sh) 2) /\ on_rounds (os_hs x) = rounds).
  { Local Transparent on_master on_ext_master.
    destruct sh as [h'|]; cbn [on_do os_hs a0] in E0; mi E0; injection E0 as <- <-; cbn [os_hs].
    - unfold on_ext_master in E2.
      assert (B : Forall byte8 (extended_master_key_label ++ h')) by (apply Forall_app; split; [apply ascii_bytes_byte|exact Hh]).
      exact (open_master_gen _ _ (hs_new q rounds) _ _ _ _ _ _ _ W0 (vse_hs _ _ _ V0) Ha Hb eq_refl B E2).
    - unfold on_master in E2.
      assert (B : Forall byte8 (master_key_label ++ rc ++ rs)) by (apply Forall_app; split; [apply ascii_bytes_byte|apply Forall_app; auto]).
      exact (open_master_gen _ _ (hs_new q rounds) _ _ _ _ _ _ _ W0 (vse_hs _ _ _ V0) Ha Hb eq_refl B E2).
    Local Opaque on_master on_ext_master. }
  destruct O1 as [O1 R1]. clear E0.
  set (s1 := set_ms _ _) in V1.
  pose proof (tri_do aes_ks aes_enc t x _ (NExpand rc rs) W1 V1) as T. cbn [v_do v_hs v_aeads v_out v_sh] in T.
  destruct (expansion_ok s1 ms rc rs eq_refl (hinv_pos _ _ _ Vh) Hc Hs) as (p2 & h2 & E2 & V2).
  rewrite E2 in T. cbn [bind] in T. destruct (tri_okv _ _ _ _ _ _ T E1) as (W2 & _ & Vs2). clear T E2.
  cbn [on_do] in E1. mi E1. injection E1 as <- <-.
  destruct (open_expand _ _ _ ms _ _ _ _ W1 (vse_hs _ _ _ V1) eq_refl (hinv_pos _ _ _ Vh) Hc Hs E0) as (O2 & F2 & R2).
  rewrite R1 in O2, R2. rewrite R1 in F2. rewrite <- R2 in F2.
  rewrite (open_fins ms os _ _ _ _ _ W2 Vs2 V2 Ho F2 E), O2, O1. cbn [os_hs]. rewrite R2.
  unfold tls_opened. destruct rounds; rewrite <- ?app_assoc; reflexivity.
Qed.
End T.

Notation gstep := (on_do honest aes_ks_file aes_enc_file).
Lemma open_bytes_int l : (OPub, str_to_int l) = open_bytes l.
Proof. unfold open_bytes. rewrite <- str_to_int_bits, rev_involutive. reflexivity. Qed.
Lemma open_recs kc ks fc fs : key_ok kc -> key_ok ks -> iv_ok fc -> iv_ok fs -> forall cs s a h gc gs o w a' s', Forall gcall_wf cs ->
  wf s -> vsess s a (mkVSess h [gc; gs] o w) -> aead_of kc fc gc -> aead_of ks fs gs ->
  sfold gstep (map to_call cs) a s = Ok (a', s') ->
  opn s' = opn s ++ flat_map (fun c => if ga_sec c then [] else [open_bytes (gc_ks (aesE kc) (aesE ks) fc fs c)]) cs.
Proof.
  intros KC KS IC IS. induction cs as [|c cs IH]; intros s a h gc gs o w a' s' Wc W Hv AC AS E; cbn [map sfold flat_map] in *.
  - injection E as _ <-. symmetry. apply app_nil_r.
  - mi E. inversion Wc as [|? ? [L8 B8] Wc']; subst.
    pose proof (tri_do aes_ks_file aes_enc_file s a _ (to_call c) W Hv) as T.
    assert (X : exists gc' gs', v_do aes_ks_file aes_enc_file (mkVSess h [gc; gs] o w) (to_call c) =
        Ok (mkVSess h [gc'; gs'] (o ++ [gc_out (aesE kc) (aesE ks) fc fs c]) (w ++ gc_sh (aesE kc) (aesE ks) fc fs c)) /\
        aead_of kc fc gc' /\ aead_of ks fs gs').
    { clear E E0 T. unfold to_call, gc_out, gc_sh, gc_ks, gc_ej0. destruct c as [srv iv n sec enc]; cbn [ga_srv ga_iv ga_len ga_sec ga_enc] in *.
      assert (E : forall k, v_do aes_ks_file aes_enc_file (mkVSess h [gc; gs] o w) ((if enc then NEncrypt else NDecrypt) k iv (N.of_nat n) sec) =
        v_crypt_call aes_enc_file (mkVSess h [gc; gs] o w) k iv (N.of_nat n) sec) by (intro k; destruct enc; reflexivity).
      rewrite E. clear E. unfold v_crypt_call. cbn [v_hs v_aeads v_out v_sh].
      destruct srv; cbn [nth_error read bind firstn skipn app].
      - destruct (material_files ks fs gs iv n KS IS L8 B8 (proj1 AS) (proj2 AS)) as (n1 & E). rewrite E. cbn [bind].
        exists gc, {| g_key := g_key gs; g_nonce := n1; g_fixed := g_fixed gs |}.
        split; [|split; [exact AC|exact AS]]. rewrite reveal_str by apply (ks_bytes ks). destruct sec; reflexivity.
      - destruct (material_files kc fc gc iv n KC IC L8 B8 (proj1 AC) (proj2 AC)) as (n1 & E). rewrite E. cbn [bind].
        exists {| g_key := g_key gc; g_nonce := n1; g_fixed := g_fixed gc |}, gs.
        split; [|split; [exact AC|exact AS]]. rewrite reveal_str by apply (ks_bytes kc). destruct sec; reflexivity. }
    destruct X as (gc1 & gs1 & A & A1 & A2). rewrite A in T. clear A.
    destruct (tri_okv _ _ _ _ _ _ T E0) as (W1 & _ & V1). clear T.
    assert (E1 : exists k, on_crypt_call honest aes_enc_file a k (ga_iv c) (N.of_nat (ga_len c)) (ga_sec c) s = Ok (x, t)).
    { revert E0. unfold to_call. destruct (ga_enc c); cbn [on_do]; eauto. }
    destruct E1 as (k & E1). destruct (open_crypt_call _ _ _ _ _ _ _ _ _ E1) as (Z0 & Z & _ & H2 & _ & O).
    assert (HZ : map (wval (V t)) Z = str_to_int (gc_ks (aesE kc) (aesE ks) fc fs c)).
    { pose proof (vse_sh _ _ _ V1) as R. cbn [v_sh] in R. rewrite H2 in R. unfold gc_sh in R.
      pose proof (P_ItMac.F2_length _ _ _ (vse_sh _ _ _ Hv)) as L. cbn [v_sh] in L.
      apply Forall2_app_inv_l in R. destruct R as (l1 & l2 & R1 & R2 & R3).
      pose proof (P_ItMac.F2_length _ _ _ R1) as L1.
      assert (l2 = [bits_of_N 128 (gc_ej0 (aesE kc) (aesE ks) fc fs c); str_to_int (gc_ks (aesE kc) (aesE ks) fc fs c)]).
      { apply (f_equal (skipn (length w))) in R3. rewrite !skipn_app in R3.
        rewrite (skipn_all2 w) in R3 by lia. rewrite (skipn_all2 l1) in R3 by lia.
        replace (length w - length l1)%nat with 0%nat in R3 by lia. rewrite Nat.sub_diag in R3. symmetry. exact R3. }
      subst l2. inversion R2 as [|? ? ? ? _ R4]; subst. inversion R4 as [|? ? ? ? R5 _]; subst. exact (rel_vals _ _ _ R5). }
    rewrite (IH _ _ _ _ _ _ _ _ _ Wc' W1 V1 A1 A2 E), O, HZ, open_bytes_int, <- app_assoc. reflexivity.
Qed.
Theorem gcm_openings q rounds pa pb rc rs sh os cs x s : (0 <= pa < q)%Z -> (0 <= pb < q)%Z ->
  Forall byte8 rc -> Forall byte8 rs -> opt_wf sh -> Forall fin_wf os -> Forall gcall_wf cs ->
  let pms := pms_of q pa pb in
  let ms := ms_spec pms rc rs sh in
  let kb := key_block ms rc rs in
  let Ec := aesE (tls_client_key kb) in let Es := aesE (tls_server_key kb) in
  let fc := tls_client_iv kb in let fs := tls_server_iv kb in
  on_session honest aes_ks_file aes_enc_file q rounds (gcm_calls pa pb rc rs sh os cs) cst0 = Ok (x, s) ->
  openings (c_tr s) = tls_opened rounds pms ms rc rs sh (map fin_pair os) ++
    flat_map (fun c => if ga_sec c then [] else [open_bytes (gc_ks Ec Es fc fs c)]) cs.
Proof.
  intros Ha Hb Hc Hs Hh Ho Wc pms ms kb Ec Es fc fs E. unfold on_session, gcm_calls in E.
  apply sfold_app in E. destruct E as (a1 & s1 & E1 & E).
  pose proof (open_tls aes_ks_file aes_enc_file q rounds pa pb rc rs sh os a1 s1 Ha Hb Hc Hs Hh Ho E1) as O1. cbv zeta in O1. fold pms ms in O1.
  destruct (v_tls aes_ks_file aes_enc_file q rounds pa pb rc rs sh os Ha Hb Hc Hs Hh Ho) as (h & A & _ & R2 & R3 & R4 & R5).
  fold pms in A, R2, R3, R4, R5. fold ms in A, R2, R3, R4, R5. fold kb in R2, R3, R4, R5.
  destruct (tls_keys_ok ms rc rs) as (KC & KS & IC & IS). fold kb in KC, KS, IC, IS.
  pose proof (tri_session aes_ks_file aes_enc_file q rounds (tls_calls pa pb rc rs sh os)) as T. rewrite A in T. clear A.
  destruct (tri_okv _ _ _ _ _ _ T E1) as (W1 & _ & V1). clear T.
  unfold record_calls in E. cbn [sfold] in E. mi E. mi E.
  pose proof (tri_do aes_ks_file aes_enc_file s1 a1 _ (NAead false) W1 V1) as T. cbn [v_do v_hs] in T.
  rewrite R2, R4, (aead_files _ (str_to_int (tls_client_iv kb)) KC) in T. cbn [bind v_hs v_aeads v_out v_sh app] in T.
  destruct (tri_okv _ _ _ _ _ _ T E0) as (W2 & _ & V2). clear T.
  pose proof (tri_do aes_ks_file aes_enc_file _ _ _ (NAead true) W2 V2) as T. cbn [v_do v_hs] in T.
  rewrite R3, R5, (aead_files _ (str_to_int (tls_server_iv kb)) KS) in T. cbn [bind v_hs v_aeads v_out v_sh app] in T.
  destruct (tri_okv _ _ _ _ _ _ T E2) as (W3 & _ & V3). clear T.
  cbn [on_do] in E0, E2. mi E0. destruct x2 as [y1 y2]. injection E0 as <- <-.
  mi E2. destruct x0 as [y3 y4]. injection E2 as <- <-.
  pose proof (q_aead_new _ _ _ _ _ _ _ E3) as Q1. pose proof (q_aead_new _ _ _ _ _ _ _ E0) as Q2.
  match type of V3 with vsess _ _ (mkVSess _ [?gc; ?gs] _ _) =>
    assert (A1 : aead_of (tls_client_key kb) fc gc) by (split; reflexivity);
    assert (A2 : aead_of (tls_server_key kb) fs gs) by (split; reflexivity) end.
  pose proof (open_recs (tls_client_key kb) (tls_server_key kb) fc fs KC KS IC IS cs _ _ _ _ _ _ _ _ _ Wc W3 V3 A1 A2 E) as O2.
  rewrite Q2, Q1, O1 in O2. exact O2.
Qed.
(** an online run exists, and it opens exactly this *)
Theorem gcm_opened q rounds pa pb rc rs sh os cs : (0 <= pa < q)%Z -> (0 <= pb < q)%Z ->
  Forall byte8 rc -> Forall byte8 rs -> opt_wf sh -> Forall fin_wf os -> Forall gcall_wf cs ->
  let pms := pms_of q pa pb in
  let ms := ms_spec pms rc rs sh in
  let kb := key_block ms rc rs in
  let Ec := aesE (tls_client_key kb) in let Es := aesE (tls_server_key kb) in
  let fc := tls_client_iv kb in let fs := tls_server_iv kb in
  exists x s, on_session honest aes_ks_file aes_enc_file q rounds (gcm_calls pa pb rc rs sh os cs) cst0 = Ok (x, s) /\
  openings (c_tr s) = tls_opened rounds pms ms rc rs sh (map fin_pair os) ++
    flat_map (fun c => if ga_sec c then [] else [open_bytes (gc_ks Ec Es fc fs c)]) cs.
Proof.
  intros Ha Hb Hc Hs Hh Ho W pms ms kb Ec Es fc fs.
  destruct (v_gcm q rounds pa pb rc rs sh os cs Ha Hb Hc Hs Hh Ho W) as (v & E & _).
  pose proof (online_values aes_ks_file aes_enc_file q rounds (gcm_calls pa pb rc rs sh os cs)) as T. rewrite E in T. clear E.
  destruct (on_session _ _ _ _ _ _ _) as [[x s]| |] eqn:E; try contradiction.
  exists x, s. split; [reflexivity|]. exact (gcm_openings q rounds pa pb rc rs sh os cs x s Ha Hb Hc Hs Hh Ho W E).
Qed.
(** without rounds mode a handshake that returns nothing still opens vectors *)
Theorem opens_more : exists q pa pb rc rs x s,
  on_session honest aes_ks_file aes_enc_file q false (tls_calls pa pb rc rs None []) cst0 = Ok (x, s) /\
  os_out x = [] /\ length (openings (c_tr s)) = 6%nat /\
  exists l, openings (c_tr s) = open_words (inner_state (bits_of_bytes (pms_of q pa pb))) :: l.
Proof.
  assert (B : forall n, Forall byte8 (repeat 1 n)) by (intro; apply Forall_forall; intros z Hz; apply repeat_spec in Hz; subst; reflexivity).
  exists 251%Z, 200%Z, 100%Z, (repeat 1 32), (repeat 2 32).
  assert (Ha : (0 <= 200 < 251)%Z) by (split; reflexivity || discriminate).
  assert (Hb : (0 <= 100 < 251)%Z) by (split; reflexivity || discriminate).
  assert (B2 : Forall byte8 (repeat 2 32)) by (apply Forall_forall; intros z Hz; apply repeat_spec in Hz; subst; reflexivity).
  destruct (v_tls aes_ks_file aes_enc_file 251 false 200 100 (repeat 1 32) (repeat 2 32) None [] Ha Hb (B 32%nat) B2 I (Forall_nil _)) as (v & E & _).
  pose proof (online_values aes_ks_file aes_enc_file 251 false (tls_calls 200 100 (repeat 1 32) (repeat 2 32) None [])) as T. rewrite E in T. clear E.
  destruct (on_session _ _ _ _ _ _ _) as [[x s]| |] eqn:E; try contradiction.
  exists x, s. split; [reflexivity|]. destruct T as (_ & _ & _ & _ & _ & T & _). split; [exact T|].
  pose proof (open_tls aes_ks_file aes_enc_file 251 false 200 100 (repeat 1 32) (repeat 2 32) None [] x s Ha Hb (B 32%nat) B2 I (Forall_nil _) E) as O.
  cbv zeta in O. unfold opn in O. rewrite O. unfold tls_opened. cbn [map flat_map]. rewrite app_nil_r.
  Local Transparent prf_opened. unfold prf_opened. cbn [app map seq]. split; [reflexivity|]. eexists. reflexivity.
Qed.
