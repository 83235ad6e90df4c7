(** Consequences pinned down after wrong programs survived: misuse of the backends, received
    lengths, arrays of different lengths, and what the party that receives nothing sees. *)
From Coq Require Import List NArith ZArith Bool Arith Lia.
From Verif Require Import L_Bits L_Res S_Sched S_Heap M_EmpInteger M_Utils M_Bn M_Bristol M_Aead M_Ec M_Commit M_ComConv M_Exch M_ExchCc.
From Verif Require Import M_Switch P_Switch P_Switch2 M_ProveAes.
From Verif Require Import S_Codec S_Aes S_Gcm D_AesEnc D_AesKs M_ItMac M_AeadProof P_ItMac P_Gcm P_Aead P_AeadInst P_AeadProof P_AeadProof2.
From Verif Require M_Garble M_Handshake M_Hmac M_Addmod M_Sha256 M_Trace.
Import ListNotations.

(** ** backends *)
Lemma touch_as_shape ok p s : (exists s', touch_as ok p s = Ok s' /\ g_live s' = g_live s /\ g_gc_p s' = g_gc_p s) \/ touch_as ok p s = UB.
Proof.
  unfold touch_as, g_touch. destruct p as [o|]; [|right; reflexivity]. destruct (lookup o (g_live s)) as [c|]; [|right; reflexivity].
  cbn [bind]. destruct (ok c); [left|right]; eauto.
Qed.
Lemma wrong_class o c ok s : lookup o (g_live s) = Some c -> ok c = false -> touch_as ok (Some o) s = UB.
Proof. intros H K. unfold touch_as. cbn [g_touch]. rewrite H. cbn [bind]. now rewrite K. Qed.
Lemma misuse xs off body : Forall session_ok xs -> body_ok off (first_kind off) body = true ->
  (selected off (first_kind off) body <> Zk -> run_calls (all_calls xs ++ Setup off None :: body ++ [Sync]) g_init = UB) /\
  (off = false -> run_calls (all_calls xs ++ Setup off None :: body ++ [ToOnline]) g_init = UB).
Proof.
  intros K B. destruct (sessions_run xs g_init K eq_refl) as (s & E & L & _); [intros o H; discriminate H|].
  destruct (setup_ok off s L) as (s1 & E1 & H1). destruct (sess_body _ _ _ _ _ H1 B) as (s2 & E2 & H2).
  assert (J : forall c, do_call c s2 = UB -> run_calls (all_calls xs ++ Setup off None :: body ++ [c]) g_init = UB).
  { intros c Hc. rewrite run_app, E. cbn [bind run_calls do_call]. rewrite E1. cbn [bind]. rewrite run_app, E2. cbn [bind run_calls].
    rewrite Hc. reflexivity. }
  split.
  - intro N. apply J. cbn [do_call]. unfold sync_zk_gc. destruct (sess_active _ _ _ _ H2) as (c & p & Ec & Ep & Lc & Lp).
    rewrite Ep, (wrong_class _ _ _ _ Lp); [reflexivity|]. destruct (selected off (first_kind off) body); try reflexivity. contradiction.
  - intros ->. apply J. cbn [do_call]. unfold switch_to_online, sync_offline_online.
    assert (G : forall s', g_live s' = g_live s2 -> g_gc_p s' = g_gc_p s2 -> touch_as (is_prot Online) (g_gc_p s2) s' = UB).
    { intros s' Hl _. rewrite (s_gcp _ _ _ _ H2). apply (wrong_class _ (CProt Gc)); [|reflexivity].
      rewrite Hl, (s_live _ _ _ _ H2). cbn [app gc_kind]. now rewrite lookup_hit. }
    destruct (touch_as_shape (is_prot Offline) (g_off_p s2) s2) as [(s3 & -> & L3 & P3)| ->]; [|reflexivity]. cbn [bind].
    destruct (touch_as_shape (is_circ Offline) (g_off_c s2) s3) as [(s4 & -> & L4 & P4)| ->]; [|reflexivity]. cbn [bind].
    rewrite G by congruence. reflexivity.
Qed.
Lemma proxy_reports f s : match f with FKs | FEnc | FZk _ => True | _ => False end ->
  exists s', do_call (SetupProxy (Some f)) s = Ok (s', true).
Proof.
  intro T. cbn [do_call]. unfold setup_proxy_protocol, init_files, setup_fn.
  destruct f as [| |[]|[]|[]]; try contradiction; cbn; eexists; reflexivity.
Qed.
Lemma proxy_quiet s : exists s', do_call (SetupProxy None) s = Ok (s', false).
Proof. cbn. eexists; reflexivity. Qed.

(** ** the received length *)
Lemma recv_arr_len c : exists k, p_recv_arr c = Recv c 4 k /\
  forall hd, (k hd = Ret UB <-> (1000 < u32_value hd)%N) /\
    ((u32_value hd <= 1000)%N -> k hd = Recv c (N.to_nat (u32_value hd)) (fun arr => Ret (Ok arr))).
Proof.
  eexists. split; [reflexivity|]. intro hd. cbv beta zeta. change (N.of_nat bn_buf) with 1000%N.
  destruct (N.ltb_spec 1000 (u32_value hd)); split; try split; intros; try reflexivity; try lia; try discriminate; auto.
Qed.

(** ** messages of different lengths *)
Lemma public_lengths enc p iv msgs ctxts : length ctxts <> length msgs -> prove_public_msgs enc p iv msgs ctxts = UB.
Proof. intro H. unfold prove_public_msgs. apply Nat.eqb_neq in H. now rewrite H. Qed.
Lemma private_lengths enc p iv msgs ctxts : length msgs <> (8 * length ctxts)%nat -> prove_private_msgs enc p iv msgs ctxts = Err.
Proof. intro H. unfold prove_private_msgs. apply Nat.eqb_neq in H. now rewrite H. Qed.
Lemma public_opt_lengths enc f p infos iv msgs ctxts : length ctxts <> length msgs -> prove_public_msgs_opt enc f p infos iv msgs ctxts = Some UB.
Proof. intro H. unfold prove_public_msgs_opt. apply Nat.eqb_neq in H. now rewrite H. Qed.
Lemma private_opt_lengths enc f p infos iv msgs ctxts : length msgs <> (8 * length ctxts)%nat -> prove_private_msgs_opt enc f p infos iv msgs ctxts = Some Err.
Proof. intro H. unfold prove_private_msgs_opt. apply Nat.eqb_neq in H. now rewrite H. Qed.
Lemma nonce_refused enc f p infos iv msgs ctxts pm pc : length iv <> 8%nat -> length ctxts = length msgs -> length pm = (8 * length pc)%nat ->
  prove_public_msgs enc p iv msgs ctxts = Err /\ prove_private_msgs enc p iv pm pc = Err /\
  prove_public_msgs_opt enc f p infos iv msgs ctxts = Some Err /\ prove_private_msgs_opt enc f p infos iv pm pc = Some Err.
Proof.
  intros H K M. apply Nat.eqb_neq in H. apply Nat.eqb_eq in K. apply Nat.eqb_eq in M.
  unfold prove_public_msgs, prove_private_msgs, prove_public_msgs_opt, prove_private_msgs_opt, computeCounter, computeCounterOpt, ap_set_nonce, opt_then.
  rewrite H, K, M. repeat split; reflexivity.
Qed.

(** ** the party that receives nothing *)
Lemma not_receiving labels :
  fst (M_Garble.og_reveal_send labels) = map M_Garble.isOne labels /\ fst (M_Garble.oe_reveal_send labels) = map M_Garble.isOne labels.
Proof.
  induction labels as [|l t [I J]]; [split; reflexivity|]. cbn [M_Garble.og_reveal_send M_Garble.oe_reveal_send map].
  destruct (M_Garble.og_reveal_send t) as [b m], (M_Garble.oe_reveal_send t) as [b' m']. cbn [fst] in I, J. subst b b'.
  destruct (M_Garble.isOne l); [split; reflexivity|]. destruct (M_Garble.isZero l); split; reflexivity.
Qed.

(** ** the challenge of the conversion *)
Lemma chi_shape prg q digest n : (0 < q)%Z ->
  length (cc_chi prg q digest n) = n /\ Forall (fun c => (0 <= c < q)%Z) (cc_chi prg q digest n) /\
  forall d', firstn 16 d' = firstn 16 digest -> cc_chi prg q d' n = cc_chi prg q digest n.
Proof.
  intro Q. unfold cc_chi. split; [now rewrite map_length, seq_length|]. split.
  - apply Forall_map, Forall_forall. intros i _. unfold BN_mod. rewrite Z.rem_mod_nonneg by (try lia; unfold BN_bin2bn; lia).
    apply Z.mod_pos_bound. lia.
  - intros d' E. now rewrite E.
Qed.

(** ** more proofs than records *)
Lemma no_record_left key fiv : length key = 16%nat -> bytes_ok key -> length fiv = 4%nat -> bytes_ok fiv ->
  forall Delta pub p t za ctxt iv sec kz0 kz, Delta <> 0%N ->
  pf_key p = EK key -> pf_fixed p = str_to_int fiv -> length iv = 8%nat -> bytes_ok iv ->
  (za_z0 za = [] -> prove_aead aes_enc_file Delta pub p t za ctxt iv sec kz0 kz = Err) /\
  (forall w ws k a as_ s bs, za_z0 za = w :: ws -> p_gc_z0 (za_a za) = a :: as_ -> p_gc_z0 (za_b za) = s :: bs ->
   Forall2 (carries Delta) w k -> length k = 128%nat -> length kz0 = 128%nat -> length (cz_a t) = length (cz_b t) ->
   (if sec then za_z za = [] else p_open_z (za_a za) = []) -> prove_aead aes_enc_file Delta pub p t za ctxt iv sec kz0 kz = Err).
Proof.
  intros K1 K2 F1 F2 Delta pub p t za ctxt iv sec kz0 kz D0 P1 P2 I1 I2. pose proof (files_cipher_ok key K1 K2) as CIP.
  revert CIP P1. generalize (EK key), (aesE key). intros ek E CIP P1. unfold prove_aead.
  destruct (pf_material_ok aes_enc_file ek E CIP fiv F1 F2 p iv (length ctxt) sec P1 P2 I1 I2) as (n1 & X). rewrite X. cbn [bind]. split.
  - intro H. unfold check_z0. rewrite H. reflexivity.
  - intros w ws k a as_ s bs E1 E2 E3 Fw Lk Lz B Q.
    destruct (check_z0_ok E fiv Delta D0 t za (mk_call iv (length ctxt) sec) kz0 w ws k a as_ s bs B Lz E1 E2 E3 Fw Lk) as (t' & Y & _).
    rewrite Y. cbn [bind]. destruct sec; cbn [negb]; unfold check_z, check_open; cbn [za_z za_a]; [now rewrite Q|].
    unfold pop_z0. cbn. now rewrite Q.
Qed.

(** ** handshake proofs against arrays of the wrong length, and whose shares are added *)
Lemma finished_length s label tau s1 x u : M_Handshake.hs_prf_call s [] M_Handshake.finished_msg_length label tau true = Ok (s1, x) -> length x <> (length u * 8)%nat ->
  (M_Handshake.hs_cufin s1 = Some u -> M_Handshake.prove_client_finished_msg s label tau = Err) /\
  (M_Handshake.hs_sufin s1 = Some u -> M_Handshake.prove_server_finished_msg s label tau = Err).
Proof.
  intros E L. apply Nat.eqb_neq in L.
  unfold M_Handshake.prove_client_finished_msg, M_Handshake.prove_server_finished_msg. rewrite E. cbn [bind].
  split; intro U; rewrite U; cbn [read bind]; unfold M_Handshake.check_bytes; rewrite L; reflexivity.
Qed.
Lemma own_share_fed s pa pb s' x : M_Handshake.pms_addmod s pa pb = Ok (s', x) ->
  exists a b, M_Handshake.pms_int (M_Handshake.hs_q s) pa = Ok a /\ M_Handshake.pms_int (M_Handshake.hs_q s) pb = Ok b /\
    M_Sha256.evs (M_Hmac.sha (M_Handshake.hs_hmac s')) = M_Sha256.evs (M_Hmac.sha (M_Handshake.hs_hmac s)) ++
      [M_Trace.EvFeed M_Trace.ALICE (length a); M_Trace.EvFeed M_Trace.BOB (length b); M_Trace.EvAddmod (length a)] /\
    M_Handshake.hs_zk_pms s' = a.
Proof.
  unfold M_Handshake.pms_addmod. destruct (M_Handshake.pms_int _ pa) as [a| |]; try discriminate. destruct (M_Handshake.pms_int _ pb) as [b| |]; try discriminate.
  cbn [bind]. destruct (M_Addmod.addmod_bn _ _ _) as [v| |]; try discriminate. cbn [bind]. intro E. injection E as <- _. exists a, b. repeat split; reflexivity.
Qed.
