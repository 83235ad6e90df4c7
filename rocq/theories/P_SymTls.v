(** Consequences for whole sessions: tables and inputs line up, the precomputed circuit
    computes the TLS 1.2 keys, and what goes wrong with other seed lengths. *)
From Coq Require Import List NArith ZArith Bool Arith Lia.
From Verif Require Import L_Bits L_Res S_Netlist M_EmpInteger M_Utils M_Bristol M_Bn M_Sym M_SymOn M_SymOff M_SymSess.
From Verif Require Import M_Sha256 M_Hmac M_Handshake M_Aead S_Codec S_Tls P_Sha256Opt P_Hmac P_PrfHist P_Handshake P_Sym P_SymVal.
Import ListNotations.
Local Open Scope N_scope.

(** equal shapes: same garbled tables, same number of input bits of each party *)
Lemma shape_tables t : forall t', shape t = shape t' -> tables t = tables t'.
Proof.
  unfold shape. induction t as [|e t IH]; intros [|e' t'] H; cbn [map] in H; try discriminate H; auto.
  injection H as H1 H2. destruct e, e'; cbn in H1; try discriminate H1; cbn; rewrite (IH _ H2); auto.
  injection H1 as -> ->. reflexivity.
Qed.
Lemma shape_fed p t : forall t', shape t = shape t' -> fed p t = fed p t'.
Proof.
  unfold shape. induction t as [|e t IH]; intros [|e' t'] H; cbn [map] in H; try discriminate H; auto.
  injection H as H1 H2. destruct e, e'; cbn in H1; try discriminate H1; cbn; rewrite (IH _ H2); auto.
  injection H1 as -> E. now rewrite E.
Qed.

Section S.
Variable orc orc' : list nev -> nat -> bool.
Variable junk : nat -> bool.
Variable aes_ks aes_enc : bristol.

Definition agree_runs {A B} (x : res (A * cst)) (y : res (B * cst)) : Prop :=
  match x, y with
  | Ok (_, s), Ok (_, s') =>
      shape (c_tr s) = shape (c_tr s') /\ tables (c_tr s) = tables (c_tr s') /\
      (forall p, fed p (c_tr s) = fed p (c_tr s'))
  | Err, Err => True
  | UB, UB => True
  | _, _ => False
  end.
Lemma same_circuit q r cs : Forall (sizes_ok q r) cs ->
  agree_runs (on_session orc aes_ks aes_enc q r cs cst0)
             (off_session orc' junk aes_ks aes_enc q r (map announce cs) cst0).
Proof.
  intro H. pose proof (sim_session orc orc' junk aes_ks aes_enc q r cs H cst0 cst0 eq_refl eq_refl) as S.
  unfold agree_runs. destruct (on_session _ _ _ _ _ _ _) as [[a s]| |], (off_session _ _ _ _ _ _ _ _) as [[b s']| |]; auto.
  destruct S as (_ & S & _). cbn [snd] in S. split; [exact S|]. split; [apply shape_tables, S|].
  intro p. apply shape_fed, S.
Qed.
End S.

(** the calls of a TLS 1.2 handshake *)
Definition fin_call (o : fin_op) : on_call :=
  match o with FinC l t => NClientFin l t | FinS l t => NServerFin l t end.
Definition tls_calls (pa pb : Z) (rc rs : list N) (sh : option (list N)) (os : list fin_op) : list on_call :=
  (match sh with Some h => NExtMaster pa pb h | None => NMaster pa pb rc rs end)
  :: NExpand rc rs :: map fin_call os.
Definition fin_vd (ms : list N) (o : fin_op) : list N :=
  match o with FinC l t | FinS l t => verify_data ms l t end.

Section T.
Variable aes_ks aes_enc : bristol.
Lemma v_fins os : forall s ms a o w, hinv (str_to_int ms) (hs_mode s) (hs_hmac s) -> Forall fin_wf os ->
  exists s', v_calls aes_ks aes_enc (map fin_call os) (mkVSess s a o w) =
    Ok (mkVSess s' a (o ++ map (fun f => rev (fin_vd ms f)) os) w) /\
    hs_ms s' = hs_ms s /\ hs_cwk s' = hs_cwk s /\ hs_swk s' = hs_swk s /\
    hs_civ s' = hs_civ s /\ hs_siv s' = hs_siv s.
Proof.
  induction os as [|f os IH]; intros s ms a o w Vh F.
  - exists s. cbn. rewrite app_nil_r. auto 10.
  - inversion F as [|f' os' Ff Fos]; subst. cbn [map v_calls].
    destruct f as [l t|l t]; destruct Ff as [Fl Ft]; cbn [fin_call v_do v_hs v_aeads v_out v_sh fin_vd];
    destruct (finished_ok s ms l t Vh Fl Ft) as (p & h & E & V'); rewrite E; cbn [bind].
    + destruct (IH (set_cufin (set_prf s p h) (rev (verify_data ms l t))) ms a (o ++ [rev (verify_data ms l t)]) w V' Fos)
        as (s' & E' & R). rewrite E', <- app_assoc. exists s'. split; [reflexivity|exact R].
    + destruct (IH (set_sufin (set_prf s p h) (rev (verify_data ms l t))) ms a (o ++ [rev (verify_data ms l t)]) w V' Fos)
        as (s' & E' & R). rewrite E', <- app_assoc. exists s'. split; [reflexivity|exact R].
Qed.
Lemma v_tls q rounds pa pb rc rs sh os : (0 <= pa < q)%Z -> (0 <= pb < q)%Z ->
  Forall byte8 rc -> Forall byte8 rs -> opt_wf sh -> Forall fin_wf os ->
  let ms := ms_spec (pms_of q pa pb) rc rs sh in
  let kb := key_block ms rc rs in
  exists s, v_session aes_ks aes_enc q rounds (tls_calls pa pb rc rs sh os) =
      Ok (mkVSess s [] (map (fun f => rev (fin_vd ms f)) os) []) /\
    hs_ms s = str_to_int ms /\
    hs_cwk s = str_to_int (tls_client_key kb) /\ hs_swk s = str_to_int (tls_server_key kb) /\
    hs_civ s = str_to_int (tls_client_iv kb) /\ hs_siv s = str_to_int (tls_server_iv kb).
Proof.
  intros Ha Hb Hc Hs Hh Ho ms kb. unfold v_session, tls_calls. cbn [v_calls].
  assert (X : exists p h, v_do aes_ks aes_enc (mkVSess (hs_new q rounds) [] [] [])
       (match sh with Some h => NExtMaster pa pb h | None => NMaster pa pb rc rs end) =
     Ok (mkVSess (set_ms (after_pms (hs_new q rounds) pa p h) (str_to_int ms)) [] [] []) /\
     hinv (str_to_int (pms_of q pa pb)) (hs_mode (hs_new q rounds)) h).
  { destruct sh as [h|]; cbn [v_do v_hs v_aeads v_out v_sh].
    - destruct (ext_master_ok (hs_new q rounds) pa pb h Ha Hb eq_refl Hh) as (p & h' & m & E & Vh & R).
      exists p, h'. rewrite E, R. split; [|exact Vh]. cbn [hs_new hs_ms bind]. now rewrite app_nil_r.
    - destruct (master_ok (hs_new q rounds) pa pb rc rs Ha Hb eq_refl Hc Hs) as (p & h' & m & E & Vh & R).
      exists p, h'. rewrite E, R. split; [|exact Vh]. cbn [hs_new hs_ms bind]. now rewrite app_nil_r. }
  destruct X as (p & h & E & Vh). rewrite E. cbn [bind]. clear E.
  set (s1 := set_ms _ _). cbn [v_do v_hs v_aeads v_out v_sh].
  destruct (expansion_ok s1 ms rc rs eq_refl (hinv_pos _ _ _ Vh) Hc Hs) as (p2 & h2 & E2 & V2).
  rewrite E2. cbn [bind]. clear E2.
  destruct (v_fins os (with_keys (set_prf s1 p2 h2) (key_block ms rc rs)) ms [] [] [] V2 Ho) as (s' & E' & R1 & R2 & R3 & R4 & R5).
  rewrite E'. exists s'. split; [reflexivity|]. rewrite R1, R2, R3, R4, R5.
  repeat split.
Qed.

(** the sizes fixed by the offline classes, in rounds mode *)
Definition tls_sizes (rc rs : list N) (sh : option (list N)) (os : list fin_op) : Prop :=
  (length rc + length rs = 64)%nat /\
  match sh with Some h => length h = 32%nat | None => True end /\
  Forall (fun o => match o with FinC l t | FinS l t => (length l + length t = 47)%nat end) os.
Lemma tls_sizes_ok q rounds pa pb rc rs sh os : (0 <= pa < q)%Z -> (0 <= pb < q)%Z ->
  (rounds = true -> tls_sizes rc rs sh os) -> Forall (sizes_ok q rounds) (tls_calls pa pb rc rs sh os).
Proof.
  intros Ha Hb H.
  assert (Sa : share_ok q pa) by (apply num_bytes_mono; exact Ha).
  assert (Sb : share_ok q pb) by (apply num_bytes_mono; exact Hb).
  constructor; [|constructor].
  - destruct sh; cbn; (split; [exact Sa|split; [exact Sb|]]); intro R; apply (H R).
  - cbn. intro R; apply (H R).
  - apply Forall_map. destruct rounds.
    + destruct (H eq_refl) as (_ & _ & F). clear H. induction F as [|f l Hf F IH]; constructor; auto.
      destruct f; cbn; auto.
    + clear. induction os as [|f l IH]; constructor; auto. destruct f; cbn; discriminate.
Qed.

(** the offline run of the announced calls, evaluated on the online inputs, gives the TLS
    keys *)
Definition ev (s : cst) (ws : list wire) : list bool := map (wval (vals (c_tr s))) ws.
Lemma tls_offline orc' junk q rounds pa pb rc rs sh os : (0 <= pa < q)%Z -> (0 <= pb < q)%Z ->
  Forall byte8 rc -> Forall byte8 rs -> opt_wf sh -> Forall fin_wf os ->
  (rounds = true -> tls_sizes rc rs sh os) ->
  let ms := ms_spec (pms_of q pa pb) rc rs sh in
  let kb := key_block ms rc rs in
  exists x s y s',
    on_session honest aes_ks aes_enc q rounds (tls_calls pa pb rc rs sh os) cst0 = Ok (x, s) /\
    off_session orc' junk aes_ks aes_enc q rounds (map announce (tls_calls pa pb rc rs sh os)) cst0 = Ok (y, s') /\
    shape (c_tr s) = shape (c_tr s') /\
    ev s (off_ms (fs_hs y)) = str_to_int ms /\
    ev s (off_cwk (fs_hs y)) = str_to_int (tls_client_key kb) /\
    ev s (off_swk (fs_hs y)) = str_to_int (tls_server_key kb) /\
    ev s (off_civ (fs_hs y)) = str_to_int (tls_client_iv kb) /\
    ev s (off_siv (fs_hs y)) = str_to_int (tls_server_iv kb) /\
    os_out x = map (fun o => rev (fin_vd ms o)) os.
Proof.
  intros Ha Hb Hc Hs Hh Ho Hz ms kb.
  destruct (v_tls q rounds pa pb rc rs sh os Ha Hb Hc Hs Hh Ho) as (v & E & R1 & R2 & R3 & R4 & R5).
  fold ms in E, R1, R2, R3, R4, R5. fold kb in R2, R3, R4, R5.
  pose proof (tri_session aes_ks aes_enc q rounds (tls_calls pa pb rc rs sh os)) as T.
  unfold tri in T. rewrite E in T. clear E.
  pose proof (sim_session honest orc' junk aes_ks aes_enc q rounds _ (tls_sizes_ok q rounds pa pb rc rs sh os Ha Hb Hz)
                cst0 cst0 eq_refl eq_refl) as S.
  destruct (on_session _ _ _ _ _ _ _) as [[x s]| |]; try contradiction.
  destruct T as (_ & _ & [T1 _ T3 T4]). cbn [fst snd v_hs v_out] in *.
  destruct (off_session _ _ _ _ _ _ _ _) as [[y s']| |]; try contradiction.
  destruct S as (_ & S & (S1 & _)). cbn [fst snd] in *.
  exists x, s, y, s'. split; [reflexivity|]. split; [reflexivity|]. split; [exact S|].
  destruct S1 as (_ & _ & _ & _ & <- & <- & <- & <- & <-).
  unfold ev. fold (V s).
  rewrite (rel_vals _ _ _ (vms _ _ _ T1)), (rel_vals _ _ _ (vck _ _ _ T1)), (rel_vals _ _ _ (vsk _ _ _ T1)),
    (rel_vals _ _ _ (vci _ _ _ T1)), (rel_vals _ _ _ (vsi _ _ _ T1)). auto 10.
Qed.
End T.

(** * Another seed length in rounds mode *)
(** the requests of a master-secret computation in rounds mode: those before the seed is
    fed do not depend on the randoms *)
Section R.
Variable aes_ks aes_enc : bristol.
Local Opaque on_hinit on_pms siter.
Lemma rounds_feed q pa pb : (0 <= pa < q)%Z -> (0 <= pb < q)%Z -> exists T, forall rc rs,
  Forall byte8 rc -> Forall byte8 rs ->
  exists x s l, on_session honest aes_ks aes_enc q true [NMaster pa pb rc rs] cst0 = Ok (x, s) /\
    c_tr s = l ++ EFeed OA (int_of_array (8 * length (master_key_label ++ rc ++ rs)) 8
                                         (rev (master_key_label ++ rc ++ rs))) :: T.
Proof.
  intros Ha Hb.
  assert (I0 : vhs cst0 (on_hs_new q true) (hs_new q true)) by (repeat (constructor; cbn; auto)).
  assert (W0 : wf cst0) by (split; [reflexivity|exact I]).
  destruct (pms_addmod_ok (hs_new q true) pa pb Ha Hb) as (h0 & E0 & P0).
  pose proof (tri_pms cst0 _ _ pa pb W0 I0) as T1. unfold tri in T1. rewrite E0 in T1.
  destruct (on_pms (on_hs_new q true) pa pb cst0) as [[pms s1]| |] eqn:E1; try contradiction.
  destruct T1 as (W1 & _ & H1 & Hp). cbn [fst snd] in *.
  destruct (hinit_inv h0 (str_to_int (pms_of q pa pb)) (P0 eq_refl)) as (h1 & Eh & Vh).
  pose proof (tri_hinit s1 _ _ _ _ W1 (vhm _ _ _ H1) Hp) as T2. unfold tri in T2.
  cbn [after_pms set_prf set_zk_pms hs_hmac hs_q hs_new] in T2, Hp. rewrite Eh in T2.
  destruct (on_hinit (on_hm (on_hs_new q true)) pms s1) as [[hh s2]| |] eqn:E2; try contradiction.
  destruct T2 as (W2 & _ & H2). cbn [fst snd] in *.
  exists (c_tr s2). intros rc rs Hc Hs.
  destruct (master_ok (hs_new q true) pa pb rc rs Ha Hb eq_refl Hc Hs) as (p & h' & m & E & _ & _).
  assert (R : exists x s, on_session honest aes_ks aes_enc q true [NMaster pa pb rc rs] cst0 = Ok (x, s)).
  { pose proof (tri_session aes_ks aes_enc q true [NMaster pa pb rc rs]) as T. unfold tri in T.
    unfold v_session in T. cbn [v_calls v_do v_hs] in T. rewrite E in T. cbn [bind] in T.
    destruct (on_session _ _ _ _ _ _ _) as [[x s]| |]; try contradiction. eauto. }
  destruct R as (x & s & R). exists x, s.
  (* follow the run *)
  pose proof R as R'. unfold on_session, sfold, on_do, on_master, mbind in R'. cbn [os_hs] in R'.
  rewrite E1 in R'. cbn [bind fst snd] in R'. rewrite E2 in R'. cbn [bind fst snd] in R'.
  unfold on_prf in R'. cbn [on_set_hm on_rounds on_hs_new negb on_hm on_ms] in R'.
  unfold on_rounds_compute, mbind in R'. unfold gfeed in R'. cbn [bind fst snd] in R'.
  set (sd := master_key_label ++ rc ++ rs) in *.
  set (bits := int_of_array (8 * length sd) 8 (rev sd)) in *.
  set (s3 := mkC _ _) in R'. set (A0 := map WId _) in R'.
  assert (T3 : tri s2 (gfeed OA bits) (Ok bits) rel) by (apply tri_gfeed; auto; discriminate).
  unfold tri, gfeed in T3. fold s3 A0 in T3. destruct T3 as (W3 & X3 & H3). cbn [fst snd] in *.
  assert (Vm : vhmac s3 hh h1) by (apply (vhmac_mono s2); auto).
  assert (T4 : tri s3 (siter (prf_blks (master_key_length * 8)) (on_rounds_step A0 true true) (hh, A0, []))
     (iter_res (prf_blks (master_key_length * 8)) (rounds_phash_step bits true true) (h1, bits, [])) vrh).
  { apply (tri_siter2 (fun s => rel s A0 bits) vrh).
    - intros ? ? X1 X2 X3' X4. exact (rel_mono _ _ _ _ X1 X2 X3' X4).
    - intros. apply tri_rounds_step; auto.
    - auto.
    - exact H3.
    - split; [exact Vm|]. split; [exact H3|constructor]. }
  unfold tri in T4.
  destruct (siter _ _ _ s3) as [[[[h4 A4] r4] s4]| |]; cbn [bind fst snd] in R'; try discriminate R'.
  destruct (iter_res _ _ _); try contradiction. destruct T4 as (_ & [l X4] & _). cbn [snd] in X4.
  exists l. split; [exact R|].
  assert (s = s4) as -> by (unfold mret in R'; cbn in R'; congruence).
  rewrite X4. reflexivity.
Qed.

Lemma rounds_len l : length (int_of_array (8 * length l) 8 (rev l)) = (8 * length l)%nat.
Proof.
  unfold int_of_array. rewrite firstn_length.
  rewrite (P_Utils.flat_map_length_const _ 8) by (intro; apply bits_of_N_length). rewrite rev_length. lia.
Qed.

(** 31 bytes of client random instead of 32 *)
Lemma rounds_mismatch q pa pb rc rs orc' junk : (0 <= pa < q)%Z -> (0 <= pb < q)%Z ->
  Forall byte8 rc -> Forall byte8 rs -> (length rc + length rs <> 64)%nat ->
  exists x s y s',
    on_session honest aes_ks aes_enc q true [NMaster pa pb rc rs] cst0 = Ok (x, s) /\
    off_session orc' junk aes_ks aes_enc q true [FMaster] cst0 = Ok (y, s') /\
    shape (c_tr s) <> shape (c_tr s').
Proof.
  intros Ha Hb Hc Hs L.
  destruct (rounds_feed q pa pb Ha Hb) as (T & F).
  destruct (F rc rs Hc Hs) as (x & s & l & E & Et).
  assert (B : Forall byte8 (repeat 0 32)) by (apply Forall_forall; intros z Hz; apply repeat_spec in Hz; subst; reflexivity).
  destruct (F (repeat 0 32) (repeat 0 32) B B) as (x' & s1 & l' & E' & Et').
  assert (Z : Forall (sizes_ok q true) [NMaster pa pb (repeat 0 32) (repeat 0 32)]).
  { constructor; [|constructor]. cbn. split; [apply num_bytes_mono; auto|]. split; [apply num_bytes_mono; auto|].
    reflexivity. }
  pose proof (sim_session honest orc' junk aes_ks aes_enc q true _ Z cst0 cst0 eq_refl eq_refl) as S.
  rewrite E' in S. cbn [map announce] in S.
  destruct (off_session _ _ _ _ _ _ _ _) as [[y s']| |]; try contradiction.
  destruct S as (_ & S & _). cbn [snd] in S.
  exists x, s, y, s'. split; [exact E|]. split; [reflexivity|].
  rewrite <- S, Et, Et'.
  pose proof (rounds_len (master_key_label ++ rc ++ rs)) as L1.
  pose proof (rounds_len (master_key_label ++ repeat 0 32 ++ repeat 0 32)) as L2.
  set (b1 := int_of_array _ _ (rev (master_key_label ++ rc ++ rs))) in *.
  set (b2 := int_of_array _ _ (rev (master_key_label ++ repeat 0 32 ++ repeat 0 32))) in *.
  rewrite !app_length in L1, L2. rewrite !repeat_length in L2.
  assert (L3 : length b1 <> length b2) by (clearbody b1 b2; lia). clearbody b1 b2. clear - L3.
  unfold shape. rewrite !map_app. cbn [map shape1].
  intro H. apply (f_equal (@rev _)) in H. rewrite !rev_app_distr in H. cbn [rev] in H.
  rewrite <- !app_assoc in H. cbn [app] in H.
  apply (f_equal (skipn (length (rev (map shape1 T))))) in H.
  rewrite !skipn_app, !Nat.sub_diag, !skipn_all in H. cbn [app skipn] in H. injection H as H _. lia.
Qed.
End R.
Lemma seed_length_refuted aes_ks aes_enc orc' junk : exists q pa pb rc rs x s y s',
  on_session honest aes_ks aes_enc q true [NMaster pa pb rc rs] cst0 = Ok (x, s) /\
  off_session orc' junk aes_ks aes_enc q true (map announce [NMaster pa pb rc rs]) cst0 = Ok (y, s') /\
  shape (c_tr s) <> shape (c_tr s').
Proof.
  assert (B : forall n, Forall byte8 (repeat 1 n)) by (intro; apply Forall_forall; intros z Hz; apply repeat_spec in Hz; subst; reflexivity).
  exists 251%Z, 200%Z, 100%Z, (repeat 1 31), (repeat 1 32).
  apply rounds_mismatch; auto; try (split; reflexivity || discriminate).
Qed.
Lemma online_values aes_ks aes_enc q rounds cs :
  match on_session honest aes_ks aes_enc q rounds cs cst0, v_session aes_ks aes_enc q rounds cs with
  | Ok (x, s), Ok v =>
      ev s (on_ms (os_hs x)) = hs_ms (v_hs v) /\
      ev s (on_cwk (os_hs x)) = hs_cwk (v_hs v) /\ ev s (on_swk (os_hs x)) = hs_swk (v_hs v) /\
      ev s (on_civ (os_hs x)) = hs_civ (v_hs v) /\ ev s (on_siv (os_hs x)) = hs_siv (v_hs v) /\
      os_out x = v_out v /\ map (ev s) (os_sh x) = v_sh v
  | Err, Err => True
  | UB, UB => True
  | _, _ => False
  end.
Proof.
  pose proof (tri_session aes_ks aes_enc q rounds cs) as T. unfold tri in T.
  destruct (on_session _ _ _ _ _ _ _) as [[x s]| |], (v_session _ _ _ _ _) as [v| |]; auto.
  destruct T as (_ & _ & [T1 _ T3 T4]). cbn [fst snd] in *. unfold ev. fold (V s).
  rewrite (rel_vals _ _ _ (vms _ _ _ T1)), (rel_vals _ _ _ (vck _ _ _ T1)), (rel_vals _ _ _ (vsk _ _ _ T1)),
    (rel_vals _ _ _ (vci _ _ _ T1)), (rel_vals _ _ _ (vsi _ _ _ T1)). repeat split; auto.
  clear - T4. induction T4 as [|a b l l' H F IH]; [reflexivity|]. cbn [map]. rewrite <- IH. f_equal. exact (rel_vals _ _ _ H).
Qed.
