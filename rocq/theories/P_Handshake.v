(** The handshake derives the TLS 1.2 key schedule (C32). *)
From Coq Require Import List NArith ZArith Bool Arith Lia.
From Verif Require Import L_Bits L_Res L_Str M_EmpInteger M_Trace M_Utils M_Sha256 M_Hmac M_Bn M_Addmod M_Handshake.
From Verif Require Import S_Sha256 S_Hmac S_Codec S_Tls P_Sha256 P_Sha256Msg P_Sha256Opt P_Hmac P_Prf P_PrfHist P_Utils P_Bn P_Addmod.
Import ListNotations.
Local Opaque chunk_compress plain_chunk_compress compress prf_bytes ascii_bytes.
Arguments hs_prf_call : simpl never.

Definition byte8 (b : N) : Prop := (b < 256)%N.

(** * Bits and bytes *)
Lemma bytes_bits_inv b k : length b = (8 * k)%nat -> bits_of_bytes (bytes_of_bits b) = b.
Proof.
  intro L. unfold bytes_of_bits, bits_of_bytes.
  transitivity (concat (chunks 8 b)); [|apply chunks_concat; lia].
  assert (F := chunks_all_length 8 b k ltac:(lia) L).
  induction F as [|c l Hc F IH]; [reflexivity|]. cbn [map flat_map concat]. f_equal; [|exact IH].
  unfold bits_of_byte. now apply be_of_N_of_be.
Qed.

Lemma rev_str b s : rev b = bits_of_bytes s -> b = str_to_int s.
Proof. intro H. rewrite <- (rev_involutive b), H, <- str_to_int_bits. apply rev_involutive. Qed.

Lemma prf_bytes_bits n key label seed :
  bits_of_bytes (prf_bytes n key label seed) =
  prf (8 * n) (bits_of_bytes key) (bits_of_bytes label) (bits_of_bytes seed).
Proof. Local Transparent prf_bytes. unfold prf_bytes. apply (bytes_bits_inv _ n). apply prf_length. Local Opaque prf_bytes. Qed.

Lemma str_length s : length (str_to_int s) = (8 * length s)%nat.
Proof. rewrite <- rev_length, str_to_int_bits. apply bits_of_bytes_length. Qed.

Lemma str_array s : str_to_int s = flat_map (bits_of_N 8) (rev s).
Proof.
  unfold str_to_int, int_of_array. apply firstn_all2.
  rewrite (flat_map_length_const _ 8) by (intro; apply bits_of_N_length). rewrite rev_length. lia.
Qed.

Lemma reveal_str s : Forall byte8 s -> reveal_as 8 (str_to_int s) = rev s.
Proof.
  intro F. rewrite str_array. unfold reveal_as.
  rewrite chunks_flat_map by (try lia; intro; apply bits_of_N_length). rewrite map_map.
  rewrite <- (map_id (rev s)) at 2. apply map_ext_in. intros a Ha.
  apply N_of_bits_of_N_small. apply in_rev in Ha. rewrite Forall_forall in F. exact (F a Ha).
Qed.

Lemma str_value s : Forall byte8 s -> N_of_bits (str_to_int s) = be_val s.
Proof. intro F. exact (proj1 (str_to_int_value s F)). Qed.

Lemma bits_of_bytes_slice s off len : 
  bits_of_bytes (slice off len s) = firstn (8 * len) (skipn (8 * off) (bits_of_bytes s)).
Proof.
  unfold slice.
  assert (S0 : forall s k, bits_of_bytes (skipn k s) = skipn (8 * k) (bits_of_bytes s)).
  { induction s0 as [|a s0 IH]; intro k; [rewrite !skipn_nil; reflexivity|].
    destruct k; [reflexivity|]. cbn [skipn]. rewrite IH.
    replace (8 * S k)%nat with (8 * k + 8)%nat by lia. rewrite <- skipn_skipn. reflexivity. }
  assert (T : forall s k, bits_of_bytes (firstn k s) = firstn (8 * k) (bits_of_bytes s)).
  { induction s0 as [|a s0 IH]; intro k; [rewrite !firstn_nil; reflexivity|].
    destruct k; [reflexivity|]. cbn [firstn]. change (bits_of_bytes (a :: ?l)) with (bits_of_byte a ++ bits_of_bytes l).
    rewrite IH. rewrite firstn_app. unfold bits_of_byte. rewrite be_of_N_length.
    replace (8 * S k - 8)%nat with (8 * k)%nat by lia. f_equal.
    symmetry. apply firstn_all2. rewrite be_of_N_length. lia. }
  now rewrite T, S0.
Qed.

Lemma extract_str s off len o l : o = (8 * off)%nat -> l = (8 * len)%nat -> (off + len <= length s)%nat ->
  extract_integer (str_to_int s) o l = Ok (str_to_int (slice off len s)).
Proof.
  intros -> -> H. unfold extract_integer. rewrite str_length.
  rewrite (proj2 (Nat.leb_le _ _)) by lia. f_equal. apply rev_str.
  rewrite bits_of_bytes_slice, <- str_to_int_bits.
  assert (L := str_length s). set (x := str_to_int s) in *. clearbody x.
  rewrite skipn_rev, firstn_rev, !firstn_length, L. 
  replace (Nat.min (8 * length s - 8 * off) (8 * length s) - 8 * len)%nat
     with (8 * length s - 8 * off - 8 * len)%nat by lia.
  f_equal. rewrite firstn_skipn_comm. f_equal. f_equal. lia.
Qed.

Lemma split_keys_ok kb : length kb = 40%nat ->
  split_keys (str_to_int kb) =
  Ok (str_to_int (tls_client_key kb), str_to_int (tls_server_key kb),
      str_to_int (tls_client_iv kb), str_to_int (tls_server_iv kb)).
Proof.
  intro L. unfold split_keys.
  rewrite (extract_str kb 0 16) by (try reflexivity; rewrite L; apply Nat.leb_le; reflexivity). cbn [bind].
  rewrite (extract_str kb 16 16) by (try reflexivity; rewrite L; apply Nat.leb_le; reflexivity). cbn [bind].
  rewrite (extract_str kb 32 4) by (try reflexivity; rewrite L; apply Nat.leb_le; reflexivity). cbn [bind].
  rewrite (extract_str kb 36 4) by (try reflexivity; rewrite L; apply Nat.leb_le; reflexivity). reflexivity.
Qed.

Lemma prf_bytes_length n key label seed : length (prf_bytes n key label seed) = n.
Proof.
  assert (H := f_equal (@length bool) (prf_bytes_bits n key label seed)).
  rewrite bits_of_bytes_length, prf_length in H. lia.
Qed.

Lemma bytes_of_bits_byte b : Forall (fun c => (length c <= 8)%nat) (chunks 8 b) -> Forall byte8 (bytes_of_bits b).
Proof.
  intro F. unfold bytes_of_bits. apply Forall_map. eapply Forall_impl; [|exact F].
  intros a Ha. unfold byte8, N_of_be. eapply N.lt_le_trans; [apply N_of_bits_lt|].
  cbv beta in Ha. rewrite rev_length. change 256%N with (2 ^ 8)%N. apply N.pow_le_mono_r; lia.
Qed.

Lemma prf_bytes_byte n key label seed : Forall byte8 (prf_bytes n key label seed).
Proof.
  Local Transparent prf_bytes. unfold prf_bytes. Local Opaque prf_bytes. apply bytes_of_bits_byte.
  eapply Forall_impl; [|apply (chunks_all_length 8 _ n); [lia|apply prf_length]]. cbv beta. lia.
Qed.

(** * The pre-master secret *)
Lemma be_enc_pad n : forall k x, (x < 256 ^ N.of_nat n)%N -> be_enc (k + n) x = repeat 0%N k ++ be_enc n x.
Proof.
  induction k; intros x H; [reflexivity|]. cbn [Nat.add repeat app]. rewrite be_enc_step, IHk by exact H.
  f_equal. rewrite N.div_small; [reflexivity|]. eapply N.lt_le_trans; [exact H|].
  apply N.pow_le_mono_r; lia.
Qed.

Lemma num_bytes_mono x q : (0 <= x < q)%Z -> (BN_num_bytes x <= BN_num_bytes q)%nat.
Proof.
  intro H. apply num_bytes_least. eapply N.lt_trans; [|apply num_bytes_bound]. lia.
Qed.

Lemma pms_int_ok q x : (0 <= x < q)%Z ->
  pms_int q x = Ok (str_to_int (be_enc (BN_num_bytes q) (Z.to_N x))).
Proof.
  intro H. assert (M := num_bytes_mono x q H). unfold pms_int.
  rewrite (proj2 (Nat.ltb_ge _ _)) by exact M.
  unfold BN_bn2bin. rewrite be_bytes_enc.
  assert (B := num_bytes_bound x).
  replace (Z.abs_N x) with (Z.to_N x) in * by lia.
  rewrite <- be_enc_pad by exact B.
  replace (BN_num_bytes q - BN_num_bytes x + BN_num_bytes x)%nat with (BN_num_bytes q) by lia.
  unfold str_to_int. rewrite be_enc_length. reflexivity.
Qed.

Lemma be_enc_value n x : (x < 256 ^ N.of_nat n)%N -> N_of_bits (str_to_int (be_enc n x)) = x.
Proof. intro H. rewrite str_value by apply be_enc_bytes. rewrite be_val_enc. now apply N.mod_small. Qed.

Lemma lt_num_bytes x q : (0 <= x < q)%Z -> (Z.to_N x < 256 ^ N.of_nat (BN_num_bytes q))%N.
Proof. intro H. eapply N.lt_trans; [|apply (num_bytes_bound q)]. lia. Qed.

Lemma addmod_shares q a b : (0 <= a < q)%Z -> (0 <= b < q)%Z ->
  addmod_bn (str_to_int (be_enc (BN_num_bytes q) (Z.to_N a))) (str_to_int (be_enc (BN_num_bytes q) (Z.to_N b))) q =
  Ok (str_to_int (be_enc (BN_num_bytes q) (Z.to_N ((a + b) mod q)))).
Proof.
  intros Ha Hb.
  assert (Hm := Z.mod_pos_bound (a + b) q ltac:(lia)).
  destruct (addmod_bn_ok (str_to_int (be_enc (BN_num_bytes q) (Z.to_N a)))
     (str_to_int (be_enc (BN_num_bytes q) (Z.to_N b))) q) as (r & E & L & V).
  - lia.
  - now rewrite str_length, be_enc_length.
  - now rewrite str_length, be_enc_length.
  - rewrite !be_enc_value by (apply lt_num_bytes; assumption). lia.
  - rewrite E. f_equal. apply N_of_bits_inj.
    + now rewrite str_length, be_enc_length.
    + rewrite !be_enc_value by (apply lt_num_bytes; assumption).
      rewrite !be_enc_value in V by (apply lt_num_bytes; assumption).
      rewrite !Z2N.id in V by lia. rewrite <- V. now rewrite N2Z.id.
Qed.

(** * One derivation *)
Definition hs_mode (s : hs) : hmode := if hs_rounds s then UseRounds else UseOpt.

Lemma hs_prf_call_ok s key m r n label seed :
  hinv key m (hs_hmac s) -> (m = Fresh \/ m = hs_mode s) -> Forall byte8 label -> Forall byte8 seed ->
  exists p h r', hs_prf_call s r n label seed false = Ok (set_prf s p h, r') /\
    hinv key (hs_mode s) h /\
    rev r' = rev r ++ prf (8 * n) (rev key) (bits_of_bytes label) (bits_of_bytes seed).
Proof.
  intros V Hm Hl Hs. unfold hs_prf_call, hs_mode in *. rewrite (Nat.mul_comm n 8).
  destruct (hs_rounds s) eqn:R; cbn [negb].
  - unfold prf_opt_rounds_compute.
    destruct (rounds_phash_ok key m (hs_hmac s) r (8 * n) (label ++ seed) true true V) as (h & r' & E & V' & Q).
    { intros _. destruct Hm; congruence. }
    rewrite E. cbn [bind]. eexists _, _, _. split; [reflexivity|]. split; [exact V'|].
    rewrite Q. unfold prf. now rewrite bits_of_bytes_app.
  - unfold prf_opt_compute.
    destruct (opt_phash_ok key m (hs_prf s) (hs_hmac s) r (8 * n) (label ++ seed) true true V)
      as (h & r' & E & V' & Q).
    { apply Forall_app; auto. }
    { intros _. destruct Hm; congruence. }
    rewrite E. cbn [bind]. eexists _, _, _. split; [reflexivity|]. split; [exact V'|].
    rewrite Q. unfold prf. now rewrite bits_of_bytes_app.
Qed.

Lemma hs_prf_call_str s k m n label seed :
  hinv (str_to_int k) m (hs_hmac s) -> (m = Fresh \/ m = hs_mode s) -> Forall byte8 label -> Forall byte8 seed ->
  exists p h, hs_prf_call s [] n label seed false = Ok (set_prf s p h, str_to_int (prf_bytes n k label seed)) /\
    hinv (str_to_int k) (hs_mode s) h.
Proof.
  intros V Hm Hl Hs. destruct (hs_prf_call_ok s _ m [] n label seed V Hm Hl Hs) as (p & h & r & E & V' & R).
  exists p, h. split; [|exact V']. rewrite E. repeat f_equal. apply rev_str.
  rewrite R. cbn [rev app]. now rewrite prf_bytes_bits, str_to_int_bits.
Qed.

Lemma hinv_pos key m h : hinv key m h -> pos (sha h) = (Z.of_nat (length (iv_in_hashes (sha h))) - 1)%Z.
Proof. apply hi_pos. Qed.

Definition pos_ok (h : hmac_st) : Prop := pos (sha h) = (Z.of_nat (length (iv_in_hashes (sha h))) - 1)%Z.

(** the state after the first half: everything but the hash state and zk_pms unchanged *)
Definition after_pms (s : hs) (pa : Z) (p : prf_st) (h : hmac_st) : hs :=
  set_prf (set_zk_pms s (str_to_int (be_enc (BN_num_bytes (hs_q s)) (Z.to_N pa)))) p h.

Definition pms_of (q pa pb : Z) : list N := premaster (BN_num_bytes q) (Z.to_N ((pa + pb) mod q)).

Lemma pms_addmod_ok s pa pb : (0 <= pa < hs_q s)%Z -> (0 <= pb < hs_q s)%Z ->
  exists h, pms_addmod s pa pb = Ok (after_pms s pa (hs_prf s) h, str_to_int (pms_of (hs_q s) pa pb)) /\
    (pos_ok (hs_hmac s) -> pos_ok h).
Proof.
  intros Ha Hb. unfold pms_addmod. rewrite !pms_int_ok by assumption. cbn [bind].
  cbn [set_prf set_zk_pms hs_q hs_prf hs_hmac].
  rewrite addmod_shares by assumption. cbn [bind].
  eexists. split; [reflexivity|]. intro P. exact P.
Qed.

Lemma init_call s key r n label seed :
  pos_ok (hs_hmac s) -> Forall byte8 label -> Forall byte8 seed ->
  exists p h r', (let* h := prf_init (hs_hmac s) key in
     hs_prf_call (set_prf s (hs_prf s) h) r n label seed false)%res = Ok (set_prf s p h, r') /\
    hinv key (hs_mode s) h /\
    rev r' = rev r ++ prf (8 * n) (rev key) (bits_of_bytes label) (bits_of_bytes seed).
Proof.
  intros P Hl Hs. destruct (hinit_inv (hs_hmac s) key P) as (h1 & E1 & V1).
  unfold prf_init. rewrite E1. cbn [bind].
  destruct (hs_prf_call_ok (set_prf s (hs_prf s) h1) key Fresh r n label seed V1 (or_introl eq_refl) Hl Hs)
    as (p & h & r' & E & V & R).
  exists p, h, r'. split; [exact E|]. split; [exact V|exact R].
Qed.

(** * The derivations of a session *)
Lemma master_ok s pa pb rc rs : (0 <= pa < hs_q s)%Z -> (0 <= pb < hs_q s)%Z ->
  pos_ok (hs_hmac s) -> Forall byte8 rc -> Forall byte8 rs ->
  exists p h ms, compute_master_key s pa pb rc rs = Ok (set_ms (after_pms s pa p h) ms) /\
    hinv (str_to_int (pms_of (hs_q s) pa pb)) (hs_mode s) h /\
    ms = str_to_int (master_secret (pms_of (hs_q s) pa pb) rc rs) ++ hs_ms s.
Proof.
  intros Ha Hb P Hc Hs. unfold compute_master_key.
  destruct (pms_addmod_ok s pa pb Ha Hb) as (h0 & E0 & P0). rewrite E0. cbn [bind].
  destruct (init_call (after_pms s pa (hs_prf s) h0) (str_to_int (pms_of (hs_q s) pa pb)) (hs_ms s)
    master_key_length master_key_label (rc ++ rs) (P0 P)) as (p & h & r & E & V & R).
  { apply ascii_bytes_byte. }
  { apply Forall_app; auto. }
  cbn [after_pms set_prf set_zk_pms hs_ms hs_hmac hs_prf] in *.
  destruct (prf_init h0 (str_to_int (pms_of (hs_q s) pa pb))) as [h1| |]; [|discriminate|discriminate].
  cbn [bind] in *. rewrite E. cbn [bind].
  exists p, h, r. split; [reflexivity|]. split; [exact V|].
  rewrite <- (rev_involutive r), R, rev_app_distr, rev_involutive. f_equal.
  apply rev_str. rewrite rev_involutive. unfold master_secret. now rewrite prf_bytes_bits, str_to_int_bits.
Qed.

Lemma ext_master_ok s pa pb sh : (0 <= pa < hs_q s)%Z -> (0 <= pb < hs_q s)%Z ->
  pos_ok (hs_hmac s) -> Forall byte8 sh ->
  exists p h ms, compute_extended_master_key s pa pb sh = Ok (set_ms (after_pms s pa p h) ms) /\
    hinv (str_to_int (pms_of (hs_q s) pa pb)) (hs_mode s) h /\
    ms = str_to_int (extended_master_secret (pms_of (hs_q s) pa pb) sh) ++ hs_ms s.
Proof.
  intros Ha Hb P Hs. unfold compute_extended_master_key.
  destruct (pms_addmod_ok s pa pb Ha Hb) as (h0 & E0 & P0). rewrite E0. cbn [bind].
  destruct (init_call (after_pms s pa (hs_prf s) h0) (str_to_int (pms_of (hs_q s) pa pb)) (hs_ms s)
    extended_master_key_length extended_master_key_label sh (P0 P)) as (p & h & r & E & V & R).
  { apply ascii_bytes_byte. }
  { assumption. }
  cbn [after_pms set_prf set_zk_pms hs_ms hs_hmac hs_prf] in *.
  destruct (prf_init h0 (str_to_int (pms_of (hs_q s) pa pb))) as [h1| |]; [|discriminate|discriminate].
  cbn [bind] in *. rewrite E. cbn [bind].
  exists p, h, r. split; [reflexivity|]. split; [exact V|].
  rewrite <- (rev_involutive r), R, rev_app_distr, rev_involutive. f_equal.
  apply rev_str. rewrite rev_involutive. unfold extended_master_secret. now rewrite prf_bytes_bits, str_to_int_bits.
Qed.

Definition with_keys (s : hs) (kb : list N) : hs :=
  set_keys s (str_to_int (tls_client_key kb)) (str_to_int (tls_server_key kb))
             (str_to_int (tls_client_iv kb)) (str_to_int (tls_server_iv kb)).

Lemma expansion_ok s ms rc rs : hs_ms s = str_to_int ms ->
  pos_ok (hs_hmac s) -> Forall byte8 rc -> Forall byte8 rs ->
  exists p h, compute_expansion_keys s rc rs = Ok (with_keys (set_prf s p h) (key_block ms rc rs)) /\
    hinv (str_to_int ms) (hs_mode s) h.
Proof.
  intros Em P Hc Hs. unfold compute_expansion_keys. rewrite Em.
  destruct (init_call s (str_to_int ms) [] expansion_key_length key_expansion_label (rs ++ rc) P)
    as (p & h & r & E & V & R).
  { apply ascii_bytes_byte. }
  { apply Forall_app; auto. }
  destruct (prf_init (hs_hmac s) (str_to_int ms)) as [h1| |]; [|discriminate|discriminate].
  cbn [bind] in *. rewrite E. cbn [bind].
  assert (X : r = str_to_int (key_block ms rc rs)).
  { apply rev_str. rewrite R. unfold key_block. cbn [rev app]. now rewrite prf_bytes_bits, str_to_int_bits. }
  rewrite X, split_keys_ok by apply prf_bytes_length. cbn [bind].
  exists p, h. split; [reflexivity|exact V].
Qed.

Lemma finished_ok s ms label tau : hinv (str_to_int ms) (hs_mode s) (hs_hmac s) ->
  Forall byte8 label -> Forall byte8 tau ->
  exists p h, finished_bytes s label tau = Ok (set_prf s p h, rev (verify_data ms label tau)) /\
    hinv (str_to_int ms) (hs_mode s) h.
Proof.
  intros V Hl Ht. unfold finished_bytes.
  destruct (hs_prf_call_str s ms (hs_mode s) finished_msg_length label tau V (or_intror eq_refl) Hl Ht)
    as (p & h & E & V'). rewrite E. cbn [bind].
  exists p. eexists. split.
  - cbn [set_prf hs_prf hs_hmac]. rewrite reveal_str by apply prf_bytes_byte. reflexivity.
  - now apply hinv_log.
Qed.

(** * Whole sessions *)
(** plain ([None]) or extended ([Some session_hash]) master secret *)
Definition compute_ms (s : hs) (pa pb : Z) (rc rs : list N) (sh : option (list N)) : res hs :=
  match sh with
  | Some h => compute_extended_master_key s pa pb h
  | None => compute_master_key s pa pb rc rs
  end.
Definition ms_spec (pms rc rs : list N) (sh : option (list N)) : list N :=
  match sh with
  | Some h => extended_master_secret pms h
  | None => master_secret pms rc rs
  end.

(** Finished computations in any number and order *)
Inductive fin_op := FinC (label tau : list N) | FinS (label tau : list N).
Definition fin_step (s : hs) (o : fin_op) : res hs :=
  match o with
  | FinC l t => compute_client_finished_msg s l t
  | FinS l t => compute_server_finished_msg s l t
  end.
Fixpoint fin_run (s : hs) (os : list fin_op) : res hs :=
  match os with
  | [] => Ok s
  | o :: t => (let* s := fin_step s o in fin_run s t)%res
  end.
Definition fin_wf (o : fin_op) : Prop :=
  match o with FinC l t | FinS l t => Forall byte8 l /\ Forall byte8 t end.
(** the last value of each kind, in the order the code stores the bytes *)
Fixpoint fin_spec (ms : list N) (os : list fin_op) (c s : option (list N)) : option (list N) * option (list N) :=
  match os with
  | [] => (c, s)
  | FinC l t :: os => fin_spec ms os (Some (rev (verify_data ms l t))) s
  | FinS l t :: os => fin_spec ms os c (Some (rev (verify_data ms l t)))
  end.

Definition session (q : Z) (rounds : bool) (pa pb : Z) (rc rs : list N) (sh : option (list N))
           (os : list fin_op) : res hs :=
  (let* s := compute_ms (store_pms (hs_new q rounds) pa pb) pa pb rc rs sh in
   let* s := compute_expansion_keys s rc rs in
   fin_run s os)%res.

Definition opt_wf (sh : option (list N)) : Prop := match sh with Some h => Forall byte8 h | None => True end.

Lemma fin_run_ok os : forall s ms, hinv (str_to_int ms) (hs_mode s) (hs_hmac s) -> Forall fin_wf os ->
  exists p h c u, fin_run s os = Ok (mkHs (hs_q s) (hs_rounds s) h p (hs_zk_pms s) (hs_bna s) (hs_bnb s) (hs_ms s)
       (hs_cwk s) (hs_swk s) (hs_civ s) (hs_siv s) c u (hs_zk s)) /\
    hinv (str_to_int ms) (hs_mode s) h /\ (c, u) = fin_spec ms os (hs_cufin s) (hs_sufin s).
Proof.
  induction os as [|o os IH]; intros s ms V F.
  - cbn [fin_run fin_spec]. exists (hs_prf s), (hs_hmac s), (hs_cufin s), (hs_sufin s).
    split; [destruct s; reflexivity|]. auto.
  - inversion F as [|o' os' Fo Fos]; subst. cbn [fin_run fin_spec].
    destruct o as [l t|l t]; destruct Fo as [Fl Ft]; cbn [fin_step].
    + unfold compute_client_finished_msg.
      destruct (finished_ok s ms l t V Fl Ft) as (p & h & E & V'). rewrite E. cbn [bind].
      destruct (IH (set_cufin (set_prf s p h) (rev (verify_data ms l t))) ms V' Fos) as (p2 & h2 & c & u & E2 & V2 & S2).
      rewrite E2. exists p2, h2, c, u. split; [reflexivity|]. split; [exact V2|exact S2].
    + unfold compute_server_finished_msg.
      destruct (finished_ok s ms l t V Fl Ft) as (p & h & E & V'). rewrite E. cbn [bind].
      destruct (IH (set_sufin (set_prf s p h) (rev (verify_data ms l t))) ms V' Fos) as (p2 & h2 & c & u & E2 & V2 & S2).
      rewrite E2. exists p2, h2, c, u. split; [reflexivity|]. split; [exact V2|exact S2].
Qed.

Theorem session_ok q rounds pa pb rc rs sh os : (0 <= pa < q)%Z -> (0 <= pb < q)%Z ->
  Forall byte8 rc -> Forall byte8 rs -> opt_wf sh -> Forall fin_wf os ->
  let ms := ms_spec (pms_of q pa pb) rc rs sh in
  let kb := key_block ms rc rs in
  exists s, session q rounds pa pb rc rs sh os = Ok s /\
    hs_ms s = str_to_int ms /\
    hs_cwk s = str_to_int (tls_client_key kb) /\ hs_swk s = str_to_int (tls_server_key kb) /\
    hs_civ s = str_to_int (tls_client_iv kb) /\ hs_siv s = str_to_int (tls_server_iv kb) /\
    (hs_cufin s, hs_sufin s) = fin_spec ms os None None.
Proof.
  intros Ha Hb Hc Hs Hh Ho ms kb. unfold session.
  assert (X : exists p h, compute_ms (store_pms (hs_new q rounds) pa pb) pa pb rc rs sh =
     Ok (set_ms (after_pms (store_pms (hs_new q rounds) pa pb) pa p h) (str_to_int ms)) /\
     hinv (str_to_int (pms_of q pa pb)) (hs_mode (hs_new q rounds)) h).
  { destruct sh as [h|]; cbn [compute_ms].
    - destruct (ext_master_ok (store_pms (hs_new q rounds) pa pb) pa pb h Ha Hb eq_refl Hh) as (p & h' & m & E & V & R).
      exists p, h'. rewrite E, R. split; [|exact V]. cbn [hs_new store_pms set_bn hs_ms]. now rewrite app_nil_r.
    - destruct (master_ok (store_pms (hs_new q rounds) pa pb) pa pb rc rs Ha Hb eq_refl Hc Hs) as (p & h' & m & E & V & R).
      exists p, h'. rewrite E, R. split; [|exact V]. cbn [hs_new store_pms set_bn hs_ms]. now rewrite app_nil_r. }
  destruct X as (p & h & E & V). rewrite E. cbn [bind]. clear E.
  match goal with |- context [compute_expansion_keys ?t rc rs] => set (s1 := t) end.
  destruct (expansion_ok s1 ms rc rs eq_refl (hinv_pos _ _ _ V) Hc Hs) as (p2 & h2 & E2 & V2).
  rewrite E2. cbn [bind]. clear E2.
  destruct (fin_run_ok os (with_keys (set_prf s1 p2 h2) (key_block ms rc rs)) ms V2 Ho) as (p3 & h3 & c & u & E3 & V3 & S3).
  rewrite E3. eexists. split; [reflexivity|]. cbn [hs_ms hs_cwk hs_swk hs_civ hs_siv hs_cufin hs_sufin].
  split; [reflexivity|]. split; [reflexivity|]. split; [reflexivity|]. split; [reflexivity|].
  split; [reflexivity|]. exact S3.
Qed.

(** * The server Finished check (C33) *)
Lemma check_finished_iff s vd msg res1 : hs_sufin s = Some (rev vd) -> length vd = 12%nat -> length msg = 12%nat ->
  check_server_finished s msg res1 = Ok true <-> res1 = true /\ msg = rev vd.
Proof.
  intros E L M. unfold check_server_finished. rewrite E. cbn [read bind].
  change finished_msg_length with 12%nat.
  rewrite !firstn_all2 by (rewrite ?rev_length; lia).
  destruct (list_eq_dec N.eq_dec msg (rev vd)) as [->|D].
  - rewrite andb_true_r. split; [intros [= ->]; auto|intros [-> _]; reflexivity].
  - rewrite andb_false_r. split; [discriminate|intros [_ ?]; contradiction].
Qed.

(** a session of size one byte, small enough to evaluate *)
Definition ex_ms : list N := master_secret (pms_of 251 200 100) [1; 2]%N [3; 4]%N.
Local Transparent prf_bytes compress ascii_bytes.
Lemma ex_vd_not_palindrome :
  server_verify_data ex_ms [5; 6]%N <> rev (server_verify_data ex_ms [5; 6]%N).
Proof. vm_compute. discriminate. Qed.
Local Opaque prf_bytes compress ascii_bytes.

Theorem finished_rejected : exists q pa pb rc rs tau s,
  session q false pa pb rc rs None [FinC client_finished_label tau; FinS server_finished_label tau] = Ok s /\
  check_server_finished s (server_verify_data (master_secret (pms_of q pa pb) rc rs) tau) true = Ok false.
Proof.
  exists 251%Z, 200%Z, 100%Z, [1; 2]%N, [3; 4]%N, [5; 6]%N.
  assert (B : forall a b, (a < 256)%N -> (b < 256)%N -> Forall byte8 [a; b]) by (intros; repeat constructor; assumption).
  destruct (session_ok 251 false 200 100 [1; 2]%N [3; 4]%N None
    [FinC client_finished_label [5; 6]%N; FinS server_finished_label [5; 6]%N])
    as (s & E & _ & _ & _ & _ & _ & F); try lia; try (apply B; reflexivity).
  { exact I. }
  { constructor; [|constructor; [|constructor]]; (split; [apply ascii_bytes_byte|apply B; reflexivity]). }
  exists s. split; [exact E|]. cbn [fin_spec ms_spec] in F. injection F as _ F.
  fold ex_ms in F. fold ex_ms.
  destruct (check_server_finished s (server_verify_data ex_ms [5; 6]%N) true) as [[|]| |] eqn:C.
  - exfalso. apply (check_finished_iff s _ _ _ F) in C.
    + destruct C as [_ C]. exact (ex_vd_not_palindrome C).
    + apply prf_bytes_length.
    + apply prf_bytes_length.
  - reflexivity.
  - unfold check_server_finished in C. rewrite F in C. discriminate.
  - unfold check_server_finished in C. rewrite F in C. discriminate.
Qed.

(** * Order of the calls (C62, C63) *)
Lemma finished_before_expansion q rounds pa pb rc rs sh label tau : (0 <= pa < q)%Z -> (0 <= pb < q)%Z ->
  Forall byte8 rc -> Forall byte8 rs -> opt_wf sh -> Forall byte8 label -> Forall byte8 tau ->
  exists s, (let* s := compute_ms (store_pms (hs_new q rounds) pa pb) pa pb rc rs sh in
             compute_client_finished_msg s label tau)%res = Ok s /\
    hs_cufin s = Some (rev (verify_data (pms_of q pa pb) label tau)).
Proof.
  intros Ha Hb Hc Hs Hh Hl Ht.
  assert (X : exists s1, compute_ms (store_pms (hs_new q rounds) pa pb) pa pb rc rs sh = Ok s1 /\
     hinv (str_to_int (pms_of q pa pb)) (hs_mode s1) (hs_hmac s1)).
  { destruct sh as [h|]; cbn [compute_ms].
    - destruct (ext_master_ok (store_pms (hs_new q rounds) pa pb) pa pb h Ha Hb eq_refl Hh) as (p & h' & m & E & V & R). eauto.
    - destruct (master_ok (store_pms (hs_new q rounds) pa pb) pa pb rc rs Ha Hb eq_refl Hc Hs) as (p & h' & m & E & V & R). eauto. }
  destruct X as (s1 & E & V). rewrite E. cbn [bind]. unfold compute_client_finished_msg.
  destruct (finished_ok s1 _ label tau V Hl Ht) as (p2 & h2 & E2 & V2). rewrite E2. cbn [bind].
  eexists. split; [reflexivity|]. reflexivity.
Qed.

Lemma master_twice q rounds pa pb rc rs : (0 <= pa < q)%Z -> (0 <= pb < q)%Z ->
  Forall byte8 rc -> Forall byte8 rs ->
  let ms := str_to_int (master_secret (pms_of q pa pb) rc rs) in
  exists s, (let* s := compute_master_key (store_pms (hs_new q rounds) pa pb) pa pb rc rs in
             compute_master_key s pa pb rc rs)%res = Ok s /\ hs_ms s = ms ++ ms.
Proof.
  intros Ha Hb Hc Hs ms.
  destruct (master_ok (store_pms (hs_new q rounds) pa pb) pa pb rc rs Ha Hb eq_refl Hc Hs) as (p & h & m & E & V & R).
  rewrite E. cbn [bind].
  destruct (master_ok (set_ms (after_pms (store_pms (hs_new q rounds) pa pb) pa p h) m) pa pb rc rs Ha Hb
     (hinv_pos _ _ _ V) Hc Hs) as (p2 & h2 & m2 & E2 & V2 & R2).
  rewrite E2. eexists. split; [reflexivity|]. cbn [set_ms hs_ms] in *. rewrite R2, R.
  cbn [store_pms set_bn hs_new hs_ms]. now rewrite app_nil_r.
Qed.
