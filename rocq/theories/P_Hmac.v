(** HMAC and its cached variants compute RFC 2104; induction over call histories. *)
From Coq Require Import List NArith ZArith Bool Arith Lia.
From Verif Require Import L_Bits L_Res M_EmpInteger M_Trace M_Utils M_Sha256 M_Hmac S_Sha256
  S_Hmac P_Sha256 P_Sha256Msg P_Sha256Opt.
Import ListNotations.
Local Open Scope N_scope.
Local Opaque chunk_compress plain_chunk_compress compress.

(** * Concatenation in reading order *)
Lemma rev_iconcat r d : rev (iconcat r d) = rev r ++ flat_map (@rev bool) d.
Proof.
  unfold iconcat. revert r; induction d as [|x d IH]; intro r; cbn; [now rewrite app_nil_r|].
  rewrite IH, rev_app_distr, <- app_assoc. reflexivity.
Qed.

Lemma rev_be x : length x = 32%nat -> rev x = be_of_N 32 (N_of_bits x).
Proof. intro H. unfold be_of_N. now rewrite bits_of_N_of_bits'. Qed.

Lemma flat_rev_be d : Forall w32 d ->
  flat_map (@rev bool) d = flat_map (be_of_N 32) (map N_of_bits d).
Proof.
  induction 1; [reflexivity|]. cbn [flat_map map]. rewrite IHForall. f_equal. now apply rev_be.
Qed.

Lemma flat_rev_int_of w : flat_map (@rev bool) (map (int_of 32) w) = flat_map (be_of_N 32) w.
Proof. induction w; [reflexivity|]. cbn [map flat_map]. now rewrite IHw. Qed.

(** a digest array holding the hash of [m] *)
Definition is_hash (d : list Integer) (m : list bool) : Prop :=
  good d /\ map N_of_bits d = sha256_words m.

Lemma is_hash_bits d m : is_hash d m -> flat_map (@rev bool) d = sha256_bits m.
Proof. intros [[F _] E]. rewrite flat_rev_be by exact F. now rewrite E. Qed.

Lemma full_digest_hash x : is_hash (full_digest x) (rev x).
Proof. apply full_digest_ok. Qed.

Lemma sha256_words_length m : length (sha256_words m) = 8%nat.
Proof.
  destruct (full_digest_ok (rev m)) as [[_ L] E]. rewrite rev_involutive in E.
  rewrite <- E, map_length. exact L.
Qed.

Lemma flat_be_length n w : length (flat_map (be_of_N n) w) = (n * length w)%nat.
Proof.
  induction w; cbn [flat_map length]; [lia|]. rewrite app_length, be_of_N_length, IHw. lia.
Qed.

Lemma sha256_bits_length m : length (sha256_bits m) = 256%nat.
Proof. unfold sha256_bits. rewrite flat_be_length, sha256_words_length. reflexivity. Qed.

Lemma hmac_bits_length k m : length (hmac_bits k m) = 256%nat.
Proof. apply sha256_bits_length. Qed.

(** * First block of a message that starts with a fixed 512-bit prefix *)
Lemma first_iv_prefix l p : length p = 512%nat -> first_iv (l ++ p) = sec_iv p.
Proof.
  intro Hp. unfold first_iv, sec_iv. f_equal. unfold blocks_of.
  rewrite padding_ok, rev_app_distr. unfold pad. rewrite <- app_assoc.
  set (t := rev l ++ _).
  assert (Hr : length (rev p) = (32 * 16)%nat) by (rewrite rev_length; exact Hp).
  rewrite (chunks_app_mult 32 16 (rev p) t) by (try lia; exact Hr).
  rewrite map_app. rewrite chunks_app.
  - reflexivity.
  - lia.
  - rewrite map_length. apply chunks_length; [lia|exact Hr].
Qed.

(** * init *)
Lemma pad_loop_ok n c k : (8 * (n + k) <= 512)%nat -> (1 <= k)%nat -> c < 256 ->
  pad_loop n (bits_of_N 512 c)
    (concat (repeat (bits_of_N 8 c) k) ++ repeat false (512 - 8 * k)) =
  concat (repeat (bits_of_N 8 c) (k + n)) ++ repeat false (512 - 8 * (k + n)).
Proof.
  revert k; induction n; intros k H Hk Hc; [cbn [pad_loop]; rewrite Nat.add_0_r; reflexivity|].
  cbn [pad_loop].
  assert (E : ixor (ishl (concat (repeat (bits_of_N 8 c) k) ++ repeat false (512 - 8 * k)) 8)
                   (bits_of_N 512 c) =
              concat (repeat (bits_of_N 8 c) (S k)) ++ repeat false (512 - 8 * S k)).
  2:{ rewrite E, IHn by lia. now rewrite Nat.add_succ_r. }
  assert (Lk : forall k, length (concat (repeat (bits_of_N 8 c) k)) = (8 * k)%nat).
  { intro k0. rewrite (concat_length_all 8), repeat_length; [reflexivity|].
    apply Forall_forall. intros x Hx. apply repeat_spec in Hx. subst. apply bits_of_N_length. }
  unfold ishl. rewrite app_length, Lk, repeat_length.
  replace (8 * k + (512 - 8 * k))%nat with 512%nat by lia.
  rewrite app_assoc, firstn_app, app_length, repeat_length, Lk.
  rewrite firstn_all2 by (rewrite app_length, repeat_length, Lk; lia).
  replace (512 - (8 + 8 * k))%nat with (512 - 8 * S k)%nat by lia.
  replace (firstn (512 - 8 * S k) (repeat false (512 - 8 * k))) with (repeat false (512 - 8 * S k)).
  2:{ replace (512 - 8 * k)%nat with ((512 - 8 * S k) + 8)%nat by lia.
      rewrite repeat_app, firstn_app, repeat_length, Nat.sub_diag, firstn_O, app_nil_r.
      rewrite firstn_all2; [reflexivity|rewrite repeat_length; lia]. }
  replace (bits_of_N 512 c) with (bits_of_N (8 + 504) c) by reflexivity.
  rewrite bits_of_N_app. change (N.of_nat 8) with 8.
  replace (N.shiftr c 8) with 0.
  2:{ rewrite N.shiftr_div_pow2. symmetry. apply N.div_small. exact Hc. }
  rewrite bits_of_N_0. rewrite <- app_assoc.
  unfold ixor, bxor. rewrite map2_app by (rewrite repeat_length, bits_of_N_length; reflexivity).
  change (repeat (bits_of_N 8 c) (S k)) with (bits_of_N 8 c :: repeat (bits_of_N 8 c) k).
  rewrite concat_cons, <- app_assoc. f_equal.
  - change (bxor (repeat false 8) (bits_of_N 8 c) = bits_of_N 8 c). rewrite bxor_comm.
    apply bxor_false_r. apply bits_of_N_length.
  - apply bxor_false_r. rewrite app_length, Lk, repeat_length. lia.
Qed.

Lemma rev_concat_repeat {A} (x : list A) k : rev (concat (repeat x k)) = concat (repeat (rev x) k).
Proof.
  induction k; [reflexivity|]. cbn [repeat concat]. rewrite rev_app_distr, IHk. clear.
  induction k; [cbn; now rewrite app_nil_r|]. cbn [repeat concat]. rewrite <- app_assoc.
  now rewrite IHk.
Qed.

Lemma concat_repeat_bytes c k :
  concat (repeat (rev (bits_of_N 8 c)) k) = bits_of_bytes (repeat c k).
Proof. induction k; [reflexivity|]. cbn [repeat concat]. rewrite IHk. reflexivity. Qed.

Lemma pad_const c : c < 256 ->
  rev (pad_loop (CHUNKLEN / 8 - 1) (int_of CHUNKLEN c) (int_of CHUNKLEN c)) =
  bits_of_bytes (repeat c 64).
Proof.
  intro Hc. unfold int_of, CHUNKLEN. change (512 / 8 - 1)%nat with 63%nat.
  assert (E0 : bits_of_N 512 c =
               concat (repeat (bits_of_N 8 c) 1) ++ repeat false (512 - 8 * 1)).
  { cbn [repeat concat]. rewrite app_nil_r.
    replace (bits_of_N 512 c) with (bits_of_N (8 + 504) c) by reflexivity.
    rewrite bits_of_N_app. change (N.of_nat 8) with 8.
    replace (N.shiftr c 8) with 0.
    2:{ rewrite N.shiftr_div_pow2. symmetry. apply N.div_small. exact Hc. }
    rewrite bits_of_N_0. reflexivity. }
  rewrite E0 at 2. rewrite pad_loop_ok by (try assumption; lia).
  change (512 - 8 * (1 + 63))%nat with 0%nat. change (repeat false 0) with (@nil bool).
  rewrite app_nil_r, rev_concat_repeat. change (1 + 63)%nat with 64%nat.
  apply concat_repeat_bytes.
Qed.

Lemma rev_ixor a b : length a = length b -> rev (ixor a b) = map2 xorb (rev a) (rev b).
Proof. intro H. unfold ixor, bxor. now rewrite map2_rev. Qed.

Definition ikp_of (key : Integer) : list bool := map2 xorb (key_block (rev key)) ipad.
Definition okp_of (key : Integer) : list bool := map2 xorb (key_block (rev key)) opad.

Lemma rev_repeat {A} (x : A) n : rev (repeat x n) = repeat x n.
Proof.
  induction n; [reflexivity|]. cbn [repeat rev]. rewrite IHn. clear.
  induction n; [reflexivity|]. cbn [repeat app]. now rewrite IHn.
Qed.

Lemma key_block_length k : length (key_block k) = 512%nat.
Proof.
  unfold key_block. destruct (Nat.leb_spec (length k) 512); rewrite app_length, repeat_length.
  - lia.
  - rewrite sha256_bits_length. reflexivity.
Qed.

Lemma hinit_ok h key : exists h',
  hinit h key = Ok h' /\
  rev (i_key_pad h') = ikp_of key /\ rev (o_key_pad h') = okp_of key /\
  length (i_key_pad h') = 512%nat /\ length (o_key_pad h') = 512%nat /\
  sha h' = log (refresh (sha h))
    (if (512 <? length key)%nat then repeat EvCompress (S (n_rest key)) else []).
Proof.
  unfold hinit.
  assert (Hx : exists pk, 
    (if (CHUNKLEN <? length key)%nat
     then (let* (s, tmp) := digest (refresh (sha h)) key false in
           Ok (s, iconcat (iconcat [] tmp) [int_of (CHUNKLEN - DIGLEN * WORDLEN) 0]))%res
     else Ok (refresh (sha h), iconcat key [int_of (CHUNKLEN - length key) 0])) =
    Ok (log (refresh (sha h))
          (if (512 <? length key)%nat then repeat EvCompress (S (n_rest key)) else []), pk) /\
    rev pk = key_block (rev key)).
  { unfold CHUNKLEN. destruct (Nat.ltb_spec 512 (length key)).
    - destruct (update_shape (refresh (sha h)) key) as (E & _). rewrite E.
      eexists. split; [reflexivity|]. rewrite !rev_iconcat.
      rewrite (is_hash_bits _ (rev key)) by apply full_digest_hash.
      unfold key_block. rewrite rev_length.
      rewrite (proj2 (Nat.leb_gt _ _)) by assumption.
      rewrite sha256_bits_length. unfold int_of. rewrite bits_of_N_0.
      cbn [rev flat_map app]. rewrite app_nil_r, rev_repeat. reflexivity.
    - eexists. split.
      + f_equal. f_equal. destruct (sha h); unfold log, refresh; cbn. now rewrite app_nil_r.
      + rewrite rev_iconcat. unfold key_block. rewrite rev_length.
        rewrite (proj2 (Nat.leb_le _ _)) by assumption. rewrite rev_length.
        unfold int_of. rewrite bits_of_N_0. cbn [flat_map]. rewrite app_nil_r, rev_repeat.
        reflexivity. }
  destruct Hx as (pk & -> & Hpk). cbn [bind].
  assert (L : length pk = 512%nat).
  { rewrite <- rev_length, Hpk. apply key_block_length. }
  assert (Lo : forall c, c < 256 -> 
    length (pad_loop (CHUNKLEN / 8 - 1) (int_of CHUNKLEN c) (int_of CHUNKLEN c)) = 512%nat).
  { intros c Hc. rewrite <- rev_length, pad_const by exact Hc.
    rewrite bits_of_bytes_length, repeat_length. reflexivity. }
  eexists. split; [reflexivity|]. cbn [sha i_key_pad o_key_pad].
  rewrite !rev_ixor by (rewrite L, Lo; reflexivity).
  rewrite !pad_const by reflexivity. rewrite Hpk.
  split; [reflexivity|]. split; [reflexivity|].
  unfold ixor. rewrite !bxor_length by (rewrite L, Lo; reflexivity). auto.
Qed.

(** * One call, given valid caches *)
Inductive hmode := Fresh | UseOpt | UseRounds.

Record hinv (key : Integer) (m : hmode) (h : hmac_st) : Prop := {
  hi_i : rev (i_key_pad h) = ikp_of key;
  hi_o : rev (o_key_pad h) = okp_of key;
  hi_il : length (i_key_pad h) = 512%nat;
  hi_ol : length (o_key_pad h) = 512%nat;
  hi_pos : pos (sha h) = (Z.of_nat (length (iv_in_hashes (sha h))) - 1)%Z;
  hi_in : gc_in_open (sha h) = true ->
          match m with
          | Fresh => False
          | UseOpt => exists l, iv_in_hashes (sha h) = l ++ [map N_of_bits (sec_iv (i_key_pad h))]
          | UseRounds => iv_in_hash (sha h) = Some (sec_iv (i_key_pad h))
          end;
  hi_out : gc_out_open (sha h) = true -> iv_out_hash (sha h) = Some (sec_iv (o_key_pad h))
}.

Definition hmac_of (key msg : list bool) : list bool := hmac_bits key msg.

(** the result array spells the MAC of [msg] *)
Definition is_mac (key : Integer) (msg : list bool) (d : list Integer) : Prop :=
  good d /\ flat_map (@rev bool) d = hmac_bits (rev key) msg.

Lemma outer_ok s okp o_msg inner key msg reuse :
  length okp = 512%nat -> rev okp = okp_of key ->
  flat_map (@rev bool) o_msg = inner -> inner = sha256_bits (ikp_of key ++ msg) ->
  (gc_out_open s = true -> iv_out_hash s = Some (sec_iv okp)) ->
  exists s' d, digest s (iconcat okp o_msg) reuse = Ok (s', d) /\ is_mac key msg d /\
    gc_in_open s' = gc_in_open s /\ zk_in_open s' = zk_in_open s /\
    iv_in_hashes s' = iv_in_hashes s /\ zk_iv_in_hashes s' = zk_iv_in_hashes s /\
    iv_in_hash s' = iv_in_hash s /\ pos s' = pos s /\ zpos s' = zpos s /\
    (gc_out_open s' = true -> iv_out_hash s' = Some (sec_iv okp)) /\
    gc_out_open s' = gc_out_open s || reuse.
Proof.
  intros Lo Ro Hin Hi Hc.
  assert (M : is_mac key msg (full_digest (iconcat okp o_msg))).
  { split; [apply full_digest_hash|].
    rewrite (is_hash_bits _ _ (full_digest_hash _)). rewrite rev_iconcat, Ro, Hin, Hi.
    reflexivity. }
  assert (X : exists l, iconcat okp o_msg = l ++ okp).
  { unfold iconcat. clear. revert okp. 
    assert (forall l a, fold_left (fun r i : list bool => i ++ r) l a = concat (rev l) ++ a).
    { induction l as [|x l IH]; intro a; [reflexivity|]. cbn [fold_left rev].
      rewrite IH, concat_app. cbn. rewrite app_nil_r, <- app_assoc. reflexivity. }
    intro okp. eexists. apply H. }
  destruct X as [l X].
  destruct (update_shape s (iconcat okp o_msg)) as (E1 & E2 & E3).
  destruct reuse.
  - destruct (gc_out_open s) eqn:G.
    + rewrite (E3 _ eq_refl (Hc eq_refl)).
      eexists _, _. split; [reflexivity|]. split.
      { replace (fold_left chunk_compress (rest_of (iconcat okp o_msg)) (sec_iv okp))
          with (full_digest (iconcat okp o_msg)); [exact M|].
        unfold full_digest. rewrite X. now rewrite first_iv_prefix. }
      cbn. repeat split; auto.
    + rewrite (E2 eq_refl). eexists _, _. split; [reflexivity|]. split; [exact M|].
      cbn. repeat split; auto. intros _. rewrite X. now rewrite first_iv_prefix.
  - rewrite E1. eexists _, _. split; [reflexivity|]. split; [exact M|].
    cbn. repeat split; auto. now rewrite orb_false_r.
Qed.

Lemma hmac_step key m h msg : hinv key m h ->
  exists h' d, hmac h msg = Ok (h', d) /\ is_mac key (rev msg) d /\ hinv key m h'.
Proof.
  intros [Hi Ho Hil Hol Hp Hin Hout]. unfold hmac.
  destruct (update_shape (sha h) (iconcat (i_key_pad h) [msg])) as (E & _). rewrite E.
  cbn [bind].
  destruct (outer_ok (log (sha h) (repeat EvCompress (S (n_rest (iconcat (i_key_pad h) [msg])))))
              (o_key_pad h) (full_digest (iconcat (i_key_pad h) [msg]))
              (sha256_bits (ikp_of key ++ rev msg)) key (rev msg) false)
    as (s' & d & E2 & M & A1 & A2 & A3 & A4 & A5 & A6 & A7 & A8 & A9); try assumption; try reflexivity.
  { rewrite (is_hash_bits _ _ (full_digest_hash _)), rev_iconcat, Hi.
    cbn [flat_map]. now rewrite app_nil_r. }
  rewrite E2. cbn [bind]. eexists _, _. split; [reflexivity|]. split; [exact M|].
  constructor; cbn [with_sha sha i_key_pad o_key_pad]; try assumption.
  - rewrite A6, A3. exact Hp.
  - rewrite A1, A3, A5. exact Hin.
Qed.

Lemma words_u32 m : Forall u32 (sha256_words m).
Proof.
  destruct (full_digest_ok (rev m)) as [G E]. rewrite rev_involutive in E.
  rewrite <- E. now apply good_map.
Qed.

Lemma read_last {A} (l : list A) x p : p = (Z.of_nat (length (l ++ [x])) - 1)%Z ->
  read_at (l ++ [x]) p = Ok x.
Proof.
  intros ->. unfold read_at. rewrite app_length. cbn [length].
  destruct (Z.ltb_spec (Z.of_nat (length l + 1) - 1) 0); [lia|].
  replace (Z.to_nat (Z.of_nat (length l + 1) - 1)) with (length l) by lia.
  rewrite nth_error_app2 by lia. rewrite Nat.sub_diag. reflexivity.
Qed.

Definition opt_mode (ri : bool) (m : hmode) : hmode := if ri then UseOpt else m.
Definition rounds_mode (ri : bool) (m : hmode) : hmode := if ri then UseRounds else m.

Lemma opt_tail_sec ikp key msg : length ikp = 512%nat -> rev ikp = ikp_of key ->
  Forall byte msg ->
  opt_tail fresh64 (map N_of_bits (sec_iv ikp)) msg =
  sha256_words (ikp_of key ++ bits_of_bytes msg).
Proof.
  intros L R B. destruct (sec_iv_ok ikp L) as [G W]. rewrite W, <- R.
  apply opt_tail_ok; try assumption; try reflexivity.
  - rewrite rev_length; exact L.
  - rewrite <- W. now apply good_map.
Qed.

Lemma opt_hmac_step key m h msg ri ro : hinv key m h -> Forall byte msg ->
  (ri = true -> m <> UseRounds) ->
  exists h' d, opt_hmac h msg ri ro false = Ok (h', d) /\
    is_mac key (bits_of_bytes msg) d /\ hinv key (opt_mode ri m) h'.
Proof.
  intros [Hi Ho Hil Hol Hp Hin Hout] HB Hm. unfold opt_hmac, opt_hmac_core.
  destruct (opt_shape (sha h) (i_key_pad h) msg Hil) as (E1 & E2 & E3 & _).
  assert (T := opt_tail_sec (i_key_pad h) key msg Hil Hi HB).
  assert (X : exists s', opt_digest (sha h) (i_key_pad h) msg ri false =
                Ok (s', sha256_words (ikp_of key ++ bits_of_bytes msg)) /\
     gc_out_open s' = gc_out_open (sha h) /\ iv_out_hash s' = iv_out_hash (sha h) /\
     pos s' = (Z.of_nat (length (iv_in_hashes s')) - 1)%Z /\
     (gc_in_open s' = true ->
          match opt_mode ri m with
          | Fresh => False
          | UseOpt => exists l, iv_in_hashes s' = l ++ [map N_of_bits (sec_iv (i_key_pad h))]
          | UseRounds => iv_in_hash s' = Some (sec_iv (i_key_pad h))
          end)).
  { destruct ri.
    - destruct (gc_in_open (sha h)) eqn:G.
      + rewrite (E3 eq_refl). specialize (Hin eq_refl). specialize (Hm eq_refl).
        destruct m; [contradiction| |congruence].
        destruct Hin as [l Hl]. rewrite Hl in Hp |- *. rewrite (read_last l _ _ Hp).
        cbn [bind]. rewrite T. eexists. split; [reflexivity|].
        repeat split; auto. 1: now rewrite Hl. intros _. cbn. exists l. exact Hl.
      + rewrite (E2 eq_refl). rewrite T. eexists. split; [reflexivity|]. cbn.
        repeat split; auto. { rewrite app_length. cbn. rewrite Hp. lia. }
        intros _. eexists. reflexivity.
    - rewrite (E1 false), T. eexists. split; [reflexivity|]. cbn. repeat split; auto. }
  destruct X as (s' & -> & B1 & B2 & B3 & B4). cbn [bind].
  destruct (outer_ok (log s' (repeat (EvFeed ALICE 32) DIGLEN))
              (o_key_pad h) (map (int_of 32) (sha256_words (ikp_of key ++ bits_of_bytes msg)))
              (sha256_bits (ikp_of key ++ bits_of_bytes msg)) key (bits_of_bytes msg) ro)
    as (s2 & d & E4 & M & A1 & A2 & A3 & A4 & A5 & A6 & A7 & A8 & A9); try assumption; try reflexivity.
  { apply flat_rev_int_of. }
  { cbn. rewrite B1, B2. exact Hout. }
  rewrite E4. cbn [bind]. eexists _, _. split; [reflexivity|]. split; [exact M|].
  constructor; cbn [with_sha sha i_key_pad o_key_pad]; try assumption.
  - rewrite A6, A3. exact B3.
  - rewrite A1, A3, A5. exact B4.
Qed.

Lemma rounds_hmac_step key m h msg ri ro : hinv key m h ->
  (ri = true -> m <> UseOpt) ->
  exists h' d, opt_rounds_hmac h msg ri ro = Ok (h', d) /\
    is_mac key (rev msg) d /\ hinv key (rounds_mode ri m) h'.
Proof.
  intros [Hi Ho Hil Hol Hp Hin Hout] Hm. unfold opt_rounds_hmac.
  destruct (rounds_shape (sha h) (iconcat (i_key_pad h) [msg])) as (E1 & E2 & E3).
  assert (FI : first_iv (iconcat (i_key_pad h) [msg]) = sec_iv (i_key_pad h)).
  { unfold iconcat. cbn [fold_left]. now apply first_iv_prefix. }
  assert (X : exists s', opt_rounds_digest (sha h) (iconcat (i_key_pad h) [msg]) ri =
                Ok (s', full_digest (iconcat (i_key_pad h) [msg])) /\
     gc_out_open s' = gc_out_open (sha h) /\ iv_out_hash s' = iv_out_hash (sha h) /\
     pos s' = (Z.of_nat (length (iv_in_hashes s')) - 1)%Z /\
     (gc_in_open s' = true ->
          match rounds_mode ri m with
          | Fresh => False
          | UseOpt => exists l, iv_in_hashes s' = l ++ [map N_of_bits (sec_iv (i_key_pad h))]
          | UseRounds => iv_in_hash s' = Some (sec_iv (i_key_pad h))
          end)).
  { destruct ri.
    - destruct (gc_in_open (sha h)) eqn:G.
      + specialize (Hin eq_refl). specialize (Hm eq_refl).
        destruct m; [contradiction|congruence|].
        rewrite (E3 _ eq_refl Hin).
        replace (fold_left chunk_compress (rest_of (iconcat (i_key_pad h) [msg]))
                   (sec_iv (i_key_pad h)))
          with (full_digest (iconcat (i_key_pad h) [msg])) by (now rewrite <- FI).
        eexists. split; [reflexivity|].
        cbn. repeat split; auto.
      + rewrite (E2 eq_refl). eexists. split; [reflexivity|]. cbn.
        repeat split; auto. intros _. now rewrite <- FI.
    - rewrite E1. eexists. split; [reflexivity|]. cbn. repeat split; auto. }
  destruct X as (s' & -> & B1 & B2 & B3 & B4). cbn [bind].
  destruct (outer_ok s'
              (o_key_pad h) (full_digest (iconcat (i_key_pad h) [msg]))
              (sha256_bits (ikp_of key ++ rev msg)) key (rev msg) ro)
    as (s2 & d & E4 & M & A1 & A2 & A3 & A4 & A5 & A6 & A7 & A8 & A9); try assumption; try reflexivity.
  { rewrite (is_hash_bits _ _ (full_digest_hash _)), rev_iconcat, Hi.
    cbn [flat_map]. now rewrite app_nil_r. }
  { rewrite B1, B2. exact Hout. }
  rewrite E4. cbn [bind]. eexists _, _. split; [reflexivity|]. split; [exact M|].
  constructor; cbn [with_sha sha i_key_pad o_key_pad]; try assumption.
  - rewrite A6, A3. exact B3.
  - rewrite A1, A3, A5. exact B4.
Qed.

Lemma hinit_inv h key :
  pos (sha h) = (Z.of_nat (length (iv_in_hashes (sha h))) - 1)%Z ->
  exists h', hinit h key = Ok h' /\ hinv key Fresh h'.
Proof.
  intro Hp. destruct (hinit_ok h key) as (h' & E & A & B & C & D & F).
  exists h'. split; [exact E|]. constructor; try assumption; rewrite F; cbn; try assumption;
    discriminate.
Qed.

(** * Call histories (C04) *)
Inductive hop :=
| HInit (key : Integer)
| HPlain (msg : Integer)
| HOpt (msg : list N) (ri ro : bool)
| HRounds (msg : Integer) (ri ro : bool).

(** one call on the object; initialisation has no output *)
Definition hstep (h : hmac_st) (o : hop) : res (hmac_st * option (list Integer)) :=
  (match o with
   | HInit k => let* h := hinit h k in Ok (h, None)
   | HPlain m => let* (h, d) := hmac h m in Ok (h, Some d)
   | HOpt m ri ro => let* (h, d) := opt_hmac h m ri ro false in Ok (h, Some d)
   | HRounds m ri ro => let* (h, d) := opt_rounds_hmac h m ri ro in Ok (h, Some d)
   end)%res.

Fixpoint hrun (h : hmac_st) (os : list hop) : res (hmac_st * list (option (list Integer))) :=
  match os with
  | [] => Ok (h, [])
  | o :: t => (let* (h, r) := hstep h o in let* (h, rs) := hrun h t in Ok (h, r :: rs))%res
  end.

(** the input bit string of a call *)
Definition hop_msg (o : hop) : list bool :=
  match o with
  | HInit _ => []
  | HPlain m => rev m
  | HOpt m _ _ => bits_of_bytes m
  | HRounds m _ _ => rev m
  end.

(** specification: the MAC of the call's message under the most recent key *)
Fixpoint hspec (key : list bool) (os : list hop) : list (option (list bool)) :=
  match os with
  | [] => []
  | HInit k :: t => None :: hspec (rev k) t
  | o :: t => Some (hmac_bits key (hop_msg o)) :: hspec key t
  end.

(** usage discipline: bytes are bytes, and between two initialisations at most one of
    the two caching variants is used with reuse_in *)
Fixpoint hdisc (m : hmode) (os : list hop) : Prop :=
  match os with
  | [] => True
  | HInit _ :: t => hdisc Fresh t
  | HPlain _ :: t => hdisc m t
  | HOpt msg ri _ :: t => Forall byte msg /\ (ri = true -> m <> UseRounds) /\ hdisc (opt_mode ri m) t
  | HRounds _ ri _ :: t => (ri = true -> m <> UseOpt) /\ hdisc (rounds_mode ri m) t
  end.

Lemma hrun_correct os : forall key m h, hinv key m h -> hdisc m os ->
  exists h' rs, hrun h os = Ok (h', rs) /\
    map (option_map (fun d => flat_map (@rev bool) d)) rs = hspec (rev key) os /\
    Forall (fun o => forall d, o = Some d -> good d) rs.
Proof.
  induction os as [|o t IH]; intros key m h Hv Hd.
  { exists h, []. cbn. auto. }
  destruct o as [k|msg|msg ri ro|msg ri ro]; cbn [hrun hstep hspec hdisc] in *.
  - destruct (hinit_inv h k (hi_pos _ _ _ Hv)) as (h1 & E & V). rewrite E. cbn [bind].
    destruct (IH k Fresh h1 V Hd) as (h' & rs & E2 & R & F). rewrite E2. cbn [bind].
    exists h', (None :: rs). split; [reflexivity|]. split; [cbn [map option_map]; now rewrite R|].
    constructor; [discriminate|exact F].
  - destruct (hmac_step key m h msg Hv) as (h1 & d & E & [G M] & V). rewrite E. cbn [bind].
    destruct (IH key m h1 V Hd) as (h' & rs & E2 & R & F). rewrite E2. cbn [bind].
    exists h', (Some d :: rs). split; [reflexivity|].
    split; [cbn [map option_map hop_msg]; now rewrite R, M|].
    constructor; [intros ? [= <-]; exact G|exact F].
  - destruct Hd as (HB & Hm & Hd).
    destruct (opt_hmac_step key m h msg ri ro Hv HB Hm) as (h1 & d & E & [G M] & V).
    rewrite E. cbn [bind].
    destruct (IH key _ h1 V Hd) as (h' & rs & E2 & R & F). rewrite E2. cbn [bind].
    exists h', (Some d :: rs). split; [reflexivity|].
    split; [cbn [map option_map hop_msg]; now rewrite R, M|].
    constructor; [intros ? [= <-]; exact G|exact F].
  - destruct Hd as (Hm & Hd).
    destruct (rounds_hmac_step key m h msg ri ro Hv Hm) as (h1 & d & E & [G M] & V).
    rewrite E. cbn [bind].
    destruct (IH key _ h1 V Hd) as (h' & rs & E2 & R & F). rewrite E2. cbn [bind].
    exists h', (Some d :: rs). split; [reflexivity|].
    split; [cbn [map option_map hop_msg]; now rewrite R, M|].
    constructor; [intros ? [= <-]; exact G|exact F].
Qed.

Lemma hrun_from_new key os : hdisc Fresh os ->
  exists h' rs, hrun hmac_init (HInit key :: os) = Ok (h', None :: rs) /\
    map (option_map (fun d => flat_map (@rev bool) d)) rs = hspec (rev key) os.
Proof.
  intro Hd. cbn [hrun hstep].
  destruct (hinit_inv hmac_init key eq_refl) as (h1 & E & V). rewrite E. cbn [bind].
  destruct (hrun_correct os key Fresh h1 V Hd) as (h' & rs & E2 & R & _). rewrite E2.
  exists h', rs. split; [reflexivity|exact R].
Qed.
