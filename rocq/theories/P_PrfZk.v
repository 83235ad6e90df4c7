(** The zero-knowledge re-derivation: if the deferred comparisons hold then the outputs are
    the PRF values, whatever was recorded before (C34, soundness). *)
From Coq Require Import List NArith ZArith Bool Arith Lia.
From Verif Require Import L_Bits L_Res M_EmpInteger M_Trace M_Utils M_Sha256 M_Hmac.
From Verif Require Import S_Sha256 S_Hmac P_Sha256 P_Sha256Msg P_Sha256Opt P_Hmac P_Prf P_PrfHist.
Import ListNotations.
Local Opaque chunk_compress plain_chunk_compress compress.

(** recorded word arrays [W] agree with the re-derived wires [Z] *)
Definition iv_match (W : list (list N)) (Z : list Integer) : Prop :=
  forall i z, nth_error Z i = Some z -> exists w, nth_error W i = Some w /\ z = int_of_array 256 32 (rev w).
Definition m_match (W : list (list N)) (Z : list Integer) : Prop :=
  forall i z, nth_error Z i = Some z -> exists w, nth_error W i = Some w /\ z = int_of_array 256 32 w.

Lemma match_prefix (f : list N -> list N) W Z l :
  (forall i z, nth_error (Z ++ l) i = Some z -> exists w, nth_error W i = Some w /\ z = int_of_array 256 32 (f w)) ->
  (forall i z, nth_error Z i = Some z -> exists w, nth_error W i = Some w /\ z = int_of_array 256 32 (f w)).
Proof.
  intros H i z E. apply H. rewrite nth_error_app1; [exact E|]. apply nth_error_Some. congruence.
Qed.
Lemma iv_match_prefix W Z l : iv_match W (Z ++ l) -> iv_match W Z.
Proof. exact (match_prefix (@rev N) W Z l). Qed.
Lemma m_match_prefix W Z l : m_match W (Z ++ l) -> m_match W Z.
Proof. exact (match_prefix (fun x => x) W Z l). Qed.

Lemma array_words w : goodN w -> int_of_array 256 32 w = flat_map (bits_of_N 32) w.
Proof.
  intros [_ L]. unfold int_of_array. apply firstn_all2.
  assert (X : forall l, length (flat_map (bits_of_N 32) l) = (32 * length l)%nat).
  { induction l as [|a l IH]; [reflexivity|]. cbn [flat_map length]. rewrite app_length, IH, bits_of_N_length. lia. }
  rewrite X, L. reflexivity.
Qed.
Lemma goodN_rev w : goodN w -> goodN (rev w).
Proof. intros [F L]. split; [apply Forall_rev; exact F|now rewrite rev_length]. Qed.

Lemma words_unique d w : good d -> goodN w -> concat d = flat_map (bits_of_N 32) w -> w = map N_of_bits d.
Proof.
  intros [F L] [Fw Lw] E.
  assert (d = map (bits_of_N 32) w) as ->.
  { rewrite flat_map_concat_map in E.
    assert (X := f_equal (chunks 32) E). rewrite !chunks_concat_all in X; auto; try lia.
    apply Forall_map. apply Forall_forall. intros; apply bits_of_N_length. }
  rewrite map_map. rewrite <- (map_id w) at 1. apply map_ext_in. intros a Ha.
  symmetry. apply N_of_bits_of_N_small. rewrite Forall_forall in Fw. exact (Fw a Ha).
Qed.

Lemma iconcat_nil d : iconcat [] d = concat (rev d).
Proof.
  unfold iconcat. assert (forall l a, fold_left (fun r i : list bool => i ++ r) l a = concat (rev l) ++ a).
  { induction l as [|x l IH]; intro a; [reflexivity|]. cbn [fold_left rev].
    rewrite IH, concat_app. cbn. rewrite app_nil_r, <- app_assoc. reflexivity. }
  rewrite H. apply app_nil_r.
Qed.

Lemma iv_unique d w : good d -> goodN w -> iconcat [] d = int_of_array 256 32 (rev w) -> w = map N_of_bits d.
Proof.
  intros G Gw E. rewrite iconcat_nil, array_words in E by (now apply goodN_rev).
  assert (Gr : good (rev d)) by (destruct G; split; [now apply Forall_rev|now rewrite rev_length]).
  assert (X := words_unique (rev d) (rev w) Gr (goodN_rev _ Gw) E).
  rewrite map_rev in X. apply (f_equal (@rev N)) in X. now rewrite !rev_involutive in X.
Qed.

(** * The outer hash, whatever was fed *)
Lemma iconcat_suffix okp o_msg : exists l, iconcat okp o_msg = l ++ okp.
Proof.
  unfold iconcat.
  assert (forall l a, fold_left (fun r i : list bool => i ++ r) l a = concat (rev l) ++ a).
  { induction l as [|x l IH]; intro a; [reflexivity|]. cbn [fold_left rev].
    rewrite IH, concat_app. cbn. rewrite app_nil_r, <- app_assoc. reflexivity. }
  eexists. apply H.
Qed.

Lemma outer_gen s okp o_msg reuse : length okp = 512%nat ->
  (gc_out_open s = true -> iv_out_hash s = Some (sec_iv okp)) ->
  exists s', digest s (iconcat okp o_msg) reuse = Ok (s', full_digest (iconcat okp o_msg)) /\
    gc_in_open s' = gc_in_open s /\ zk_in_open s' = zk_in_open s /\
    iv_in_hashes s' = iv_in_hashes s /\ zk_iv_in_hashes s' = zk_iv_in_hashes s /\
    iv_in_hash s' = iv_in_hash s /\ pos s' = pos s /\ zpos s' = zpos s /\
    (gc_out_open s' = true -> iv_out_hash s' = Some (sec_iv okp)).
Proof.
  intros Lo Hc. destruct (iconcat_suffix okp o_msg) as [l X].
  destruct (update_shape s (iconcat okp o_msg)) as (E1 & E2 & E3).
  destruct reuse.
  - destruct (gc_out_open s) eqn:G.
    + rewrite (E3 _ eq_refl (Hc eq_refl)).
      replace (fold_left chunk_compress (rest_of (iconcat okp o_msg)) (sec_iv okp))
          with (full_digest (iconcat okp o_msg)).
      2:{ unfold full_digest. rewrite X. now rewrite first_iv_prefix. }
      eexists. split; [reflexivity|]. cbn. auto 9.
    + rewrite (E2 eq_refl). eexists. split; [reflexivity|]. cbn.
      do 7 (split; [reflexivity|]). intros _. rewrite X. now rewrite first_iv_prefix.
  - rewrite E1. eexists. split; [reflexivity|]. cbn. auto 9.
Qed.

Lemma outer_mac okp key msg o_msg : rev okp = okp_of key ->
  flat_map (@rev bool) o_msg = sha256_bits (ikp_of key ++ msg) ->
  is_mac key msg (full_digest (iconcat okp o_msg)).
Proof.
  intros Ro Hi. split; [apply full_digest_hash|].
  rewrite (is_hash_bits _ _ (full_digest_hash _)). rewrite rev_iconcat, Ro, Hi. reflexivity.
Qed.

(** * The object in the proof phase *)
Record zinv (key : Integer) (h : hmac_st) : Prop := {
  zi_i : rev (i_key_pad h) = ikp_of key;
  zi_o : rev (o_key_pad h) = okp_of key;
  zi_il : length (i_key_pad h) = 512%nat;
  zi_ol : length (o_key_pad h) = 512%nat;
  zi_zpos : zpos (sha h) = (Z.of_nat (length (zk_iv_in_hashes (sha h))) - 1)%Z;
  zi_len : (length (zk_iv_in_hashes (sha h)) <= length (iv_in_hashes (sha h)))%nat;
  zi_in : zk_in_open (sha h) = true ->
          exists l, zk_iv_in_hashes (sha h) = l ++ [iconcat [] (sec_iv (i_key_pad h))];
  zi_rin : gc_in_open (sha h) = true -> iv_in_hash (sha h) = Some (sec_iv (i_key_pad h));
  zi_out : gc_out_open (sha h) = true -> iv_out_hash (sha h) = Some (sec_iv (o_key_pad h))
}.

(** between two calls: what the list bookkeeping needs *)
Definition zpre (h : hmac_st) : Prop :=
  zpos (sha h) = (Z.of_nat (length (zk_iv_in_hashes (sha h))) - 1)%Z /\
  (length (zk_iv_in_hashes (sha h)) <= length (iv_in_hashes (sha h)))%nat.

(** recorded values unchanged, re-derived values only added to *)
Definition grows (h h' : hmac_st) : Prop :=
  iv_in_hashes (sha h') = iv_in_hashes (sha h) /\
  exists l, zk_iv_in_hashes (sha h') = zk_iv_in_hashes (sha h) ++ l.

Lemma grows_refl h : grows h h.
Proof. split; [reflexivity|]. exists []. now rewrite app_nil_r. Qed.
Lemma grows_trans a b c : grows a b -> grows b c -> grows a c.
Proof.
  intros [A [l1 B]] [C [l2 D]]. split; [congruence|]. exists (l1 ++ l2). rewrite D, B. now rewrite app_assoc.
Qed.

Definition hm (h : hmac_st) : Prop := iv_match (iv_in_hashes (sha h)) (zk_iv_in_hashes (sha h)).
Lemma hm_grows h h' : grows h h' -> hm h' -> hm h.
Proof. intros [A [l B]] H. unfold hm in *. rewrite A, B in H. eapply iv_match_prefix. exact H. Qed.

Lemma zinit h key h' : zpre h -> hinit h key = Ok h' -> zinv key h' /\ grows h h'.
Proof.
  intros [P1 P2] E. destruct (hinit_ok h key) as (h1 & E1 & A & B & C & D & F).
  rewrite E in E1. injection E1 as <-.
  split.
  - constructor; try assumption; rewrite F; cbn; try assumption; discriminate.
  - split; rewrite F; cbn; [reflexivity|]. exists []. now rewrite app_nil_r.
Qed.

Lemma read_at_ok {A} (l : list A) p x : read_at l p = Ok x ->
  (0 <= p)%Z /\ nth_error l (Z.to_nat p) = Some x.
Proof.
  unfold read_at. destruct (Z.ltb_spec p 0); [discriminate|].
  destruct (nth_error l (Z.to_nat p)); cbn; [|discriminate]. intros [= ->]. auto.
Qed.

Lemma zk_digest key h msg ri s' dig : zinv key h -> Forall byte msg ->
  Forall goodN (iv_in_hashes (sha h)) ->
  opt_digest (sha h) (i_key_pad h) msg ri true = Ok (s', dig) ->
  zinv key (with_sha h s') /\ grows h (with_sha h s') /\
  (hm (with_sha h s') -> dig = sha256_words (ikp_of key ++ bits_of_bytes msg)).
Proof.
  intros [Zi Zo Zil Zol Zp Zl Zin Zr Zout] HB GW E.
  destruct (opt_shape (sha h) (i_key_pad h) msg Zil) as (E1 & _ & _ & E4 & E5).
  assert (T := opt_tail_sec (i_key_pad h) key msg Zil Zi HB).
  assert (GS : good (sec_iv (i_key_pad h))) by (apply sec_iv_ok; exact Zil).
  destruct ri.
  - destruct (zk_in_open (sha h)) eqn:O.
    + rewrite (E5 eq_refl) in E. destruct (read_at (iv_in_hashes (sha h)) (zpos (sha h))) as [w| |] eqn:R; try discriminate.
      cbn [bind] in E. injection E as <- <-.
      split; [constructor; cbn [with_sha sha i_key_pad o_key_pad]; rewrite ?O; assumption|].
      split; [exact (grows_refl h)|].
      intro M. destruct (Zin eq_refl) as [l Hl]. apply read_at_ok in R. destruct R as [_ R].
      unfold hm in M. cbn [with_sha sha] in M. rewrite Hl in M.
      assert (Hz : nth_error (l ++ [iconcat [] (sec_iv (i_key_pad h))]) (Z.to_nat (zpos (sha h))) =
                   Some (iconcat [] (sec_iv (i_key_pad h)))).
      { rewrite Zp, Hl, app_length. cbn [length]. replace (Z.to_nat _) with (length l) by lia.
        rewrite nth_error_app2, Nat.sub_diag by lia. reflexivity. }
      destruct (M _ _ Hz) as (w' & Hw & Ew). rewrite R in Hw. injection Hw as <-.
      rewrite (iv_unique _ w GS) at 1; [exact T| |exact Ew].
      rewrite Forall_forall in GW. apply GW. eapply nth_error_In. exact R.
    + rewrite (E4 eq_refl) in E.
      destruct (read_at (iv_in_hashes (sha h)) (zpos (sha h) + 1)) as [w| |] eqn:R; try discriminate.
      cbn [bind] in E. injection E as <- <-. apply read_at_ok in R. destruct R as [_ R].
      assert (Hlen : (length (zk_iv_in_hashes (sha h)) < length (iv_in_hashes (sha h)))%nat).
      { assert (X : nth_error (iv_in_hashes (sha h)) (Z.to_nat (zpos (sha h) + 1)) <> None) by congruence.
        apply nth_error_Some in X. lia. }
      split; [|split].
      * constructor; cbn; try assumption.
        -- rewrite app_length. cbn. lia.
        -- rewrite app_length. cbn. lia.
        -- intros _. eexists. reflexivity.
      * split; [reflexivity|]. cbn. eexists. reflexivity.
      * intro M. unfold hm in M. cbn in M.
        assert (Hz : nth_error (zk_iv_in_hashes (sha h) ++ [iconcat [] (sec_iv (i_key_pad h))]) (Z.to_nat (zpos (sha h) + 1)) =
                   Some (iconcat [] (sec_iv (i_key_pad h)))).
        { rewrite Zp. replace (Z.to_nat _) with (length (zk_iv_in_hashes (sha h))) by lia.
          rewrite nth_error_app2, Nat.sub_diag by lia. reflexivity. }
        destruct (M _ _ Hz) as (w' & Hw & Ew). rewrite R in Hw. injection Hw as <-.
        rewrite (iv_unique _ w GS) at 1; [exact T| |exact Ew].
        rewrite Forall_forall in GW. apply GW. eapply nth_error_In. exact R.
  - rewrite (E1 true) in E. injection E as <- <-.
    split; [constructor; assumption|]. split; [exact (grows_refl h)|]. intros _. exact T.
Qed.

Lemma zk_hmac key h msg ri ro h' d : zinv key h -> Forall byte msg ->
  Forall goodN (iv_in_hashes (sha h)) ->
  opt_hmac h msg ri ro true = Ok (h', d) ->
  zinv key h' /\ grows h h' /\ good d /\ (hm h' -> is_mac key (bits_of_bytes msg) d).
Proof.
  intros V HB GW E. unfold opt_hmac, opt_hmac_core in E.
  destruct (opt_digest (sha h) (i_key_pad h) msg ri true) as [[s1 dig]| |] eqn:D; try discriminate.
  cbn [bind] in E. destruct (zk_digest key h msg ri s1 dig V HB GW D) as (V1 & G1 & M1).
  destruct V1 as [Zi Zo Zil Zol Zp Zl Zin Zr Zout]. cbn [with_sha sha i_key_pad o_key_pad] in *.
  destruct (outer_gen (log s1 (repeat (EvFeed ALICE 32) DIGLEN)) (o_key_pad h) (map (int_of 32) dig) ro Zol Zout)
    as (s2 & E2 & A1 & A2 & A3 & A4 & A5 & A6 & A7 & A8).
  rewrite E2 in E. cbn [bind] in E. injection E as <- <-. cbn in A1, A2, A3, A4, A5, A6, A7.
  assert (G2 : grows (with_sha h s1) (with_sha h s2)).
  { split; [exact A3|]. exists []. rewrite app_nil_r. exact A4. }
  split; [|split; [|split]].
  - constructor; cbn [with_sha sha i_key_pad o_key_pad]; try assumption.
    + now rewrite A7, A4.
    + now rewrite A4, A3.
    + now rewrite A2, A4.
    + now rewrite A1, A5.
  - exact (grows_trans _ _ _ G1 G2).
  - apply full_digest_hash.
  - intro M. apply (hm_grows _ _ G2) in M. specialize (M1 M).
    apply outer_mac; [exact Zo|]. rewrite M1. apply flat_rev_int_of.
Qed.

Lemma zk_plain key h msg : zinv key h ->
  exists h' d, hmac h msg = Ok (h', d) /\ zinv key h' /\ grows h h' /\ is_mac key (rev msg) d.
Proof.
  intros [Zi Zo Zil Zol Zp Zl Zin Zr Zout]. unfold hmac.
  destruct (update_shape (sha h) (iconcat (i_key_pad h) [msg])) as (E & _). rewrite E. cbn [bind].
  destruct (outer_gen (log (sha h) (repeat EvCompress (S (n_rest (iconcat (i_key_pad h) [msg])))))
     (o_key_pad h) (full_digest (iconcat (i_key_pad h) [msg])) false Zol Zout)
    as (s2 & E2 & A1 & A2 & A3 & A4 & A5 & A6 & A7 & A8).
  rewrite E2. cbn [bind]. eexists _, _. split; [reflexivity|]. cbn in A1, A2, A3, A4, A5, A6, A7.
  split; [|split].
  - constructor; cbn [with_sha sha i_key_pad o_key_pad]; try assumption.
    + now rewrite A7, A4.
    + now rewrite A4, A3.
    + now rewrite A2, A4.
    + now rewrite A1, A5.
  - split; [exact A3|]. exists []. rewrite app_nil_r. exact A4.
  - apply outer_mac; [exact Zo|].
    rewrite (is_hash_bits _ _ (full_digest_hash _)), rev_iconcat, Zi. cbn [flat_map]. now rewrite app_nil_r.
Qed.

Lemma zk_rounds key h msg ri ro : zinv key h ->
  exists h' d, opt_rounds_hmac h msg ri ro = Ok (h', d) /\ zinv key h' /\ grows h h' /\ is_mac key (rev msg) d.
Proof.
  intros [Zi Zo Zil Zol Zp Zl Zin Zr Zout]. unfold opt_rounds_hmac.
  destruct (rounds_shape (sha h) (iconcat (i_key_pad h) [msg])) as (E1 & E2 & E3).
  assert (FI : first_iv (iconcat (i_key_pad h) [msg]) = sec_iv (i_key_pad h)).
  { unfold iconcat. cbn [fold_left]. now apply first_iv_prefix. }
  assert (X : exists s1, opt_rounds_digest (sha h) (iconcat (i_key_pad h) [msg]) ri =
      Ok (s1, full_digest (iconcat (i_key_pad h) [msg])) /\
      zk_in_open s1 = zk_in_open (sha h) /\ iv_in_hashes s1 = iv_in_hashes (sha h) /\
      zk_iv_in_hashes s1 = zk_iv_in_hashes (sha h) /\ zpos s1 = zpos (sha h) /\
      (gc_in_open s1 = true -> iv_in_hash s1 = Some (sec_iv (i_key_pad h))) /\
      (gc_out_open s1 = true -> iv_out_hash s1 = Some (sec_iv (o_key_pad h)))).
  { destruct ri.
    - destruct (gc_in_open (sha h)) eqn:G.
      + rewrite (E3 _ eq_refl (Zr eq_refl)).
        replace (fold_left chunk_compress (rest_of (iconcat (i_key_pad h) [msg])) (sec_iv (i_key_pad h)))
          with (full_digest (iconcat (i_key_pad h) [msg])) by (now rewrite <- FI).
        eexists. split; [reflexivity|]. cbn. auto 9.
      + rewrite (E2 eq_refl), FI. eexists. split; [reflexivity|]. cbn. auto 9.
    - rewrite E1. eexists. split; [reflexivity|]. cbn. auto 9. }
  destruct X as (s1 & -> & B1 & B2 & B3 & B4 & B5 & B6). cbn [bind].
  destruct (outer_gen s1 (o_key_pad h) (full_digest (iconcat (i_key_pad h) [msg])) ro Zol B6)
    as (s2 & E4 & A1 & A2 & A3 & A4 & A5 & A6 & A7 & A8).
  rewrite E4. cbn [bind]. eexists _, _. split; [reflexivity|].
  split; [|split].
  - constructor; cbn [with_sha sha i_key_pad o_key_pad]; try assumption.
    + now rewrite A7, A4, B3, B4.
    + now rewrite A4, A3, B2, B3.
    + now rewrite A2, A4, B1, B3.
    + now rewrite A1, A5.
  - split; cbn [with_sha sha]; [now rewrite A3|]. exists []. rewrite app_nil_r. now rewrite A4.
  - apply outer_mac; [exact Zo|].
    rewrite (is_hash_bits _ _ (full_digest_hash _)), rev_iconcat, Zi. cbn [flat_map]. now rewrite app_nil_r.
Qed.

(** * The PRF object *)
Definition pgrows (p p' : prf_st) : Prop :=
  pub_M p' = pub_M p /\ exists l, zk_sec_M p' = zk_sec_M p ++ l.
Definition ppre (p : prf_st) : Prop :=
  zk_pos p = length (zk_sec_M p) /\ (length (zk_sec_M p) <= length (pub_M p))%nat.
Definition pm (p : prf_st) : Prop := m_match (pub_M p) (zk_sec_M p).
Lemma pgrows_refl p : pgrows p p.
Proof. split; [reflexivity|]. exists []. now rewrite app_nil_r. Qed.
Lemma pgrows_trans a b c : pgrows a b -> pgrows b c -> pgrows a c.
Proof.
  intros [A [l1 B]] [C [l2 D]]. split; [congruence|]. exists (l1 ++ l2). rewrite D, B. now rewrite app_assoc.
Qed.
Lemma pm_grows p p' : pgrows p p' -> pm p' -> pm p.
Proof. intros [A [l B]] H. unfold pm in *. rewrite A, B in H. eapply m_match_prefix. exact H. Qed.

Lemma zk_log key h e : zinv key h -> zinv key (with_sha h (log (sha h) e)).
Proof. intros [? ? ? ? ? ? ? ? ?]. constructor; assumption. Qed.

Lemma iter_ok_inv {S} (f : S -> res S) (P : nat -> S -> Prop) :
  (forall j s s', P j s -> f s = Ok s' -> P (Datatypes.S j) s') ->
  forall n j s s', P j s -> iter_res n f s = Ok s' -> P (j + n)%nat s'.
Proof.
  intros H. induction n; intros j s s' Hp E; cbn [iter_res] in E.
  - injection E as <-. now rewrite Nat.add_0_r.
  - destruct (f s) as [s1| |] eqn:F; try discriminate. cbn [bind] in E.
    rewrite Nat.add_succ_r. apply (IHn (Datatypes.S j) s1 s'); [eapply H; eassumption|exact E].
Qed.

(** one opt_phash in the proof phase *)
Lemma zk_opt_phash key p h r n seed ri ro p' h' r' : zinv key h -> ppre p -> Forall byte seed ->
  Forall goodN (iv_in_hashes (sha h)) -> Forall goodN (pub_M p) ->
  opt_phash_core (fun d => d) p h r n seed ri ro true = Ok (p', h', r') ->
  zinv key h' /\ ppre p' /\ grows h h' /\ pgrows p p' /\
  (hm h' -> pm p' -> rev r' = rev r ++ p_hash n (rev key) (bits_of_bytes seed)).
Proof.
  intros V PP HB GW GP E. unfold opt_phash_core in E.
  destruct (iter_res (prf_blks n) _ _) as [[[[p1 h1] A1] r1]| |] eqn:I; try discriminate.
  cbn [bind fst] in E. injection E as <- <- <-.
  set (sk := rev key) in *. set (sd := bits_of_bytes seed) in *.
  assert (X := iter_ok_inv (opt_phash_step (fun d => d) seed ri ro true)
    (fun j '(p1, h1, A, r1) => zinv key h1 /\ ppre p1 /\ grows h h1 /\ pgrows p p1 /\ Forall byte A /\
       (hm h1 -> pm p1 -> bits_of_bytes A = A_i sk sd j /\ rev r1 = rev r ++ p_stream sk sd j))).
  specialize (X) with (n := prf_blks n) (j := 0%nat) (s := (p, h, seed, r)) (s' := (p1, h1, A1, r1)).
  cbv beta iota in X. rewrite Nat.add_0_l in X.
  assert (Y : zinv key h1 /\ ppre p1 /\ grows h h1 /\ pgrows p p1 /\ Forall byte A1 /\
       (hm h1 -> pm p1 -> bits_of_bytes A1 = A_i sk sd (prf_blks n) /\ rev r1 = rev r ++ p_stream sk sd (prf_blks n))).
  { apply X; [|split; [exact V|split; [exact PP|split; [apply grows_refl|split; [apply pgrows_refl|split; [exact HB|]]]]]|exact I].
    2:{ intros _ _. cbn. rewrite app_nil_r. auto. }
    clear X I p1 h1 A1 r1.
    intros j [[[p1 h1] A] r1] [[[p2 h2] A2] r2] (V1 & PP1 & G1 & PG1 & FA & HR) S.
    unfold opt_phash_step in S. fold opt_hmac in S.
    assert (GW1 : Forall goodN (iv_in_hashes (sha h1))) by (destruct G1 as [-> _]; exact GW).
    destruct (opt_hmac h1 A ri ro true) as [[h3 d3]| |] eqn:E3; try discriminate.
    cbn [bind negb] in S.
    destruct (zk_hmac key h1 A ri ro h3 d3 V1 FA GW1 E3) as (V3 & G3 & D3 & M3).
    destruct (nth_error (pub_M p1) (zk_pos p1)) as [w|] eqn:N1; cbn [read bind fst snd] in S; try discriminate.
    set (p3 := mkPrf (zk_sec_M p1 ++ [reverse_concat [] d3]) (pub_M p1) (Datatypes.S (zk_pos p1))) in *.
    assert (GW3 : Forall goodN (iv_in_hashes (sha h3))) by (destruct G3 as [-> _]; exact GW1).
    destruct (opt_hmac h3 (be_bytes w ++ seed) ri ro true) as [[h4 d4]| |] eqn:E4; try discriminate.
    cbn [bind] in S. injection S as <- <- <- <-.
    assert (FB : Forall byte (be_bytes w ++ seed)) by (apply Forall_app; split; [apply be_bytes_byte|exact HB]).
    destruct (zk_hmac key h3 _ ri ro h4 d4 V3 FB GW3 E4) as (V4 & G4 & D4 & M4).
    assert (PG3 : pgrows p1 p3) by (split; [reflexivity|]; eexists; reflexivity).
    split; [exact V4|]. split.
    { destruct PP1 as [Q1 Q2]. split; cbn [p3 zk_pos zk_sec_M pub_M]; rewrite app_length; cbn [length]; [lia|].
      assert (Y : nth_error (pub_M p1) (zk_pos p1) <> None) by congruence. apply nth_error_Some in Y. lia. }
    split; [exact (grows_trans _ _ _ G1 (grows_trans _ _ _ G3 G4))|].
    split; [exact (pgrows_trans _ _ _ PG1 PG3)|].
    split; [apply be_bytes_byte|].
    intros Mh Mp.
    assert (Mh3 := hm_grows _ _ G4 Mh). assert (Mh1 := hm_grows _ _ G3 Mh3).
    destruct (HR Mh1 (pm_grows _ _ PG3 Mp)) as [HA Hr].
    specialize (M3 Mh3). specialize (M4 Mh).
    assert (W : w = mac_words sk (A_i sk sd j)).
    { rewrite <- HA. assert (MW := is_mac_words _ _ _ M3). fold sk in MW. rewrite <- MW.
      destruct (Mp (length (zk_sec_M p1)) (reverse_concat [] d3)) as (w' & Hw & Ew).
      { cbn [p3 zk_sec_M]. rewrite nth_error_app2, Nat.sub_diag by lia. reflexivity. }
      cbn [p3 pub_M] in Hw. destruct PP1 as [Q1 _]. rewrite <- Q1, N1 in Hw. injection Hw as <-.
      assert (Gw : goodN w).
      { destruct PG1 as [Q _]. rewrite Q in N1. rewrite Forall_forall in GP. apply GP. eapply nth_error_In. exact N1. }
      apply words_unique; [exact D3|exact Gw|]. rewrite reverse_concat_ok in Ew. rewrite Ew.
      now apply array_words. }
    assert (HA' : bits_of_bytes (be_bytes w) = A_i sk sd (Datatypes.S j)).
    { rewrite be_bytes_ok, W. apply mac_words_bits. }
    split; [exact HA'|].
    rewrite rev_iconcat, Hr, p_stream_S, <- app_assoc. f_equal. f_equal.
    destruct M4 as [_ M4]. rewrite M4, bits_of_bytes_app, HA'. reflexivity. }
  destruct Y as (Y1 & Y2 & Y3 & Y4 & _ & Y5).
  split; [exact Y1|]. split; [exact Y2|]. split; [exact Y3|]. split; [exact Y4|].
  intros Mh Mp. destruct (Y5 Mh Mp) as [_ R]. now apply trim_ok.
Qed.

(** the other two variants need no comparison *)
Lemma zk_iter_rounds key h r n A0 ri ro : zinv key h ->
  exists h' A r', iter_res n (rounds_phash_step A0 ri ro) (h, A0, r) = Ok (h', A, r') /\
    zinv key h' /\ grows h h' /\ rev r' = rev r ++ p_stream (rev key) (rev A0) n.
Proof.
  intro V.
  destruct (iter_res_inv (rounds_phash_step A0 ri ro)
    (fun j '(h1, A, r1) => zinv key h1 /\ grows h h1 /\ rev A = A_i (rev key) (rev A0) j /\
       rev r1 = rev r ++ p_stream (rev key) (rev A0) j)) with (n := n) (j := 0%nat) (s := (h, A0, r))
    as (s' & E & I).
  - intros j [[h1 A] r1] (V1 & G1 & HA & HR). unfold rounds_phash_step.
    destruct (zk_rounds key h1 A ri ro V1) as (h2 & d & E & V2 & G2 & M). rewrite E. cbn [bind].
    destruct (zk_rounds key h2 (iconcat (iconcat [] [iconcat [] d]) [A0]) ri ro V2) as (h3 & d2 & E2 & V3 & G3 & M2).
    rewrite E2. cbn [bind]. eexists. split; [reflexivity|]. cbv beta iota.
    assert (HA' : rev (iconcat [] d) = A_i (rev key) (rev A0) (S j)).
    { rewrite rev_iconcat. cbn [rev app]. destruct M as [_ M]. rewrite M, HA. reflexivity. }
    split; [exact V3|]. split; [exact (grows_trans _ _ _ G1 (grows_trans _ _ _ G2 G3))|]. split; [exact HA'|].
    rewrite rev_iconcat, HR, p_stream_S, <- app_assoc. f_equal. f_equal.
    destruct M2 as [_ M2]. rewrite M2, As_rev, HA'. reflexivity.
  - split; [exact V|]. split; [apply grows_refl|]. cbn. rewrite app_nil_r. auto.
  - destruct s' as [[h' A] r']. destruct I as (I1 & I2 & _ & I3). exists h', A, r'. auto.
Qed.

Lemma zk_rounds_phash key h r n seed ri ro : zinv key h ->
  exists h' r', rounds_phash_core (fun d => d) h r n seed ri ro = Ok (h', r') /\
    zinv key h' /\ grows h h' /\ rev r' = rev r ++ p_hash n (rev key) (bits_of_bytes seed).
Proof.
  intro V. unfold rounds_phash_core.
  destruct (zk_iter_rounds key (with_sha h (log (sha h) [EvFeed ALICE (8 * length seed)])) r
     (prf_blks n) (int_of_array (8 * length seed) 8 (rev seed)) ri ro (zk_log _ _ _ V)) as (h' & A & r' & E & V' & G & R).
  rewrite E. cbn [bind fst]. eexists _, _. split; [reflexivity|]. split; [exact V'|]. split; [exact G|].
  apply trim_ok. rewrite R. now rewrite rev_int_of_array.
Qed.

Lemma zk_plain_phash key h r n seed : zinv key h ->
  exists h' r', phash h r n seed = Ok (h', r') /\
    zinv key h' /\ grows h h' /\ rev r' = rev r ++ p_hash n (rev key) (rev seed).
Proof.
  intro V. unfold phash.
  destruct (iter_res_inv (phash_step seed)
    (fun j '(h1, A, r1) => zinv key h1 /\ grows h h1 /\ rev A = A_i (rev key) (rev seed) j /\
       rev r1 = rev r ++ p_stream (rev key) (rev seed) j)) with (n := prf_blks n) (j := 0%nat) (s := (h, seed, r))
    as (s' & E & I).
  - intros j [[h1 A] r1] (V1 & G1 & HA & HR). unfold phash_step.
    destruct (zk_plain key h1 A V1) as (h2 & d & E & V2 & G2 & M). rewrite E. cbn [bind].
    destruct (zk_plain key h2 (iconcat (iconcat [] [iconcat [] d]) [seed]) V2) as (h3 & d2 & E2 & V3 & G3 & M2).
    rewrite E2. cbn [bind]. eexists. split; [reflexivity|]. cbv beta iota.
    assert (HA' : rev (iconcat [] d) = A_i (rev key) (rev seed) (S j)).
    { rewrite rev_iconcat. cbn [rev app]. destruct M as [_ M]. rewrite M, HA. reflexivity. }
    split; [exact V3|]. split; [exact (grows_trans _ _ _ G1 (grows_trans _ _ _ G2 G3))|]. split; [exact HA'|].
    rewrite rev_iconcat, HR, p_stream_S, <- app_assoc. f_equal. f_equal.
    destruct M2 as [_ M2]. rewrite M2, As_rev, HA'. reflexivity.
  - split; [exact V|]. split; [apply grows_refl|]. cbn. rewrite app_nil_r. auto.
  - destruct s' as [[h' A] r']. destruct I as (I1 & I2 & _ & I3). rewrite E. cbn [bind fst].
    eexists _, _. split; [reflexivity|]. split; [exact I1|]. split; [exact I2|]. now apply trim_ok.
Qed.

(** * Histories in the proof phase: the same calls with zk_flag = true *)
Definition zstep (s : prf_st * hmac_st) (o : pop) : res (prf_st * hmac_st * option Integer) :=
  (let '(p, h) := s in
   match o with
   | PInit k => let* h := prf_init h k in Ok (p, h, None)
   | PCompute n l s => let* (h, r) := prf_compute h [] n l s in Ok (p, h, Some r)
   | POpt n l s ri ro => let* (x, r) := prf_opt_compute p h [] n l s ri ro true in Ok (x, Some r)
   | PRounds n l s ri ro =>
       let* (h, r) := prf_opt_rounds_compute h [] n l s ri ro in Ok (p, h, Some r)
   end)%res.

Fixpoint zrun (s : prf_st * hmac_st) (os : list pop)
  : res (prf_st * hmac_st * list (option Integer)) :=
  match os with
  | [] => Ok (s, [])
  | o :: t => (let* (s, r) := zstep s o in let* (s, rs) := zrun s t in Ok (s, r :: rs))%res
  end.

Fixpoint pbytes (os : list pop) : Prop :=
  match os with
  | [] => True
  | POpt _ l s _ _ :: t => Forall byte l /\ Forall byte s /\ pbytes t
  | _ :: t => pbytes t
  end.

Lemma zinv_pre key h : zinv key h -> zpre h.
Proof. intros [? ? ? ? ? ? ? ? ?]. split; assumption. Qed.

Lemma zrun_sound os : forall key p h p' h' rs, zinv key h -> ppre p -> pbytes os ->
  Forall goodN (iv_in_hashes (sha h)) -> Forall goodN (pub_M p) ->
  zrun (p, h) os = Ok (p', h', rs) ->
  zpre h' /\ ppre p' /\ grows h h' /\ pgrows p p' /\
  (hm h' -> pm p' -> map (option_map (@rev bool)) rs = pspec (rev key) os).
Proof.
  induction os as [|o t IH]; intros key p h p' h' rs V PP HB GW GP E.
  { cbn in E. injection E as <- <- <-. split; [eapply zinv_pre; exact V|].
    auto using grows_refl, pgrows_refl. }
  destruct o as [k|n l s|n l s ri ro|n l s ri ro]; cbn [zrun zstep pbytes pspec] in *.
  - unfold prf_init in E. destruct (hinit h k) as [h1| |] eqn:I; try discriminate. cbn [bind] in E.
    destruct (zrun (p, h1) t) as [[[p2 h2] rs2]| |] eqn:R; try discriminate. cbn [bind] in E.
    injection E as <- <- <-.
    destruct (zinit h k h1 (zinv_pre _ _ V) I) as [V1 G1].
    destruct (IH k p h1 p2 h2 rs2 V1 PP HB) as (A & B & C & D & F); [now destruct G1 as [-> _]|exact GP|exact R|].
    split; [exact A|]. split; [exact B|]. split; [exact (grows_trans _ _ _ G1 C)|]. split; [exact D|].
    intros X Y. cbn [map option_map]. now rewrite (F X Y).
  - unfold prf_compute in E.
    destruct (zk_plain_phash key h [] n (iconcat (iconcat [] [l]) [s]) V) as (h1 & r & E1 & V1 & G1 & R1).
    rewrite E1 in E. cbn [bind] in E.
    destruct (zrun (p, h1) t) as [[[p2 h2] rs2]| |] eqn:R; try discriminate. cbn [bind] in E.
    injection E as <- <- <-.
    destruct (IH key p h1 p2 h2 rs2 V1 PP HB) as (A & B & C & D & F); [now destruct G1 as [-> _]|exact GP|exact R|].
    split; [exact A|]. split; [exact B|]. split; [exact (grows_trans _ _ _ G1 C)|]. split; [exact D|].
    intros X Y. cbn [map option_map]. rewrite (F X Y), R1.
    unfold prf. rewrite !rev_iconcat. cbn. now rewrite !app_nil_r.
  - destruct HB as (Hl & Hs & HB). unfold prf_opt_compute in E.
    destruct (opt_phash_core (fun d => d) p h [] n (l ++ s) ri ro true) as [[[p1 h1] r1]| |] eqn:E1; try discriminate.
    cbn [bind] in E.
    destruct (zk_opt_phash key p h [] n (l ++ s) ri ro p1 h1 r1 V PP) as (V1 & P1 & G1 & Q1 & R1);
      [apply Forall_app; auto|exact GW|exact GP|exact E1|].
    destruct (zrun (p1, h1) t) as [[[p2 h2] rs2]| |] eqn:R; try discriminate. cbn [bind] in E.
    injection E as <- <- <-.
    destruct (IH key p1 h1 p2 h2 rs2 V1 P1 HB) as (A & B & C & D & F);
      [now destruct G1 as [-> _]|now destruct Q1 as [-> _]|exact R|].
    split; [exact A|]. split; [exact B|]. split; [exact (grows_trans _ _ _ G1 C)|].
    split; [exact (pgrows_trans _ _ _ Q1 D)|].
    intros X Y. cbn [map option_map]. rewrite (F X Y), (R1 (hm_grows _ _ C X) (pm_grows _ _ D Y)).
    unfold prf. now rewrite bits_of_bytes_app.
  - unfold prf_opt_rounds_compute in E.
    destruct (zk_rounds_phash key h [] n (l ++ s) ri ro V) as (h1 & r & E1 & V1 & G1 & R1).
    rewrite E1 in E. cbn [bind] in E.
    destruct (zrun (p, h1) t) as [[[p2 h2] rs2]| |] eqn:R; try discriminate. cbn [bind] in E.
    injection E as <- <- <-.
    destruct (IH key p h1 p2 h2 rs2 V1 PP HB) as (A & B & C & D & F); [now destruct G1 as [-> _]|exact GP|exact R|].
    split; [exact A|]. split; [exact B|]. split; [exact (grows_trans _ _ _ G1 C)|]. split; [exact D|].
    intros X Y. cbn [map option_map]. rewrite (F X Y), R1.
    unfold prf. now rewrite bits_of_bytes_app.
Qed.

(** the comparisons handed to check_zero *)
Definition cmp_hold (l : list (Integer * list N)) : Prop :=
  Forall (fun c => fst c = int_of_array 256 32 (snd c)) l.

Lemma map_res_nth {A B} (f : A -> res B) l : forall l', map_res f l = Ok l' ->
  length l' = length l /\ forall i a, nth_error l i = Some a -> exists b, f a = Ok b /\ nth_error l' i = Some b.
Proof.
  induction l as [|a t IH]; intros l' E; cbn [map_res] in E.
  - injection E as <-. split; [reflexivity|]. intros [|i] x; discriminate.
  - destruct (f a) as [b| |] eqn:F; try discriminate. cbn [bind] in E.
    destruct (map_res f t) as [u| |] eqn:G; try discriminate. cbn [bind] in E. injection E as <-.
    destruct (IH u eq_refl) as [L N]. split; [cbn; now rewrite L|].
    intros [|i] x H; cbn in *; [injection H as <-; eauto|auto].
Qed.

Lemma sha_check_match s c : sha256_check s = Ok c -> cmp_hold c ->
  (length (zk_iv_in_hashes s) <= length (iv_in_hashes s))%nat ->
  iv_match (iv_in_hashes s) (zk_iv_in_hashes s).
Proof.
  unfold sha256_check. intros E H L i z Hz.
  assert (Hi : (i < length (iv_in_hashes s))%nat).
  { apply Nat.lt_le_trans with (length (zk_iv_in_hashes s)); [|exact L]. apply nth_error_Some. congruence. }
  apply map_res_nth in E. destruct E as [_ E].
  destruct (E i i) as (b & Fb & Nb).
  { rewrite (nth_error_nth' _ 0%nat) by (now rewrite seq_length). now rewrite seq_nth. }
  destruct (nth_error (iv_in_hashes s) i) as [w|] eqn:W; cbn [read bind] in Fb; [|discriminate].
  rewrite Hz in Fb. cbn [read bind] in Fb. injection Fb as <-.
  exists w. split; [reflexivity|]. unfold cmp_hold in H. rewrite Forall_forall in H.
  exact (H _ (nth_error_In _ _ Nb)).
Qed.

Lemma nth_error_combine {A B} (l : list A) (l' : list B) i a b :
  nth_error l i = Some a -> nth_error l' i = Some b -> nth_error (combine l l') i = Some (a, b).
Proof.
  revert l' i. induction l as [|x l IH]; intros [|y l'] [|i]; cbn; try discriminate.
  - now intros [= ->] [= ->].
  - apply IH.
Qed.

Lemma prf_check_match p c : prf_check p = Ok c -> cmp_hold c -> m_match (pub_M p) (zk_sec_M p).
Proof.
  unfold prf_check. destruct (Nat.eqb_spec (length (pub_M p)) (length (zk_sec_M p))) as [L|]; [|discriminate].
  cbn [negb]. intros [= <-] H i z Hz.
  destruct (nth_error (pub_M p) i) as [w|] eqn:W.
  2:{ apply nth_error_None in W. assert (nth_error (zk_sec_M p) i <> None) as X by congruence.
      apply nth_error_Some in X. lia. }
  exists w. split; [reflexivity|]. unfold cmp_hold in H. rewrite Forall_forall in H.
  exact (H _ (nth_error_In _ _ (nth_error_combine _ _ _ _ _ Hz W))).
Qed.

(** C34, soundness: whatever was recorded *)
Lemma zk_prf_sound secret os p h p' h' rs c1 c2 :
  zk_iv_in_hashes (sha h) = [] -> zpos (sha h) = (-1)%Z -> zk_sec_M p = [] -> zk_pos p = 0%nat ->
  Forall goodN (iv_in_hashes (sha h)) -> Forall goodN (pub_M p) -> pbytes os ->
  zrun (p, h) (PInit secret :: os) = Ok (p', h', None :: rs) ->
  prf_check p' = Ok c1 -> sha256_check (sha h') = Ok c2 -> cmp_hold c1 -> cmp_hold c2 ->
  map (option_map (@rev bool)) rs = pspec (rev secret) os.
Proof.
  intros Z1 Z2 Z3 Z4 GW GP HB E C1 C2 H1 H2. cbn [zrun zstep] in E. unfold prf_init in E.
  destruct (hinit h secret) as [h1| |] eqn:I; try discriminate. cbn [bind] in E.
  destruct (zrun (p, h1) os) as [[[p2 h2] rs2]| |] eqn:R; try discriminate. cbn [bind] in E.
  injection E as -> -> ->.
  assert (ZP : zpre h) by (split; rewrite Z1; [exact Z2|cbn; lia]).
  destruct (zinit h secret h1 ZP I) as [V1 G1].
  destruct (zrun_sound os secret p h1 p' h' rs V1) as (A & B & C & D & F); try assumption.
  { split; rewrite Z3; [exact Z4|cbn; lia]. }
  { now destruct G1 as [-> _]. }
  apply F.
  - apply (sha_check_match _ c2 C2 H2). apply A.
  - exact (prf_check_match _ c1 C1 H1).
Qed.
