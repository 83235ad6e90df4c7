(** The PRF variants compute the TLS 1.2 PRF (RFC 5246 section 5). *)
From Coq Require Import List NArith ZArith Bool Arith Lia.
From Verif Require Import L_Bits L_Res M_EmpInteger M_Trace M_Utils M_Sha256 M_Hmac S_Sha256
  S_Hmac P_Sha256 P_Sha256Msg P_Sha256Opt P_Hmac.
Import ListNotations.
Local Open Scope N_scope.
Local Opaque chunk_compress plain_chunk_compress compress.

(** * Byte order of the revealed words *)
Lemma be32_bytes v : be_of_N 32 v =
  bits_of_bytes [N.shiftr v 24 mod 256; N.shiftr v 16 mod 256; N.shiftr v 8 mod 256; v mod 256].
Proof.
  unfold bits_of_bytes, bits_of_byte, be_of_N. cbn [flat_map].
  rewrite !bits8_mod.
  rewrite (bits_of_N_app 8 24), (bits_of_N_app 8 16), (bits_of_N_app 8 8).
  rewrite !N.shiftr_shiftr. rewrite !rev_app_distr. rewrite app_nil_r, <- !app_assoc.
  reflexivity.
Qed.

Lemma be_bytes_ok w : bits_of_bytes (be_bytes w) = flat_map (be_of_N 32) w.
Proof.
  induction w as [|v w IH]; [reflexivity|].
  change (be_bytes (v :: w)) with
    ([N.shiftr v 24 mod 256; N.shiftr v 16 mod 256; N.shiftr v 8 mod 256; v mod 256] ++ be_bytes w).
  rewrite bits_of_bytes_app, IH, <- be32_bytes. reflexivity.
Qed.

Lemma be_bytes_byte w : Forall byte (be_bytes w).
Proof.
  unfold be_bytes. apply Forall_forall. intros x Hx. apply in_flat_map in Hx.
  destruct Hx as (v & _ & Hx). unfold byte.
  assert (forall y, y mod 256 < 256) by (intro; apply N.mod_lt; discriminate).
  destruct Hx as [<-|[<-|[<-|[<-|[]]]]]; apply H.
Qed.

(** * Stream lemmas on the specification *)
Lemma p_stream_S s sd k :
  p_stream s sd (S k) = p_stream s sd k ++ hmac_bits s (A_i s sd (S k) ++ sd).
Proof.
  unfold p_stream. replace (S k) with (k + 1)%nat at 1 by lia.
  rewrite seq_app, flat_map_app. cbn [seq flat_map]. rewrite app_nil_r. reflexivity.
Qed.

Lemma p_stream_length s sd k : length (p_stream s sd k) = (256 * k)%nat.
Proof.
  induction k; [reflexivity|]. rewrite p_stream_S, app_length, IHk, hmac_bits_length. lia.
Qed.

Lemma p_stream_prefix s sd j k n : (n <= 256 * j)%nat -> (j <= k)%nat ->
  firstn n (p_stream s sd k) = firstn n (p_stream s sd j).
Proof.
  intros Hn Hjk. induction k.
  - now replace j with 0%nat by lia.
  - destruct (Nat.eq_dec j (S k)) as [->|]; [reflexivity|].
    rewrite p_stream_S, firstn_app, p_stream_length.
    replace (n - 256 * k)%nat with 0%nat by lia. rewrite firstn_O, app_nil_r.
    apply IHk. lia.
Qed.

Lemma p_hash_blks n s sd : firstn n (p_stream s sd (prf_blks n)) = p_hash n s sd.
Proof.
  unfold p_hash, prf_blks. change (DIGLEN * WORDLEN)%nat with 256%nat.
  pose proof (Nat.div_mod n 256). pose proof (Nat.mod_upper_bound n 256).
  pose proof (Nat.div_mod (n + 255) 256). pose proof (Nat.mod_upper_bound (n + 255) 256).
  apply p_stream_prefix; lia.
Qed.

Lemma trim_ok n r r0 s sd :
  rev r = rev r0 ++ p_stream s sd (prf_blks n) ->
  rev (prf_trim n r) = rev r0 ++ p_hash n s sd.
Proof.
  intro H. unfold prf_trim. set (k := (prf_blks n * (DIGLEN * WORDLEN) - n)%nat).
  assert (L : length r = (length r0 + 256 * prf_blks n)%nat).
  { rewrite <- rev_length, H, app_length, rev_length, p_stream_length. reflexivity. }
  replace (rev (skipn k r)) with (firstn (length r - k) (rev r)).
  2:{ rewrite firstn_rev. f_equal. f_equal.
      assert (k <= length r)%nat; [|lia].
      unfold k. change (DIGLEN * WORDLEN)%nat with 256%nat. lia. }
  rewrite H, firstn_app, rev_length.
  assert (n <= 256 * prf_blks n)%nat.
  { unfold prf_blks. change (DIGLEN * WORDLEN)%nat with 256%nat.
    pose proof (Nat.div_mod n 256). pose proof (Nat.mod_upper_bound n 256). lia. }
  assert (E : (length r - k = length r0 + n)%nat).
  { unfold k. change (DIGLEN * WORDLEN)%nat with 256%nat. lia. }
  rewrite E. rewrite firstn_all2 by (rewrite rev_length; lia).
  replace (length r0 + n - length r0)%nat with n by lia.
  now rewrite p_hash_blks.
Qed.

(** * Iteration *)
Lemma iter_res_inv {S} (f : S -> res S) (P : nat -> S -> Prop) :
  (forall j s, P j s -> exists s', f s = Ok s' /\ P (Datatypes.S j) s') ->
  forall n j s, P j s -> exists s', iter_res n f s = Ok s' /\ P (j + n)%nat s'.
Proof.
  intros Hf n. induction n; intros j s H; cbn [iter_res].
  - exists s. now rewrite Nat.add_0_r.
  - destruct (Hf j s H) as (s1 & E & H1). rewrite E. cbn [bind].
    destruct (IHn _ _ H1) as (s2 & E2 & H2). exists s2. split; [exact E2|].
    now rewrite Nat.add_succ_r.
Qed.

Lemma As_rev a b : rev (iconcat (iconcat [] [a]) [b]) = rev a ++ rev b.
Proof. rewrite !rev_iconcat. cbn. now rewrite !app_nil_r. Qed.

(** * phash *)
Lemma phash_ok key m h r0 n seed : hinv key m h ->
  exists h' r, phash h r0 n seed = Ok (h', r) /\ hinv key m h' /\
    rev r = rev r0 ++ p_hash n (rev key) (rev seed).
Proof.
  intro Hv. unfold phash.
  destruct (iter_res_inv (phash_step seed)
    (fun j '(h, A, r) => hinv key m h /\ rev A = A_i (rev key) (rev seed) j /\
                         rev r = rev r0 ++ p_stream (rev key) (rev seed) j))
    with (n := prf_blks n) (j := 0%nat) (s := (h, seed, r0)) as (s' & E & I).
  - intros j [[h1 A] r] (V & HA & HR). unfold phash_step.
    destruct (hmac_step key m h1 A V) as (h2 & d & E & [G M] & V2). rewrite E. cbn [bind].
    match goal with |- context [hmac h2 ?x] =>
      destruct (hmac_step key m h2 x V2) as (h3 & d2 & E2 & [G2 M2] & V3) end.
    rewrite E2. cbn [bind]. eexists. split; [reflexivity|]. cbv beta iota.
    split; [exact V3|].
    assert (HA' : rev (iconcat [] d) = A_i (rev key) (rev seed) (S j)).
    { rewrite rev_iconcat, M, HA. reflexivity. }
    split; [exact HA'|].
    rewrite rev_iconcat, HR, M2, As_rev, HA', p_stream_S, <- app_assoc. reflexivity.
  - cbn. rewrite app_nil_r. auto.
  - destruct s' as [[h' A] r]. rewrite E. cbn [bind fst].
    destruct I as (V & _ & HR). eexists _, _. split; [reflexivity|]. split; [exact V|].
    apply trim_ok. exact HR.
Qed.

(** * opt_rounds_phash *)
Lemma rounds_mode_idem ri m : rounds_mode ri (rounds_mode ri m) = rounds_mode ri m.
Proof. destruct ri; reflexivity. Qed.
Lemma opt_mode_idem ri m : opt_mode ri (opt_mode ri m) = opt_mode ri m.
Proof. destruct ri; reflexivity. Qed.

Lemma hinv_log key m h e : hinv key m h -> hinv key m (with_sha h (log (sha h) e)).
Proof. intros []. constructor; assumption. Qed.

Lemma rounds_iter key m h r0 n A0 ri ro : hinv key m h -> (ri = true -> m <> UseOpt) ->
  exists h' A r, iter_res n (rounds_phash_step A0 ri ro) (h, A0, r0) = Ok (h', A, r) /\
    ((0 < n)%nat -> hinv key (rounds_mode ri m) h') /\
    rev r = rev r0 ++ p_stream (rev key) (rev A0) n.
Proof.
  intros Hv Hm.
  destruct (iter_res_inv (rounds_phash_step A0 ri ro)
    (fun j '(h, A, r) => (hinv key m h \/ hinv key (rounds_mode ri m) h) /\
                         ((0 < j)%nat -> hinv key (rounds_mode ri m) h) /\
                         rev A = A_i (rev key) (rev A0) j /\
                         rev r = rev r0 ++ p_stream (rev key) (rev A0) j))
    with (n := n) (j := 0%nat) (s := (h, A0, r0)) as (s' & E & I).
  - intros j [[h1 A] r] (V & _ & HA & HR). unfold rounds_phash_step.
    assert (X : exists h2 d, opt_rounds_hmac h1 A ri ro = Ok (h2, d) /\
                  is_mac key (rev A) d /\ hinv key (rounds_mode ri m) h2).
    { destruct V as [V|V].
      - apply rounds_hmac_step; assumption.
      - rewrite <- (rounds_mode_idem ri m). apply rounds_hmac_step; [assumption|].
        intros ->. discriminate. }
    destruct X as (h2 & d & E & [G M] & V2). rewrite E. cbn [bind].
    match goal with |- context [opt_rounds_hmac h2 ?x] =>
      destruct (rounds_hmac_step key (rounds_mode ri m) h2 x ri ro V2)
        as (h3 & d2 & E2 & [G2 M2] & V3); [intros ->; discriminate|] end.
    rewrite rounds_mode_idem in V3.
    rewrite E2. cbn [bind]. eexists. split; [reflexivity|]. cbv beta iota.
    split; [right; exact V3|]. split; [intros _; exact V3|].
    assert (HA' : rev (iconcat [] d) = A_i (rev key) (rev A0) (S j)).
    { rewrite rev_iconcat, M, HA. reflexivity. }
    split; [exact HA'|].
    rewrite rev_iconcat, HR, M2, As_rev, HA', p_stream_S, <- app_assoc. reflexivity.
  - cbn. rewrite app_nil_r. split; [auto|]. split; [intro; lia|]. auto.
  - destruct s' as [[h' A] r]. rewrite E.
    destruct I as (_ & V & _ & HR). eexists _, _, _. split; [reflexivity|]. split; [exact V|].
    exact HR.
Qed.

Lemma flat_map_bits8_length l : length (flat_map (bits_of_N 8) l) = (8 * length l)%nat.
Proof.
  induction l; [reflexivity|]. cbn [flat_map length]. rewrite app_length, bits_of_N_length, IHl. lia.
Qed.

Lemma rev_flat_bits8 l : rev (flat_map (bits_of_N 8) (rev l)) = bits_of_bytes l.
Proof.
  induction l as [|x l IH]; [reflexivity|]. cbn [rev].
  rewrite flat_map_app, rev_app_distr. cbn [flat_map]. rewrite app_nil_r, IH. reflexivity.
Qed.

(** the Integer built from a reversed byte array reads as that byte string *)
Lemma rev_int_of_array l : rev (int_of_array (8 * length l) 8 (rev l)) = bits_of_bytes l.
Proof.
  unfold int_of_array. rewrite firstn_all2 by (rewrite flat_map_bits8_length, rev_length; lia).
  apply rev_flat_bits8.
Qed.

Lemma rounds_phash_ok key m h r0 n seed ri ro : hinv key m h -> (ri = true -> m <> UseOpt) ->
  exists h' r, rounds_phash_core (fun d => d) h r0 n seed ri ro = Ok (h', r) /\
    hinv key (rounds_mode ri m) h' /\
    rev r = rev r0 ++ p_hash n (rev key) (bits_of_bytes seed).
Proof.
  intros Hv Hm. unfold rounds_phash_core.
  destruct (rounds_iter key m (with_sha h (log (sha h) [EvFeed ALICE (8 * length seed)])) r0
              (prf_blks n) (int_of_array (8 * length seed) 8 (rev seed)) ri ro)
    as (h' & A & r & E & V & HR); [now apply hinv_log|exact Hm|].
  rewrite E. cbn [bind fst]. eexists _, _. split; [reflexivity|].
  split; [apply V; unfold prf_blks; lia|].
  apply trim_ok. rewrite HR. now rewrite rev_int_of_array.
Qed.

(** * opt_phash, garbled-circuit mode *)
Definition mac_words (key : list bool) (msg : list bool) : list N :=
  map N_of_be (chunks 32 (hmac_bits key msg)).

Lemma is_mac_words key msg d : is_mac key msg d -> map N_of_bits d = mac_words (rev key) msg.
Proof.
  intros [[F L] E]. unfold mac_words. rewrite <- E.
  replace (flat_map (@rev bool) d) with (concat (map (@rev bool) d)) by (symmetry; apply flat_map_concat_map).
  rewrite chunks_concat_all; [|lia|].
  - rewrite map_map. apply map_ext. intro a. unfold N_of_be. now rewrite rev_involutive.
  - apply Forall_map. eapply Forall_impl; [|exact F]. intros a Ha. rewrite rev_length. exact Ha.
Qed.

Lemma mac_words_bits key msg : flat_map (be_of_N 32) (mac_words key msg) = hmac_bits key msg.
Proof.
  unfold mac_words. rewrite <- (chunks_concat 32 (hmac_bits key msg)) at 2 by lia.
  assert (F := chunks_all_length 32 (hmac_bits key msg) 8 ltac:(lia)
                 ltac:(rewrite hmac_bits_length; reflexivity)).
  induction F as [|c l Hc F IH]; [reflexivity|]. cbn [map flat_map concat].
  rewrite IH. f_equal. now apply be_of_N_of_be.
Qed.

Definition pub_of (p : prf_st) (ws : list (list N)) : prf_st :=
  mkPrf (zk_sec_M p) (pub_M p ++ ws) (zk_pos p).

Lemma opt_iter key m p h r0 n seed ri ro : hinv key m h -> Forall byte seed ->
  (ri = true -> m <> UseRounds) ->
  let sk := rev key in let sd := bits_of_bytes seed in
  exists h' A r, iter_res n (opt_phash_step (fun d => d) seed ri ro false) (p, h, seed, r0) =
      Ok (pub_of p (map (fun i => mac_words sk (A_i sk sd i)) (seq 0 n)), h', A, r) /\
    ((0 < n)%nat -> hinv key (opt_mode ri m) h') /\
    rev r = rev r0 ++ p_stream sk sd n.
Proof.
  intros Hv HB Hm sk sd.
  destruct (iter_res_inv (opt_phash_step (fun d => d) seed ri ro false)
    (fun j '(p', h, A, r) =>
       p' = pub_of p (map (fun i => mac_words sk (A_i sk sd i)) (seq 0 j)) /\
       (hinv key m h \/ hinv key (opt_mode ri m) h) /\
       ((0 < j)%nat -> hinv key (opt_mode ri m) h) /\
       Forall byte A /\ bits_of_bytes A = A_i sk sd j /\
       rev r = rev r0 ++ p_stream sk sd j))
    with (n := n) (j := 0%nat) (s := (p, h, seed, r0)) as (s' & E & I).
  - intros j [[[p1 h1] A] r] (HP & V & _ & FA & HA & HR). unfold opt_phash_step.
    fold opt_hmac.
    assert (X : exists h2 d, opt_hmac h1 A ri ro false = Ok (h2, d) /\
                  is_mac key (bits_of_bytes A) d /\ hinv key (opt_mode ri m) h2).
    { destruct V as [V|V].
      - apply opt_hmac_step; assumption.
      - rewrite <- (opt_mode_idem ri m). apply opt_hmac_step; [assumption|assumption|].
        intros ->. discriminate. }
    destruct X as (h2 & d & E & M & V2). rewrite E. cbn [bind negb fst snd].
    rewrite (reveal_dig d (proj1 M)), (is_mac_words _ _ _ M). fold sk. rewrite HA.
    set (w := mac_words sk (A_i sk sd j)).
    assert (HA' : bits_of_bytes (be_bytes w) = A_i sk sd (S j)).
    { rewrite be_bytes_ok. unfold w. apply mac_words_bits. }
    match goal with |- context [opt_hmac ?h2' (be_bytes w ++ seed) ri ro false] =>
      destruct (opt_hmac_step key (opt_mode ri m) h2' (be_bytes w ++ seed) ri ro)
        as (h3 & d2 & E2 & M2 & V3) end.
    { now apply hinv_log. }
    { apply Forall_app; split; [apply be_bytes_byte|assumption]. }
    { intros ->; discriminate. }
    rewrite opt_mode_idem in V3.
    rewrite E2. cbn [bind]. eexists. split; [reflexivity|]. cbv beta iota.
    split.
    { rewrite HP. unfold pub_of. cbn [zk_sec_M pub_M zk_pos].
      replace (S j) with (j + 1)%nat by lia. rewrite seq_app, map_app, app_assoc. reflexivity. }
    split; [right; exact V3|]. split; [intros _; exact V3|].
    split; [apply be_bytes_byte|].
    split; [exact HA'|].
    rewrite rev_iconcat, HR, p_stream_S, <- app_assoc. f_equal. f_equal.
    destruct M2 as [_ M2]. rewrite M2, bits_of_bytes_app, HA'. reflexivity.
  - cbn [seq map]. split; [destruct p; unfold pub_of; cbn; now rewrite app_nil_r|].
    split; [auto|]. split; [intro; lia|]. split; [assumption|]. cbn. rewrite app_nil_r. auto.
  - destruct s' as [[[p' h'] A] r]. rewrite E. cbn [Nat.add] in I.
    destruct I as (HP & _ & V & _ & _ & HR). eexists _, _, _. rewrite HP.
    split; [reflexivity|]. split; [exact V|]. exact HR.
Qed.

Lemma opt_phash_ok key m p h r0 n seed ri ro : hinv key m h -> Forall byte seed ->
  (ri = true -> m <> UseRounds) ->
  let sk := rev key in let sd := bits_of_bytes seed in
  exists h' r, opt_phash_core (fun d => d) p h r0 n seed ri ro false =
    Ok (pub_of p (map (fun i => mac_words sk (A_i sk sd i)) (seq 0 (prf_blks n))), h', r) /\
    hinv key (opt_mode ri m) h' /\
    rev r = rev r0 ++ p_hash n sk sd.
Proof.
  intros Hv HB Hm sk sd. unfold opt_phash_core.
  destruct (opt_iter key m p h r0 (prf_blks n) seed ri ro Hv HB Hm) as (h' & A & r & E & V & HR).
  rewrite E. cbn [bind fst]. eexists _, _. split; [reflexivity|].
  split; [apply V; unfold prf_blks; lia|]. apply trim_ok. exact HR.
Qed.

(** * compute (C06) *)
Lemma prf_compute_ok h0 secret r0 n label seed h :
  pos (sha h0) = (Z.of_nat (length (iv_in_hashes (sha h0))) - 1)%Z ->
  prf_init h0 secret = Ok h ->
  exists h' r, prf_compute h r0 n label seed = Ok (h', r) /\
    rev r = rev r0 ++ prf n (rev secret) (rev label) (rev seed).
Proof.
  intros Hp E. destruct (hinit_inv h0 secret Hp) as (h1 & E1 & V).
  unfold prf_init in E. rewrite E1 in E. injection E as <-.
  unfold prf_compute, prf.
  destruct (phash_ok secret Fresh h1 r0 n (iconcat (iconcat [] [label]) [seed]) V)
    as (h' & r & E2 & _ & R).
  exists h', r. split; [exact E2|]. rewrite R, !rev_iconcat. cbn. now rewrite !app_nil_r.
Qed.

Lemma prf_opt_compute_ok h0 secret p r0 n label seed ri ro h :
  pos (sha h0) = (Z.of_nat (length (iv_in_hashes (sha h0))) - 1)%Z ->
  prf_init h0 secret = Ok h -> Forall byte label -> Forall byte seed ->
  exists p' h' r, prf_opt_compute p h r0 n label seed ri ro false = Ok (p', h', r) /\
    rev r = rev r0 ++ prf n (rev secret) (bits_of_bytes label) (bits_of_bytes seed) /\
    pub_M p' = pub_M p ++
      map (fun i => mac_words (rev secret)
             (A_i (rev secret) (bits_of_bytes label ++ bits_of_bytes seed) i))
          (seq 0 (prf_blks n)).
Proof.
  intros Hp E HL HS. destruct (hinit_inv h0 secret Hp) as (h1 & E1 & V).
  unfold prf_init in E. rewrite E1 in E. injection E as <-.
  unfold prf_opt_compute, prf.
  destruct (opt_phash_ok secret Fresh p h1 r0 n (label ++ seed) ri ro V) as (h' & r & E2 & _ & R).
  - apply Forall_app; auto.
  - discriminate.
  - rewrite bits_of_bytes_app in *. eexists _, h', r. split; [exact E2|]. split; [exact R|]. reflexivity.
Qed.

Lemma prf_rounds_compute_ok h0 secret r0 n label seed ri ro h :
  pos (sha h0) = (Z.of_nat (length (iv_in_hashes (sha h0))) - 1)%Z ->
  prf_init h0 secret = Ok h ->
  exists h' r, prf_opt_rounds_compute h r0 n label seed ri ro = Ok (h', r) /\
    rev r = rev r0 ++ prf n (rev secret) (bits_of_bytes label) (bits_of_bytes seed).
Proof.
  intros Hp E. destruct (hinit_inv h0 secret Hp) as (h1 & E1 & V).
  unfold prf_init in E. rewrite E1 in E. injection E as <-.
  unfold prf_opt_rounds_compute, prf.
  destruct (rounds_phash_ok secret Fresh h1 r0 n (label ++ seed) ri ro V) as (h' & r & E2 & _ & R).
  - discriminate.
  - rewrite bits_of_bytes_app in R. exists h', r. split; [exact E2|exact R].
Qed.
