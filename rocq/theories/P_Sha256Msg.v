(** Message-level correctness of SHA256::digest / opt_digest / opt_rounds_digest. *)
From Coq Require Import List NArith ZArith Bool Arith Lia.
From Verif Require Import L_Bits L_Res M_EmpInteger M_Trace M_Utils M_Sha256 S_Sha256 P_Sha256.
Import ListNotations.
Local Open Scope N_scope.
Local Opaque chunk_compress plain_chunk_compress compress.

(** * Padding *)
Lemma while_neg_spec fuel K :
  (- K < Z.of_nat fuel * 512)%Z ->
  (K < 512)%Z ->
  (0 <= while_neg fuel K < 512)%Z /\ ((while_neg fuel K) mod 512 = K mod 512)%Z.
Proof.
  revert K; induction fuel; intros K H1 H2; cbn [while_neg].
  - split; [lia|reflexivity].
  - destruct (Z.ltb_spec K 0).
    + change (Z.of_nat CHUNKLEN) with 512%Z. destruct (IHfuel (K + 512)%Z) as [A B]; try lia.
      split; [exact A|]. rewrite B. replace (K + 512)%Z with (K + 1 * 512)%Z by lia.
      now rewrite Z.mod_add.
    + split; [lia|reflexivity].
Qed.

Lemma pad_K L :
  Z.to_nat (while_neg (S L) (Z.of_nat CHUNKLEN - 65 - Z.of_nat L)) = pad_zeros L.
Proof.
  change (Z.of_nat CHUNKLEN) with 512%Z.
  destruct (while_neg_spec (S L) (512 - 65 - Z.of_nat L)) as [A B]; try lia.
  rewrite Z.mod_small in B by exact A. rewrite B.
  unfold pad_zeros. rewrite <- (Nat2Z.id ((447 + 512 - L mod 512) mod 512)). f_equal.
  rewrite Nat2Z.inj_mod, Nat2Z.inj_sub, Nat2Z.inj_mod.
  2:{ pose proof (Nat.mod_upper_bound L 512); lia. }
  change (Z.of_nat 512) with 512%Z. change (Z.of_nat (447 + 512)) with 959%Z.
  pose proof (Z.div_mod (Z.of_nat L) 512).
  replace (512 - 65 - Z.of_nat L)%Z
    with (959 - Z.of_nat L mod 512 + (- (Z.of_nat L / 512) - 1) * 512)%Z by lia.
  now rewrite Z.mod_add.
Qed.

Lemma padding_ok input : rev (padding input) = pad (rev input).
Proof.
  unfold padding, pad. cbn zeta. rewrite pad_K.
  unfold iconcat; cbn [fold_left]. rewrite !rev_app_distr, rev_length.
  rewrite <- !app_assoc. f_equal. f_equal.
  unfold int_of at 1. rewrite bits_of_N_0.
  f_equal.
  clear. induction (pad_zeros (length input)); [reflexivity|].
  cbn [repeat rev]. rewrite IHn. clear.
  induction n; [reflexivity|]. cbn [repeat app]. now rewrite IHn.
Qed.

Lemma pad_length m : exists k, length (pad m) = (512 * S k)%nat.
Proof.
  unfold pad, pad_zeros. rewrite !app_length, repeat_length, be_of_N_length.
  cbn [length]. set (L := length m).
  exists ((L + 64) / 512)%nat.
  pose proof (Nat.div_mod L 512). pose proof (Nat.mod_upper_bound L 512).
  pose proof (Nat.div_mod (L + 64) 512). pose proof (Nat.mod_upper_bound (L + 64) 512).
  set (a := (L mod 512)%nat) in *. set (q := (L / 512)%nat) in *.
  set (b := ((L + 64) mod 512)%nat) in *. set (r := ((L + 64) / 512)%nat) in *.
  destruct (Nat.lt_ge_cases a 448).
  - replace ((447 + 512 - a) mod 512)%nat with (447 - a)%nat.
    2:{ replace (447 + 512 - a)%nat with ((447 - a) + 1 * 512)%nat by lia.
        rewrite Nat.mod_add by lia. rewrite Nat.mod_small; lia. }
    lia.
  - rewrite Nat.mod_small by lia. lia.
Qed.

Lemma padding_length input : exists k, length (padding input) = (512 * S k)%nat.
Proof. rewrite <- rev_length, padding_ok. apply pad_length. Qed.

(** * Splitting into words *)
Lemma map_res_Ok {A B} (f : A -> res B) (g : A -> B) l :
  (forall a, In a l -> f a = Ok (g a)) -> map_res f l = Ok (map g l).
Proof.
  induction l; intro H; [reflexivity|]. cbn. rewrite H by (now left). cbn.
  rewrite IHl by (intros; apply H; now right). reflexivity.
Qed.

Lemma firstn_rev' {A} n (l : list A) : firstn n (rev l) = rev (skipn (length l - n) l).
Proof. rewrite firstn_rev. reflexivity. Qed.

Lemma nth_seq_map {A} (f : nat -> A) n i d : (i < n)%nat -> nth i (map f (seq 0 n)) d = f i.
Proof.
  intro. rewrite (nth_indep _ d (f 0%nat)) by (rewrite map_length, seq_length; lia).
  rewrite map_nth, seq_nth by lia. reflexivity.
Qed.

Lemma split_words_ok x m : length x = (32 * m)%nat ->
  split_words x = Ok (map (@rev bool) (chunks 32 (rev x))).
Proof.
  intro HL. unfold split_words, WORDLEN.
  replace (length x / 32)%nat with m by (rewrite HL, Nat.mul_comm, Nat.div_mul; lia).
  rewrite (map_res_Ok _ (fun i => firstn 32 (skipn (length x - i * 32 - 32) x))).
  2:{ intros i Hi. apply in_seq in Hi. unfold extract_integer.
      rewrite (proj2 (Nat.leb_le _ _)) by lia. reflexivity. }
  f_equal. apply (list_ext []).
  - rewrite !map_length, seq_length. symmetry. apply (chunks_length 32 _ m); [lia|].
    rewrite rev_length; lia.
  - intros i Hi. rewrite map_length, seq_length in Hi.
    rewrite nth_seq_map by assumption.
    change (@nil bool) with (rev (@nil bool)). rewrite map_nth.
    rewrite chunks_nth by (rewrite ?rev_length; lia).
    rewrite skipn_rev, firstn_rev, rev_involutive.
    rewrite firstn_length. rewrite Nat.min_l by lia.
    rewrite skipn_firstn_comm.
    f_equal; lia.
Qed.

Lemma N_of_be_words l : map N_of_bits (map (@rev bool) l) = map N_of_be l.
Proof. rewrite map_map. reflexivity. Qed.

Lemma chunks32_w32 b m : length b = (32 * m)%nat ->
  Forall w32 (map (@rev bool) (chunks 32 b)).
Proof.
  intro H. apply Forall_map. apply Forall_forall. intros c Hc. unfold w32.
  rewrite rev_length. pose proof (chunks_all_length 32 b m). 
  rewrite Forall_forall in H0. apply H0; [lia|exact H|exact Hc].
Qed.

(** * Blocks *)
Lemma chunks_app_mult {A} n m (a b : list A) :
  (n > 0)%nat -> length a = (n * m)%nat -> chunks n (a ++ b) = chunks n a ++ chunks n b.
Proof.
  intro Hn. revert a; induction m; intros a Ha.
  - destruct a; [rewrite chunks_nil; reflexivity|cbn in Ha; lia].
  - rewrite <- (firstn_skipn n a) at 1. rewrite <- app_assoc.
    assert (length (firstn n a) = n) by (rewrite firstn_length; lia).
    rewrite chunks_app by assumption.
    rewrite IHm by (rewrite skipn_length; lia).
    rewrite (chunks_cons n a) by (try assumption; intros ->; cbn in Ha; lia).
    reflexivity.
Qed.

Lemma chunks_chunks {A} (b : list A) k : length b = (512 * k)%nat ->
  map (chunks 32) (chunks 512 b) = chunks 16 (chunks 32 b).
Proof.
  revert b; induction k; intros b Hb.
  - destruct b; [reflexivity|cbn in Hb; lia].
  - rewrite <- (firstn_skipn 512 b).
    assert (H1 : length (firstn 512 b) = 512%nat) by (rewrite firstn_length; lia).
    rewrite chunks_app by (try lia; exact H1).
    rewrite (chunks_app_mult 32 16) by (try lia; exact H1).
    rewrite (chunks_app 16).
    + cbn [map]. rewrite IHk; [reflexivity|]. rewrite skipn_length; lia.
    + lia.
    + apply chunks_length; [lia|exact H1].
Qed.

Lemma chunks_map {A B} (f : A -> B) n l : chunks n (map f l) = map (map f) (chunks n l).
Proof.
  unfold chunks. rewrite map_length. generalize (length l). intro fu. revert l.
  induction fu; intro l; [reflexivity|]. cbn [chunks_fuel].
  destruct l; [reflexivity|]. cbn [map].
  change (f a :: map f l) with (map f (a :: l)).
  rewrite firstn_map, skipn_map, IHfu. reflexivity.
Qed.

Definition good (h : list Integer) : Prop := Forall w32 h /\ length h = 8%nat.
Definition goodblk (h : list Integer) : Prop := Forall w32 h /\ length h = 16%nat.

Lemma good_h : good sha256_h.
Proof. split; [apply h_w32|reflexivity]. Qed.

Lemma fold_sim {A B C D} (f : A -> B -> A) (g : C -> D -> C) (ra : A -> C) (rb : B -> D)
      (P : A -> Prop) (Q : B -> Prop) :
  (forall a b, P a -> Q b -> P (f a b) /\ ra (f a b) = g (ra a) (rb b)) ->
  forall l a, P a -> Forall Q l ->
    P (fold_left f l a) /\ ra (fold_left f l a) = fold_left g (map rb l) (ra a).
Proof.
  intros H l; induction l as [|b l IH]; intros a Ha HF; [split; [exact Ha|reflexivity]|].
  inversion HF; subst. destruct (H a b Ha H2) as [H4 H5].
  cbn [fold_left map]. rewrite <- H5. apply IH; assumption.
Qed.

Lemma fold_hd_tl {A B} (f : A -> B -> A) l a d : l <> [] ->
  fold_left f (tl l) (f a (hd d l)) = fold_left f l a.
Proof. destruct l; [congruence|reflexivity]. Qed.

Lemma fold_compress_ok blks dig : good dig -> Forall goodblk blks ->
  good (fold_left chunk_compress blks dig) /\
  map N_of_bits (fold_left chunk_compress blks dig) =
  fold_left compress (map (map N_of_bits) blks) (map N_of_bits dig).
Proof.
  apply (fold_sim chunk_compress compress (map N_of_bits) (map N_of_bits) good goodblk).
  intros a b [A1 A2] [B1 B2].
  destruct (chunk_compress_ok a b A1 A2 B1 B2) as (E1 & E2 & E3).
  split; [split|]; assumption.
Qed.

Lemma block_at_ok data n i : length data = (16 * n)%nat -> (i < n)%nat ->
  block_at data i = Ok (nth i (chunks 16 data) []).
Proof.
  intros Hl Hi. unfold block_at. rewrite (proj2 (Nat.leb_le _ _)) by lia.
  rewrite chunks_nth by lia. now rewrite (Nat.mul_comm i 16).
Qed.

Lemma rest_chunks_ok st dig data k : length data = (16 * S k)%nat ->
  rest_chunks st dig data (seq 1 k) =
  Ok (log st (repeat EvCompress k), fold_left chunk_compress (tl (chunks 16 data)) dig).
Proof.
  intro HL. unfold rest_chunks.
  rewrite (map_res_Ok _ (fun i => nth i (chunks 16 data) [])).
  2:{ intros i Hi. apply in_seq in Hi. apply (block_at_ok data (S k)); [exact HL|lia]. }
  cbn [bind]. rewrite map_length, seq_length.
  f_equal. f_equal. f_equal.
  assert (E : length (chunks 16 data) = S k) by (apply chunks_length; [lia|exact HL]).
  destruct (chunks 16 data) as [|c cs]; [discriminate|]. cbn [tl]. cbn in E.
  rewrite <- seq_shift, map_map. cbn [nth].
  apply (list_ext []). rewrite map_length, seq_length. lia.
  intros i Hi. rewrite map_length, seq_length in Hi. now rewrite nth_seq_map.
Qed.

(** all the blocks of a padded message *)
Definition blocks_of (padded : Integer) : list (list Integer) :=
  chunks 16 (map (@rev bool) (chunks 32 (rev padded))).

Lemma blocks_of_good padded k : length padded = (512 * k)%nat ->
  Forall goodblk (blocks_of padded) /\ length (blocks_of padded) = k /\
  map (map N_of_bits) (blocks_of padded) = map words (chunks 512 (rev padded)).
Proof.
  intro HL. unfold blocks_of.
  assert (L32 : length (chunks 32 (rev padded)) = (16 * k)%nat).
  { apply chunks_length; [lia|]. rewrite rev_length. lia. }
  assert (F32 : Forall w32 (map (@rev bool) (chunks 32 (rev padded)))).
  { apply (chunks32_w32 _ (16 * k)). rewrite rev_length. lia. }
  split; [|split].
  - apply Forall_forall. intros b Hb. split.
    + apply Forall_forall. intros w Hw. rewrite Forall_forall in F32. apply F32.
      rewrite <- (chunks_concat 16 (map (@rev bool) (chunks 32 (rev padded)))) by lia.
      apply in_concat. exists b. auto.
    + assert (F := chunks_all_length 16 (map (@rev bool) (chunks 32 (rev padded))) k
               ltac:(lia) ltac:(rewrite map_length; exact L32)).
      rewrite Forall_forall in F. apply F, Hb.
  - apply chunks_length; [lia|]. rewrite map_length. exact L32.
  - rewrite chunks_map, map_map.
    rewrite <- (chunks_chunks (rev padded) k) by (rewrite rev_length; exact HL).
    rewrite map_map. apply map_ext. intro c. apply N_of_be_words.
Qed.

(** [update] on a padded message *)
Definition set_out (st : sha_st) (d : list Integer) : sha_st :=
  mkSha (gc_in_open st) true (zk_in_open st) (iv_in_hashes st)
        (Some d) (zk_iv_in_hashes st) (iv_in_hash st) (pos st) (zpos st) (evs st).
Definition set_in (st : sha_st) (d : list Integer) : sha_st :=
  mkSha true (gc_out_open st) (zk_in_open st) (iv_in_hashes st)
        (iv_out_hash st) (zk_iv_in_hashes st) (Some d) (pos st) (zpos st) (evs st).

Lemma log_log st a b : log (log st a) b = log st (a ++ b).
Proof. destruct st; unfold log; cbn. now rewrite app_assoc. Qed.

(** first-block chaining value *)
Definition first_iv (x : Integer) : list Integer :=
  chunk_compress sha256_h (hd [] (blocks_of (padding x))).
Definition rest_of (x : Integer) : list (list Integer) := tl (blocks_of (padding x)).
Definition full_digest (x : Integer) : list Integer :=
  fold_left chunk_compress (rest_of x) (first_iv x).
Definition n_rest (x : Integer) : nat := (length (padding x) / CHUNKLEN - 1)%nat.

Lemma update_shape st x :
  digest st x false =
    Ok (log st (repeat EvCompress (S (n_rest x))), full_digest x) /\
  (gc_out_open st = false ->
   digest st x true =
    Ok (log (set_out st (first_iv x)) (repeat EvCompress (S (n_rest x))), full_digest x)) /\
  (forall d, gc_out_open st = true -> iv_out_hash st = Some d ->
   digest st x true =
    Ok (log st (repeat EvCompress (n_rest x)), fold_left chunk_compress (rest_of x) d)).
Proof.
  destruct (padding_length x) as [k Hk].
  assert (Hs : split_words (padding x) = Ok (map (@rev bool) (chunks 32 (rev (padding x))))).
  { apply (split_words_ok _ (16 * S k)). lia. }
  assert (L16 : length (map (@rev bool) (chunks 32 (rev (padding x)))) = (16 * S k)%nat).
  { rewrite map_length. apply chunks_length; [lia|]. rewrite rev_length; lia. }
  assert (Hm : (length (padding x) mod CHUNKLEN =? 0)%nat = true).
  { apply Nat.eqb_eq. rewrite Hk, Nat.mul_comm. apply Nat.mod_mul. discriminate. }
  assert (Hd : (length (padding x) / CHUNKLEN = S k)%nat).
  { rewrite Hk, Nat.mul_comm. apply Nat.div_mul. discriminate. }
  assert (Hn : n_rest x = k) by (unfold n_rest; rewrite Hd; lia).
  assert (Hb : block_at (map (@rev bool) (chunks 32 (rev (padding x)))) 0 =
               Ok (hd [] (blocks_of (padding x)))).
  { rewrite (block_at_ok _ (S k)) by (try exact L16; lia). unfold blocks_of.
    destruct (chunks 16 _); reflexivity. }
  rewrite Hn. unfold full_digest, first_iv, rest_of.
  unfold digest, update. rewrite Hm, Hs, Hd. cbn [negb bind]. rewrite Hb. cbn [bind].
  rewrite Nat.sub_succ, Nat.sub_0_r.
  split; [|split].
  - rewrite rest_chunks_ok by exact L16. rewrite log_log. reflexivity.
  - intros ->. cbn [bind]. rewrite rest_chunks_ok by exact L16. rewrite log_log. reflexivity.
  - intros d -> ->. cbn [bind read]. rewrite rest_chunks_ok by exact L16. reflexivity.
Qed.

Lemma rounds_shape st x :
  opt_rounds_digest st x false =
    Ok (log st (repeat EvCompress (S (n_rest x))), full_digest x) /\
  (gc_in_open st = false ->
   opt_rounds_digest st x true =
    Ok (log (set_in st (first_iv x)) (repeat EvCompress (S (n_rest x))), full_digest x)) /\
  (forall d, gc_in_open st = true -> iv_in_hash st = Some d ->
   opt_rounds_digest st x true =
    Ok (log st (repeat EvCompress (n_rest x)), fold_left chunk_compress (rest_of x) d)).
Proof.
  destruct (padding_length x) as [k Hk].
  assert (Hs : split_words (padding x) = Ok (map (@rev bool) (chunks 32 (rev (padding x))))).
  { apply (split_words_ok _ (16 * S k)). lia. }
  assert (L16 : length (map (@rev bool) (chunks 32 (rev (padding x)))) = (16 * S k)%nat).
  { rewrite map_length. apply chunks_length; [lia|]. rewrite rev_length; lia. }
  assert (Hm : (length (padding x) mod CHUNKLEN =? 0)%nat = true).
  { apply Nat.eqb_eq. rewrite Hk, Nat.mul_comm. apply Nat.mod_mul. discriminate. }
  assert (Hd : (length (padding x) / CHUNKLEN = S k)%nat).
  { rewrite Hk, Nat.mul_comm. apply Nat.div_mul. discriminate. }
  assert (Hn : n_rest x = k) by (unfold n_rest; rewrite Hd; lia).
  assert (Hb : block_at (map (@rev bool) (chunks 32 (rev (padding x)))) 0 =
               Ok (hd [] (blocks_of (padding x)))).
  { rewrite (block_at_ok _ (S k)) by (try exact L16; lia). unfold blocks_of.
    destruct (chunks 16 _); reflexivity. }
  rewrite Hn. unfold full_digest, first_iv, rest_of.
  unfold opt_rounds_digest, opt_rounds_update. rewrite Hm, Hs, Hd. cbn [negb bind].
  rewrite Hb. cbn [bind].
  rewrite Nat.sub_succ, Nat.sub_0_r.
  split; [|split].
  - rewrite rest_chunks_ok by exact L16. rewrite log_log. reflexivity.
  - intros ->. cbn [bind]. rewrite rest_chunks_ok by exact L16. rewrite log_log. reflexivity.
  - intros d -> ->. cbn [bind read]. rewrite rest_chunks_ok by exact L16. reflexivity.
Qed.

(** full digest = FIPS 180-4 *)
Lemma full_digest_ok x :
  good (full_digest x) /\ map N_of_bits (full_digest x) = sha256_words (rev x).
Proof.
  destruct (padding_length x) as [k Hk].
  destruct (blocks_of_good (padding x) (S k) Hk) as (G & Lb & M).
  unfold full_digest, first_iv, rest_of.
  assert (E : fold_left chunk_compress (tl (blocks_of (padding x)))
                (chunk_compress sha256_h (hd [] (blocks_of (padding x)))) =
              fold_left chunk_compress (blocks_of (padding x)) sha256_h).
  { apply fold_hd_tl. intro Z. rewrite Z in Lb. discriminate. }
  rewrite E.
  destruct (fold_compress_ok (blocks_of (padding x)) sha256_h good_h G) as [A B].
  split; [exact A|]. rewrite B, M, h_consts, padding_ok. reflexivity.
Qed.

(** C01 *)
Lemma digest_correct st x :
  exists st' d, digest st x false = Ok (st', d) /\
    length d = 8%nat /\ Forall w32 d /\ map N_of_bits d = sha256_words (rev x).
Proof.
  destruct (update_shape st x) as (E & _). destruct (full_digest_ok x) as [[A B] C].
  eexists _, _. split; [exact E|]. auto.
Qed.

Lemma rounds_digest_correct st x :
  exists st' d, opt_rounds_digest st x false = Ok (st', d) /\
    length d = 8%nat /\ Forall w32 d /\ map N_of_bits d = sha256_words (rev x).
Proof.
  destruct (rounds_shape st x) as (E & _). destruct (full_digest_ok x) as [[A B] C].
  eexists _, _. split; [exact E|]. auto.
Qed.
