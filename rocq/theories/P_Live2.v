(** Live wires of the hash, PRF, handshake and record classes. *)
From Coq Require Import List NArith ZArith Bool Arith Lia.
From Verif Require Import L_Bits L_Res L_PTree.
From Verif Require Import S_Netlist M_EmpInteger M_Bristol M_Bn M_Sym M_SymOn.
From Verif Require Import M_Sha256 M_Hmac M_Handshake D_AesKs D_AesEnc P_Bn P_Live.
Import ListNotations.
Local Open Scope nat_scope.
Local Open Scope sym_scope.
Local Opaque aes_ks_file aes_enc_file.

(** * Vectors whose first 256 bits (the most significant ones) are live *)
Definition top (s : cst) (x : sint) : Prop := 256 <= length x /\ forall i, length x - 256 <= i < length x -> lat s x i.
Lemma top_grow s s' x : grow s s' -> top s x -> top s' x.
Proof. intros G [L H]. split; [exact L|]. intros. eapply lat_grow; eauto. Qed.
Lemma top_lives s x : 256 <= length x -> lives s x -> top s x.
Proof. intros L H. split; [exact L|]. rewrite lives_lat in H. intros. apply H. lia. Qed.
Lemma top_app s p x : top s x -> top s (p ++ x).
Proof.
  intros [L H]. split; [rewrite app_length; lia|]. rewrite app_length. intros i Hi. unfold lat. rewrite app_nth2 by lia. apply H. lia.
Qed.
Lemma sconcat_app r ins : exists p, sconcat r ins = p ++ r.
Proof.
  unfold sconcat. revert r. induction ins as [|i ins IH]; intro r; [exists []; reflexivity|]. cbn [fold_left].
  destruct (IH (i ++ r)) as [p ->]. exists (p ++ i). now rewrite app_assoc.
Qed.
Lemma top_sconcat s r ins : top s r -> top s (sconcat r ins).
Proof. destruct (sconcat_app r ins) as [p ->]. apply top_app. Qed.
Lemma lives_app s a b : lives s (a ++ b) <-> lives s a /\ lives s b.
Proof. apply Forall_app. Qed.
Lemma lives_sconcat s : forall ins r, lives s r -> Forall (lives s) ins -> lives s (sconcat r ins).
Proof.
  unfold sconcat. induction ins as [|i ins IH]; intros r H F; [exact H|]. cbn [fold_left]. inversion F; subst. apply IH; [|assumption].
  apply lives_app. auto.
Qed.
Lemma sconcat_len : forall (ins : list sint) (r : sint) n, Forall (fun x : sint => length x = n) ins -> length (sconcat r ins) = length ins * n + length r.
Proof.
  unfold sconcat. induction ins as [|i ins IH]; intros r n F; [reflexivity|]. cbn [fold_left]. inversion F; subst. rewrite (IH _ (length i)) by assumption.
  rewrite app_length. cbn [length]. lia.
Qed.
Lemma lives_d8 s r d : lives s r -> d8 s d -> lives s (sconcat r d) /\ length (sconcat r d) = 256 + length r.
Proof.
  intros H [L F]. split.
  - apply lives_sconcat; [exact H|]. eapply Forall_impl; [|exact F]. intros ? X. apply X.
  - rewrite (sconcat_len d r 32), L; [reflexivity|]. eapply Forall_impl; [|exact F]. intros ? X. apply X.
Qed.
Lemma lives_skipn s n x : lives s x -> lives s (skipn n x). Proof. apply skipn_all_P. Qed.
Lemma lives_firstn s n x : lives s x -> lives s (firstn n x). Proof. apply firstn_all_P. Qed.
Lemma lives_nil s : lives s []. Proof. constructor. Qed.

(** * Hashing *)
Lemma map_res_inv {A B} (f : A -> res B) : forall l r, map_res f l = Ok r -> Forall2 (fun a b => f a = Ok b) l r.
Proof.
  induction l as [|a l IH]; intros r H; cbn in H; [injection H as <-; constructor|].
  destruct (f a) as [b| |] eqn:E; try discriminate H. cbn in H. destruct (map_res f l) as [t| |]; try discriminate H. injection H as <-.
  constructor; [exact E|]. apply IH. reflexivity.
Qed.
Lemma F2_length {A B} (R : A -> B -> Prop) l r : Forall2 R l r -> length l = length r.
Proof. induction 1; cbn; congruence. Qed.
Lemma sextract_ok x o n y : sextract x o n = Ok y -> o + n <= length x /\ y = firstn n (skipn (length x - o - n) x).
Proof. unfold sextract. destruct (Nat.leb_spec (o + n) (length x)); [|discriminate]. intro E. injection E as <-. auto. Qed.
Lemma nth_skipn {A} (l : list A) n i d : nth i (skipn n l) d = nth (n + i) l d.
Proof. revert l. induction n as [|n IH]; intros [|a l]; cbn [skipn Nat.add nth]; try reflexivity; [now destruct i|apply IH]. Qed.
Lemma nth_firstn' {A} (l : list A) n i d : i < n -> nth i (firstn n l) d = nth i l d.
Proof. revert l i. induction n as [|n IH]; intros [|a l] [|i] H; try lia; try reflexivity. cbn [firstn nth]. apply IH. lia. Qed.
Lemma on_words_ok x d : on_words x = Ok d -> length d = length x / 32 /\ Forall w32 d /\
  (forall s, top s x -> forall i, i < 8 -> i < length d -> lw s (ws d i)).
Proof.
  unfold on_words. change WORDLEN with 32. intro E. apply map_res_inv in E.
  assert (L : length d = length x / 32) by (rewrite <- (F2_length _ _ _ E), seq_length; reflexivity).
  assert (N : forall i, i < length d -> sextract x (i * 32) 32 = Ok (ws d i)).
  { intros i Hi. rewrite L in Hi. revert E Hi. generalize (length x / 32). intros n E Hi.
    assert (K : forall (l : list nat) r, Forall2 (fun a b => sextract x (a * 32) 32 = Ok b) l r -> forall j, j < length l -> sextract x (nth j l 0 * 32) 32 = Ok (nth j r [])).
    { induction 1; intros j Hj; [cbn in Hj; lia|]. destruct j; cbn [nth]; [assumption|]. apply IHForall2. cbn in Hj. lia. }
    specialize (K _ _ E i). rewrite seq_length, seq_nth in K by lia. apply K. exact Hi. }
  split; [exact L|]. split.
  - apply Forall_forall. intros w Hw. destruct (In_nth _ _ [] Hw) as (i & Hi & <-). apply N, sextract_ok in Hi as (B & E2). change (w32 (ws d i)). rewrite E2.
    unfold w32. rewrite firstn_length, skipn_length. lia.
  - intros s [T1 T2] i Hi Hd. apply N, sextract_ok in Hd as (B & E2). rewrite E2. split.
    + rewrite firstn_length, skipn_length. lia.
    + apply lives_lat. intros j Hj. rewrite firstn_length, skipn_length in Hj. unfold lat. rewrite nth_firstn', nth_skipn by lia. apply T2. lia.
Qed.
Lemma on_block_ok d i b : on_block d i = Ok b -> Forall w32 d -> length b = 16 /\ Forall w32 b /\ 16 * i + 16 <= length d /\ (i = 0 -> forall j, j < 16 -> ws b j = ws d j).
Proof.
  unfold on_block. destruct (Nat.leb_spec (16 * i + 16) (length d)); [|discriminate]. intros E F. assert (E2 : b = firstn 16 (skipn (16 * i) d)) by congruence. subst b. clear E.
  split; [rewrite firstn_length, skipn_length; lia|]. split; [apply firstn_all_P, skipn_all_P, F|]. split; [assumption|]. intros -> j Hj.
  unfold ws. rewrite nth_firstn' by lia. reflexivity.
Qed.
Lemma pc_rest dig data idx s : d8 s dig -> Forall w32 data -> pc s (on_rest dig data idx) d8.
Proof.
  intros D F. unfold on_rest. eapply pc_bind; [apply pc_lift; intros a E; exact (map_res_inv _ _ _ E)|]. intros s1 bl G1 E. cbv beta in E.
  apply pc_sfold; [exact (d8_grow _ _ _ G1 D)|]. intros s2 st x G2 Hin Hd.
  assert (X : length x = 16 /\ Forall w32 x).
  { clear - E F Hin. induction E; [destruct Hin|]. destruct Hin as [<-|Hin]; [|auto]. destruct (on_block_ok _ _ _ H F) as (A & B & _). auto. }
  apply pc_compress_ih; tauto.
Qed.
Definition shaI (s : cst) (t : on_sha) : Prop :=
  (forall d, on_iv_out t = Some d -> d8 s d) /\ (forall d, on_iv_in t = Some d -> d8 s d).
Lemma shaI_grow s s' t : grow s s' -> shaI s t -> shaI s' t.
Proof. intros G [A B]. split; intros; eapply d8_grow; eauto. Qed.
Lemma pc_block0 data blk s : Forall w32 data -> on_block data 0 = Ok blk -> (forall i, i < 8 -> i < length data -> lw s (ws data i)) ->
  pc s (on_compress on_h blk) d8.
Proof.
  intros F E H. destruct (on_block_ok _ _ _ E F) as (A & B & L & W). apply pc_compress_chunk; [exact on_h_ok|exact A|exact B|].
  intros i Hi. rewrite W by lia. apply H; lia.
Qed.
Definition sdQ (s : cst) (x : on_sha * list sint) : Prop := shaI s (fst x) /\ d8 s (snd x).
Lemma pc_update t x ro s : shaI s t -> top s x -> pc s (on_update t x ro) sdQ.
Proof.
  intros I T. unfold on_update. destruct (negb _); [apply pc_err|].
  eapply pc_bind; [apply pc_lift; intros a E; exact (on_words_ok _ _ E)|]. intros s1 d G1 (L & F & H). cbv beta in *.
  eapply pc_bind; [apply pc_lift; intros a E; exact E|]. intros s2 b G2 E. cbv beta in E.
  pose proof (pc_block0 d b s2 F E (H s2 (top_grow s s2 x ltac:(gr) T))) as B.
  assert (I2 : shaI s2 t) by (eapply shaI_grow; [|exact I]; gr).
  eapply pc_bind with (Q := sdQ).
  - destruct ro; [destruct (on_out_open t)|].
    + eapply pc_bind; [apply pc_lift; intros a R; exact R|]. intros s3 iv G3 R. cbv beta in R. apply pc_ret. split; [exact (shaI_grow _ _ _ G3 I2)|].
      cbn [snd]. unfold read in R. destruct (on_iv_out t) eqn:O; [|discriminate]. injection R as <-. eapply d8_grow; [exact G3|]. apply (proj1 I2), O.
    + eapply pc_bind; [exact B|]. intros s3 dg G3 D. apply pc_ret. split; [|exact D]. split; cbn [on_iv_out on_iv_in fst].
      * intros ? X. injection X as <-. exact D.
      * intros ? X. eapply d8_grow; [exact G3|]. apply (proj2 I2), X.
    + eapply pc_bind; [exact B|]. intros s3 dg G3 D. apply pc_ret. split; [exact (shaI_grow _ _ _ G3 I2)|exact D].
  - intros s3 [t' dg] G3 [I3 D]. eapply pc_bind; [apply pc_rest; [exact D|exact F]|]. intros s4 dg' G4 D'. apply pc_ret. split; [exact (shaI_grow _ _ _ G4 I3)|exact D'].
Qed.
Lemma pc_rounds_update t x ri s : shaI s t -> top s x -> pc s (on_rounds_update t x ri) sdQ.
Proof.
  intros I T. unfold on_rounds_update. destruct (negb _); [apply pc_err|].
  eapply pc_bind; [apply pc_lift; intros a E; exact (on_words_ok _ _ E)|]. intros s1 d G1 (L & F & H). cbv beta in *.
  eapply pc_bind; [apply pc_lift; intros a E; exact E|]. intros s2 b G2 E. cbv beta in E.
  pose proof (pc_block0 d b s2 F E (H s2 (top_grow s s2 x ltac:(gr) T))) as B.
  assert (I2 : shaI s2 t) by (eapply shaI_grow; [|exact I]; gr).
  eapply pc_bind with (Q := sdQ).
  - destruct ri; [destruct (on_in_open t)|].
    + eapply pc_bind; [apply pc_lift; intros a R; exact R|]. intros s3 iv G3 R. cbv beta in R. apply pc_ret. split; [exact (shaI_grow _ _ _ G3 I2)|].
      cbn [snd]. unfold read in R. destruct (on_iv_in t) eqn:O; [|discriminate]. injection R as <-. eapply d8_grow; [exact G3|]. apply (proj2 I2), O.
    + eapply pc_bind; [exact B|]. intros s3 dg G3 D. apply pc_ret. split; [|exact D]. split; cbn [on_iv_out on_iv_in fst].
      * intros ? X. eapply d8_grow; [exact G3|]. apply (proj1 I2), X.
      * intros ? X. injection X as <-. exact D.
    + eapply pc_bind; [exact B|]. intros s3 dg G3 D. apply pc_ret. split; [exact (shaI_grow _ _ _ G3 I2)|exact D].
  - intros s3 [t' dg] G3 [I3 D]. eapply pc_bind; [apply pc_rest; [exact D|exact F]|]. intros s4 dg' G4 D'. apply pc_ret. split; [exact (shaI_grow _ _ _ G4 I3)|exact D'].
Qed.
Lemma top_padding s x : top s x -> top s (on_padding x).
Proof. intro T. unfold on_padding. cbv zeta. repeat apply top_sconcat. exact T. Qed.
Lemma pc_digest t x ro s : shaI s t -> top s x -> pc s (on_digest t x ro) sdQ.
Proof. intros I T. apply pc_update; [exact I|]. apply top_padding, T. Qed.

Section ON.
Variable orc : list nev -> nat -> bool.
Lemma pc_open8 d s : pc s (on_open8 orc d) (fun _ _ => True).
Proof. unfold on_open8. pb; [apply pc_greveal|]. apply pc_ret. exact I. Qed.
Lemma pc_opt_update t x p ri s : shaI s t -> top s x -> pc s (on_opt_update orc t x p ri) (fun s' r => shaI s' (fst r)).
Proof.
  intros I T. unfold on_opt_update. destruct (Nat.eqb_spec (length x) CHUNKLEN) as [Lx|]; [cbn [negb]|apply pc_err].
  eapply pc_bind; [apply pc_lift; intros a E; exact (on_words_ok _ _ E)|]. intros s1 d G1 (L & F & H). cbv beta in *.
  assert (B : forall s', grow s1 s' -> pc s' (on_compress on_h d) d8).
  { intros s' G. rewrite Lx in L. apply pc_compress_chunk; [exact on_h_ok|exact L|exact F|]. intros i Hi. apply (H s').
    - eapply top_grow; [|exact T]. gr.
    - exact Hi.
    - rewrite L. change (CHUNKLEN / 32) with 16. lia. }
  eapply pc_bind with (Q := fun s' r => shaI s' (fst r)).
  - destruct ri; [destruct (negb _)|].
    + eapply pc_bind; [apply B; gr|]. intros s2 dg G2 D. pb; [apply pc_open8|]. apply pc_ret. cbn [fst].
      assert (I2 : shaI s' t) by (eapply shaI_grow; [|exact I]; gr). exact I2.
    + pb; [apply pc_lift; intros ? R; exact R|]. apply pc_ret. eapply shaI_grow; [|exact I]. gr.
    + eapply pc_bind; [apply B; gr|]. intros s2 dg G2 D. pb; [apply pc_open8|]. apply pc_ret. eapply shaI_grow; [|exact I]. gr.
  - intros s2 [t' pl] G2 I2. apply pc_ret. exact I2.
Qed.

(** * HMAC *)
Definition hmI (s : cst) (h : on_hmac) : Prop := shaI s (onh_sha h) /\ top s (onh_o h) /\ top s (onh_i h).
Lemma hmI_grow s s' h : grow s s' -> hmI s h -> hmI s' h.
Proof. intros G (A & B & C). split; [exact (shaI_grow _ _ _ G A)|]. split; eapply top_grow; eauto. Qed.
Lemma pc_pads n s : pc s (siter n (on_pad_step (spub CHUNKLEN 0x5c) (spub CHUNKLEN 0x36)) (spub CHUNKLEN 0x5c, spub CHUNKLEN 0x36))
  (fun _ p => length (fst p) = CHUNKLEN /\ length (snd p) = CHUNKLEN).
Proof.
  refine (pc_siter _ (fun _ _ p => length (fst p) = CHUNKLEN /\ length (snd p) = CHUNKLEN) _ n 0 _ s _).
  - intros _ s0 [o i] [A B]. cbn [fst snd] in *. unfold on_pad_step. cbn [fst snd].
    eapply pc_bind; [apply pc_sxor|]. intros s1 x G1 [X _]. eapply pc_bind; [apply pc_sxor|]. intros s2 y G2 [Y _]. apply pc_ret. cbn [fst snd].
    rewrite sshl_len, spub_len in X, Y. rewrite A in X. rewrite B in Y. rewrite Nat.min_id in X, Y. auto.
  - cbn [fst snd]. rewrite !spub_len. auto.
Qed.
Lemma pc_pad_xor k p s : top s k -> length k = CHUNKLEN -> length p = CHUNKLEN -> pc s (sxor k p) top.
Proof.
  intros [T1 T2] K P. eapply pc_mono; [apply pc_sxor|]. intros s' r G [L H]. rewrite K, P, Nat.min_id in L. rewrite K in T1, T2.
  split; [lia|]. intros i Hi. apply H; [lia|]. left. apply T2. lia.
Qed.
Lemma pc_hinit h key s : shaI s (onh_sha h) -> top s key -> pc s (on_hinit h key) hmI.
Proof.
  intros I T. unfold on_hinit. cbv zeta.
  assert (I0 : shaI s (on_refresh (onh_sha h))) by exact I.
  eapply pc_bind with (Q := fun s' r => shaI s' (fst r) /\ top s' (snd r) /\ length (snd r) = CHUNKLEN).
  - destruct (Nat.ltb_spec CHUNKLEN (length key)) as [Lk|Lk].
    + eapply pc_bind; [apply pc_digest; [exact I0|exact T]|]. intros s1 [t d] G1 [I1 D]. cbn [fst snd] in *. apply pc_ret. cbn [fst snd].
      split; [exact I1|]. destruct (lives_d8 s1 [] d (lives_nil _) D) as [V Lv]. split.
      * apply top_sconcat, top_lives; [rewrite Lv; lia|exact V].
      * unfold sconcat at 1. cbn [fold_left]. rewrite app_length, spub_len, Lv. reflexivity.
    + apply pc_ret. cbn [fst snd]. split; [exact I0|]. split; [apply top_sconcat, T|].
      unfold sconcat. cbn [fold_left]. rewrite app_length, spub_len. lia.
  - intros s1 [t pk] G1 (I1 & T1 & L1). cbn [fst snd] in *.
    eapply pc_bind; [apply pc_pads|]. intros s2 [o i] G2 [Lo Li]. cbn [fst snd] in *.
    eapply pc_bind; [apply pc_pad_xor; [exact (top_grow _ _ _ G2 T1)|exact L1|exact Lo]|]. intros s3 o' G3 To.
    assert (G13 : grow s1 s3) by gr.
    eapply pc_bind; [apply pc_pad_xor; [exact (top_grow _ _ _ G13 T1)|exact L1|exact Li]|]. intros s4 i' G4 Ti. apply pc_ret.
    split; [eapply shaI_grow; [|exact I1]; gr|]. split; [exact (top_grow _ _ _ G4 To)|exact Ti].
Qed.
Lemma pc_feed_words l s : pc s (on_feed_words l) (fun _ _ => True).
Proof. revert s. induction l as [|v l IH]; intro s; cbn [on_feed_words]; [apply pc_ret; exact I|]. pb; [apply pc_gfeed|]. pb; [apply IH|]. apply pc_ret. exact I. Qed.
Definition hdQ (s : cst) (x : on_hmac * list sint) : Prop := hmI s (fst x) /\ d8 s (snd x).
Lemma pc_opt_hmac h msg ri ro s : hmI s h -> pc s (on_opt_hmac orc h msg ri ro) hdQ.
Proof.
  intros (I & To & Ti). unfold on_opt_hmac. eapply pc_bind; [apply pc_opt_update; [exact I|exact Ti]|]. intros s1 [t dg] G1 I1. cbn [fst] in I1.
  eapply pc_bind; [apply pc_feed_words|]. intros s2 om G2 _. assert (G02 : grow s s2) by gr.
  eapply pc_bind; [apply pc_digest; [exact (shaI_grow _ _ _ G2 I1)|apply top_sconcat; exact (top_grow _ _ _ G02 To)]|].
  intros s3 [t' r] G3 [I3 D]. apply pc_ret. assert (G03 : grow s s3) by gr. split; [|exact D]. split; [exact I3|]. cbn [onh_o onh_i fst].
  split; [exact (top_grow _ _ _ G03 To)|exact (top_grow _ _ _ G03 Ti)].
Qed.
Lemma pc_rounds_hmac h msg ri ro s : hmI s h -> pc s (on_rounds_hmac h msg ri ro) hdQ.
Proof.
  intros (I & To & Ti). unfold on_rounds_hmac. unfold on_rounds_digest.
  eapply pc_bind; [apply pc_rounds_update; [exact I|apply top_padding, top_sconcat, Ti]|]. intros s1 [t dg] G1 [I1 D1]. cbn [fst snd] in *.
  eapply pc_bind; [apply pc_digest; [exact I1|apply top_sconcat; exact (top_grow _ _ _ G1 To)]|].
  intros s3 [t' r] G3 [I3 D]. apply pc_ret. assert (G03 : grow s s3) by gr. split; [|exact D]. split; [exact I3|]. cbn [onh_o onh_i fst].
  split; [exact (top_grow _ _ _ G03 To)|exact (top_grow _ _ _ G03 Ti)].
Qed.

(** * PRF *)
Definition hrQ (n : nat) (s : cst) (x : on_hmac * sint) : Prop := hmI s (fst x) /\ lives s (snd x) /\ length (snd x) = n.
Lemma trim_ok s r bl n : lives s r -> length r = prf_blks bl * 256 + n -> bl <= prf_blks bl * 256 ->
  lives s (on_trim bl r) /\ length (on_trim bl r) = bl + n.
Proof.
  intros V L B. unfold on_trim. change (DIGLEN * WORDLEN) with 256. split; [apply lives_skipn, V|]. rewrite skipn_length, L. lia.
Qed.
Lemma prf_blks_enough bl : bl <= prf_blks bl * 256.
Proof. unfold prf_blks. change (DIGLEN * WORDLEN) with 256. pose proof (Nat.div_mod bl 256 ltac:(lia)). pose proof (Nat.mod_upper_bound bl 256 ltac:(lia)). lia. Qed.
Lemma pc_opt_compute h r bl lb sd ri ro s : hmI s h -> lives s r -> pc s (on_opt_compute orc h r bl lb sd ri ro) (hrQ (bl + length r)).
Proof.
  intros I V. unfold on_opt_compute. 
  pose (J := fun (k : nat) s (st : on_hmac * list N * sint) => hmI s (fst (fst st)) /\ lives s (snd st) /\ length (snd st) = k * 256 + length r).
  eapply pc_bind; [apply (pc_siter (on_phash_step orc (lb ++ sd) ri ro) J) with (k := 0)|].
  - intros k s0 [[h0 A0] r0] (I0 & V0 & L0). cbn [fst snd] in *. unfold on_phash_step.
    eapply pc_bind; [apply pc_opt_hmac, I0|]. intros s1 [h1 t1] G1 [I1 D1]. cbn [fst snd] in *.
    eapply pc_bind; [apply pc_open8|]. intros s2 td G2 _. cbv zeta.
    eapply pc_bind; [apply pc_opt_hmac, (hmI_grow _ _ _ G2 I1)|]. intros s3 [h2 t2] G3 [I2 D2]. cbn [fst snd] in *. apply pc_ret.
    assert (G03 : grow s0 s3) by gr. destruct (lives_d8 s3 r0 t2 (lives_grow _ _ _ G03 V0) D2) as [V2 L2]. unfold J. cbn [fst snd].
    split; [exact I2|]. split; [exact V2|]. rewrite L2, L0. lia.
  - unfold J. cbn [fst snd]. split; [exact I|]. split; [exact V|reflexivity].
  - intros s1 [[h1 A1] r1] G1 (I1 & V1 & L1). cbn [fst snd Nat.add] in *. apply pc_ret.
    destruct (trim_ok s1 r1 bl (length r) V1 L1 (prf_blks_enough bl)) as [V2 L2]. split; [exact I1|]. split; assumption.
Qed.
Lemma pc_rounds_compute h r bl lb sd ri ro s : hmI s h -> lives s r -> pc s (on_rounds_compute h r bl lb sd ri ro) (hrQ (bl + length r)).
Proof.
  intros I V. unfold on_rounds_compute. cbv zeta. eapply pc_bind; [apply pc_gfeed|]. intros sa A0 Ga _.
  pose (J := fun (k : nat) s (st : on_hmac * sint * sint) => hmI s (fst (fst st)) /\ lives s (snd st) /\ length (snd st) = k * 256 + length r).
  eapply pc_bind; [apply (pc_siter (on_rounds_step A0 ri ro) J) with (k := 0)|].
  - intros k s0 [[h0 A1] r0] (I0 & V0 & L0). cbn [fst snd] in *. unfold on_rounds_step.
    eapply pc_bind; [apply pc_rounds_hmac, I0|]. intros s1 [h1 t1] G1 [I1 D1]. cbn [fst snd] in *. cbv zeta.
    eapply pc_bind; [apply pc_rounds_hmac, I1|]. intros s3 [h2 t2] G3 [I2 D2]. cbn [fst snd] in *. apply pc_ret.
    assert (G03 : grow s0 s3) by gr. destruct (lives_d8 s3 r0 t2 (lives_grow _ _ _ G03 V0) D2) as [V2 L2]. unfold J. cbn [fst snd].
    split; [exact I2|]. split; [exact V2|]. rewrite L2, L0. lia.
  - unfold J. cbn [fst snd]. split; [exact (hmI_grow _ _ _ Ga I)|]. split; [exact (lives_grow _ _ _ Ga V)|reflexivity].
  - intros s1 [[h1 A1] r1] G1 (I1 & V1 & L1). cbn [fst snd Nat.add] in *. apply pc_ret.
    destruct (trim_ok s1 r1 bl (length r) V1 L1 (prf_blks_enough bl)) as [V2 L2]. split; [exact I1|]. split; assumption.
Qed.

(** * Handshake *)
Definition hsW (s : cst) (h : on_hs) : Prop :=
  shaI s (onh_sha (on_hm h)) /\ lives s (on_ms h) /\ lives s (on_cwk h) /\ lives s (on_swk h) /\ lives s (on_civ h) /\ lives s (on_siv h).
Definition hsI (s : cst) (h : on_hs) : Prop := hsW s h /\ hmI s (on_hm h) /\ 256 <= length (on_ms h).
Lemma hsW_grow s s' h : grow s s' -> hsW s h -> hsW s' h.
Proof. intros G (A & B & C & D & E & F). split; [exact (shaI_grow _ _ _ G A)|]. repeat split; eapply lives_grow; eauto. Qed.
Lemma hsI_grow s s' h : grow s s' -> hsI s h -> hsI s' h.
Proof. intros G (A & B & C). split; [exact (hsW_grow _ _ _ G A)|]. split; [exact (hmI_grow _ _ _ G B)|exact C]. Qed.
Definition same_keys (h h' : on_hs) : Prop := on_q h' = on_q h /\ on_ms h' = on_ms h /\ on_cwk h' = on_cwk h /\ on_swk h' = on_swk h /\ on_civ h' = on_civ h /\ on_siv h' = on_siv h.
Lemma pc_prf h r n lb sd s : hmI s (on_hm h) -> lives s r -> pc s (on_prf orc h r n lb sd) (fun s' x =>
  same_keys h (fst x) /\ hmI s' (on_hm (fst x)) /\ lives s' (snd x) /\ length (snd x) = n * 8 + length r).
Proof.
  intros I V. unfold on_prf. eapply pc_bind with (Q := hrQ (n * 8 + length r)).
  - destruct (negb _); [apply pc_opt_compute|apply pc_rounds_compute]; assumption.
  - intros s1 [h1 r1] G1 (I1 & V1 & L1). apply pc_ret. cbn [fst snd] in *. split; [repeat split; reflexivity|]. auto.
Qed.
Lemma removelast_firstn' {A} (l : list A) : removelast l = firstn (length l - 1) l.
Proof. destruct (Nat.eq_dec (length l) 0) as [E|N]; [destruct l; [reflexivity|discriminate]|]. replace (length l - 1) with (pred (length l)) by lia. apply removelast_firstn_len. Qed.
Lemma spop_ok x y : spop x = Ok y -> y = firstn (length x - 1) x.
Proof. destruct x as [|a x]; [discriminate|]. cbn [spop]. intro E. injection E as <-. apply (removelast_firstn' (a :: x)). Qed.
Lemma pc_saddmod a b Q s : lives s a -> lives s b -> pc s (saddmod a b Q) (fun s' r => lives s' r /\ length r = length Q).
Proof.
  intros A B. unfold saddmod. cbv zeta. destruct (Nat.eqb_spec (length (a ++ [WPub false])) (length (b ++ [WPub false]))) as [L1|]; [cbn [negb]|apply pc_ub].
  rewrite !app_length in L1. cbn [length] in L1.
  eapply pc_bind; [apply pc_sadd|]. intros s1 c G1 [Lc Hc]. rewrite !app_length in Lc. cbn [length] in Lc.
  assert (Ec : length c = length a + 1) by lia. clear Lc.
  destruct (Nat.eqb_spec (length (c ++ [WPub false])) (length (Q ++ [WPub false] ++ [WPub false]))) as [L2|]; [cbn [negb]|apply pc_ub].
  rewrite !app_length in L2. cbn [length] in L2.
  eapply pc_bind; [apply pc_sgeq|]. intros s2 sel G2 _.
  eapply pc_bind; [apply pc_ssub_c|]. intros s3 d G3 Ld. rewrite !app_length in Ld. cbn [length] in Ld.
  eapply pc_bind; [apply pc_sselect|]. intros s4 r G4 [Lr Hr]. rewrite !app_length in Lr. cbn [length] in Lr.
  eapply pc_bind; [apply pc_lift; intros x E; exact (spop_ok _ _ E)|]. intros s5 r1 G5 ->. 
  apply pc_lift. intros r2 E. apply spop_ok in E. subst r2. rewrite firstn_length, firstn_firstn.
  assert (Er : length r = length a + 2) by lia.
  split; [|rewrite firstn_length; lia]. apply lives_lat. intros i Hi. rewrite firstn_length in Hi. unfold lat. rewrite nth_firstn' by lia.
  assert (X : lat s4 r i).
  { apply Hr; [lia|]. assert (Y : lat s1 c i).
    { apply Hc; [lia|]. left. unfold lat. rewrite app_nth1 by lia. rewrite lives_lat in A. apply A. lia. }
    unfold lat. rewrite app_nth1 by lia. eapply live_grow; [|exact Y]. gr. }
  eapply live_grow; [exact G5|exact X].
Qed.
Lemma pc_pms h pa pb s : 32 <= BN_num_bytes (on_q h) -> pc s (on_pms h pa pb) top.
Proof.
  intro Q. unfold on_pms. pb; [apply pc_lift; intros ? E; exact E|]. pb; [apply pc_lift; intros ? E; exact E|].
  eapply pc_bind; [apply pc_gfeed|]. intros s1 a1 G1 [A1 _]. eapply pc_bind; [apply pc_gfeed|]. intros s2 b1 G2 [B1 _].
  unfold saddmod_bn. eapply pc_mono; [apply pc_saddmod; [exact (lives_grow _ _ _ G2 A1)|exact B1]|].
  intros s3 r G3 [V L]. apply top_lives; [|exact V]. rewrite L, map_length. unfold int_of_array. rewrite firstn_length.
  assert (E : forall l : list N, length (flat_map (bits_of_N 8) l) = 8 * length l).
  { induction l as [|x l IH]; [reflexivity|]. cbn [flat_map]. rewrite app_length, IH, bits_of_N_length. cbn [length]. lia. }
  rewrite E, rev_length, bn2bin_length. lia.
Qed.
Lemma pc_master_gen h pa pb n lb sd s : hsW s h -> 32 <= BN_num_bytes (on_q h) -> 32 <= n -> pc s (
  do pms <- on_pms h pa pb; do hm <- on_hinit (on_hm h) pms;
  do (h', ms) <- on_prf orc (on_set_hm h hm) (on_ms h) n lb sd; mret (on_set_ms h' ms)) (fun s' h' => hsI s' h' /\ on_q h' = on_q h).
Proof.
  intros (I & Vm & K1 & K2 & K3 & K4) Q Hn. eapply pc_bind; [apply pc_pms, Q|]. intros s1 pms G1 T.
  eapply pc_bind; [apply pc_hinit; [exact (shaI_grow _ _ _ G1 I)|exact T]|]. intros s2 hm G2 H2. assert (G02 : grow s s2) by gr.
  eapply pc_bind; [apply pc_prf; [exact H2|exact (lives_grow _ _ _ G02 Vm)]|]. intros s3 [h' ms] G3 (S & H3 & V3 & L3). cbn [fst snd] in *. apply pc_ret.
  destruct S as (Sq & S1 & S2 & S3 & S4 & S5). cbn in Sq, S1, S2, S3, S4, S5. assert (G03 : grow s s3) by gr.
  split; [|exact Sq]. split; [|split; [exact H3|cbn; lia]].
  split; [exact (proj1 H3)|]. cbn [on_set_ms on_ms on_cwk on_swk on_civ on_siv]. rewrite S2, S3, S4, S5.
  split; [exact V3|]. repeat split; eapply lives_grow; eauto.
Qed.
Lemma pc_master h pa pb rc rs s : hsW s h -> 32 <= BN_num_bytes (on_q h) -> pc s (on_master orc h pa pb rc rs) (fun s' h' => hsI s' h' /\ on_q h' = on_q h).
Proof. intros. apply pc_master_gen; [assumption|assumption|]. unfold master_key_length. lia. Qed.
Lemma pc_ext_master h pa pb sh s : hsW s h -> 32 <= BN_num_bytes (on_q h) -> pc s (on_ext_master orc h pa pb sh) (fun s' h' => hsI s' h' /\ on_q h' = on_q h).
Proof. intros. apply pc_master_gen; [assumption|assumption|]. unfold extended_master_key_length. lia. Qed.
Lemma lives_extract s x o n y : lives s x -> sextract x o n = Ok y -> lives s y.
Proof. intros V E. apply sextract_ok in E as [_ ->]. apply lives_firstn, lives_skipn, V. Qed.
Lemma pc_expand h rc rs s : hsI s h -> pc s (on_expand orc h rc rs) (fun s' h' => hsI s' h' /\ on_q h' = on_q h).
Proof.
  intros (W & H & L). pose proof (proj1 (proj2 W)) as Vm. unfold on_expand.
  eapply pc_bind; [apply pc_hinit; [exact (proj1 H)|exact (top_lives _ _ L Vm)]|]. intros s1 hm G1 H1.
  eapply pc_bind; [apply pc_prf; [exact H1|apply lives_nil]|]. intros s2 [h' key] G2 (S & H2 & V2 & _). cbn [fst snd] in *.
  eapply pc_bind; [apply pc_lift; intros a E; exact (lives_extract _ _ _ _ _ V2 E)|]. intros s3 ck G3 V3. cbv beta in V3.
  assert (V2' := lives_grow _ _ _ G3 V2).
  eapply pc_bind; [apply pc_lift; intros a E; exact (lives_extract _ _ _ _ _ V2' E)|]. intros s4 sk G4 V4. cbv beta in V4.
  assert (V2'' := lives_grow _ _ _ G4 V2').
  eapply pc_bind; [apply pc_lift; intros a E; exact (lives_extract _ _ _ _ _ V2'' E)|]. intros s5 ci G5 V5. cbv beta in V5.
  assert (V2''' := lives_grow _ _ _ G5 V2'').
  eapply pc_bind; [apply pc_lift; intros a E; exact (lives_extract _ _ _ _ _ V2''' E)|]. intros s6 si G6 V6. cbv beta in V6.
  apply pc_ret. destruct S as (Sq & S1 & _). cbn in Sq, S1. assert (G26 : grow s2 s6) by gr. assert (H6 := hmI_grow _ _ _ G26 H2).
  split; [|exact Sq]. split; [|split; [exact H6|cbn; rewrite S1; exact L]].
  split; [exact (proj1 H6)|]. cbn [on_ms on_cwk on_swk on_civ on_siv]. rewrite S1.
  split; [eapply lives_grow; [|exact Vm]; gr|]. split; [eapply lives_grow; [|exact V3]; gr|]. split; [eapply lives_grow; [|exact V4]; gr|].
  split; [eapply lives_grow; [|exact V5]; gr|exact V6].
Qed.
Lemma pc_finished h lb tau s : hsI s h -> pc s (on_finished orc h lb tau) (fun s' x => hsI s' (fst x) /\ on_q (fst x) = on_q h).
Proof.
  intros (W & H & L). unfold on_finished. eapply pc_bind; [apply pc_prf; [exact H|apply lives_nil]|]. intros s1 [h' u] G1 (S & H1 & _). cbn [fst snd] in *.
  eapply pc_bind; [apply pc_greveal|]. intros s2 v G2 _. apply pc_ret. cbn [fst]. destruct S as (Sq & S1 & S2 & S3 & S4 & S5).
  split; [|exact Sq]. assert (G02 : grow s s2) by gr. destruct W as (_ & W1 & W2 & W3 & W4 & W5). assert (H2 := hmI_grow _ _ _ G2 H1).
  split; [|split; [exact H2|now rewrite S1]]. split; [exact (proj1 H2)|]. rewrite S1, S2, S3, S4, S5. repeat split; eapply lives_grow; eauto.
Qed.

(** * AES *)
Definition la_step (w : ptree bool) (g : gate) : ptree bool :=
  let rd i := match nget i w with Some b => b | None => false end in
  match g with
  | GA a b z => nset z (rd a && rd b) w
  | GX a b z => nset z (rd a || rd b) w
  | GI a z => nset z (rd a) w
  end.
Fixpoint la_load (start : N) (l : list bool) (w : ptree bool) : ptree bool :=
  match l with [] => w | b :: t => la_load (N.succ start) t (nset start b w) end.
(** outputs are not constant when no bit of the first input is, whatever the second input *)
Definition net_live (c : bristol) : bool :=
  let w := fold_left la_step (gates c)
    (la_load (in1_len c) (repeat false (N.to_nat (in2_len c))) (la_load 0 (repeat true (N.to_nat (in1_len c))) PLeaf)) in
  forallb (fun i => match nget i w with Some b => b | None => false end) (M_Bristol.nseq (num_wire c - out_len c) (N.to_nat (out_len c))).
Definition agr (s : cst) (a : ptree bool) (w : ptree wire) : Prop := forall i x, nget i a = Some true -> nget i w = Some x -> live s x.
Lemma agr_set s a w z b x : agr s a w -> (b = true -> live s x) -> agr s (nset z b a) (nset z x w).
Proof.
  intros A H i y. destruct (N.eq_dec z i) as [<-|N].
  - rewrite !ngss. intros E1 E2. injection E1 as ->. injection E2 as <-. auto.
  - rewrite !ngso by congruence. apply A.
Qed.
Lemma agr_grow s s' a w : grow s s' -> agr s a w -> agr s' a w.
Proof. intros G A i x H1 H2. eapply live_grow; [exact G|]. eapply A; eauto. Qed.
Lemma agr_load s : forall l x start a w, length l = length x -> (forall b y, In (b, y) (combine l x) -> b = true -> live s y) -> agr s a w ->
  agr s (la_load start l a) (sload start x w).
Proof.
  induction l as [|b l IH]; intros [|y x] start a w L H A; try discriminate L; [exact A|]. cbn [la_load sload]. apply IH.
  - now injection L.
  - intros. eapply H; [right; eassumption|assumption].
  - apply agr_set; [exact A|]. apply (H b y). now left.
Qed.
Definition rd (a : ptree bool) (i : N) : bool := match nget i a with Some b => b | None => false end.
Lemma agr_rd s a w i x : agr s a w -> read (nget i w) = Ok x -> rd a i = true -> live s x.
Proof.
  intros A R E. unfold rd in E. destruct (nget i a) as [[|]|] eqn:Ea; try discriminate E. unfold read in R. destruct (nget i w) eqn:Ew; [|discriminate R].
  injection R as <-. eapply A; eauto.
Qed.
Lemma pc_gates : forall gs a w s, agr s a w -> pc s (srun_gates gs w) (fun s' w' => agr s' (fold_left la_step gs a) w').
Proof.
  induction gs as [|g gs IH]; intros a w s A; cbn [srun_gates fold_left]; [apply pc_ret, A|].
  eapply pc_bind with (Q := fun s' w' => agr s' (la_step a g) w'); [|intros s1 w1 G1 A1; apply IH, A1].
  destruct g as [i j z|i j z|i z]; cbn [sgate_step la_step].
  - eapply pc_bind; [apply pc_lift; intros x E; exact E|]. intros s1 x G1 X. eapply pc_bind; [apply pc_lift; intros y E; exact E|]. intros s2 y G2 Y. cbv beta in X, Y.
    eapply pc_bind; [apply pc_gand|]. intros s3 o G3 O. apply pc_ret. assert (A3 : agr s3 a w) by (eapply agr_grow; [|exact A]; gr).
    apply agr_set; [exact A3|]. fold (rd a i) (rd a j). intro E. apply andb_prop in E as [E1 E2].
    assert (A2 : agr s2 a w) by (eapply agr_grow; [|exact A]; gr). apply O; eapply agr_rd; eauto.
  - eapply pc_bind; [apply pc_lift; intros x E; exact E|]. intros s1 x G1 X. eapply pc_bind; [apply pc_lift; intros y E; exact E|]. intros s2 y G2 Y. cbv beta in X, Y.
    eapply pc_bind; [apply pc_gxor|]. intros s3 o G3 O. apply pc_ret. assert (A3 : agr s3 a w) by (eapply agr_grow; [|exact A]; gr).
    apply agr_set; [exact A3|]. fold (rd a i) (rd a j). intro E.
    assert (A2 : agr s2 a w) by (eapply agr_grow; [|exact A]; gr). apply O. apply orb_prop in E as [E|E]; [left|right]; eapply agr_rd; eauto.
  - eapply pc_bind; [apply pc_lift; intros x E; exact E|]. intros s1 x G1 X. cbv beta in X.
    eapply pc_bind; [apply pc_gnot|]. intros s3 o G3 O. apply pc_ret. assert (A3 : agr s3 a w) by (eapply agr_grow; [|exact A]; gr).
    apply agr_set; [exact A3|]. fold (rd a i). intro E.
    assert (A2 : agr s1 a w) by (eapply agr_grow; [|exact A]; gr). apply O. eapply agr_rd; eauto.
Qed.
Lemma read_live s a w : agr s a w -> forall l o, forallb (rd a) l = true -> sread_wires w l = Ok o -> lives s o.
Proof.
  intro A. induction l as [|i l IH]; intros o F E; cbn [sread_wires] in E; [injection E as <-; constructor|].
  cbn [forallb] in F. apply andb_prop in F as [F1 F2]. destruct (read (nget i w)) as [x| |] eqn:R; try discriminate E. cbn [bind] in E.
  destruct (sread_wires w l) as [t| |]; try discriminate E. cbn [bind] in E. injection E as <-. constructor; [exact (agr_rd _ _ _ _ _ A R F1)|]. apply IH; auto.
Qed.
Lemma pc_bristol c x y s : net_live c = true -> lives s x -> pc s (sbristol c x y) lives.
Proof.
  intros H V. unfold sbristol. destruct (negb _) eqn:E; [apply pc_ub|]. apply negb_false_iff in E. apply andb_prop in E as [E1 E2].
  apply N.eqb_eq in E1, E2. eapply pc_bind; [apply pc_gates|].
  - apply agr_load with (l := repeat false (N.to_nat (in2_len c))); [rewrite repeat_length; lia| |].
    + intros b z Hin ->. apply in_combine_l in Hin. apply repeat_spec in Hin. discriminate Hin.
    + apply agr_load with (l := repeat true (N.to_nat (in1_len c))); [rewrite repeat_length; lia| |].
      * intros b z Hin _. apply in_combine_r in Hin. unfold lives in V. rewrite Forall_forall in V. auto.
      * intros i z. rewrite nget_leaf. discriminate.
  - intros s1 w G1 A. apply pc_lift. intros o Eo. eapply read_live; [exact A| |exact Eo]. exact H.
Qed.

Section AES.
Variables ks enc : bristol.
Hypothesis NK : net_live ks = true.
Hypothesis NE : net_live enc = true.
Lemma pc_AES k m s : lives s k -> pc s (scomputeAES enc k m) lives.
Proof.
  intro V. unfold scomputeAES. eapply pc_bind; [apply pc_bristol; [exact NE|exact V]|]. intros s1 o G1 O. apply pc_ret. apply Forall_rev, O.
Qed.
Lemma pc_aead_new k iv s : lives s k -> pc s (on_aead_new ks enc k iv) (fun s' x => lives s' (ona_key (fst x)) /\ lives s' (snd x)).
Proof.
  intro V. unfold on_aead_new, scomputeKS. eapply pc_bind; [apply pc_bristol; [exact NK|exact V]|]. intros s1 ek G1 E.
  eapply pc_bind; [apply pc_AES, E|]. intros s2 H G2 X. apply pc_ret. split; [exact (lives_grow _ _ _ G2 E)|exact X].
Qed.
Lemma pc_gctr : forall m k r n s, lives s k -> lives s r -> pc s (on_gctr enc m k r n) (fun s' x => lives s' (fst x)).
Proof.
  induction m as [|m IH]; intros k r n s K R; cbn [on_gctr]; [apply pc_ret, R|].
  eapply pc_bind; [apply pc_AES, K|]. intros s1 t G1 T.
  eapply pc_bind with (Q := fun _ _ => True).
  { unfold on_inc. destruct (Nat.ltb _ _); [apply pc_err|]. pb; [apply pc_sadd|]. apply pc_ret. exact I. }
  intros s2 n' G2 _. assert (G02 : grow s s2) by gr. apply IH; [exact (lives_grow _ _ _ G02 K)|]. unfold sconcat. cbn [fold_left]. apply lives_app.
  split; [exact (lives_grow _ _ _ G2 T)|exact (lives_grow _ _ _ G02 R)].
Qed.
Lemma pc_crypt a iv len sec s : lives s (ona_key a) -> pc s (on_crypt orc enc a iv len sec) (fun s' x =>
  lives s' (ona_key (fst x)) /\ lives s' (fst (fst (snd x))) /\ lives s' (snd (fst (snd x)))).
Proof.
  intro K. unfold on_crypt. cbv zeta. eapply pc_bind with (Q := fun _ _ => True).
  { unfold on_set_nonce. destruct (Nat.eqb _ _); [|apply pc_err]. cbv zeta. pb; [apply pc_gfeed|]. apply pc_ret. exact I. }
  intros s1 n0 G1 _. eapply pc_bind; [apply pc_gctr; [exact (lives_grow _ _ _ G1 K)|apply lives_nil]|]. intros s2 [Z n1] G2 VZ. cbn [fst] in VZ.
  eapply pc_bind with (Q := fun _ _ => True).
  { destruct (negb sec); [pb; [apply pc_greveal|]|]; apply pc_ret; exact I. }
  intros s3 z G3 _. apply pc_ret. cbn [fst snd ona_key]. assert (V3 := lives_grow _ _ _ G3 VZ). split; [eapply lives_grow; [|exact K]; gr|].
  split; [apply lives_skipn, V3|]. apply lives_skipn, lives_firstn, V3.
Qed.

(** * Sessions *)
Definition seI (q : Z) (s : cst) (x : on_sess) : Prop :=
  hsI s (os_hs x) /\ on_q (os_hs x) = q /\ Forall (fun a => lives s (ona_key a)) (os_aeads x) /\ Forall (lives s) (os_sh x).
Lemma aeads_grow s s' l : grow s s' -> Forall (fun a => lives s (ona_key a)) l -> Forall (fun a => lives s' (ona_key a)) l.
Proof. intro G. apply Forall_impl. intros. eapply lives_grow; eauto. Qed.
Lemma shs_grow s s' l : grow s s' -> Forall (lives s) l -> Forall (lives s') l.
Proof. intro G. apply Forall_impl. intros. eapply lives_grow; eauto. Qed.
Lemma pc_crypt_call q x k iv len sec s : seI q s x -> pc s (on_crypt_call orc enc x k iv len sec) (seI q).
Proof.
  intros (H & Q & A & V). unfold on_crypt_call. eapply pc_bind; [apply pc_lift; intros a E; exact E|]. intros s1 a G1 E. cbv beta in E.
  assert (Ka : lives s (ona_key a)).
  { unfold read in E. destruct (nth_error (os_aeads x) k) eqn:N; [|discriminate E]. injection E as <-. rewrite Forall_forall in A. apply A. eapply nth_error_In; eauto. }
  eapply pc_bind; [apply pc_crypt; exact (lives_grow _ _ _ G1 Ka)|]. intros s2 [a' y] G2 (K2 & V1 & V2). cbn [fst snd] in *. apply pc_ret. assert (G02 : grow s s2) by gr.
  split; [exact (hsI_grow _ _ _ G02 H)|]. split; [exact Q|]. cbn [os_aeads os_sh]. split.
  - apply Forall_app. split; [apply firstn_all_P, (aeads_grow _ _ _ G02 A)|]. apply Forall_app. split; [constructor; [exact K2|constructor]|]. apply skipn_all_P, (aeads_grow _ _ _ G02 A).
  - apply Forall_app. split; [exact (shs_grow _ _ _ G02 V)|]. constructor; [exact V1|]. constructor; [exact V2|constructor].
Qed.
Lemma pc_do q x c s : 32 <= BN_num_bytes q -> seI q s x -> pc s (on_do orc ks enc x c) (seI q).
Proof.
  intros B SI. pose proof SI as (H & Q & A & V). destruct c; cbn [on_do].
  - eapply pc_bind; [apply pc_master; [exact (proj1 H)|rewrite Q; exact B]|]. intros s1 h G1 [H1 Q1]. apply pc_ret.
    split; [exact H1|]. split; [cbn; congruence|]. split; [exact (aeads_grow _ _ _ G1 A)|exact (shs_grow _ _ _ G1 V)].
  - eapply pc_bind; [apply pc_ext_master; [exact (proj1 H)|rewrite Q; exact B]|]. intros s1 h G1 [H1 Q1]. apply pc_ret.
    split; [exact H1|]. split; [cbn; congruence|]. split; [exact (aeads_grow _ _ _ G1 A)|exact (shs_grow _ _ _ G1 V)].
  - eapply pc_bind; [apply pc_expand, H|]. intros s1 h G1 [H1 Q1]. apply pc_ret.
    split; [exact H1|]. split; [cbn; congruence|]. split; [exact (aeads_grow _ _ _ G1 A)|exact (shs_grow _ _ _ G1 V)].
  - eapply pc_bind; [apply pc_finished, H|]. intros s1 [h u] G1 [H1 Q1]. apply pc_ret.
    split; [exact H1|]. split; [cbn in *; congruence|]. split; [exact (aeads_grow _ _ _ G1 A)|exact (shs_grow _ _ _ G1 V)].
  - eapply pc_bind; [apply pc_finished, H|]. intros s1 [h u] G1 [H1 Q1]. apply pc_ret.
    split; [exact H1|]. split; [cbn in *; congruence|]. split; [exact (aeads_grow _ _ _ G1 A)|exact (shs_grow _ _ _ G1 V)].
  - destruct H as (W & H). pose proof W as (_ & _ & K1 & K2 & _). eapply pc_bind; [apply pc_aead_new; destruct server; assumption|].
    intros s1 [a Hh] G1 [Ka Vh]. cbn [fst snd] in *. apply pc_ret. split; [exact (hsI_grow _ _ _ G1 (conj W H))|]. split; [exact Q|]. cbn [os_aeads os_sh].
    split; apply Forall_app; (split; [|constructor; [assumption|constructor]]); [exact (aeads_grow _ _ _ G1 A)|exact (shs_grow _ _ _ G1 V)].
  - apply pc_crypt_call. exact SI.
  - apply pc_crypt_call. exact SI.
Qed.
Definition sets_master (c : on_call) : Prop := match c with NMaster _ _ _ _ | NExtMaster _ _ _ => True | _ => False end.
Lemma pc_first q rounds c s : 32 <= BN_num_bytes q -> sets_master c -> pc s (on_do orc ks enc (mkOnSess (on_hs_new q rounds) [] [] []) c) (seI q).
Proof.
  intros B M.
  assert (W : hsW s (on_hs_new q rounds)).
  { split; [split; discriminate|]. repeat split; apply lives_nil. }
  destruct c; try contradiction; cbn [on_do os_hs].
  - eapply pc_bind; [apply pc_master; [exact W|exact B]|]. intros s1 h G1 [H1 Q1]. apply pc_ret.
    split; [exact H1|]. split; [exact Q1|]. split; constructor.
  - eapply pc_bind; [apply pc_ext_master; [exact W|exact B]|]. intros s1 h G1 [H1 Q1]. apply pc_ret.
    split; [exact H1|]. split; [exact Q1|]. split; constructor.
Qed.
Theorem session_live q rounds c cs x s : 32 <= BN_num_bytes q -> sets_master c ->
  on_session orc ks enc q rounds (c :: cs) cst0 = Ok (x, s) -> Forall (Forall (live s)) (os_sh x).
Proof.
  intros B M E. unfold on_session in E. cbn [sfold] in E.
  assert (P : pc cst0 (do x <- on_do orc ks enc (mkOnSess (on_hs_new q rounds) [] [] []) c; sfold (on_do orc ks enc) cs x) (seI q)).
  { eapply pc_bind; [apply pc_first; assumption|]. intros s1 x1 G1 I1. apply pc_sfold; [exact I1|]. intros s2 x2 c2 G2 _ I2. apply pc_do; assumption. }
  destruct (P eq_refl _ _ E) as (_ & _ & _ & _ & _ & V). exact V.
Qed.
End AES.
End ON.
Lemma net_live_ks : net_live aes_ks_file = true. Proof. vm_compute. reflexivity. Qed.
Lemma net_live_enc : net_live aes_enc_file = true. Proof. vm_compute. reflexivity. Qed.
