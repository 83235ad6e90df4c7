(** The zero-knowledge re-derivation after an honest garbled run: it succeeds and every
    deferred comparison holds (C34, completeness). *)
From Coq Require Import List NArith ZArith Bool Arith Lia.
From Verif Require Import L_Bits L_Res M_EmpInteger M_Trace M_Utils M_Sha256 M_Hmac.
From Verif Require Import S_Sha256 S_Hmac P_Sha256 P_Sha256Msg P_Sha256Opt P_Hmac P_Prf P_PrfHist P_PrfZk.
Import ListNotations.
Local Opaque chunk_compress plain_chunk_compress compress.

(** the record fields that only the input-reusing variant changes *)
Definition same (s s' : sha_st) : Prop :=
  iv_in_hashes s' = iv_in_hashes s /\ zk_iv_in_hashes s' = zk_iv_in_hashes s /\
  zk_in_open s' = zk_in_open s /\ zpos s' = zpos s.
Lemma same_refl s : same s s.
Proof. repeat split. Qed.
Lemma same_trans a b c : same a b -> same b c -> same a c.
Proof. intros (A & B & C & D) (E & F & G & H). repeat split; congruence. Qed.

Lemma ok_pair {A B} (a c : A) (b d : B) : Ok (a, b) = Ok (c, d) -> a = c /\ b = d.
Proof. intro H. now inversion H. Qed.

Lemma digest_frame s x r s' d : digest s x r = Ok (s', d) -> same s s' /\ gc_in_open s' = gc_in_open s.
Proof.
  intro E. destruct (update_shape s x) as (E1 & E2 & E3). destruct r.
  - destruct (gc_out_open s) eqn:G.
    + destruct (iv_out_hash s) as [d0|] eqn:I.
      * rewrite (E3 _ eq_refl eq_refl) in E. apply ok_pair in E; destruct E as [<- _]. repeat split.
      * unfold digest, update in E. rewrite G, I in E.
        destruct (negb (length (padding x) mod CHUNKLEN =? 0)%nat); [discriminate|].
        destruct (split_words (padding x)); try discriminate. cbn [bind] in E.
        destruct (block_at a 0); try discriminate.
    + rewrite (E2 eq_refl) in E. apply ok_pair in E; destruct E as [<- _]. repeat split.
  - rewrite E1 in E. apply ok_pair in E; destruct E as [<- _]. repeat split.
Qed.

Lemma rounds_frame s x r s' d : opt_rounds_digest s x r = Ok (s', d) ->
  same s s' /\ gc_in_open s' = r || gc_in_open s.
Proof.
  intro E. destruct (rounds_shape s x) as (E1 & E2 & E3). destruct r.
  - destruct (gc_in_open s) eqn:G.
    + destruct (iv_in_hash s) as [d0|] eqn:I.
      * rewrite (E3 _ eq_refl eq_refl) in E. apply ok_pair in E; destruct E as [<- _]. repeat split. exact G.
      * unfold opt_rounds_digest, opt_rounds_update in E. rewrite G, I in E.
        destruct (negb (length (padding x) mod CHUNKLEN =? 0)%nat); [discriminate|].
        destruct (split_words (padding x)); try discriminate. cbn [bind] in E.
        destruct (block_at a 0); try discriminate.
    + rewrite (E2 eq_refl) in E. apply ok_pair in E; destruct E as [<- _]. repeat split.
  - rewrite E1 in E. apply ok_pair in E; destruct E as [<- _]. repeat split.
Qed.

Lemma hmac_frame h m h' d : hmac h m = Ok (h', d) ->
  same (sha h) (sha h') /\ gc_in_open (sha h') = gc_in_open (sha h).
Proof.
  unfold hmac. intro E.
  destruct (digest (sha h) _ false) as [[s1 d1]| |] eqn:D1; try discriminate. cbn [bind] in E.
  destruct (digest s1 _ false) as [[s2 d2]| |] eqn:D2; try discriminate. cbn [bind] in E.
  injection E as <- <-. apply digest_frame in D1. apply digest_frame in D2.
  destruct D1 as [A1 B1], D2 as [A2 B2]. cbn. split; [eapply same_trans; eassumption|congruence].
Qed.
Lemma rhmac_frame h m ri ro h' d : opt_rounds_hmac h m ri ro = Ok (h', d) ->
  same (sha h) (sha h') /\ gc_in_open (sha h') = ri || gc_in_open (sha h).
Proof.
  unfold opt_rounds_hmac. intro E.
  destruct (opt_rounds_digest (sha h) _ ri) as [[s1 d1]| |] eqn:D1; try discriminate. cbn [bind] in E.
  destruct (digest s1 _ ro) as [[s2 d2]| |] eqn:D2; try discriminate. cbn [bind] in E.
  injection E as <- <-. apply rounds_frame in D1. apply digest_frame in D2.
  destruct D1 as [A1 B1], D2 as [A2 B2]. cbn. split; [eapply same_trans; eassumption|congruence].
Qed.

Lemma phash_frame h r n seed h' r' : phash h r n seed = Ok (h', r') ->
  same (sha h) (sha h') /\ gc_in_open (sha h') = gc_in_open (sha h).
Proof.
  unfold phash. intro E.
  destruct (iter_res _ _ _) as [[[h1 A1] r1]| |] eqn:I; try discriminate. cbn [bind fst] in E.
  injection E as <- <-.
  refine (iter_ok_inv (phash_step seed) (fun j '(h1, _, _) => same (sha h) (sha h1) /\ gc_in_open (sha h1) = gc_in_open (sha h))
    _ (prf_blks n) 0%nat (h, seed, r) (h1, A1, r1) (conj (same_refl _) eq_refl) I).
  intros j [[h2 A2] r2] [[h3 A3] r3] [S1 G1] F. unfold phash_step in F.
  destruct (hmac h2 A2) as [[h4 d4]| |] eqn:F1; try discriminate. cbn [bind] in F.
  destruct (hmac h4 _) as [[h5 d5]| |] eqn:F2; try discriminate. cbn [bind] in F. injection F as <- <- <-.
  apply hmac_frame in F1. apply hmac_frame in F2. destruct F1 as [A B], F2 as [C D].
  split; [eapply same_trans; [exact S1|eapply same_trans; eassumption]|congruence].
Qed.

Lemma rphash_frame h r n seed ri ro h' r' : rounds_phash_core (fun d => d) h r n seed ri ro = Ok (h', r') ->
  same (sha h) (sha h') /\ gc_in_open (sha h') = ri || gc_in_open (sha h).
Proof.
  unfold rounds_phash_core. intro E.
  destruct (iter_res _ _ _) as [[[h1 A1] r1]| |] eqn:I; try discriminate. cbn [bind fst] in E.
  injection E as <- <-.
  assert (X := fun P H1 H2 => iter_ok_inv (rounds_phash_step _ ri ro) P H1 (prf_blks n) 0%nat _ _ H2 I).
  specialize (X (fun j '(h1, _, _) => same (sha h) (sha h1) /\ gc_in_open (sha h1) =
     (if (j =? 0)%nat then gc_in_open (sha h) else ri || gc_in_open (sha h)))).
  cbv beta iota in X. rewrite Nat.add_0_l in X.
  assert (NZ : (prf_blks n =? 0)%nat = false) by (apply Nat.eqb_neq; unfold prf_blks; lia).
  rewrite NZ in X. apply X; [|split; [repeat split|reflexivity]].
  clear X I. intros j [[h2 A2] r2] [[h3 A3] r3] [S1 G1] F. unfold rounds_phash_step in F.
  destruct (opt_rounds_hmac h2 A2 ri ro) as [[h4 d4]| |] eqn:F1; try discriminate. cbn [bind] in F.
  destruct (opt_rounds_hmac h4 _ ri ro) as [[h5 d5]| |] eqn:F2; try discriminate. cbn [bind] in F. injection F as <- <- <-.
  apply rhmac_frame in F1. apply rhmac_frame in F2. destruct F1 as [A B], F2 as [C D].
  split; [eapply same_trans; [exact S1|eapply same_trans; eassumption]|].
  cbn [Nat.eqb]. rewrite D, B, G1. destruct ri, (j =? 0)%nat; reflexivity.
Qed.

(** * What the garbled phase records *)
Definition ivw (key : Integer) : list N := map N_of_bits (sec_iv (rev (ikp_of key))).
Definition need_iv (ri : bool) (m : hmode) : bool :=
  ri && match m with UseOpt => false | _ => true end.
Definition ph_ivs (key : Integer) (ri : bool) (m : hmode) : list (list N) :=
  if need_iv ri m then [ivw key] else [].
Definition ph_pubs (key : Integer) (seed : list N) (n : nat) : list (list N) :=
  map (fun i => mac_words (rev key) (A_i (rev key) (bits_of_bytes seed) i)) (seq 0 (prf_blks n)).
Fixpoint exp_ivs (key : Integer) (m : hmode) (os : list pop) : list (list N) :=
  match os with
  | [] => []
  | PInit k :: t => exp_ivs k Fresh t
  | PCompute _ _ _ :: t => exp_ivs key m t
  | POpt _ _ _ ri _ :: t => ph_ivs key ri m ++ exp_ivs key (opt_mode ri m) t
  | PRounds _ _ _ ri _ :: t => exp_ivs key (rounds_mode ri m) t
  end.
Fixpoint exp_pubs (key : Integer) (os : list pop) : list (list N) :=
  match os with
  | [] => []
  | PInit k :: t => exp_pubs k t
  | POpt n l s _ _ :: t => ph_pubs key (l ++ s) n ++ exp_pubs key t
  | _ :: t => exp_pubs key t
  end.

Definition gc_flag (m : hmode) : bool := match m with Fresh => false | _ => true end.
Definition zk_flag (m : hmode) : bool := match m with UseOpt => true | _ => false end.

Lemma pad_ivw key ikp : rev ikp = ikp_of key -> map N_of_bits (sec_iv ikp) = ivw key.
Proof. intro H. unfold ivw. rewrite <- H, rev_involutive. reflexivity. Qed.

(** the garbled variant: record, flags and zk members *)
Definition zsame (s s' : sha_st) : Prop :=
  zk_iv_in_hashes s' = zk_iv_in_hashes s /\ zk_in_open s' = zk_in_open s /\ zpos s' = zpos s.
Lemma zsame_refl s : zsame s s.
Proof. repeat split. Qed.
Lemma zsame_trans a b c : zsame a b -> zsame b c -> zsame a c.
Proof. intros (A & B & C) (D & E & F). repeat split; congruence. Qed.
Lemma same_z a b : same a b -> zsame a b.
Proof. intros (A & B & C & D). repeat split; assumption. Qed.

Lemma gc_hmac key m h msg ri ro h' d : hinv key m h -> gc_in_open (sha h) = gc_flag m ->
  (ri = true -> m <> UseRounds) ->
  opt_hmac h msg ri ro false = Ok (h', d) ->
  iv_in_hashes (sha h') = iv_in_hashes (sha h) ++ ph_ivs key ri m /\
  gc_in_open (sha h') = gc_flag (opt_mode ri m) /\ zsame (sha h) (sha h').
Proof.
  intros V G Hm E. unfold opt_hmac, opt_hmac_core in E.
  destruct (opt_digest (sha h) (i_key_pad h) msg ri false) as [[s1 dig]| |] eqn:D; try discriminate.
  cbn [bind] in E. destruct (digest (log s1 _) _ ro) as [[s2 d2]| |] eqn:D2; try discriminate.
  cbn [bind] in E. injection E as <- <-. apply digest_frame in D2. destruct D2 as [S2 G2].
  destruct (opt_shape (sha h) (i_key_pad h) msg (hi_il _ _ _ V)) as (E1 & E2 & E3 & _).
  cbn [sha with_sha].
  assert (X : iv_in_hashes s1 = iv_in_hashes (sha h) ++ ph_ivs key ri m /\
              gc_in_open s1 = gc_flag (opt_mode ri m) /\ zsame (sha h) s1).
  { destruct ri.
    - specialize (Hm eq_refl). destruct m; [|clear E2|congruence].
      + rewrite (E2 G) in D. injection D as <- <-. cbn. rewrite (pad_ivw key) by apply V. repeat split.
      + rewrite (E3 G) in D. destruct (read_at _ _) as [w| |]; try discriminate. cbn [bind] in D.
        injection D as <- <-. cbn. rewrite app_nil_r. repeat split. exact G.
    - rewrite (E1 false) in D. injection D as <- <-. cbn. rewrite app_nil_r. repeat split. exact G. }
  destruct X as (X1 & X2 & X3). destruct S2 as (Y1 & Y2 & Y3 & Y4). cbn in Y1, Y2, Y3, Y4, G2.
  split; [congruence|]. split; [congruence|].
  destruct X3 as (W1 & W2 & W3). repeat split; congruence.
Qed.

Lemma opt_mode_twice ri m : opt_mode ri (opt_mode ri m) = opt_mode ri m.
Proof. destruct ri; reflexivity. Qed.
Lemma ph_ivs_twice key ri m : ph_ivs key ri (opt_mode ri m) = [].
Proof. destruct ri; reflexivity. Qed.

Lemma gc_opt_phash key m p h r n seed ri ro p' h' r' : hinv key m h -> gc_in_open (sha h) = gc_flag m ->
  Forall byte seed -> (ri = true -> m <> UseRounds) ->
  opt_phash_core (fun d => d) p h r n seed ri ro false = Ok (p', h', r') ->
  iv_in_hashes (sha h') = iv_in_hashes (sha h) ++ ph_ivs key ri m /\
  gc_in_open (sha h') = gc_flag (opt_mode ri m) /\ zsame (sha h) (sha h').
Proof.
  intros V G HB Hm E. unfold opt_phash_core in E.
  destruct (iter_res (prf_blks n) _ _) as [[[[p1 h1] A1] r1]| |] eqn:I; try discriminate.
  cbn [bind fst] in E. injection E as <- <- <-.
  assert (X := fun P H1 H2 => iter_ok_inv (opt_phash_step (fun d => d) seed ri ro false) P H1 (prf_blks n) 0%nat _ _ H2 I).
  specialize (X (fun j '(p1, h1, A, r1) => Forall byte A /\ hinv key (if (j =? 0)%nat then m else opt_mode ri m) h1 /\
     gc_in_open (sha h1) = gc_flag (if (j =? 0)%nat then m else opt_mode ri m) /\
     iv_in_hashes (sha h1) = iv_in_hashes (sha h) ++ (if (j =? 0)%nat then [] else ph_ivs key ri m) /\
     zsame (sha h) (sha h1))).
  cbv beta iota in X. rewrite Nat.add_0_l in X.
  assert (NZ : (prf_blks n =? 0)%nat = false) by (apply Nat.eqb_neq; unfold prf_blks; lia).
  rewrite NZ in X. destruct X as (_ & _ & X1 & X2 & X3); [| |auto].
  2:{ cbn [Nat.eqb]. rewrite app_nil_r. split; [exact HB|]. split; [exact V|]. split; [exact G|]. split; [reflexivity|apply zsame_refl]. }
  clear I. intros j [[[p2 h2] A2] r2] [[[p3 h3] A3] r3] (FA & V2 & G2 & I2 & Z2) F.
  unfold opt_phash_step in F. fold opt_hmac in F.
  set (mj := if (j =? 0)%nat then m else opt_mode ri m) in *.
  assert (Mj : opt_mode ri mj = opt_mode ri m) by (unfold mj; destruct (j =? 0)%nat; [reflexivity|apply opt_mode_twice]).
  assert (Hmj : ri = true -> mj <> UseRounds).
  { unfold mj. destruct (j =? 0)%nat; [exact Hm|]. intros ->. cbn. congruence. }
  destruct (opt_hmac h2 A2 ri ro false) as [[h4 d4]| |] eqn:F1; try discriminate. cbn [bind negb fst snd] in F.
  destruct (opt_hmac _ _ ri ro false) as [[h5 d5]| |] eqn:F2 in F; try discriminate. cbn [bind] in F.
  injection F as <- <- <- <-.
  destruct (opt_hmac_step key mj h2 A2 ri ro V2 FA Hmj) as (hx & dx & Ex & _ & Vx).
  rewrite F1 in Ex. injection Ex as <- <-. rewrite Mj in Vx.
  destruct (gc_hmac key mj h2 A2 ri ro h4 d4 V2 G2 Hmj F1) as (B1 & B2 & B3). rewrite Mj in B2.
  set (h4' := with_sha h4 (log (sha h4) [EvReveal PUBLIC (length (reverse_concat [] d4))])) in *.
  assert (V4' : hinv key (opt_mode ri m) h4') by (apply hinv_log; exact Vx).
  assert (Hm' : ri = true -> opt_mode ri m <> UseRounds) by (intros ->; cbn; congruence).
  destruct (opt_hmac_step key (opt_mode ri m) h4' (be_bytes (reveal_as 32 (reverse_concat [] d4)) ++ seed) ri ro V4')
    as (hy & dy & Ey & _ & Vy); [apply Forall_app; split; [apply be_bytes_byte|exact HB]|exact Hm'|].
  rewrite F2 in Ey. injection Ey as <- <-. rewrite opt_mode_twice in Vy.
  destruct (gc_hmac key (opt_mode ri m) h4' _ ri ro h5 d5 V4' B2 Hm' F2) as (C1 & C2 & C3).
  rewrite opt_mode_twice in C2. rewrite ph_ivs_twice, app_nil_r in C1. cbn in C1.
  cbn [Nat.eqb]. split; [apply be_bytes_byte|]. split; [exact Vy|]. split; [exact C2|]. split.
  - rewrite C1, B1, I2. rewrite <- app_assoc. f_equal. unfold mj. destruct (j =? 0)%nat; [reflexivity|].
    now rewrite ph_ivs_twice, app_nil_r.
  - eapply zsame_trans; [exact Z2|]. eapply zsame_trans; [exact B3|exact C3].
Qed.

Lemma prun_records os : forall key m p h p' h' rs, hinv key m h -> gc_in_open (sha h) = gc_flag m ->
  pdisc m os -> prun (p, h) os = Ok (p', h', rs) ->
  iv_in_hashes (sha h') = iv_in_hashes (sha h) ++ exp_ivs key m os /\
  pub_M p' = pub_M p ++ exp_pubs key os /\
  zk_iv_in_hashes (sha h') = zk_iv_in_hashes (sha h) /\ zpos (sha h') = zpos (sha h) /\
  zk_sec_M p' = zk_sec_M p /\ zk_pos p' = zk_pos p.
Proof.
  induction os as [|o t IH]; intros key m p h p' h' rs V G Hd E.
  { cbn in E. injection E as <- <- <-. cbn. rewrite !app_nil_r. auto 9. }
  destruct o as [k|n l s|n l s ri ro|n l s ri ro]; cbn [prun pstep pdisc exp_ivs exp_pubs] in *.
  - unfold prf_init in E. destruct (hinit_inv h k (hi_pos _ _ _ V)) as (h1 & I & V1). rewrite I in E.
    cbn [bind] in E. destruct (prun (p, h1) t) as [[[p2 h2] rs2]| |] eqn:R; try discriminate. cbn [bind] in E.
    injection E as <- <- <-.
    destruct (hinit_ok h k) as (h1' & I' & _ & _ & _ & _ & SH). rewrite I in I'. injection I' as <-.
    destruct (IH k Fresh p h1 p2 h2 rs2 V1) as (A & B & C & D & F); [now rewrite SH|exact Hd|exact R|].
    rewrite A, C, D, SH. cbn. auto 9.
  - unfold prf_compute in E. destruct (phash_ok key m h [] n (iconcat (iconcat [] [l]) [s]) V) as (h1 & r & E1 & V1 & _).
    assert (FR := phash_frame _ _ _ _ _ _ E1). rewrite E1 in E. cbn [bind] in E.
    destruct (prun (p, h1) t) as [[[p2 h2] rs2]| |] eqn:R; try discriminate. cbn [bind] in E.
    injection E as <- <- <-. destruct FR as [(S1 & S2 & S3 & S4) GF].
    destruct (IH key m p h1 p2 h2 rs2 V1) as (A & B & C & D & F); [congruence|exact Hd|exact R|].
    rewrite A, C, D, S1, S2, S4. auto 9.
  - destruct Hd as (Hl & Hs & Hm & Hd). unfold prf_opt_compute in E.
    assert (HB : Forall byte (l ++ s)) by (apply Forall_app; auto).
    destruct (opt_phash_ok key m p h [] n (l ++ s) ri ro V HB Hm) as (h1 & r & E1 & V1 & _).
    rewrite E1 in E. cbn [bind] in E.
    destruct (gc_opt_phash _ _ _ _ _ _ _ _ _ _ _ _ V G HB Hm E1) as (R1 & R2 & R3 & R4 & R5).
    destruct (prun (_, h1) t) as [[[p2 h2] rs2]| |] eqn:R; try discriminate. cbn [bind] in E.
    injection E as <- <- <-.
    destruct (IH key _ _ h1 p2 h2 rs2 V1 R2 Hd R) as (A & B & C & D & F & K).
    rewrite A, B, C, D, F, K, R1, R3, R5. cbn [pub_of pub_M zk_sec_M zk_pos].
    rewrite <- !app_assoc. fold (ph_pubs key (l ++ s) n). auto 9.
  - destruct Hd as (Hm & Hd). unfold prf_opt_rounds_compute in E.
    destruct (rounds_phash_ok key m h [] n (l ++ s) ri ro V Hm) as (h1 & r & E1 & V1 & _).
    assert (FR := rphash_frame _ _ _ _ _ _ _ _ E1). rewrite E1 in E. cbn [bind] in E.
    destruct (prun (p, h1) t) as [[[p2 h2] rs2]| |] eqn:R; try discriminate. cbn [bind] in E.
    injection E as <- <- <-. destruct FR as [(S1 & S2 & S3 & S4) GF].
    destruct (IH key _ p h1 p2 h2 rs2 V1) as (A & B & C & D & F); [|exact Hd|exact R|].
    { rewrite GF, G. unfold rounds_mode. destruct ri; [reflexivity|]. reflexivity. }
    rewrite A, C, D, S1, S2, S4. auto 9.
Qed.

(** * The proof phase against an honest record *)
Definition ivz (w : list N) : Integer := int_of_array 256 32 (rev w).
Definition mz (w : list N) : Integer := int_of_array 256 32 w.
(** already re-derived [D], still recorded [T] *)
Definition zmt (h : hmac_st) (D T : list (list N)) : Prop :=
  iv_in_hashes (sha h) = D ++ T /\ zk_iv_in_hashes (sha h) = map ivz D.
Definition pmt (p : prf_st) (D T : list (list N)) : Prop :=
  pub_M p = D ++ T /\ zk_sec_M p = map mz D.

Lemma zmt_hm h D T : zmt h D T -> hm h.
Proof.
  intros [A B] i z H. rewrite B, nth_error_map in H. destruct (nth_error D i) as [w|] eqn:W; [|discriminate].
  cbn in H. injection H as <-. exists w. split; [|reflexivity]. rewrite A, nth_error_app1; [exact W|].
  apply nth_error_Some. congruence.
Qed.
Lemma pmt_pm p D T : pmt p D T -> pm p.
Proof.
  intros [A B] i z H. rewrite B, nth_error_map in H. destruct (nth_error D i) as [w|] eqn:W; [|discriminate].
  cbn in H. injection H as <-. exists w. split; [|reflexivity]. rewrite A, nth_error_app1; [exact W|].
  apply nth_error_Some. congruence.
Qed.

Lemma good_goodN d : good d -> goodN (map N_of_bits d).
Proof.
  intros [F L]. split; [|now rewrite map_length]. apply Forall_map.
  eapply Forall_impl; [|exact F]. cbv beta. intros a H. now apply N_of_bits_u32.
Qed.
Lemma words_back d : Forall (fun w => length w = 32%nat) d ->
  flat_map (bits_of_N 32) (map N_of_bits d) = concat d.
Proof.
  induction d as [|a d IH]; intro F; [reflexivity|]. inversion_clear F as [|? ? Ha Fd].
  cbn. rewrite IH by exact Fd. f_equal. apply bits_of_N_of_bits'. exact Ha.
Qed.
Lemma mz_words d : good d -> mz (map N_of_bits d) = concat d.
Proof. intro G. unfold mz. rewrite array_words by (now apply good_goodN). apply words_back, G. Qed.
Lemma ivz_words d : good d -> ivz (map N_of_bits d) = iconcat [] d.
Proof.
  intro G. unfold ivz. rewrite array_words by (now apply goodN_rev, good_goodN).
  rewrite <- map_rev, iconcat_nil. apply words_back. apply Forall_rev, G.
Qed.
Lemma ivw_goodN key : length (ikp_of key) = 512%nat -> goodN (ivw key).
Proof. intro L. apply good_goodN. apply sec_iv_ok. now rewrite rev_length. Qed.

Lemma outer_ex s okp o_msg ro : length okp = 512%nat ->
  (gc_out_open s = true -> iv_out_hash s = Some (sec_iv okp)) ->
  exists s' d, digest s (iconcat okp o_msg) ro = Ok (s', d).
Proof. intros L H. destruct (outer_gen s okp o_msg ro L H) as (s' & E & _). eauto. Qed.

Lemma zk_hmac_ex key m h msg ri ro D T : zinv key h -> zk_in_open (sha h) = zk_flag m ->
  zmt h D (ph_ivs key ri m ++ T) ->
  exists h' d, opt_hmac h msg ri ro true = Ok (h', d) /\ zk_in_open (sha h') = zk_flag (opt_mode ri m) /\
    zmt h' (D ++ ph_ivs key ri m) T.
Proof.
  intros V O [M1 M2]. unfold opt_hmac, opt_hmac_core.
  destruct (opt_shape (sha h) (i_key_pad h) msg (zi_il _ _ V)) as (E1 & _ & _ & E4 & E5).
  assert (GS : good (sec_iv (i_key_pad h))) by (apply sec_iv_ok, V).
  assert (PW := pad_ivw key (i_key_pad h) (zi_i _ _ V)).
  assert (LZ : length (zk_iv_in_hashes (sha h)) = length D) by (now rewrite M2, map_length).
  assert (X : exists s1 dig, opt_digest (sha h) (i_key_pad h) msg ri true = Ok (s1, dig) /\
     zk_in_open s1 = zk_flag (opt_mode ri m) /\ iv_in_hashes s1 = D ++ ph_ivs key ri m ++ T /\
     zk_iv_in_hashes s1 = map ivz (D ++ ph_ivs key ri m) /\
     gc_out_open s1 = gc_out_open (sha h) /\ iv_out_hash s1 = iv_out_hash (sha h)).
  { destruct ri; unfold ph_ivs, need_iv in *; cbn [andb opt_mode] in *.
    - destruct m; cbn [zk_flag app] in *.
      + rewrite (E4 O). unfold read_at. rewrite (zi_zpos _ _ V), LZ, M1.
        replace (Z.of_nat (length D) - 1 + 1)%Z with (Z.of_nat (length D)) by lia.
        destruct (Z.ltb_spec (Z.of_nat (length D)) 0); [lia|]. rewrite Nat2Z.id.
        rewrite nth_error_app2, Nat.sub_diag by lia. cbn [nth_error read bind].
        eexists _, _. split; [reflexivity|]. cbn. rewrite M1, M2, map_app. cbn [map].
        rewrite <- (ivz_words _ GS), PW. auto 9.
      + rewrite (E5 O). destruct (zi_in _ _ V O) as [l Hl]. unfold read_at. rewrite (zi_zpos _ _ V), LZ.
        assert (LD : length D = S (length l)) by (rewrite <- LZ, Hl, app_length; cbn; lia).
        destruct (Z.ltb_spec (Z.of_nat (length D) - 1) 0); [lia|].
        destruct (nth_error (iv_in_hashes (sha h)) (Z.to_nat (Z.of_nat (length D) - 1))) as [w|] eqn:W.
        2:{ apply nth_error_None in W. rewrite M1, app_length in W. lia. }
        cbn [read bind]. eexists _, _. split; [reflexivity|]. rewrite app_nil_r. auto 9.
      + rewrite (E4 O). unfold read_at. rewrite (zi_zpos _ _ V), LZ, M1.
        replace (Z.of_nat (length D) - 1 + 1)%Z with (Z.of_nat (length D)) by lia.
        destruct (Z.ltb_spec (Z.of_nat (length D)) 0); [lia|]. rewrite Nat2Z.id.
        rewrite nth_error_app2, Nat.sub_diag by lia. cbn [nth_error read bind].
        eexists _, _. split; [reflexivity|]. cbn. rewrite M1, M2, map_app. cbn [map].
        rewrite <- (ivz_words _ GS), PW. auto 9.
    - rewrite (E1 true). eexists _, _. split; [reflexivity|]. cbn [log zk_in_open iv_in_hashes zk_iv_in_hashes gc_out_open iv_out_hash].
      rewrite app_nil_r. auto 9. }
  destruct X as (s1 & dig & -> & X1 & X2 & X3 & X4 & X5). cbn [bind].
  destruct (outer_ex (log s1 (repeat (EvFeed ALICE 32) DIGLEN)) (o_key_pad h) (map (int_of 32) dig) ro (zi_ol _ _ V))
    as (s2 & d & E2).
  { cbn. rewrite X4, X5. apply V. }
  rewrite E2. cbn [bind]. eexists _, _. split; [reflexivity|]. apply digest_frame in E2.
  destruct E2 as [(F1 & F2 & F3 & F4) _]. cbn in F1, F2, F3. cbn [with_sha sha]. split; [congruence|].
  split; cbn [with_sha sha]; [rewrite F1, X2; now rewrite <- app_assoc|congruence].
Qed.

Lemma iter_bounded {S} (f : S -> res S) (P : nat -> S -> Prop) n :
  (forall j s, (j < n)%nat -> P j s -> exists s', f s = Ok s' /\ P (Datatypes.S j) s') ->
  forall k j s, (j + k <= n)%nat -> P j s -> exists s', iter_res k f s = Ok s' /\ P (j + k)%nat s'.
Proof.
  intro H. induction k; intros j s L Hp; cbn [iter_res].
  - exists s. now rewrite Nat.add_0_r.
  - destruct (H j s ltac:(lia) Hp) as (s1 & -> & P1). cbn [bind].
    destruct (IHk (Datatypes.S j) s1 ltac:(lia) P1) as (s2 & E & P2). exists s2. split; [exact E|].
    now rewrite Nat.add_succ_r.
Qed.

Definition pub_i (key : Integer) (seed : list N) (i : nat) : list N :=
  mac_words (rev key) (A_i (rev key) (bits_of_bytes seed) i).

Lemma zk_phash_ex key m p h r n seed ri ro D T PD PT : zinv key h -> zk_in_open (sha h) = zk_flag m ->
  ppre p -> Forall byte seed -> Forall goodN (iv_in_hashes (sha h)) -> Forall goodN (pub_M p) ->
  zmt h D (ph_ivs key ri m ++ T) -> pmt p PD (ph_pubs key seed n ++ PT) ->
  exists p' h' r', opt_phash_core (fun d => d) p h r n seed ri ro true = Ok (p', h', r') /\
    zk_in_open (sha h') = zk_flag (opt_mode ri m) /\
    zmt h' (D ++ ph_ivs key ri m) T /\ pmt p' (PD ++ ph_pubs key seed n) PT.
Proof.
  intros V O PP HB GW GP MZ MP. unfold opt_phash_core.
  set (sk := rev key) in *. set (sd := bits_of_bytes seed) in *.
  set (mj := fun j => if (j =? 0)%nat then m else opt_mode ri m).
  set (Dj := fun j => if (j =? 0)%nat then D else D ++ ph_ivs key ri m).
  set (Tj := fun j => if (j =? 0)%nat then ph_ivs key ri m ++ T else T).
  destruct (iter_bounded (opt_phash_step (fun d => d) seed ri ro true)
    (fun j '(p1, h1, A, r1) => zinv key h1 /\ ppre p1 /\ Forall byte A /\
       iv_in_hashes (sha h1) = iv_in_hashes (sha h) /\ pub_M p1 = pub_M p /\
       zk_in_open (sha h1) = zk_flag (mj j) /\ zmt h1 (Dj j) (Tj j) /\
       pmt p1 (PD ++ map (pub_i key seed) (seq 0 j)) (map (pub_i key seed) (seq j (prf_blks n - j)) ++ PT) /\
       bits_of_bytes A = A_i sk sd j) (prf_blks n))
    with (k := prf_blks n) (j := 0%nat) (s := (p, h, seed, r)) as (s' & E & I).
  - intros j [[[p1 h1] A] r1] Lj (V1 & PP1 & FA & IV1 & PM1 & O1 & MZ1 & MP1 & HA).
    unfold opt_phash_step. fold opt_hmac.
    assert (Mj : opt_mode ri (mj j) = opt_mode ri m) by (unfold mj; destruct (j =? 0)%nat; [reflexivity|apply opt_mode_twice]).
    assert (MZ1' : zmt h1 (Dj j) (ph_ivs key ri (mj j) ++ T)).
    { revert MZ1. unfold Dj, Tj, mj. destruct (j =? 0)%nat; [auto|]. now rewrite ph_ivs_twice. }
    assert (DJ : Dj j ++ ph_ivs key ri (mj j) = D ++ ph_ivs key ri m).
    { unfold Dj, mj. destruct (j =? 0)%nat; [auto|]. now rewrite ph_ivs_twice, app_nil_r. }
    destruct (zk_hmac_ex key (mj j) h1 A ri ro (Dj j) T V1 O1 MZ1') as (h3 & d3 & E3 & O3 & Z3).
    rewrite Mj in O3. rewrite DJ in Z3. rewrite E3. cbn [bind negb].
    destruct (zk_hmac key h1 A ri ro h3 d3 V1 FA ltac:(now rewrite IV1) E3) as (V3 & G3 & D3 & M3).
    specialize (M3 (zmt_hm _ _ _ Z3)).
    destruct MP1 as [MPa MPb].
    assert (LP : zk_pos p1 = length (PD ++ map (pub_i key seed) (seq 0 j))).
    { destruct PP1 as [-> _]. rewrite MPb. now rewrite map_length. }
    assert (SJ : seq j (prf_blks n - j) = j :: seq (S j) (prf_blks n - S j)).
    { replace (prf_blks n - j)%nat with (S (prf_blks n - S j)) by lia. reflexivity. }
    rewrite SJ in MPa. cbn [map app] in MPa.
    assert (NE : nth_error (pub_M p1) (zk_pos p1) = Some (pub_i key seed j)).
    { rewrite MPa, LP, nth_error_app2, Nat.sub_diag by lia. reflexivity. }
    rewrite NE. cbn [read bind fst snd].
    assert (MW : map N_of_bits d3 = pub_i key seed j).
    { rewrite (is_mac_words _ _ _ M3), HA. reflexivity. }
    set (w := pub_i key seed j) in *.
    assert (IV3 : iv_in_hashes (sha h3) = iv_in_hashes (sha h)) by (destruct G3 as [-> _]; exact IV1).
    assert (FB : Forall byte (be_bytes w ++ seed)) by (apply Forall_app; split; [apply be_bytes_byte|exact HB]).
    destruct (zk_hmac_ex key (opt_mode ri m) h3 (be_bytes w ++ seed) ri ro (D ++ ph_ivs key ri m) T V3 O3)
      as (h4 & d4 & E4 & O4 & Z4).
    { now rewrite ph_ivs_twice. }
    rewrite opt_mode_twice in O4. rewrite ph_ivs_twice, app_nil_r in Z4.
    rewrite E4. cbn [bind].
    destruct (zk_hmac key h3 _ ri ro h4 d4 V3 FB ltac:(now rewrite IV3) E4) as (V4 & G4 & _ & _).
    eexists. split; [reflexivity|]. cbv beta iota.
    split; [exact V4|]. split.
    { destruct PP1 as [Q1 Q2]. split; cbn [zk_pos zk_sec_M pub_M]; rewrite app_length; cbn [length]; [lia|].
      assert (Y : nth_error (pub_M p1) (zk_pos p1) <> None) by congruence. apply nth_error_Some in Y. lia. }
    split; [apply be_bytes_byte|].
    split; [destruct G4 as [-> _]; exact IV3|].
    split; [exact PM1|]. split; [exact O4|]. split; [exact Z4|]. split.
    + split; cbn [pub_M zk_sec_M].
      * rewrite MPa. rewrite seq_S, map_app. cbn [map Nat.add]. rewrite <- !app_assoc. reflexivity.
      * rewrite MPb. rewrite seq_S, !map_app. cbn [map Nat.add]. rewrite <- app_assoc. f_equal. f_equal. f_equal.
        rewrite reverse_concat_ok. fold w. rewrite <- MW. symmetry. now apply mz_words.
    + rewrite be_bytes_ok. apply mac_words_bits.
  - lia.
  - split; [exact V|]. split; [exact PP|]. split; [exact HB|]. split; [reflexivity|]. split; [reflexivity|].
    split; [exact O|]. split; [exact MZ|]. split; [|reflexivity].
    cbn [seq map]. rewrite app_nil_r, Nat.sub_0_r. exact MP.
  - destruct s' as [[[p1 h1] A1] r1]. rewrite E. cbn [bind fst]. eexists _, _, _. split; [reflexivity|].
    rewrite Nat.add_0_l in I. destruct I as (_ & _ & _ & _ & _ & I1 & I2 & I3 & _).
    unfold mj, Dj, Tj in I1, I2.
    assert (NZ : (prf_blks n =? 0)%nat = false) by (apply Nat.eqb_neq; unfold prf_blks; lia).
    rewrite NZ in I1, I2. rewrite Nat.sub_diag in I3. cbn [seq map app] in I3.
    split; [exact I1|]. split; [exact I2|]. exact I3.
Qed.

Lemma pdisc_bytes os : forall m, pdisc m os -> pbytes os.
Proof. induction os as [|o t IH]; intros m H; [exact I|]. destruct o; cbn in *; [eauto|eauto| |]; intuition eauto. Qed.

Lemma zrun_complete os : forall key m p h D T PD PT, zinv key h -> zk_in_open (sha h) = zk_flag m ->
  ppre p -> pdisc m os -> Forall goodN (iv_in_hashes (sha h)) -> Forall goodN (pub_M p) ->
  zmt h D (exp_ivs key m os ++ T) -> pmt p PD (exp_pubs key os ++ PT) ->
  exists p' h' rs, zrun (p, h) os = Ok (p', h', rs) /\
    zmt h' (D ++ exp_ivs key m os) T /\ pmt p' (PD ++ exp_pubs key os) PT.
Proof.
  induction os as [|o t IH]; intros key m p h D T PD PT V O PP Hd GW GP MZ MP.
  { eexists _, _, _. split; [reflexivity|]. cbn in *. now rewrite !app_nil_r. }
  destruct o as [k|n l s|n l s ri ro|n l s ri ro]; cbn [zrun zstep pdisc exp_ivs exp_pubs] in *.
  - unfold prf_init. destruct (hinit_ok h k) as (h1 & I1 & _ & _ & _ & _ & SH). rewrite I1. cbn [bind].
    destruct (zinit h k h1 (zinv_pre _ _ V) I1) as [V1 [G1 _]].
    destruct (IH k Fresh p h1 D T PD PT V1) as (p' & h' & rs & E & A & B); try assumption.
    { now rewrite SH. } { now rewrite G1. }
    { destruct MZ as [X Y]. split; rewrite SH; assumption. }
    rewrite E. cbn [bind]. eauto 9.
  - unfold prf_compute.
    destruct (zk_plain_phash key h [] n (iconcat (iconcat [] [l]) [s]) V) as (h1 & r & E1 & V1 & [G1 _] & _).
    destruct (phash_frame _ _ _ _ _ _ E1) as [(S1 & S2 & S3 & S4) _]. rewrite E1. cbn [bind].
    destruct (IH key m p h1 D T PD PT V1) as (p' & h' & rs & E & A & B); try assumption.
    { congruence. } { now rewrite G1. } { destruct MZ as [X Y]. split; congruence. }
    rewrite E. cbn [bind]. eauto 9.
  - destruct Hd as (Hl & Hs & Hm & Hd). unfold prf_opt_compute.
    assert (HB : Forall byte (l ++ s)) by (apply Forall_app; auto).
    rewrite <- !app_assoc in MZ. rewrite <- !app_assoc in MP.
    destruct (zk_phash_ex key m p h [] n (l ++ s) ri ro D _ PD _ V O PP HB GW GP MZ MP)
      as (p1 & h1 & r1 & E1 & O1 & MZ1 & MP1). rewrite E1. cbn [bind].
    destruct (zk_opt_phash key p h [] n (l ++ s) ri ro p1 h1 r1 V PP HB GW GP E1) as (V1 & PP1 & [G1 _] & [Q1 _] & _).
    destruct (IH key (opt_mode ri m) p1 h1 _ T _ PT V1 O1 PP1 Hd ltac:(now rewrite G1) ltac:(now rewrite Q1) MZ1 MP1)
      as (p' & h' & rs & E & A & B).
    rewrite E. cbn [bind]. eexists _, _, _. split; [reflexivity|]. now rewrite !app_assoc.
  - destruct Hd as (Hm & Hd). unfold prf_opt_rounds_compute.
    destruct (zk_rounds_phash key h [] n (l ++ s) ri ro V) as (h1 & r & E1 & V1 & [G1 _] & _).
    destruct (rphash_frame _ _ _ _ _ _ _ _ E1) as [(S1 & S2 & S3 & S4) _]. rewrite E1. cbn [bind].
    destruct (IH key (rounds_mode ri m) p h1 D T PD PT V1) as (p' & h' & rs & E & A & B); try assumption.
    { rewrite S3, O. unfold rounds_mode. destruct ri; [|reflexivity]. specialize (Hm eq_refl). destruct m; try reflexivity. congruence. }
    { now rewrite G1. } { destruct MZ as [X Y]. split; congruence. }
    rewrite E. cbn [bind]. eauto 9.
Qed.

Lemma ikp_length key : length (ikp_of key) = 512%nat.
Proof. destruct (hinit_ok hmac_init key) as (h & _ & A & _ & L & _). now rewrite <- A, rev_length. Qed.

Lemma exp_ivs_good os : forall key m, Forall goodN (exp_ivs key m os).
Proof.
  induction os as [|o t IH]; intros key m; [constructor|].
  destruct o; cbn [exp_ivs]; auto. apply Forall_app. split; [|auto].
  unfold ph_ivs. destruct (need_iv _ _); constructor; [apply ivw_goodN, ikp_length|constructor].
Qed.
Lemma mac_words_good key msg : goodN (mac_words key msg).
Proof.
  unfold mac_words.
  assert (F := chunks_all_length 32 (hmac_bits key msg) 8 ltac:(lia)
                 ltac:(rewrite hmac_bits_length; reflexivity)).
  split.
  - apply Forall_map. eapply Forall_impl; [|exact F]. cbv beta. intros a H. unfold N_of_be.
    apply N_of_bits_u32. unfold w32. now rewrite rev_length.
  - rewrite map_length. apply chunks_length; [lia|]. rewrite hmac_bits_length. reflexivity.
Qed.
Lemma exp_pubs_good os : forall key, Forall goodN (exp_pubs key os).
Proof.
  induction os as [|o t IH]; intros key; [constructor|].
  destruct o; cbn [exp_pubs]; auto. apply Forall_app. split; [|auto].
  unfold ph_pubs. apply Forall_map. apply Forall_forall. intros. apply mac_words_good.
Qed.

Lemma sha_check_ok s D : iv_in_hashes s = D -> zk_iv_in_hashes s = map ivz D ->
  exists c, sha256_check s = Ok c /\ cmp_hold c /\ length c = length D.
Proof.
  intros A B. unfold sha256_check. rewrite A, B.
  assert (X : forall P Q : list (list N), D = P ++ Q ->
     exists c, map_res (fun i => (let* iv := read (nth_error D i) in
                   let* z := read (nth_error (map ivz D) i) in Ok (z, rev iv))%res)
          (seq (length P) (length Q)) = Ok c /\ cmp_hold c /\ length c = length Q).
  { intros P Q. revert P. induction Q as [|w Q IH]; intros P ED.
    - exists []. repeat split. constructor.
    - destruct (IH (P ++ [w])) as (c & E & H & L). { now rewrite <- app_assoc. }
      rewrite app_length in E. cbn [length] in E. rewrite Nat.add_1_r in E.
      cbn [length seq map_res].
      assert (NE : nth_error D (length P) = Some w) by (rewrite ED, nth_error_app2, Nat.sub_diag by lia; reflexivity).
      rewrite nth_error_map, NE. cbn [option_map read bind]. rewrite E. cbn [bind].
      eexists. split; [reflexivity|]. split; [constructor; [reflexivity|exact H]|cbn; now rewrite L]. }
  destruct (X [] D eq_refl) as (c & E & H & L). exists c. auto.
Qed.
Lemma prf_check_ok p D : pub_M p = D -> zk_sec_M p = map mz D ->
  exists c, prf_check p = Ok c /\ cmp_hold c /\ length c = length D.
Proof.
  intros A B. unfold prf_check. rewrite A, B, map_length, Nat.eqb_refl. cbn [negb].
  eexists. split; [reflexivity|]. split.
  - clear. induction D; cbn; constructor; auto.
  - rewrite combine_length, map_length. lia.
Qed.

(** C34, completeness: garbled run of any history from new objects, then the same
    history in the proof phase *)
Lemma zk_prf_complete secret os : pdisc Fresh os ->
  exists p h rs p' h' rs' c1 c2,
    prun (prf_init0, hmac_init) (PInit secret :: os) = Ok (p, h, None :: rs) /\ zrun (p, h) (PInit secret :: os) = Ok (p', h', None :: rs') /\ prf_check p' = Ok c1 /\ sha256_check (sha h') = Ok c2 /\ cmp_hold c1 /\ cmp_hold c2 /\ length c1 = length (exp_pubs secret os) /\ length c2 = length (exp_ivs secret Fresh os) /\ rs' = rs /\ map (option_map (@rev bool)) rs = pspec (rev secret) os.
Proof.
  intro Hd. destruct (prun_from_new secret os Hd) as (p & h & rs & E & R).
  assert (REC : iv_in_hashes (sha h) = exp_ivs secret Fresh os /\ pub_M p = exp_pubs secret os /\  zk_iv_in_hashes (sha h) = [] /\ zpos (sha h) = (-1)%Z /\ zk_sec_M p = [] /\ zk_pos p = 0%nat).
  { cbn [prun pstep] in E. unfold prf_init in E.
    destruct (hinit_inv hmac_init secret eq_refl) as (h1 & I1 & V1). rewrite I1 in E. cbn [bind] in E.
    destruct (prun (prf_init0, h1) os) as [[[p2 h2] rs2]| |] eqn:Q; try discriminate. cbn [bind] in E.
    injection E as -> -> ->.
    destruct (hinit_ok hmac_init secret) as (h1' & I' & _ & _ & _ & _ & SH). rewrite I1 in I'. injection I' as <-.
    destruct (prun_records os secret Fresh prf_init0 h1 p h rs V1) as (A & B & C & D & F & G);
      [now rewrite SH|exact Hd|exact Q|].
    rewrite SH in A, C, D. cbn in A, B, C, D, F, G. auto 9. }
  destruct REC as (R1 & R2 & R3 & R4 & R5 & R6).
  destruct (hinit_ok h secret) as (h1 & I1 & _ & _ & _ & _ & SH).
  assert (ZP : zpre h) by (split; rewrite R3; [exact R4|cbn; lia]).
  destruct (zinit h secret h1 ZP I1) as [V1 [G1 _]].
  assert (PP : ppre p) by (split; rewrite R5; [exact R6|cbn; lia]).
  destruct (zrun_complete os secret Fresh p h1 [] [] [] []) as (p' & h' & rs' & E2 & [Z1 Z2] & [M1 M2]); try assumption.
  { now rewrite SH. }
  { rewrite G1, R1. apply exp_ivs_good. } { rewrite R2. apply exp_pubs_good. }
  { split; rewrite ?app_nil_r; cbn [app map]; [now rewrite G1|rewrite SH; exact R3]. }
  { split; rewrite ?app_nil_r; cbn [app map]; assumption. }
  cbn [app] in *. rewrite app_nil_r in Z1, M1.
  destruct (prf_check_ok p' _ M1 M2) as (c1 & C1 & H1 & L1).
  destruct (sha_check_ok (sha h') _ Z1 Z2) as (c2 & C2 & H2 & L2).
  assert (E3 : zrun (p, h) (PInit secret :: os) = Ok (p', h', None :: rs')).
  { cbn [zrun zstep]. unfold prf_init. rewrite I1. cbn [bind]. rewrite E2. reflexivity. }
  exists p, h, rs, p', h', rs', c1, c2. split; [exact E|]. split; [exact E3|].
  split; [exact C1|]. split; [exact C2|]. split; [exact H1|]. split; [exact H2|]. split; [exact L1|]. split; [exact L2|].
  split; [|exact R].
  assert (S := zk_prf_sound secret os p h p' h' rs' c1 c2 R3 R4 R5 R6
     ltac:(rewrite R1; apply exp_ivs_good) ltac:(rewrite R2; apply exp_pubs_good) (pdisc_bytes _ _ Hd) E3 C1 C2 H1 H2).
  rewrite <- R in S. clear - S.
  revert rs' S. induction rs as [|x rs IH]; intros [|y rs']; cbn; try discriminate; [reflexivity|].
  intro E. injection E as E1 E2. rewrite (IH _ E2). f_equal.
  destruct x as [x|], y as [y|]; cbn in E1; try discriminate; [|reflexivity].
  injection E1 as E1. apply (f_equal (@rev bool)) in E1. rewrite !rev_involutive in E1. congruence.
Qed.
