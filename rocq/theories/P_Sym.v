(** The offline classes issue the same requests as the online ones. *)
From Coq Require Import List NArith ZArith Bool Arith Lia.
From Verif Require Import L_Bits L_Res L_PTree S_Netlist M_EmpInteger M_Bristol M_Bn M_Sym.
From Verif Require Import M_Sha256 M_Hmac M_Handshake M_SymOn M_SymOff M_SymSess P_Utils.
Import ListNotations.
Local Open Scope N_scope.
Local Open Scope sym_scope.

(** two programs started after the same requests issue the same requests *)
Definition sim {A B} (m : M A) (m' : M B) (R : A -> B -> Prop) : Prop :=
  forall s s', c_next s = c_next s' -> shape (c_tr s) = shape (c_tr s') ->
  match m s, m' s' with
  | Ok x, Ok y => c_next (snd x) = c_next (snd y) /\ shape (c_tr (snd x)) = shape (c_tr (snd y))
                  /\ R (fst x) (fst y)
  | Err, Err => True
  | UB, UB => True
  | _, _ => False
  end.

Lemma sim_ret {A B} (a : A) (b : B) (R : A -> B -> Prop) : R a b -> sim (mret a) (mret b) R.
Proof. intros H s s' H1 H2; cbn; auto. Qed.
Lemma sim_bind {A A' B B'} (m : M A) (m' : M A') (k : A -> M B) (k' : A' -> M B') R R' :
  sim m m' R -> (forall a a', R a a' -> sim (k a) (k' a') R') ->
  sim (mbind m k) (mbind m' k') R'.
Proof.
  intros H K s s' H1 H2. specialize (H s s' H1 H2). unfold mbind.
  destruct (m s) as [[a t]| |], (m' s') as [[a' t']| |]; cbn in *; try contradiction; auto.
  destruct H as (? & ? & ?). apply K; auto.
Qed.
Lemma sim_lift {A B} (r : res A) (r' : res B) (R : A -> B -> Prop) :
  match r, r' with Ok a, Ok b => R a b | Err, Err => True | UB, UB => True | _, _ => False end ->
  sim (lift r) (lift r') R.
Proof. intros H s s' H1 H2. unfold lift. destruct r, r'; cbn; auto. Qed.
Lemma sim_lift_eq {A} (r : res A) : sim (lift r) (lift r) eq.
Proof. apply sim_lift. destruct r; auto. Qed.
Lemma sim_mono {A B} (m : M A) (m' : M B) (R R' : A -> B -> Prop) :
  (forall a b, R a b -> R' a b) -> sim m m' R -> sim m m' R'.
Proof.
  intros I H s s' H1 H2. specialize (H s s' H1 H2).
  destruct (m s) as [[a t]| |], (m' s') as [[a' t']| |]; cbn in *; auto. intuition.
Qed.

(** a program without openings and feeds only depends on the number of wires *)
Notation selfsim m := (sim m m eq).
Lemma sim_gand a b : selfsim (gand a b).
Proof. intros s s' H1 H2; unfold shape in *; cbn; rewrite H1, H2; auto. Qed.
Lemma sim_gxor a b : selfsim (gxor a b).
Proof. intros s s' H1 H2; unfold shape in *; cbn; rewrite H1, H2; auto. Qed.
Lemma sim_gnot a : selfsim (gnot a).
Proof. intros s s' H1 H2; unfold shape in *; cbn; rewrite H1, H2; auto. Qed.
Lemma sim_gfeed p bs bs' : length bs = length bs' -> sim (gfeed p bs) (gfeed p bs') eq.
Proof. intros E s s' H1 H2; unfold shape in *; cbn; rewrite H1, H2, E; auto. Qed.
Lemma sim_greveal o o' p w : sim (greveal o p w) (greveal o' p w) (fun v v' => length v = length v').
Proof. intros s s' H1 H2; unfold shape in *; cbn; rewrite H1, H2, !map_length; auto. Qed.

Ltac sstep := lazymatch goal with
  | |- sim (mbind _ _) (mbind _ _) _ =>
      eapply sim_bind with (R := eq); [ | let a := fresh "x" in intros a ? <- ]
  | |- sim (mret _) (mret _) eq => apply sim_ret; reflexivity
  | |- sim (gand _ _) _ _ => apply sim_gand
  | |- sim (gxor _ _) _ _ => apply sim_gxor
  | |- sim (gnot _) _ _ => apply sim_gnot
  | |- sim (lift _) _ eq => apply sim_lift_eq
  end.
Ltac selfs := repeat sstep; auto.

Lemma sim_szip g a b : (forall x y, selfsim (g x y)) -> selfsim (szip g a b).
Proof.
  intros H; revert b; induction a as [|x a IH]; intros [|y b]; cbn; try (apply sim_ret; reflexivity).
  selfs.
Qed.
Lemma sim_sxor a b : selfsim (sxor a b).
Proof. apply sim_szip; intros; apply sim_gxor. Qed.
Lemma sim_sand a b : selfsim (sand a b).
Proof. apply sim_szip; intros; apply sim_gand. Qed.
Lemma sim_sadd_c a : forall c b, selfsim (sadd_c c a b).
Proof.
  induction a as [|x a IH]; intros c [|y b]; cbn [sadd_c]; try (apply sim_ret; reflexivity).
  destruct a, b; try solve [selfs].
Qed.
Lemma sim_sadd a b : selfsim (sadd a b).
Proof. apply sim_sadd_c. Qed.
Lemma sim_ssub_c a : forall c b, selfsim (ssub_c c a b).
Proof.
  induction a as [|x a IH]; intros c [|y b]; cbn [ssub_c]; try (apply sim_ret; reflexivity).
  destruct a, b; try solve [selfs].
Qed.
Lemma sim_ssub a b : selfsim (ssub a b).
Proof. apply sim_ssub_c. Qed.
Lemma sim_sgeq a b : selfsim (sgeq a b).
Proof. unfold sgeq. eapply sim_bind; [apply sim_ssub|]. intros; subst; apply sim_gnot. Qed.
Lemma sim_sselect a s b : selfsim (sselect a s b).
Proof. apply sim_szip; intros. selfs. Qed.
Lemma sim_srrot x n : selfsim (srrot x n).
Proof. apply sim_sxor. Qed.

Ltac sstep ::= lazymatch goal with
  | |- sim (mbind _ _) (mbind _ _) _ =>
      eapply sim_bind with (R := eq); [ | let a := fresh "x" in intros a ? <- ]
  | |- sim (mret _) (mret _) eq => apply sim_ret; reflexivity
  | |- sim (gand _ _) _ _ => apply sim_gand
  | |- sim (gxor _ _) _ _ => apply sim_gxor
  | |- sim (gnot _) _ _ => apply sim_gnot
  | |- sim (lift _) _ eq => apply sim_lift_eq
  | |- sim (sxor _ _) _ _ => apply sim_sxor
  | |- sim (sand _ _) _ _ => apply sim_sand
  | |- sim (sadd _ _) _ _ => apply sim_sadd
  | |- sim (ssub _ _) _ _ => apply sim_ssub
  | |- sim (sgeq _ _) _ _ => apply sim_sgeq
  | |- sim (sselect _ _ _) _ _ => apply sim_sselect
  | |- sim (srrot _ _) _ _ => apply sim_srrot
  | |- sim (if ?c then _ else _) (if ?c then _ else _) _ => destruct c
  end.

Lemma sim_saddmod a b Q : selfsim (saddmod a b Q).
Proof.
  unfold saddmod.
  destruct (negb _); [apply sim_lift_eq|]. sstep; [apply sim_sadd|].
  destruct (negb _); [apply sim_lift_eq|]. selfs.
Qed.
Lemma sim_saddmod_bn a b q : selfsim (saddmod_bn a b q).
Proof. apply sim_saddmod. Qed.
Lemma sim_gate w g : selfsim (sgate_step w g).
Proof. destruct g; cbn [sgate_step]; selfs. Qed.
Lemma sim_run_gates gs : forall w, selfsim (srun_gates gs w).
Proof.
  induction gs as [|g gs IH]; intro w; cbn [srun_gates]; [apply sim_ret; reflexivity|].
  sstep; [apply sim_gate|apply IH].
Qed.
Lemma sim_sbristol c a b : selfsim (sbristol c a b).
Proof.
  unfold sbristol. destruct (negb _); [apply sim_lift_eq|].
  sstep; [apply sim_run_gates|apply sim_lift_eq].
Qed.
Lemma sim_scomputeKS c k : selfsim (scomputeKS c k).
Proof. apply sim_sbristol. Qed.
Lemma sim_scomputeAES c k m : selfsim (scomputeAES c k m).
Proof. unfold scomputeAES. sstep; [apply sim_sbristol|]. apply sim_ret; reflexivity. Qed.

Lemma sim_siter {S S'} (R : S -> S' -> Prop) f f' n : forall s s',
  (forall a b, R a b -> sim (f a) (f' b) R) -> R s s' -> sim (siter n f s) (siter n f' s') R.
Proof.
  induction n as [|n IH]; intros s s' H HR; cbn [siter]; [apply sim_ret; auto|].
  eapply sim_bind; [apply H, HR|]. intros; apply IH; auto.
Qed.
Lemma sim_sfold {S S' A A'} (R : S -> S' -> Prop) (Q : A -> A' -> Prop) f f' l l' :
  Forall2 Q l l' -> forall s s',
  (forall x y a b, R x y -> Q a b -> sim (f x a) (f' y b) R) -> R s s' ->
  sim (sfold f l s) (sfold f' l' s') R.
Proof.
  induction 1; intros s s' H1 HR; cbn [sfold]; [apply sim_ret; auto|].
  eapply sim_bind; [apply H1; eauto|]. intros; apply IHForall2; auto.
Qed.
Lemma Forall2_eq_refl {A} (l : list A) : Forall2 eq l l.
Proof. induction l; constructor; auto. Qed.

(** * chunk_compress *)
Lemma off_h_eq : off_h = on_h. Proof. reflexivity. Qed.
Lemma off_k_eq : off_k = on_k. Proof. reflexivity. Qed.
Lemma off_w_next_eq : off_w_next = on_w_next. Proof. reflexivity. Qed.
Lemma off_round_eq : off_round = on_round. Proof. reflexivity. Qed.
Lemma off_padding_eq : off_padding = on_padding. Proof. reflexivity. Qed.
Lemma off_compress_eq a b : off_compress a b = on_compress a b.
Proof. unfold off_compress, on_compress. rewrite off_w_next_eq, off_round_eq, off_k_eq. reflexivity. Qed.
Lemma sim_on_w_next w : selfsim (on_w_next w).
Proof. unfold on_w_next. selfs. Qed.
Lemma sim_on_round s kw : selfsim (on_round s kw).
Proof. destruct s as [[[[[[[a b] c] d] e] f] g] h]; unfold on_round. selfs. Qed.
Lemma sim_on_compress ih ch : selfsim (on_compress ih ch).
Proof.
  unfold on_compress.
  sstep. { apply sim_siter; auto. intros; subst; apply sim_on_w_next. }
  sstep. { eapply sim_sfold; [apply Forall2_eq_refl| |reflexivity]. intros; subst; apply sim_on_round. }
  destruct x0 as [[[[[[[a b] c] d] e] f] g] h]. selfs.
Qed.
Lemma sim_compress ih ch : sim (on_compress ih ch) (off_compress ih ch) eq.
Proof.
  exact (eq_ind _ (fun m => sim (on_compress ih ch) m eq) (sim_on_compress ih ch) _
                (eq_sym (off_compress_eq ih ch))).
Qed.

(** related SHA-256 objects; [r]: rounds mode.  Outside rounds mode the stored opened
    inner value exists once the flag is set *)
Definition Rsha (r : bool) (a : on_sha) (b : off_sha) : Prop :=
  on_in_open a = off_in_open b /\ on_out_open a = off_out_open b /\
  on_iv_out a = off_iv_out b /\ on_iv_in a = off_iv_in b /\
  (on_pos a + 1 = Z.of_nat (length (on_ivs a)))%Z /\
  (r = false -> on_in_open a = true -> on_ivs a <> []).

Lemma sim_rest d data idx : sim (on_rest d data idx) (off_rest d data idx) eq.
Proof.
  unfold on_rest, off_rest. eapply sim_bind with (R := eq); [apply sim_lift_eq|]. intros; subst.
  eapply sim_sfold; [apply Forall2_eq_refl| |reflexivity]. intros; subst; apply sim_compress.
Qed.

Definition Rpair {A B C D} (R : A -> B -> Prop) (Q : C -> D -> Prop) (x : A * C) (y : B * D) :=
  R (fst x) (fst y) /\ Q (snd x) (snd y).

Ltac srest := eapply sim_bind; [apply sim_rest|]; intros ? ? ->; apply sim_ret; split; auto.

Lemma sim_update r a b p ro : Rsha r a b ->
  sim (on_update a p ro) (off_update b p ro) (Rpair (Rsha r) eq).
Proof.
  intros (H1 & H2 & H3 & H4 & H5 & H6). unfold on_update, off_update.
  destruct (negb _); [apply sim_lift; auto|].
  eapply sim_bind with (R := eq); [apply sim_lift_eq|]. intros data ? <-.
  eapply sim_bind with (R := eq); [apply sim_lift_eq|]. intros blk ? <-.
  eapply sim_bind with (R := Rpair (Rsha r) eq).
  - destruct ro.
    + rewrite <- H2, <- H3. destruct (on_out_open a) eqn:O; cbn [negb].
      * eapply sim_bind with (R := eq); [apply sim_lift_eq|]. intros ? ? <-.
        apply sim_ret. split; cbn; auto. repeat split; cbn; auto; congruence.
      * rewrite off_h_eq. eapply sim_bind; [apply sim_compress|]. intros ? ? <-.
        apply sim_ret. split; cbn; auto. repeat split; cbn; auto; congruence.
    + rewrite off_h_eq. eapply sim_bind; [apply sim_compress|]. intros ? ? <-.
      apply sim_ret. split; cbn; auto. repeat split; cbn; auto; congruence.
  - intros [a' d] [b' d'] [Ha Hd]; cbn in Ha, Hd; subst d'. srest.
Qed.
Lemma sim_digest r a b x ro : Rsha r a b ->
  sim (on_digest a x ro) (off_digest b x ro) (Rpair (Rsha r) eq).
Proof. intro H. unfold on_digest, off_digest. rewrite off_padding_eq. apply sim_update; auto. Qed.

Lemma sim_rounds_update a b p ri : Rsha true a b ->
  sim (on_rounds_update a p ri) (off_rounds_update b p ri) (Rpair (Rsha true) eq).
Proof.
  intros (H1 & H2 & H3 & H4 & H5 & H6). unfold on_rounds_update, off_rounds_update.
  destruct (negb _); [apply sim_lift; auto|].
  eapply sim_bind with (R := eq); [apply sim_lift_eq|]. intros data ? <-.
  eapply sim_bind with (R := eq); [apply sim_lift_eq|]. intros blk ? <-.
  eapply sim_bind with (R := Rpair (Rsha true) eq).
  - destruct ri.
    + rewrite <- H1, <- H4. destruct (on_in_open a) eqn:O; cbn [negb].
      * eapply sim_bind with (R := eq); [apply sim_lift_eq|]. intros ? ? <-.
        apply sim_ret. split; cbn; auto. repeat split; cbn; auto; congruence.
      * rewrite off_h_eq. eapply sim_bind; [apply sim_compress|]. intros ? ? <-.
        apply sim_ret. split; cbn; auto. repeat split; cbn; auto; congruence.
    + rewrite off_h_eq. eapply sim_bind; [apply sim_compress|]. intros ? ? <-.
      apply sim_ret. split; cbn; auto. repeat split; cbn; auto; congruence.
  - intros [a' d] [b' d'] [Ha Hd]; cbn in Ha, Hd; subst d'. srest.
Qed.
Lemma sim_rounds_digest a b x ri : Rsha true a b ->
  sim (on_rounds_digest a x ri) (off_rounds_digest b x ri) (Rpair (Rsha true) eq).
Proof. intro H. unfold on_rounds_digest, off_rounds_digest. rewrite off_padding_eq. apply sim_rounds_update; auto. Qed.

Lemma plain_compress_length ih c : length (plain_chunk_compress ih c) = 8%nat.
Proof.
  unfold plain_chunk_compress.
  destruct (fold_left _ _ _) as [[[[[[[? ?] ?] ?] ?] ?] ?] ?]. reflexivity.
Qed.
Lemma opt_tail_length j d m : length (opt_tail j d m) = 8%nat.
Proof. unfold opt_tail. destruct (if (_ <? _)%nat then _ else _). apply plain_compress_length. Qed.

Section Sim.
Variables (orc orc' : list nev -> nat -> bool) (junk : nat -> bool).
Variables aes_ks aes_enc : bristol.

Lemma sim_open8 d : sim (on_open8 orc d) (greveal orc' OPub (sreverse_concat [] d)) (fun _ _ => True).
Proof.
  unfold on_open8. intros s s' H1 H2; unfold shape in *; cbn. rewrite H1, H2; auto.
Qed.

Lemma sim_opt_update a b x m ri : Rsha false a b ->
  sim (on_opt_update orc a x m ri) (off_opt_update orc' b x ri)
      (fun p b' => Rsha false (fst p) b' /\ length (snd p) = 8%nat).
Proof.
  intros (H1 & H2 & H3 & H4 & H5 & H6). unfold on_opt_update, off_opt_update.
  destruct (negb _); [apply sim_lift; auto|].
  eapply sim_bind with (R := eq); [apply sim_lift_eq|]. intros data ? <-.
  assert (X : forall m0 m1,
    sim m0 m1 (fun p b' => Rsha false (fst p) b') ->
    sim (mbind m0 (fun '(st, plain) => mret (st, opt_tail fresh64 plain m))) m1
        (fun p b' => Rsha false (fst p) b' /\ length (snd p) = 8%nat)).
  { intros m0 m1 Hm s s' E1 E2. specialize (Hm s s' E1 E2). unfold mbind, mret.
    destruct (m0 s) as [[[st pl] t]| |], (m1 s') as [[b' t']| |]; cbn in *; auto.
    intuition. apply opt_tail_length. }
  apply X. destruct ri.
  - rewrite <- H1. destruct (on_in_open a) eqn:O; cbn [negb].
    + assert (exists v, read_at (on_ivs a) (on_pos a) = Ok v) as [v Ev].
      { specialize (H6 eq_refl eq_refl). unfold read_at.
        destruct (on_pos a <? 0)%Z eqn:L.
        - apply Z.ltb_lt in L. destruct (on_ivs a); [congruence|cbn in H5; lia].
        - apply Z.ltb_ge in L. destruct (nth_error _ _) eqn:E; cbn; eauto.
          apply nth_error_None in E. lia. }
      rewrite Ev. intros s s' E1 E2; cbn. repeat split; auto; try congruence.
    + rewrite off_h_eq. eapply sim_bind; [apply sim_compress|]. intros d ? <-.
      eapply sim_bind; [apply sim_open8|]. intros v ? _. apply sim_ret. cbn.
      repeat split; cbn; auto; try congruence.
      * rewrite app_length; cbn; lia.
      * intros _ _ E; destruct (on_ivs a); discriminate.
  - rewrite off_h_eq. eapply sim_bind; [apply sim_compress|]. intros d ? <-.
    eapply sim_bind; [apply sim_open8|]. intros v ? _. apply sim_ret. cbn.
    repeat split; cbn; auto; congruence.
Qed.

Definition Rhmac (r : bool) (a : on_hmac) (b : off_hmac) : Prop :=
  Rsha r (onh_sha a) (offh_sha b) /\ onh_o a = offh_o b /\ onh_i a = offh_i b.

Lemma Rsha_refresh r r' a b : Rsha r a b -> Rsha r' (on_refresh a) (off_refresh b).
Proof. intros (H1 & H2 & H3 & H4 & H5 & H6). repeat split; cbn; auto; discriminate. Qed.

Lemma sim_hinit r r' a b k : Rhmac r a b -> sim (on_hinit a k) (off_hinit b k) (Rhmac r').
Proof.
  intros (H1 & H2 & H3). unfold on_hinit, off_hinit.
  apply (Rsha_refresh _ r') in H1.
  eapply sim_bind with (R := Rpair (Rsha r') eq).
  - destruct (_ <? _)%nat.
    + eapply sim_bind; [apply sim_digest, H1|]. intros [a' d] [b' d'] [Ha Hd]; cbn in Ha, Hd; subst d'.
      apply sim_ret; split; auto.
    + apply sim_ret; split; auto.
  - intros [a' pk] [b' pk'] [Ha Hp]; cbn in Ha, Hp; subst pk'.
    eapply sim_bind with (R := eq).
    + apply sim_siter; auto. intros [o i] ? <-. unfold on_pad_step, off_pad_step. selfs.
    + intros [o i] ? <-.
      eapply sim_bind; [apply sim_sxor|]. intros ? ? <-.
      eapply sim_bind; [apply sim_sxor|]. intros ? ? <-.
      apply sim_ret. repeat split; cbn; auto; apply Ha.
Qed.

Lemma junk_length n : length (junk_bits junk n) = n.
Proof. unfold junk_bits. rewrite map_length, seq_length; auto. Qed.
Lemma sim_feed_words l n : length l = n -> sim (on_feed_words l) (off_feed_words junk n) eq.
Proof.
  revert n; induction l as [|v l IH]; intros [|n] H; try discriminate; [apply sim_ret; auto|].
  cbn [on_feed_words off_feed_words].
  eapply sim_bind; [apply sim_gfeed|].
  - rewrite junk_length. unfold int_of. rewrite bits_of_N_length; auto.
  - intros ? ? <-. eapply sim_bind; [apply IH; cbn in H; congruence|]. intros ? ? <-.
    apply sim_ret; auto.
Qed.

Lemma sim_opt_hmac a b m ri ro : Rhmac false a b ->
  sim (on_opt_hmac orc a m ri ro) (off_opt_hmac orc' junk b ri ro) (Rpair (Rhmac false) eq).
Proof.
  intros (H1 & H2 & H3). unfold on_opt_hmac, off_opt_hmac. rewrite <- H2, <- H3.
  eapply sim_bind; [apply sim_opt_update, H1|]. intros [a' d] b' [Ha Hd]; cbn in Ha, Hd.
  eapply sim_bind; [apply sim_feed_words, Hd|]. intros om ? <-.
  eapply sim_bind; [apply sim_digest, Ha|]. intros [a2 d2] [b2 d2'] [Ha2 Hd2]; cbn in Ha2, Hd2; subst d2'.
  apply sim_ret. repeat split; cbn; auto; apply Ha2.
Qed.
Lemma sim_rounds_hmac a b m ri ro : Rhmac true a b ->
  sim (on_rounds_hmac a m ri ro) (off_rounds_hmac b m ri ro) (Rpair (Rhmac true) eq).
Proof.
  intros (H1 & H2 & H3). unfold on_rounds_hmac, off_rounds_hmac. rewrite <- H2, <- H3.
  eapply sim_bind; [apply sim_rounds_digest, H1|]. intros [a' d] [b' d'] [Ha Hd]; cbn in Ha, Hd; subst d'.
  eapply sim_bind; [apply sim_digest, Ha|]. intros [a2 d2] [b2 d2'] [Ha2 Hd2]; cbn in Ha2, Hd2; subst d2'.
  apply sim_ret. repeat split; cbn; auto; apply Ha2.
Qed.

Lemma sim_opt_compute a b r n l sd ri ro : Rhmac false a b ->
  sim (on_opt_compute orc a r n l sd ri ro) (off_opt_compute orc' junk b r n ri ro)
      (Rpair (Rhmac false) eq).
Proof.
  intro H. unfold on_opt_compute, off_opt_compute.
  eapply sim_bind with (R := fun x y => Rhmac false (fst (fst x)) (fst y) /\ snd x = snd y).
  - apply sim_siter; [|auto]. intros [[h A] r1] [h' r2] [Hh Hr]; cbn in Hh, Hr; subst r2.
    unfold on_phash_step, off_phash_step.
    eapply sim_bind; [apply sim_opt_hmac, Hh|]. intros [a2 d2] [b2 d2'] [Ha2 Hd2]; cbn in Ha2, Hd2; subst d2'.
    eapply sim_bind; [apply sim_open8|]. intros v ? _.
    eapply sim_bind; [apply sim_opt_hmac, Ha2|]. intros [a3 d3] [b3 d3'] [Ha3 Hd3]; cbn in Ha3, Hd3; subst d3'.
    apply sim_ret. cbn. auto.
  - intros [[h A] r1] [h' r2] [Hh Hr]; cbn in Hh, Hr; subst r2. apply sim_ret. split; auto.
Qed.
Lemma sim_rounds_compute a b r n l sd sl ri ro : Rhmac true a b -> length (l ++ sd) = sl ->
  sim (on_rounds_compute a r n l sd ri ro) (off_rounds_compute b r n sl ri ro)
      (Rpair (Rhmac true) eq).
Proof.
  intros H L. unfold on_rounds_compute, off_rounds_compute.
  eapply sim_bind; [apply sim_gfeed|].
  { rewrite repeat_length. unfold int_of_array. rewrite firstn_length.
    rewrite (flat_map_length_const _ 8) by (intro; apply bits_of_N_length).
    rewrite rev_length. lia. }
  intros A0 ? <-.
  eapply sim_bind with (R := fun x y => Rhmac true (fst (fst x)) (fst (fst y)) /\
                                       snd (fst x) = snd (fst y) /\ snd x = snd y).
  - apply sim_siter; [|auto]. intros [[h A] r1] [[h' A'] r2] (Hh & HA & Hr); cbn in Hh, HA, Hr; subst r2 A'.
    unfold on_rounds_step, off_rounds_step.
    eapply sim_bind; [apply sim_rounds_hmac, Hh|]. intros [a2 d2] [b2 d2'] [Ha2 Hd2]; cbn in Ha2, Hd2; subst d2'.
    eapply sim_bind; [apply sim_rounds_hmac, Ha2|]. intros [a3 d3] [b3 d3'] [Ha3 Hd3]; cbn in Ha3, Hd3; subst d3'.
    apply sim_ret. cbn. auto.
  - intros [[h A] r1] [[h' A'] r2] (Hh & HA & Hr); cbn in Hh, HA, Hr; subst r2. apply sim_ret. split; auto.
Qed.

Definition Rhs (r : bool) (a : on_hs) (b : off_hs) : Prop :=
  on_rounds a = r /\ off_rounds b = r /\ on_q a = off_q b /\ Rhmac r (on_hm a) (off_hm b) /\
  on_ms a = off_ms b /\ on_cwk a = off_cwk b /\ on_swk a = off_swk b /\
  on_civ a = off_civ b /\ on_siv a = off_siv b.

Lemma sim_prf r a b x n l sd sl : Rhs r a b -> (r = true -> length (l ++ sd) = sl) ->
  sim (on_prf orc a x n l sd) (off_prf orc' junk b x n sl) (Rpair (Rhs r) eq).
Proof.
  intros (H1 & H2 & H3 & H4 & H5) L. unfold on_prf, off_prf. rewrite H1, H2.
  eapply sim_bind with (R := Rpair (Rhmac r) eq).
  - destruct r; cbn [negb]; [apply sim_rounds_compute|apply sim_opt_compute]; auto.
  - intros [h y] [h' y'] [Hh Hy]; cbn in Hh, Hy; subst y'. apply sim_ret.
    split; cbn; auto. repeat (split; cbn; auto); try apply H5; apply Hh.
Qed.

(** ALICE's and BOB's shares fit the field *)
Lemma pms_int_ok q p : share_ok q p ->
  exists x, pms_int q p = Ok x /\ length x = (BN_num_bytes q * 8)%nat.
Proof.
  unfold share_ok, pms_int. intro H.
  destruct (_ <? _)%nat eqn:E; [apply Nat.ltb_lt in E; lia|].
  eexists; split; [reflexivity|]. unfold int_of_array. rewrite firstn_length.
  rewrite (flat_map_length_const _ 8) by (intro; apply bits_of_N_length).
  rewrite rev_length, app_length, repeat_length.
  assert (length (BN_bn2bin p) = BN_num_bytes p).
  { unfold BN_bn2bin. generalize (BN_num_bytes p) (Z.abs_N p). clear. intro n.
    induction n; intro x; cbn; auto. rewrite app_length, IHn; cbn; lia. }
  lia.
Qed.
Lemma sim_pms r a b pa pb : Rhs r a b -> share_ok (on_q a) pa -> share_ok (on_q a) pb ->
  sim (on_pms a pa pb) (off_pms b) eq.
Proof.
  intros (H1 & H2 & H3 & H4 & H5) Ha Hb. unfold on_pms, off_pms. rewrite <- H3.
  destruct (pms_int_ok _ _ Ha) as (xa & -> & La). destruct (pms_int_ok _ _ Hb) as (xb & -> & Lb).
  change (sim (do a0 <- gfeed OA xa; do b0 <- gfeed OB xb; saddmod_bn a0 b0 (on_q a))
    (do a0 <- gfeed OA (repeat false (BN_num_bytes (on_q a) * 8));
     do b0 <- gfeed OB (repeat false (BN_num_bytes (on_q a) * 8)); saddmod_bn a0 b0 (on_q a)) eq).
  eapply sim_bind; [apply sim_gfeed; rewrite repeat_length; auto|]. intros ? ? <-.
  eapply sim_bind; [apply sim_gfeed; rewrite repeat_length; auto|]. intros ? ? <-.
  apply sim_saddmod_bn.
Qed.

Lemma Rhs_hm r a b h h' : Rhs r a b -> Rhmac r h h' -> Rhs r (on_set_hm a h) (off_set_hm b h').
Proof. intros (H1 & H2 & H3 & H4 & H5) H. repeat (split; cbn; auto); try apply H5; apply H. Qed.
Lemma Rhs_ms r a b m : Rhs r a b -> Rhs r (on_set_ms a m) (off_set_ms b m).
Proof. intros (H1 & H2 & H3 & H4 & H5). repeat (split; cbn; auto); try apply H5; apply H4. Qed.

Lemma sim_master_gen r a b pa pb n l sd sl : Rhs r a b ->
  share_ok (on_q a) pa -> share_ok (on_q a) pb -> (r = true -> length (l ++ sd) = sl) ->
  sim (do pms <- on_pms a pa pb;
       do h <- on_hinit (on_hm a) pms;
       do (s, ms) <- on_prf orc (on_set_hm a h) (on_ms a) n l sd;
       mret (on_set_ms s ms))
      (do pms <- off_pms b;
       do h <- off_hinit (off_hm b) pms;
       do (s, ms) <- off_prf orc' junk (off_set_hm b h) (off_ms b) n sl;
       mret (off_set_ms s ms)) (Rhs r).
Proof.
  intros H Ha Hb L.
  eapply sim_bind; [eapply sim_pms; eauto|]. intros pms ? <-.
  eapply sim_bind; [eapply (sim_hinit r r); apply H|]. intros h h' Hh.
  assert (E : on_ms a = off_ms b) by apply H. rewrite <- E.
  eapply sim_bind; [eapply sim_prf; eauto using Rhs_hm|].
  intros [s ms] [s' ms'] [Hs Hm]; cbn in Hs, Hm; subst ms'. apply sim_ret, Rhs_ms, Hs.
Qed.
Lemma sim_master r a b pa pb rc rs : Rhs r a b ->
  share_ok (on_q a) pa -> share_ok (on_q a) pb ->
  (r = true -> length (rc ++ rs) = 2 * random_length)%nat ->
  sim (on_master orc a pa pb rc rs) (off_master orc' junk b) (Rhs r).
Proof.
  intros. apply sim_master_gen; auto. intro E. rewrite app_length, H2; auto.
Qed.
Lemma sim_ext_master r a b pa pb sh : Rhs r a b ->
  share_ok (on_q a) pa -> share_ok (on_q a) pb ->
  (r = true -> length sh = session_hash_length)%nat ->
  sim (on_ext_master orc a pa pb sh) (off_ext_master orc' junk b) (Rhs r).
Proof.
  intros. apply sim_master_gen; auto. intro E. rewrite app_length, H2; auto.
Qed.
Lemma sim_expand r a b rc rs : Rhs r a b ->
  (r = true -> length (rc ++ rs) = 2 * random_length)%nat ->
  sim (on_expand orc a rc rs) (off_expand orc' junk b) (Rhs r).
Proof.
  intros H L. unfold on_expand, off_expand.
  assert (E : on_ms a = off_ms b) by apply H. rewrite <- E.
  eapply sim_bind; [eapply (sim_hinit r r); apply H|]. intros h h' Hh.
  eapply sim_bind; [eapply sim_prf; [eapply Rhs_hm; eauto|]|].
  { intro R. specialize (L R). rewrite app_length in L |- *. rewrite app_length. lia. }
  intros [s key] [s' key'] [Hs Hk]; cbn in Hs, Hk; subst key'.
  do 4 (eapply sim_bind; [apply sim_lift_eq|]; intros ? ? <-).
  destruct Hs as (A & B & C & D & F). apply sim_ret. repeat (split; cbn; auto); try apply D. apply F.
Qed.
Lemma sim_fin_gen r a b l t sl : Rhs r a b -> (r = true -> length (l ++ t) = sl) ->
  sim (on_finished orc a l t)
      (do (s, u) <- off_prf orc' junk b [] finished_msg_length sl;
       do _ <- greveal orc' OPub u; mret s) (fun x y => Rhs r (fst x) y).
Proof.
  intros H L. unfold on_finished.
  eapply sim_bind; [eapply sim_prf; eauto|]. intros [s u] [s' u'] [Hs Hu]; cbn in Hs, Hu; subst u'.
  eapply sim_bind; [apply sim_greveal|]. intros. apply sim_ret; auto.
Qed.

(** * AEAD *)
Definition Raead (a : on_aead) (b : off_aead) : Prop :=
  ona_key a = offa_key b /\ ona_nonce a = offa_nonce b /\ ona_fixed a = offa_fixed b.
Lemma sim_aead_new k iv :
  sim (on_aead_new aes_ks aes_enc k iv) (off_aead_new aes_ks aes_enc k iv)
      (fun x y => Raead (fst x) y).
Proof.
  unfold on_aead_new, off_aead_new.
  eapply sim_bind; [apply sim_scomputeKS|]. intros ek ? <-.
  eapply sim_bind; [apply sim_scomputeAES|]. intros H ? <-.
  apply sim_ret. repeat split.
Qed.
Lemma sim_gctr m : forall k r n, sim (on_gctr aes_enc m k r n) (off_gctr aes_enc m k r n) eq.
Proof.
  induction m as [|m IH]; intros; cbn [on_gctr off_gctr]; [apply sim_ret; auto|].
  eapply sim_bind; [apply sim_scomputeAES|]. intros t ? <-.
  eapply sim_bind with (R := eq).
  - unfold on_inc, off_inc. destruct (_ <? _)%nat; [apply sim_lift; auto|]. selfs.
  - intros n' ? <-. apply IH.
Qed.
Lemma sim_crypt a b iv len sec : Raead a b -> length iv = 8%nat ->
  sim (on_crypt orc aes_enc a iv len sec) (off_crypt orc' aes_enc b len sec)
      (fun x y => Raead (fst x) y).
Proof.
  intros (H1 & H2 & H3) L. unfold on_crypt, off_crypt. rewrite <- H1, <- H3.
  eapply sim_bind with (R := eq).
  { unfold on_set_nonce, off_set_nonce. rewrite L, Nat.eqb_refl.
    eapply sim_bind; [apply sim_gfeed|].
    - unfold int_of_array. rewrite !firstn_length.
      rewrite !(flat_map_length_const _ 8) by (intro; apply bits_of_N_length).
      rewrite rev_length, repeat_length, L. reflexivity.
    - intros ? ? <-. apply sim_ret; auto. }
  intros n0 ? <-.
  eapply sim_bind; [apply sim_gctr|]. intros [Z n1] ? <-.
  eapply sim_bind with (R := fun _ _ => True).
  { destruct sec; cbn [negb]; [apply sim_ret; auto|].
    intros s s' E1 E2. unfold shape in *; cbn. rewrite E1, E2; auto. }
  intros z z' _. apply sim_ret. repeat split; auto.
Qed.

(** * Sessions *)
Definition Rsess (q : Z) (r : bool) (a : on_sess) (b : off_sess) : Prop :=
  Rhs r (os_hs a) (fs_hs b) /\ on_q (os_hs a) = q /\ Forall2 Raead (os_aeads a) (fs_aeads b).

Lemma Forall2_nth_error {A B} (R : A -> B -> Prop) l l' k : Forall2 R l l' ->
  match nth_error l k, nth_error l' k with
  | Some a, Some b => R a b | None, None => True | _, _ => False end.
Proof. intro H; revert k; induction H; intros [|k]; cbn; auto. apply IHForall2. Qed.
Lemma Forall2_firstn {A B} (R : A -> B -> Prop) l l' k : Forall2 R l l' ->
  Forall2 R (firstn k l) (firstn k l').
Proof. intro H; revert k; induction H; intros [|k]; cbn; auto. Qed.
Lemma Forall2_skipn {A B} (R : A -> B -> Prop) l l' k : Forall2 R l l' ->
  Forall2 R (skipn k l) (skipn k l').
Proof. intro H; revert k; induction H; intros [|k]; cbn; auto. Qed.

Lemma sim_crypt_call q r a b k iv len sec : Rsess q r a b -> length iv = 8%nat ->
  sim (on_crypt_call orc aes_enc a k iv len sec) (off_crypt_call orc' aes_enc b k len sec)
      (Rsess q r).
Proof.
  intros (H1 & H2 & H3) L. unfold on_crypt_call, off_crypt_call.
  eapply sim_bind with (R := Raead).
  { apply sim_lift. pose proof (Forall2_nth_error _ _ _ k H3) as E.
    destruct (nth_error _ k), (nth_error _ k); cbn; auto. }
  intros x y Hxy. eapply sim_bind; [apply sim_crypt; eauto|].
  intros [a' z] b' Hab; cbn in Hab. apply sim_ret. split; [|split]; cbn; auto.
  apply Forall2_app; [apply Forall2_firstn, H3|]. constructor; [exact Hab|].
  exact (Forall2_skipn _ _ _ (S k) H3).
Qed.

Lemma on_q_kept a pa pb rc rs l t :
  (forall s x s', on_master orc a pa pb rc rs s = Ok (x, s') -> on_q x = on_q a) /\
  (forall s x s', on_ext_master orc a pa pb rc s = Ok (x, s') -> on_q x = on_q a) /\
  (forall s x s', on_expand orc a rc rs s = Ok (x, s') -> on_q x = on_q a) /\
  (forall s x s', on_finished orc a l t s = Ok (x, s') -> on_q (fst x) = on_q a).
Proof.
  assert (P : forall a x n l sd s y s', on_prf orc a x n l sd s = Ok (y, s') -> on_q (fst y) = on_q a).
  { clear. intros a x n l sd s y s' H. unfold on_prf, mbind in H. destruct (_ s) as [[[h r] t]| |]; try discriminate.
    cbn in H. unfold mret in H. injection H as <- _. reflexivity. }
  unfold on_master, on_ext_master, on_expand, on_finished, mbind, lift, mret. repeat split; intros s x s' H.
  - destruct (on_pms a pa pb s) as [[? ?]| |]; try discriminate; cbn in H.
    destruct (on_hinit _ _ _) as [[? ?]| |]; try discriminate; cbn in H.
    destruct (on_prf _ _ _ _ _ _ _) as [[[? ?] ?]| |] eqn:E; try discriminate; cbn in H.
    apply P in E. injection H as <- _. exact E.
  - destruct (on_pms a pa pb s) as [[? ?]| |]; try discriminate; cbn in H.
    destruct (on_hinit _ _ _) as [[? ?]| |]; try discriminate; cbn in H.
    destruct (on_prf _ _ _ _ _ _ _) as [[[? ?] ?]| |] eqn:E; try discriminate; cbn in H.
    apply P in E. injection H as <- _. exact E.
  - destruct (on_hinit _ _ _) as [[? ?]| |]; try discriminate; cbn in H.
    destruct (on_prf _ _ _ _ _ _ _) as [[[? ?] ?]| |] eqn:E; try discriminate; cbn [bind fst snd] in H.
    apply P in E.
    do 4 (destruct (sextract _ _ _); try discriminate; cbn [bind fst snd] in H).
    injection H as <- _. exact E.
  - destruct (on_prf _ _ _ _ _ _ _) as [[[? ?] ?]| |] eqn:E; try discriminate; cbn in H.
    apply P in E. injection H as <- _. exact E.
Qed.
Lemma sim_with_q {A B} (m : M A) (m' : M B) (R : A -> B -> Prop) (P : A -> Prop) :
  (forall s x s', m s = Ok (x, s') -> P x) -> sim m m' R -> sim m m' (fun a b => R a b /\ P a).
Proof.
  intros H S s s' H1 H2. specialize (S s s' H1 H2). specialize (H s).
  destruct (m s) as [[a t]| |], (m' s') as [[b t']| |]; cbn in *; auto. intuition eauto.
Qed.

Lemma sim_do q r a b c : Rsess q r a b -> sizes_ok q r c ->
  sim (on_do orc aes_ks aes_enc a c) (off_do orc' junk aes_ks aes_enc b (announce c)) (Rsess q r).
Proof.
  intros H Hs. pose proof H as (H1 & H2 & H3).
  destruct c as [pa pb rc rs|pa pb sh|rc rs|l t|l t|srv|k iv len sec|k iv len sec];
    cbn [on_do off_do announce sizes_ok] in *.
  - destruct Hs as (Sa & Sb & L).
    eapply sim_bind; [eapply (sim_with_q _ _ _ _ (proj1 (on_q_kept (os_hs a) pa pb rc rs [] []))), (sim_master r); eauto|].
    + congruence. + congruence.
    + intro R; rewrite app_length; auto.
    + intros x y [Hx Q]. apply sim_ret. split; [|split]; cbn; auto; congruence.
  - destruct Hs as (Sa & Sb & L).
    eapply sim_bind; [eapply (sim_with_q _ _ _ _ (proj1 (proj2 (on_q_kept (os_hs a) pa pb sh [] [] [])))), (sim_ext_master r); eauto|].
    + congruence. + congruence.
    + intros x y [Hx Q]. apply sim_ret. split; [|split]; cbn; auto; congruence.
  - eapply sim_bind; [eapply (sim_with_q _ _ _ _ (proj1 (proj2 (proj2 (on_q_kept (os_hs a) 0%Z 0%Z rc rs [] []))))), (sim_expand r); eauto|].
    + intro R; rewrite app_length; auto.
    + intros x y [Hx Q]. apply sim_ret. split; [|split]; cbn; auto; congruence.
  - eapply sim_bind; [eapply (sim_with_q _ _ _ _ (proj2 (proj2 (proj2 (on_q_kept (os_hs a) 0%Z 0%Z [] [] l t))))), (sim_fin_gen r); eauto|].
    + intro R; rewrite app_length; auto.
    + intros [x u] y [Hx Q]; cbn in Hx, Q. apply sim_ret. split; [|split]; cbn; auto; congruence.
  - eapply sim_bind; [eapply (sim_with_q _ _ _ _ (proj2 (proj2 (proj2 (on_q_kept (os_hs a) 0%Z 0%Z [] [] l t))))), (sim_fin_gen r); eauto|].
    + intro R; rewrite app_length; auto.
    + intros [x u] y [Hx Q]; cbn in Hx, Q. apply sim_ret. split; [|split]; cbn; auto; congruence.
  - destruct H1 as (A & B & C & D & E1 & E2 & E3 & E4 & E5).
    rewrite E2, E3, E4, E5. eapply sim_bind; [apply sim_aead_new|].
    intros [x y] z Hz; cbn in Hz. apply sim_ret. split; [|split]; cbn; auto.
    + repeat (split; auto); apply D.
    + apply Forall2_app; auto.
  - apply sim_crypt_call; auto.
  - apply sim_crypt_call; auto.
Qed.

Lemma sim_session q r cs : Forall (sizes_ok q r) cs ->
  sim (on_session orc aes_ks aes_enc q r cs)
      (off_session orc' junk aes_ks aes_enc q r (map announce cs)) (Rsess q r).
Proof.
  intro H. unfold on_session, off_session.
  eapply sim_sfold with (Q := fun c d => d = announce c /\ sizes_ok q r c).
  - induction H; cbn; constructor; auto.
  - intros x y c d Hxy [-> Hc]. apply sim_do; auto.
  - split; [|split]; cbn; auto. repeat (split; auto); discriminate.
Qed.
End Sim.
