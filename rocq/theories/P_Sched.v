(** Every schedule of two communicating parties ends in the same result. *)
From Coq Require Import List NArith Bool Arith Lia Relation_Operators Wellfounded.
From Verif Require Import S_Sched.
Import ListNotations.

Lemma get_put_same b c x : get (put b c x) c = x.
Proof. now destruct c. Qed.
Lemma get_put_other b c d x : c <> d -> get (put b c x) d = get b d.
Proof. destruct c, d; intro H; try reflexivity; now destruct H. Qed.
Lemma put_put b c x y : put (put b c x) c y = put b c y.
Proof. now destruct b, c. Qed.
Lemma put_comm b c d x y : c <> d -> put (put b c x) d y = put (put b d y) c x.
Proof. destruct b, c, d; intro H; try reflexivity; now destruct H. Qed.
Lemma put_get b c : put b c (get b c) = b.
Proof. now destruct b, c. Qed.
Lemma bufs_ext b d : (forall c, get b c = get d c) -> b = d.
Proof. intro H. generalize (H IO) (H IO_OPT). destruct b, d; cbn. now intros -> ->. Qed.
Lemma chan_dec (c d : chan) : {c = d} + {c <> d}.
Proof. decide equality. Qed.

(** * One party alone, with one byte stream per direction and channel *)
Section One.
Context {A : Type}.
(** program, outgoing streams, incoming streams *)
Inductive astep : proc A -> bufs -> bufs -> proc A -> bufs -> bufs -> Prop :=
| ASend c bs p so si : astep (Send c bs p) so si p (put so c (get so c ++ bs)) si
| AFlush c p so si : astep (Flush c p) so si p so si
| ARecv c n k so si : n <= length (get si c) ->
    astep (Recv c n k) so si (k (firstn n (get si c))) so (put si c (skipn n (get si c))).
Inductive solo : proc A -> bufs -> bufs -> proc A -> bufs -> bufs -> Prop :=
| solo_refl p so si : solo p so si p so si
| solo_step p so si p' so' si' p'' so'' si'' :
    astep p so si p' so' si' -> solo p' so' si' p'' so'' si'' -> solo p so si p'' so'' si''.
Lemma solo_trans p so si p' so' si' p'' so'' si'' :
  solo p so si p' so' si' -> solo p' so' si' p'' so'' si'' -> solo p so si p'' so'' si''.
Proof. induction 1; intro H2; [exact H2|]. econstructor; eauto. Qed.
Lemma solo_one p so si p' so' si' : astep p so si p' so' si' -> solo p so si p' so' si'.
Proof. intro H. econstructor; [exact H|constructor]. Qed.

(** the outgoing and incoming streams can be longer *)
Definition more_out (so d : bufs) : bufs := mkBufs (on_io d ++ on_io so) (on_opt d ++ on_opt so).
Definition more_in (si d : bufs) : bufs := mkBufs (on_io si ++ on_io d) (on_opt si ++ on_opt d).
Lemma more_out_put so d c x : more_out (put so c x) d = put (more_out so d) c (get d c ++ x).
Proof. now destruct so, d, c. Qed.
Lemma more_in_put so d c x : more_in (put so c x) d = put (more_in so d) c (x ++ get d c).
Proof. now destruct so, d, c. Qed.
Lemma get_more_out so d c : get (more_out so d) c = get d c ++ get so c.
Proof. now destruct c. Qed.
Lemma get_more_in so d c : get (more_in so d) c = get so c ++ get d c.
Proof. now destruct c. Qed.
Lemma astep_more p so si p' so' si' d e : astep p so si p' so' si' ->
  astep p (more_out so d) (more_in si e) p' (more_out so' d) (more_in si' e).
Proof.
  destruct 1.
  - rewrite more_out_put, app_assoc, <- get_more_out. constructor.
  - constructor.
  - rewrite more_in_put.
    replace (firstn n (get si c)) with (firstn n (get (more_in si e) c)).
    2:{ rewrite get_more_in, firstn_app. replace (n - _) with 0 by lia. now rewrite app_nil_r. }
    replace (skipn n (get si c) ++ get e c) with (skipn n (get (more_in si e) c)).
    2:{ rewrite get_more_in, skipn_app. replace (n - length (get si c)) with 0 by lia. reflexivity. }
    constructor. rewrite get_more_in, app_length. lia.
Qed.
Lemma solo_more p so si p' so' si' d e : solo p so si p' so' si' ->
  solo p (more_out so d) (more_in si e) p' (more_out so' d) (more_in si' e).
Proof. induction 1; [constructor|]. econstructor; [eapply astep_more|]; eassumption. Qed.
Lemma astep_det p so si p1 so1 si1 p2 so2 si2 : astep p so si p1 so1 si1 -> astep p so si p2 so2 si2 ->
  p1 = p2 /\ so1 = so2 /\ si1 = si2.
Proof. destruct 1; inversion 1; subst; auto. Qed.
End One.

Lemma solo_bind {A B} (p : proc A) (f : A -> proc B) so si p' so' si' :
  solo p so si p' so' si' -> solo (pbind p f) so si (pbind p' f) so' si'.
Proof.
  induction 1; [constructor|]. econstructor; [|eassumption].
  destruct H; cbn [pbind]; [constructor|constructor|].
  now apply (ARecv c n (fun bs => pbind (k bs) f)).
Qed.
Lemma solo_bind_ret {A B} (p : proc A) (f : A -> proc B) so si a so' si' p'' so'' si'' :
  solo p so si (Ret a) so' si' -> solo (f a) so' si' p'' so'' si'' ->
  solo (pbind p f) so si p'' so'' si''.
Proof. intros H1 H2. eapply solo_trans; [eapply solo_bind, H1|exact H2]. Qed.

(** * Both parties *)
Section Two.
Context {A B : Type}.
Record astate : Type := mkA { pa : proc A; pb : proc B; sa : bufs; sb : bufs }.
Inductive abs_step : astate -> astate -> Prop :=
| AbsA p q s t p' s' t' : astep p s t p' s' t' -> abs_step (mkA p q s t) (mkA p' q s' t')
| AbsB p q s t q' s' t' : astep q t s q' t' s' -> abs_step (mkA p q s t) (mkA p q' s' t').
Inductive abs_steps : nat -> astate -> astate -> Prop :=
| abs_refl x : abs_steps 0 x x
| abs_more n x y z : abs_step x y -> abs_steps n y z -> abs_steps (S n) x z.
Lemma abs_trans n m x y z : abs_steps n x y -> abs_steps m y z -> abs_steps (n + m) x z.
Proof. induction 1; intro H2; [exact H2|]. cbn. econstructor; eauto. Qed.

Lemma solo_A p s t p' s' t' q : solo p s t p' s' t' -> exists n, abs_steps n (mkA p q s t) (mkA p' q s' t').
Proof.
  induction 1 as [|? ? ? ? ? ? ? ? ? H _ [n IH]]; [exists 0; constructor|].
  exists (S n). econstructor; [constructor; exact H|exact IH].
Qed.
Lemma solo_B p q s t q' s' t' : solo q t s q' t' s' -> exists n, abs_steps n (mkA p q s t) (mkA p q' s' t').
Proof.
  induction 1 as [|? ? ? ? ? ? ? ? ? H _ [n IH]]; [exists 0; constructor|].
  exists (S n). econstructor; [apply AbsB; exact H|exact IH].
Qed.

(** a step of one party does not disturb a step of the other *)
Lemma astep_commute {X Y} (p : proc X) (q : proc Y) s t p' s1 t1 q' s2 t2 :
  astep p s t p' s1 t1 -> astep q t s q' t2 s2 ->
  exists s3 t3, astep q t1 s1 q' t3 s3 /\ astep p s2 t2 p' s3 t3.
Proof.
  intros H1 H2.
  destruct H1 as [c bs p s t|c p s t|c n k s t L]; inversion H2 as [d es q0 t0 s0|d q0 t0 s0|d m j t0 s0 L']; subst; clear H2.
  - do 2 eexists. split; constructor.
  - do 2 eexists. split; constructor.
  - destruct (chan_dec c d) as [->|N].
    + exists (put s d (skipn m (get s d) ++ bs)), t2. split.
      * replace (put s d (skipn m (get s d) ++ bs)) with (put (put s d (get s d ++ bs)) d (skipn m (get (put s d (get s d ++ bs)) d))).
        2:{ rewrite put_put, get_put_same, skipn_app. replace (m - _) with 0 by lia. reflexivity. }
        replace (firstn m (get s d)) with (firstn m (get (put s d (get s d ++ bs)) d)).
        2:{ rewrite get_put_same, firstn_app. replace (m - _) with 0 by lia. now rewrite app_nil_r. }
        constructor. rewrite get_put_same, app_length. lia.
      * replace (put s d (skipn m (get s d) ++ bs)) with (put (put s d (skipn m (get s d))) d (get (put s d (skipn m (get s d))) d ++ bs)).
        2:{ now rewrite put_put, get_put_same. }
        constructor.
    + exists (put (put s d (skipn m (get s d))) c (get s c ++ bs)), t2. split.
      * rewrite put_comm by congruence. rewrite <- (get_put_other s c d (get s c ++ bs)) by exact N.
        constructor. rewrite get_put_other by exact N. exact L'.
      * rewrite <- (get_put_other s d c (skipn m (get s d))) by congruence. constructor.
  - do 2 eexists. split; constructor.
  - do 2 eexists. split; constructor.
  - do 2 eexists. split; [now constructor|constructor].
  - destruct (chan_dec c d) as [->|N].
    + exists s2, (put t d (skipn n (get t d) ++ es)). split.
      * replace (put t d (skipn n (get t d) ++ es)) with (put (put t d (skipn n (get t d))) d (get (put t d (skipn n (get t d))) d ++ es)).
        2:{ now rewrite put_put, get_put_same. }
        constructor.
      * replace (put t d (skipn n (get t d) ++ es)) with (put (put t d (get t d ++ es)) d (skipn n (get (put t d (get t d ++ es)) d))).
        2:{ rewrite put_put, get_put_same, skipn_app. replace (n - _) with 0 by lia. reflexivity. }
        replace (firstn n (get t d)) with (firstn n (get (put t d (get t d ++ es)) d)).
        2:{ rewrite get_put_same, firstn_app. replace (n - _) with 0 by lia. now rewrite app_nil_r. }
        constructor. rewrite get_put_same, app_length. lia.
    + exists s2, (put (put t d (get t d ++ es)) c (skipn n (get t c))). split.
      * rewrite put_comm by congruence. rewrite <- (get_put_other t c d (skipn n (get t c))) by exact N. constructor.
      * rewrite <- (get_put_other t d c (get t d ++ es)) by congruence.
        constructor. rewrite get_put_other by congruence. exact L.
  - do 2 eexists. split; [constructor|now constructor].
  - do 2 eexists. split; now constructor.
Qed.

Lemma abs_diamond x y z : abs_step x y -> abs_step x z -> y = z \/ exists w, abs_step y w /\ abs_step z w.
Proof.
  destruct 1 as [p q s t p1 s1 t1 H1|p q s t q1 s1 t1 H1]; inversion 1 as [p0 q0 s0 t0 p2 s2 t2 H2|p0 q0 s0 t0 q2 s2 t2 H2]; subst.
  - left. now destruct (astep_det _ _ _ _ _ _ _ _ _ H1 H2) as (-> & -> & ->).
  - right. destruct (astep_commute _ _ _ _ _ _ _ _ _ _ H1 H2) as (s3 & t3 & G1 & G2).
    exists (mkA p1 q2 s3 t3). split; [apply AbsB; exact G1|apply AbsA; exact G2].
  - right. destruct (astep_commute _ _ _ _ _ _ _ _ _ _ H2 H1) as (s3 & t3 & G1 & G2).
    exists (mkA p2 q1 s3 t3). split; [apply AbsA; exact G2|apply AbsB; exact G1].
  - left. now destruct (astep_det _ _ _ _ _ _ _ _ _ H1 H2) as (-> & -> & ->).
Qed.
(** whatever step is taken first, the end remains reachable, in one step less *)
Lemma abs_confluent n x f : abs_steps n x f -> (forall y, ~ abs_step f y) ->
  forall y, abs_step x y -> exists m, n = S m /\ abs_steps m y f.
Proof.
  intros H F. induction H as [x|n x y z S1 H IH]; intros w W; [now destruct (F _ W)|].
  destruct (abs_diamond _ _ _ S1 W) as [->|(v & V1 & V2)]; [eauto|].
  destruct (IH F _ V1) as (m & -> & M). exists (S m). split; [reflexivity|]. econstructor; eauto.
Qed.
End Two.
Arguments astate : clear implicits.

(** * Flush discipline: before waiting on one channel a party has flushed the other; it
    returns with nothing buffered *)
Definition flags : Type := (bool * bool)%type.
Definition fget (d : flags) (c : chan) : bool := match c with IO => fst d | IO_OPT => snd d end.
Definition fset (d : flags) (c : chan) (b : bool) : flags := match c with IO => (b, snd d) | IO_OPT => (fst d, b) end.
Definition other (c : chan) : chan := match c with IO => IO_OPT | IO_OPT => IO end.
Fixpoint wp {A} (p : proc A) (d : flags) (Q : A -> flags -> Prop) : Prop :=
  match p with
  | Ret a => Q a d
  | Send c _ p => wp p (fset d c true) Q
  | Flush c p => wp p (fset d c false) Q
  | Recv c n k => fget d (other c) = false /\ forall bs, length bs = n -> wp (k bs) (fset d c false) Q
  end.
Lemma wp_mono {A} (p : proc A) : forall d (Q R : A -> flags -> Prop), (forall a d, Q a d -> R a d) -> wp p d Q -> wp p d R.
Proof.
  induction p; cbn; intros d Q R QR H0; eauto. destruct H0 as [H1 H2]. split; [exact H1|]. intros; eapply H; eauto.
Qed.
Lemma wp_bind {A B} (p : proc A) (f : A -> proc B) : forall d Q,
  wp p d (fun a d' => wp (f a) d' Q) -> wp (pbind p f) d Q.
Proof.
  induction p; cbn; intros d Q H0; eauto. destruct H0 as [H1 H2]. split; [exact H1|]. intros; eapply H; eauto.
Qed.
Definition clean {A} (a : A) (d : flags) : Prop := d = (false, false).
Definition disciplined {A} (p : proc A) : Prop := wp p (false, false) clean.

(** * Every schedule *)
Section All.
Context {A B : Type}.
Definition join (o w : bufs) : bufs := more_out o w.
Definition absof (x : config) : astate A B :=
  let (a, b) := x in mkA (prog a) (prog b) (join (obuf a) (wire a)) (join (obuf b) (wire b)).
Definition covers (d : flags) (o : bufs) : Prop := forall c, fget d c = false -> get o c = [].
Definition okside {X} (s : side X) : Prop := exists d, covers d (obuf s) /\ wp (prog s) d clean.
Definition okconf (x : @config A B) : Prop := okside (fst x) /\ okside (snd x).

Definition weight (o : bufs) : nat := length (on_io o) + length (on_opt o).
Definition weight2 (x : @config A B) : nat := weight (obuf (fst x)) + weight (obuf (snd x)).

Lemma join_flush o w c : join (put o c []) (put w c (get w c ++ get o c)) = join o w.
Proof. apply bufs_ext. intro d. unfold join. rewrite !get_more_out.
  destruct (chan_dec c d) as [->|N]; [now rewrite !get_put_same, app_nil_r|now rewrite !get_put_other by exact N]. Qed.
Lemma join_send o w c bs : join (put o c (get o c ++ bs)) w = put (join o w) c (get (join o w) c ++ bs).
Proof. unfold join. now rewrite more_out_put, get_more_out, app_assoc. Qed.
Lemma join_early o w c x y : get o c = x ++ y -> join (put o c y) (put w c (get w c ++ x)) = join o w.
Proof. intro E. apply bufs_ext. intro d. unfold join. rewrite !get_more_out.
  destruct (chan_dec c d) as [->|N]; [now rewrite !get_put_same, E, app_assoc|now rewrite !get_put_other by exact N]. Qed.
Lemma weight_put o c x : weight (put o c x) + length (get o c) = weight o + length x.
Proof. destruct o, c; unfold weight; cbn; lia. Qed.

Lemma covers_set d o c b x : covers d o -> (b = false -> x = []) -> covers (fset d c b) (put o c x).
Proof.
  intros C E e F. destruct (chan_dec c e) as [->|N].
  - rewrite get_put_same. apply E. destruct e, d; exact F.
  - rewrite get_put_other by exact N. apply C. destruct c, e, d; try exact F; now destruct N.
Qed.

(** one side: abstract effect, discipline, weight *)
Lemma pstep_abs {X} (s s' : side X) inc inc' o : pstep s inc s' inc' -> okside s ->
  okside s' /\
  (astep (prog s) (join (obuf s) (wire s)) (join o inc) (prog s') (join (obuf s') (wire s')) (join o inc') \/
   prog s' = prog s /\ join (obuf s') (wire s') = join (obuf s) (wire s) /\ inc' = inc /\
   weight (obuf s') < weight (obuf s)).
Proof.
  intros H (d & C & W). destruct H; unfold flushed; cbn [prog obuf wire] in *.
  - split. { exists (fset d c true). split; [apply covers_set; [exact C|discriminate]|exact W]. }
    left. rewrite join_send. constructor.
  - split. { exists (fset d c false). split; [apply covers_set; auto|exact W]. }
    left. rewrite join_flush. constructor.
  - split. { exists d. split; [|exact W]. cbn [obuf]. intros e F. destruct (chan_dec c e) as [->|N]; [apply get_put_same|].
      rewrite get_put_other by exact N. auto. }
    right. rewrite join_flush. repeat split. generalize (weight_put o0 c []). cbn [length].
    destruct (get o0 c); [congruence|cbn [length]; lia].
  - destruct W as [W1 W2]. split.
    { exists (fset d c false). cbn [obuf prog]. split.
      - rewrite <- (put_get o0 c). apply covers_set; auto.
      - apply W2. rewrite firstn_length. lia. }
    left. replace (join o (put inc c (skipn n (get inc c)))) with (put (join o inc) c (skipn n (get (join o inc) c))).
    2:{ apply bufs_ext. intro e. unfold join. rewrite !get_more_out. destruct (chan_dec c e) as [->|N].
        - rewrite !get_put_same, skipn_app.
          replace (n - length (get inc e)) with 0 by lia. reflexivity.
        - rewrite !get_put_other by exact N. apply get_more_out. }
    replace (firstn n (get inc c)) with (firstn n (get (join o inc) c)).
    2:{ unfold join. rewrite get_more_out, firstn_app. replace (n - _) with 0 by lia. now rewrite app_nil_r. }
    constructor. unfold join. rewrite get_more_out, app_length. lia.
Qed.
Lemma estep_abs {X} (s s' : side X) : estep s s' -> okside s ->
  okside s' /\ prog s' = prog s /\ join (obuf s') (wire s') = join (obuf s) (wire s) /\
  weight (obuf s') < weight (obuf s).
Proof.
  intros H (d & C & W). destruct H as [p o w c x y E N]; cbn [prog obuf wire] in *. split.
  { exists d. split; [|exact W]. cbn [obuf]. intros e F. specialize (C e F). destruct (chan_dec c e) as [->|M].
    - rewrite C in E. destruct x; [now destruct N|discriminate].
    - now rewrite get_put_other by exact M. }
  split; [reflexivity|]. split; [now apply join_early|].
  generalize (weight_put o c y). rewrite E, app_length. destruct x; [now destruct N|cbn [length]; lia].
Qed.

Lemma step_abs x y : step x y -> okconf x -> okconf y /\
  (abs_step (absof x) (absof y) \/ absof y = absof x /\ weight2 y < weight2 x).
Proof.
  intros H [OA OB]. destruct H as [x y H|a a' b H|a b b' H].
  - destruct H as [a b a' w' H|a b b' w' H]; cbn [fst snd] in *.
    + destruct (pstep_abs _ _ _ _ (obuf b) H OA) as [OA' D]. split.
      { split; [exact OA'|]. destruct OB as (d & C & W). now exists d. }
      cbn [absof prog obuf wire]. destruct D as [D|(E1 & E2 & -> & L)].
      * left. now constructor.
      * right. rewrite E1, E2. split; [reflexivity|]. unfold weight2. cbn. lia.
    + destruct (pstep_abs _ _ _ _ (obuf a) H OB) as [OB' D]. split.
      { split; [|exact OB']. destruct OA as (d & C & W). now exists d. }
      cbn [absof prog obuf wire]. destruct D as [D|(E1 & E2 & -> & L)].
      * left. now apply AbsB.
      * right. rewrite E1, E2. split; [reflexivity|]. unfold weight2. cbn. lia.
  - destruct (estep_abs _ _ H OA) as (OA' & E1 & E2 & L). split; [now split|]. right.
    cbn [absof]. rewrite E1, E2. split; [reflexivity|]. unfold weight2. cbn in *. lia.
  - destruct (estep_abs _ _ H OB) as (OB' & E1 & E2 & L). split; [now split|]. right.
    cbn [absof]. rewrite E1, E2. split; [reflexivity|]. unfold weight2. cbn in *. lia.
Qed.

(** when one side can move abstractly, a program of the pair can move *)
Lemma not_stuck {X Y} (s : side X) (t : side Y) p' s' t' : okside s -> okside t ->
  astep (prog s) (join (obuf s) (wire s)) (join (obuf t) (wire t)) p' s' t' ->
  (exists u w, pstep s (wire t) u w) \/ (exists u w, pstep t (wire s) u w).
Proof.
  intros OS (d & C & W) H. destruct s as [p o w]. cbn [prog obuf wire] in H.
  destruct p as [a|c bs p|c p|c n k]; [inversion H| | |].
  - left. do 2 eexists. constructor.
  - left. do 2 eexists. constructor.
  - destruct (get o c) eqn:E.
    2:{ left. do 2 eexists. apply StepRecvFlush. rewrite E. discriminate. }
    destruct (le_lt_dec n (length (get (wire t) c))) as [L|L].
    { left. do 2 eexists. now constructor. }
    inversion H as [| |c0 n0 k0 so0 si0 H5]; subst. unfold join in H5. rewrite get_more_out, app_length in H5.
    assert (NE : get (obuf t) c <> []). { intro Z. rewrite Z in H5. cbn in H5. lia. }
    right. destruct t as [q o' w']. cbn [prog obuf wire] in *.
    destruct q as [a|e bs q|e q|e m j]; cbn [wp] in W.
    + destruct NE. apply C. unfold clean in W. rewrite W. now destruct c.
    + do 2 eexists. constructor.
    + do 2 eexists. constructor.
    + destruct (chan_dec e c) as [->|N]; [do 2 eexists; now apply StepRecvFlush|].
      destruct NE. apply C. destruct W as [W _]. now destruct e, c.
Qed.
Lemma stuck_abs x : okconf x -> stuck x -> forall y, ~ abs_step (absof x) y.
Proof.
  intros [OA OB] S y H. destruct x as [a b]. cbn [fst snd] in *. inversion H as [p q s t p' s' t' H4|p q s t p' s' t' H4]; subst.
  - destruct (not_stuck a b _ _ _ OA OB H4) as [(u & w & P)|(u & w & P)].
    + exact (S _ (StepA _ _ _ _ P)).
    + exact (S _ (StepB _ _ _ _ P)).
  - destruct (not_stuck b a _ _ _ OB OA H4) as [(u & w & P)|(u & w & P)].
    + exact (S _ (StepB _ _ _ _ P)).
    + exact (S _ (StepA _ _ _ _ P)).
Qed.

Definition final (a : A) (b : B) : astate A B := mkA (Ret a) (Ret b) nobufs nobufs.
Lemma final_stop a b y : ~ abs_step (final a b) y.
Proof. inversion 1; match goal with H : astep _ _ _ _ _ _ |- _ => inversion H end. Qed.
Lemma join_nil o w : join o w = nobufs -> o = nobufs /\ w = nobufs.
Proof.
  destruct o as [a b], w as [c d]. unfold join, more_out, nobufs. cbn. intro H. injection H as H1 H2.
  apply app_eq_nil in H1 as [-> ->]. apply app_eq_nil in H2 as [-> ->]. now split.
Qed.

Lemma reach_inv p q a b n : disciplined p -> disciplined q ->
  abs_steps n (mkA p q nobufs nobufs) (final a b) ->
  forall x, reach (start p q) x -> okconf x /\ exists m, abs_steps m (absof x) (final a b).
Proof.
  intros DP DQ R x H. induction H as [|y z H [O (m & M)] S].
  - split; [split; (exists (false, false); split; [intros []; reflexivity|assumption])|]. now exists n.
  - destruct (step_abs _ _ S O) as [O' D]. split; [exact O'|].
    destruct D as [D|[-> _]]; [|now exists m].
    destruct (abs_confluent _ _ _ M (final_stop a b) _ D) as (k & -> & K). now exists k.
Qed.

Lemma acc_steps a b : forall n x, okconf x -> abs_steps n (absof x) (final a b) ->
  Acc (fun y x => step x y) x.
Proof.
  induction n as [n IH] using lt_wf_ind.
  assert (G : forall w x, weight2 x = w -> okconf x -> abs_steps n (absof x) (final a b) -> Acc (fun y x => step x y) x).
  { induction w as [w IHw] using lt_wf_ind. intros x Ew O M. constructor. intros y S.
    destruct (step_abs _ _ S O) as [O' [D|[E L]]].
    - destruct (abs_confluent _ _ _ M (final_stop a b) _ D) as (k & -> & K). apply (IH k); auto.
    - apply (IHw (weight2 y)); [lia|reflexivity|exact O'|now rewrite E]. }
  intros x O M. now apply (G (weight2 x)).
Qed.

Theorem completes p q a b n : disciplined p -> disciplined q ->
  abs_steps n (mkA p q nobufs nobufs) (final a b) -> always_completes p q a b.
Proof.
  intros DP DQ R. split.
  - intros x H S. destruct (reach_inv p q a b n DP DQ R x H) as [O (m & M)].
    remember (final a b) as f eqn:Ef. remember (absof x) as y eqn:E. destruct M as [y|k y z w G]; subst y.
    + destruct x as [s t]. cbn [absof] in E. assert (E1 := f_equal pa E). assert (E2 := f_equal pb E).
      assert (E3 := f_equal sa E). assert (E4 := f_equal sb E). cbn [final pa pb sa sb] in E1, E2, E3, E4. clear E.
      symmetry in E3, E4. apply join_nil in E3 as [E3 E3']. apply join_nil in E4 as [E4 E4'].
      destruct s, t; cbn in *; subst. reflexivity.
    + now destruct (stuck_abs _ O S _ G).
  - apply (acc_steps a b n); [|exact R].
    split; (exists (false, false); split; [intros []; reflexivity|assumption]).
Qed.
End All.
