(** Evaluating the requests of the online classes gives the values computed by the
    cleartext models. *)
From Coq Require Import List NArith ZArith Bool Arith Lia.
From Verif Require Import L_Bits L_Res L_PTree S_Netlist M_EmpInteger M_Utils M_Trace M_Bristol M_Bn M_Addmod M_Sym.
From Verif Require Import M_Sha256 M_Hmac M_Handshake M_Aead M_SymOn M_SymSess P_NetCheck.
Import ListNotations.
Local Open Scope N_scope.
Local Open Scope sym_scope.

Definition V (s : cst) : list bool := vals (c_tr s).
Definition wf (s : cst) : Prop := c_next s = N.of_nat (length (V s)) /\ sound_trace (c_tr s).
Definition ext (s s' : cst) : Prop := exists l, c_tr s' = l ++ c_tr s.
Definition wrel (s : cst) (w : wire) (b : bool) : Prop :=
  match w with WPub _ => True | WId n => n < c_next s end /\ wval (V s) w = b.
Definition rel (s : cst) : sint -> list bool -> Prop := Forall2 (wrel s).
Definition rels (s : cst) : list sint -> list (list bool) -> Prop := Forall2 (rel s).

Lemma ext_refl s : ext s s. Proof. exists []. reflexivity. Qed.
Lemma ext_trans a b c : ext a b -> ext b c -> ext a c.
Proof. intros [l H] [m H']. exists (m ++ l). rewrite H', H, app_assoc; auto. Qed.
Lemma ext_V s s' : ext s s' -> exists l, V s' = V s ++ l.
Proof.
  intros [l H]. unfold V. rewrite H. clear. induction l as [|e l [m IH]]; cbn.
  - exists []. now rewrite app_nil_r.
  - rewrite IH. eexists. rewrite <- app_assoc. reflexivity.
Qed.
Lemma wrel_mono s s' w b : wf s -> wf s' -> ext s s' -> wrel s w b -> wrel s' w b.
Proof.
  intros W W' X [H1 H2]. destruct (ext_V _ _ X) as [l E]. destruct w as [c|n]; [exact (conj I H2)|].
  destruct W as [W _], W' as [W' _]. split.
  - rewrite W', E, app_length. lia.
  - cbn in H2 |- *. rewrite E, app_nth1 by lia. exact H2.
Qed.
Lemma rel_mono s s' w b : wf s -> wf s' -> ext s s' -> rel s w b -> rel s' w b.
Proof. intros W W' E H; induction H; constructor; auto. exact (wrel_mono _ _ _ _ W W' E H). Qed.
Lemma rels_mono s s' w b : wf s -> wf s' -> ext s s' -> rels s w b -> rels s' w b.
Proof. intros W W' E H; induction H; constructor; auto. exact (rel_mono _ _ _ _ W W' E H). Qed.

Definition tri {A B} (s : cst) (m : M A) (r : res B) (R : cst -> A -> B -> Prop) : Prop :=
  match m s, r with
  | Ok x, Ok b => wf (snd x) /\ ext s (snd x) /\ R (snd x) (fst x) b
  | Err, Err => True
  | UB, UB => True
  | _, _ => False
  end.
Lemma tri_ret {A B} s (a : A) (b : B) (R : cst -> A -> B -> Prop) : wf s -> R s a b -> tri s (mret a) (Ok b) R.
Proof. intros W H. cbn. auto using ext_refl. Qed.
Lemma tri_bind {A A' B B'} s (m : M A) (r : res A') (k : A -> M B) (k' : A' -> res B') R R' :
  tri s m r R ->
  (forall s' a a', wf s' -> ext s s' -> R s' a a' -> tri s' (k a) (k' a') R') ->
  tri s (mbind m k) (bind r k') R'.
Proof.
  intros H K. unfold tri, mbind in *. destruct (m s) as [[a t]| |], r; cbn in *; try contradiction; auto.
  destruct H as (W & E & H). specialize (K t a a0 W E H).
  destruct (k a t) as [[b u]| |], (k' a0); cbn in *; auto.
  destruct K as (W' & E' & K). eauto using ext_trans.
Qed.
Lemma tri_pure {A A' B B'} s (m : M A) (v : A') (k : A -> M B) (r : res B') R R' :
  tri s m (Ok v) R ->
  (forall s' a, wf s' -> ext s s' -> R s' a v -> tri s' (k a) r R') ->
  tri s (mbind m k) r R'.
Proof.
  intros H K. unfold tri, mbind in *. destruct (m s) as [[a t]| |]; cbn in *; try contradiction.
  destruct H as (W & E & H). specialize (K t a W E H).
  destruct (k a t) as [[b u]| |], r; cbn in *; auto.
  destruct K as (W' & E' & K). eauto using ext_trans.
Qed.
Lemma tri_lift {A B} s (r : res A) (r' : res B) (R : cst -> A -> B -> Prop) : wf s ->
  match r, r' with Ok a, Ok b => R s a b | Err, Err => True | UB, UB => True | _, _ => False end ->
  tri s (lift r) r' R.
Proof. intros W H. unfold tri, lift. destruct r, r'; cbn; auto using ext_refl. Qed.
Lemma tri_mono {A B} s (m : M A) (r : res B) (R R' : cst -> A -> B -> Prop) :
  (forall s' a b, R s' a b -> R' s' a b) -> tri s m r R -> tri s m r R'.
Proof.
  intros I H. unfold tri in *. destruct (m s) as [[a t]| |], r; cbn in *; auto. intuition.
Qed.

Lemma tri_val {A B C} s (m : M A) (v : B) (w : C) (R : cst -> A -> B -> Prop) (R' : cst -> A -> C -> Prop) :
  tri s m (Ok v) R -> (forall s' a, R s' a v -> R' s' a w) -> tri s m (Ok w) R'.
Proof. intros H I. unfold tri in *. destruct (m s) as [[a t]| |]; cbn in *; intuition. Qed.

(** * Gates *)
Lemma V_snoc s e n : V (mkC n (e :: c_tr s)) = V s ++ outs (V s) e.
Proof. reflexivity. Qed.
Lemma wf_step s e n : wf s -> sound_event (length (V s)) e -> n = c_next s + N.of_nat (length (outs (V s) e)) ->
  wf (mkC n (e :: c_tr s)) /\ ext s (mkC n (e :: c_tr s)).
Proof.
  intros [W T] S ->. split.
  - split; [|split; assumption]. rewrite V_snoc, app_length. cbn. rewrite W. lia.
  - exists [e]. reflexivity.
Qed.
Lemma wrel_new s e n b : wf s -> outs (V s) e = [b] -> n = N.succ (c_next s) ->
  wrel (mkC n (e :: c_tr s)) (WId (c_next s)) b.
Proof.
  intros [W _] O ->. split; [cbn; lia|]. cbn [wval]. rewrite V_snoc, O.
  rewrite W, Nnat.Nat2N.id, app_nth2 by lia. rewrite Nat.sub_diag. reflexivity.
Qed.
Lemma wrel_is s w b : wf s -> wrel s w b -> is_wire (length (V s)) w.
Proof. intros [W _] [H _]. destruct w as [|n]; [exact I|]. cbn. rewrite <- W. exact H. Qed.
Lemma rel_is s w v : wf s -> rel s w v -> Forall (is_wire (length (V s))) w.
Proof. intros W H; induction H; constructor; auto. exact (wrel_is _ _ _ W H). Qed.
Lemma tri_gate1 s e b : wf s -> sound_event (length (V s)) e -> outs (V s) e = [b] ->
  tri s (fun s => Ok (WId (c_next s), mkC (N.succ (c_next s)) (e :: c_tr s))) (Ok b) wrel.
Proof.
  intros W S O. unfold tri. cbn [snd fst].
  destruct (wf_step s e (N.succ (c_next s)) W S) as [W' E]; [rewrite O; cbn; lia|].
  split; [exact W'|]. split; [exact E|]. apply (wrel_new s e _ b W O eq_refl).
Qed.
Lemma tri_gxor s a b x y : wf s -> wrel s a x -> wrel s b y -> tri s (gxor a b) (Ok (xorb x y)) wrel.
Proof.
  intros W Ha Hb. apply tri_gate1; auto; [split; eapply wrel_is; eassumption|]. destruct Ha as [_ Ha], Hb as [_ Hb]. cbn. rewrite Ha, Hb; auto.
Qed.
Lemma tri_gand s a b x y : wf s -> wrel s a x -> wrel s b y -> tri s (gand a b) (Ok (andb x y)) wrel.
Proof.
  intros W Ha Hb. apply tri_gate1; auto; [split; eapply wrel_is; eassumption|]. destruct Ha as [_ Ha], Hb as [_ Hb]. cbn. rewrite Ha, Hb; auto.
Qed.
Lemma tri_gnot s a x : wf s -> wrel s a x -> tri s (gnot a) (Ok (negb x)) wrel.
Proof.
  intros W Ha. apply tri_gate1; auto; [eapply wrel_is; eassumption|]. destruct Ha as [_ Ha]. cbn. rewrite Ha; auto.
Qed.
Lemma wrel_pub s b : wrel s (WPub b) b. Proof. split; cbn; auto. Qed.
Lemma rel_pub s l : rel s (map WPub l) l.
Proof. induction l; constructor; auto using wrel_pub. Qed.
Lemma rel_spub s n v : rel s (spub n v) (int_of n v). Proof. apply rel_pub. Qed.

Lemma rel_new s l e n : wf s -> outs (V s) e = l -> n = c_next s + N.of_nat (length l) ->
  rel (mkC n (e :: c_tr s)) (map WId (nseq (c_next s) (length l))) l.
Proof.
  intros W O ->. unfold nseq. rewrite map_map.
  assert (G : forall k m, k ++ m = l ->
    Forall2 (wrel (mkC (c_next s + N.of_nat (length l)) (e :: c_tr s)))
            (map (fun i => WId (c_next s + N.of_nat i)) (seq (length k) (length m))) m).
  { intros k m; revert k; induction m as [|b m IH]; intros k E; cbn; constructor.
    - assert (length l = length k + S (length m))%nat by (rewrite <- E, app_length; reflexivity).
      split; [cbn; lia|]. cbn [wval]. rewrite V_snoc, O. destruct W as [W _]. rewrite W.
      rewrite app_nth2 by lia. replace (_ - _)%nat with (length k) by lia.
      rewrite <- E, app_nth2, Nat.sub_diag by lia. reflexivity.
    - specialize (IH (k ++ [b])). rewrite app_length, Nat.add_1_r in IH. apply IH.
      rewrite <- app_assoc. exact E. }
  apply (G [] l eq_refl).
Qed.
Lemma tri_gfeed s p l : wf s -> p <> OPub -> tri s (gfeed p l) (Ok l) rel.
Proof.
  intros W P. unfold tri, gfeed. cbn [snd fst].
  destruct (wf_step s (EFeed p l) (c_next s + N.of_nat (length l)) W P eq_refl) as [W' E].
  split; [exact W'|]. split; [exact E|]. apply rel_new; auto.
Qed.
Lemma rel_vals s w v : rel s w v -> map (wval (V s)) w = v.
Proof. induction 1 as [|x b w v [_ H] Hr IH]; cbn; congruence. Qed.
Lemma tri_greveal s p w v : wf s -> rel s w v ->
  tri s (greveal honest p w) (Ok v) (fun s' a b => a = b).
Proof.
  intros W H. unfold tri, greveal. cbn [snd fst].
  destruct (wf_step s (EReveal p w) (c_next s) W (rel_is _ _ _ W H)) as [W' E]; [cbn; lia|].
  split; [exact W'|]. split; [exact E|]. rewrite <- (rel_vals _ _ _ H). clear.
  change (honest (EReveal p w :: c_tr s)) with (fun i => wval (V s) (nth i w (WPub false))).
  generalize (V s). intro U. apply nth_ext with (d := false) (d' := false).
  - rewrite !map_length, seq_length; auto.
  - rewrite map_length, seq_length. intros n Hn.
    rewrite (nth_indep _ false (wval U (nth 0 w (WPub false)))) by (rewrite map_length, seq_length; auto).
    rewrite (map_nth (fun i => wval U (nth i w (WPub false)))), seq_nth by auto.
    rewrite (nth_indep (map (wval U) w) false (wval U (WPub false))) by (rewrite map_length; auto).
    now rewrite map_nth.
Qed.

Ltac upg W W' E :=
  repeat match goal with
  | H : wrel ?s _ _ |- _ => apply (wrel_mono _ _ _ _ W W' E) in H
  | H : rel ?s _ _ |- _ => apply (rel_mono _ _ _ _ W W' E) in H
  | H : rels ?s _ _ |- _ => apply (rels_mono _ _ _ _ W W' E) in H
  | H : Forall2 (wrel ?s) _ _ |- _ => apply (rel_mono _ _ _ _ W W' E) in H
  end.
Ltac up := match goal with W : wf ?s, W' : wf ?s', E : ext ?s ?s' |- _ => upg W W' E; clear W E end.
(** one step against a pure value *)
Ltac tp L :=
  match goal with W : wf ?s |- tri ?s _ _ _ =>
    eapply tri_pure; [apply L; try exact W; eauto|];
    let s' := fresh "s" in let a := fresh "a" in let W' := fresh "W" in let E := fresh "E" in
    let H := fresh "H" in intros s' a W' E H; upg W W' E; clear W E
  end.

Lemma tri_szip g f :
  (forall s a b x y, wf s -> wrel s a x -> wrel s b y -> tri s (g a b) (Ok (f x y)) wrel) ->
  forall a b x y s, wf s -> rel s a x -> rel s b y -> tri s (szip g a b) (Ok (map2 f x y)) rel.
Proof.
  intros G a. induction a as [|w a IH]; intros b x y s W Ha Hb.
  - inversion Ha; subst. cbn. apply tri_ret; [auto|]; constructor.
  - inversion Ha as [|? ? ? ? Hw Ha']; subst. inversion Hb as [|? ? ? ? Hz Hb']; subst; cbn [szip map2].
    { apply tri_ret; [auto|]; constructor. }
    tp G. tp IH. apply tri_ret; [auto|]; constructor; auto.
Qed.
Lemma tri_sxor s a b x y : wf s -> rel s a x -> rel s b y -> tri s (sxor a b) (Ok (ixor x y)) rel.
Proof. intros. apply tri_szip; auto. apply tri_gxor. Qed.
Lemma tri_sand s a b x y : wf s -> rel s a x -> rel s b y -> tri s (sand a b) (Ok (iand x y)) rel.
Proof. intros. apply tri_szip; auto. apply tri_gand. Qed.

Lemma tri_sadd_c a : forall c b vc x y s, wf s -> wrel s c vc -> rel s a x -> rel s b y ->
  tri s (sadd_c c a b) (Ok (badd_c vc x y)) rel.
Proof.
  induction a as [|w a IH]; intros c b vc x y s W Hc Ha Hb.
  - inversion Ha; subst. cbn. apply tri_ret; [auto|]; constructor.
  - inversion Ha as [|? vx ? vxs Hw Ha']; subst. inversion Hb as [|w2 vy ? vys Hz Hb']; subst; cbn [sadd_c].
    { apply tri_ret; [auto|]; constructor. }
    assert (L : forall l', (match vxs, vys with _ :: _, _ :: _ => False | _, _ => True end) ->
      tri s (do t <- gxor c w2; do d <- gxor t w; mret [d]) (Ok (badd_c vc (vx :: vxs) (vy :: vys))) rel /\ l' = tt).
    { intros [] D. split; [|reflexivity].
      tp tri_gxor. tp tri_gxor. apply tri_ret; auto. cbn [badd_c].
      assert (badd_c (xorb vc (xorb vx vc && xorb vy vc)) vxs vys = []) as ->
        by (destruct vxs, vys; auto; contradiction).
      constructor; [|constructor]. replace (xorb (xorb vx vy) vc) with (xorb (xorb vc vy) vx); auto.
      destruct vx, vy, vc; auto. }
    destruct Ha' as [|w3 v3 a' vxs' Hw3 Ha'].
    { destruct Hb'; apply (L tt); auto. }
    destruct Hb' as [|w4 v4 b' vys' Hw4 Hb'].
    { apply (L tt); auto. }
    clear L. tp tri_gxor. tp tri_gxor. tp tri_gxor. tp tri_gand. tp tri_gxor.
    remember (v3 :: vxs') as X. remember (v4 :: vys') as Y.
    eapply tri_pure.
    + apply IH; [auto|eassumption| |]; subst; constructor; eassumption.
    + intros s' r W' E Hr. up. apply tri_ret; auto.
      cbn [badd_c]. constructor; [|subst; exact Hr].
      replace (xorb (xorb vx vy) vc) with (xorb vx (xorb vy vc)); auto. destruct vx, vy, vc; auto.
Qed.
Lemma tri_sadd s a b x y : wf s -> rel s a x -> rel s b y -> tri s (sadd a b) (Ok (iadd x y)) rel.
Proof. intros. apply tri_sadd_c; auto using wrel_pub. Qed.

Lemma tri_ssub_c a : forall c b vc x y s, wf s -> wrel s c vc -> rel s a x -> rel s b y ->
  tri s (ssub_c c a b) (Ok (badd_c (negb vc) x (map negb y))) rel.
Proof.
  induction a as [|w a IH]; intros c b vc x y s W Hc Ha Hb.
  - inversion Ha; subst. cbn. apply tri_ret; [auto|]; constructor.
  - inversion Ha as [|? vx ? vxs Hw Ha']; subst. inversion Hb as [|w2 vy ? vys Hz Hb']; subst; cbn [ssub_c map].
    { apply tri_ret; [auto|]; constructor. }
    assert (L : forall l', (match vxs, vys with _ :: _, _ :: _ => False | _, _ => True end) ->
      tri s (do t <- gxor w w2; do d <- gxor t c; mret [d])
          (Ok (badd_c (negb vc) (vx :: vxs) (negb vy :: map negb vys))) rel /\ l' = tt).
    { intros [] D. split; [|reflexivity].
      tp tri_gxor. tp tri_gxor. apply tri_ret; auto. cbn [badd_c].
      match goal with |- rel _ _ (_ :: badd_c ?k _ _) => 
        assert (badd_c k vxs (map negb vys) = []) as ->
        by (destruct vxs, vys; auto; contradiction) end.
      constructor; [|constructor].
      match goal with H : wrel ?s ?w _ |- wrel ?s ?w ?v => replace v with (xorb (xorb vx vy) vc); auto end.
      destruct vx, vy, vc; auto. }
    destruct Ha' as [|w3 v3 a' vxs' Hw3 Ha'].
    { destruct Hb'; apply (L tt); auto. }
    destruct Hb' as [|w4 v4 b' vys' Hw4 Hb'].
    { apply (L tt); auto. }
    clear L. tp tri_gxor. tp tri_gxor. tp tri_gxor. tp tri_gand. tp tri_gxor.
    remember (v3 :: vxs') as X. remember (v4 :: vys') as Y.
    eapply tri_pure.
    + apply IH; [auto|eassumption| |]; subst; constructor; eassumption.
    + intros s' r W' E Hr. up. apply tri_ret; auto.
      cbn [badd_c]. constructor.
      * match goal with H : wrel ?s ?w _ |- wrel ?s ?w ?v => replace v with (xorb (xorb vx vy) vc); auto end.
        destruct vx, vy, vc; auto.
      * match goal with H : rel ?s ?w ?u |- Forall2 (wrel ?s) ?w ?v => replace v with u; auto end.
        subst; cbn [map]. f_equal. destruct vx, vy, vc; auto.
Qed.
Lemma tri_ssub s a b x y : wf s -> rel s a x -> rel s b y -> tri s (ssub a b) (Ok (isub x y)) rel.
Proof. intros. apply (tri_ssub_c a (WPub false) b false); auto using wrel_pub. Qed.
Lemma rel_last s a x : rel s a x -> wrel s (last a (WPub false)) (last x false).
Proof.
  induction 1 as [|w v a x H Ha IH]; [apply wrel_pub|]. destruct Ha; cbn [last] in *; auto.
Qed.
Lemma tri_sgeq s a b x y : wf s -> rel s a x -> rel s b y -> tri s (sgeq a b) (Ok (igeq x y)) wrel.
Proof. intros. unfold sgeq, igeq. tp tri_ssub. apply tri_gnot; auto. apply rel_last; auto. Qed.
Lemma tri_sselect a : forall b x y w v s, wf s -> length a = length b -> rel s a x -> wrel s w v -> rel s b y ->
  tri s (sselect a w b) (Ok (iselect x v y)) rel.
Proof.
  unfold sselect, iselect.
  induction a as [|u a IH]; intros [|u' b] x y w v s W L Ha Hw Hb; try discriminate L.
  - inversion Ha; inversion Hb; subst. cbn. destruct v; apply tri_ret; auto; constructor.
  - inversion Ha as [|? vx ? vxs Hu Ha']; subst. inversion Hb as [|? vy ? vys Hz Hb']; subst; cbn [szip].
    eapply (tri_pure _ _ (xorb vx (andb (xorb vx vy) v))).
    + tp tri_gxor. tp tri_gand. apply tri_gxor; eauto.
    + intros s' d W' E Hd. up.
      eapply tri_pure; [apply IH; [exact W'|cbn in L; lia|exact Ha'|exact Hw|exact Hb']|].
      intros s2 r W2 E2 Hr. up. apply tri_ret; [auto|].
      destruct v; constructor; auto; rewrite ?andb_true_r, ?andb_false_r in Hd.
      * replace vy with (xorb vx (xorb vx vy)); auto. destruct vx, vy; auto.
      * rewrite xorb_false_r in Hd; auto.
Qed.

(** * Wiring without gates *)
Lemma rel_len s a x : rel s a x -> length a = length x.
Proof. induction 1; cbn; congruence. Qed.
Lemma rel_app s a x b y : rel s a x -> rel s b y -> rel s (a ++ b) (x ++ y).
Proof. apply Forall2_app. Qed.
Lemma rel_firstn s n a x : rel s a x -> rel s (firstn n a) (firstn n x).
Proof. intro H; revert n; induction H; intros [|n]; cbn; constructor; auto. apply IHForall2. Qed.
Lemma rel_skipn s n a x : rel s a x -> rel s (skipn n a) (skipn n x).
Proof. intro H; revert n; induction H; intros [|n]; cbn; try constructor; auto. Qed.
Lemma rel_repeat s n b : rel s (repeat (WPub b) n) (repeat b n).
Proof. induction n; cbn; constructor; auto. apply wrel_pub. Qed.
Lemma rel_removelast s a x : rel s a x -> rel s (removelast a) (removelast x).
Proof. induction 1 as [|w v a x H Ha IH]; [constructor|]. destruct Ha; cbn [removelast] in *; constructor; auto. Qed.
Lemma rel_rev s a x : rel s a x -> rel s (rev a) (rev x).
Proof. induction 1; cbn; [constructor|]. apply rel_app; auto. constructor; auto. Qed.
Lemma rel_shl s n a x : rel s a x -> rel s (sshl a n) (ishl x n).
Proof. intro H. unfold sshl, ishl. rewrite (rel_len _ _ _ H). apply rel_firstn, rel_app; auto. apply rel_repeat. Qed.
Lemma rel_shr s n a x : rel s a x -> rel s (sshr a n) (ishr x n).
Proof. intro H. unfold sshr, ishr. rewrite (rel_len _ _ _ H). apply rel_app; [apply rel_skipn; auto|apply rel_repeat]. Qed.
Lemma rel_concat s l : forall m a x, rels s l m -> rel s a x -> rel s (sconcat a l) (iconcat x m).
Proof.
  unfold sconcat, iconcat. induction l as [|w l IH]; intros m a x H Ha; inversion H; subst; cbn; auto.
  apply IH; auto. apply rel_app; auto.
Qed.
Lemma rel_rconcat s l : forall m a x, rels s l m -> rel s a x -> rel s (sreverse_concat a l) (reverse_concat x m).
Proof.
  unfold sreverse_concat, reverse_concat. induction l as [|w l IH]; intros m a x H Ha; inversion H; subst; cbn; auto.
  apply IH; auto. apply rel_app; auto.
Qed.
Lemma rels1 s a x : rel s a x -> rels s [a] [x].
Proof. constructor; [auto|constructor]. Qed.
Lemma rels_len s a x : rels s a x -> length a = length x.
Proof. induction 1; cbn; congruence. Qed.
Lemma rels_nth s l m i : rels s l m -> rel s (nth i l []) (nth i m []).
Proof. intro H; revert i; induction H; intros [|i]; cbn; auto; constructor. Qed.
Lemma rels_firstn s n a x : rels s a x -> rels s (firstn n a) (firstn n x).
Proof. intro H; revert n; induction H; intros [|n]; cbn; constructor; auto. apply IHForall2. Qed.
Lemma rels_skipn s n a x : rels s a x -> rels s (skipn n a) (skipn n x).
Proof. intro H; revert n; induction H; intros [|n]; cbn; try constructor; auto. Qed.
Lemma rels_app s a x b y : rels s a x -> rels s b y -> rels s (a ++ b) (x ++ y).
Proof. apply Forall2_app. Qed.
Definition resrel {A B} (R : A -> B -> Prop) (r : res A) (r' : res B) : Prop :=
  match r, r' with Ok a, Ok b => R a b | Err, Err => True | UB, UB => True | _, _ => False end.
Lemma rel_extract s a x o n : rel s a x -> resrel (rel s) (sextract a o n) (extract_integer x o n).
Proof.
  intro H. unfold sextract, extract_integer, resrel. rewrite (rel_len _ _ _ H).
  destruct (_ <=? _)%nat; auto. apply rel_firstn, rel_skipn; auto.
Qed.
Lemma resrel_map {A B C} (R : B -> C -> Prop) (f : A -> res B) (g : A -> res C) l :
  (forall a, resrel R (f a) (g a)) -> resrel (Forall2 R) (map_res f l) (map_res g l).
Proof.
  intro H. induction l as [|a l IH]; cbn; [constructor|].
  specialize (H a). destruct (f a), (g a); cbn in *; try contradiction; auto.
  destruct (map_res f l), (map_res g l); cbn in *; try contradiction; auto.
Qed.

Local Hint Resolve rel_pub rel_spub rel_app rel_firstn rel_skipn rel_repeat rel_shl rel_shr rel_concat
  rel_rconcat rels1 rels_nth rels_firstn rels_skipn rels_app wrel_pub : sym.

Lemma tri_srrot s a x n : wf s -> rel s a x -> tri s (srrot a n) (Ok (rrot_int x n)) rel.
Proof. intros W H. unfold srrot, rrot_int. rewrite (rel_len _ _ _ H). apply tri_sxor; auto with sym. Qed.

(** like tp, with goals closed by wiring lemmas *)
Ltac ts L :=
  match goal with W : wf ?s |- tri ?s _ _ _ =>
    eapply tri_pure; [apply L; [exact W|..]; eauto 8 with sym|];
    let s' := fresh "s" in let a := fresh "a" in let W' := fresh "W" in let E := fresh "E" in
    let H := fresh "H" in intros s' a W' E H; upg W W' E; clear W E
  end.

(** loops *)
Lemma tri_sfold {S T A B} (R : cst -> S -> T -> Prop) (Q : cst -> A -> B -> Prop)
      (f : S -> A -> M S) (g : T -> B -> T) :
  (forall s s' a b, wf s -> wf s' -> ext s s' -> Q s a b -> Q s' a b) ->
  (forall s x y a b, wf s -> R s x y -> Q s a b -> tri s (f x a) (Ok (g y b)) R) ->
  forall l m s x y, wf s -> Forall2 (Q s) l m -> R s x y ->
  tri s (sfold f l x) (Ok (fold_left g m y)) R.
Proof.
  intros QM F l. induction l as [|a l IH]; intros m s x y W H HR; inversion H; subst; cbn.
  - apply tri_ret; auto.
  - eapply tri_pure; [apply F; eauto|]. intros s' x' W' E HR'. apply IH; auto.
    match goal with G : Forall2 (Q s) l _ |- _ => clear - G QM W W' E; induction G; constructor; eauto end.
Qed.
Lemma tri_siter {S T} (R : cst -> S -> T -> Prop) (f : S -> M S) (g : T -> res T) :
  (forall s x y, wf s -> R s x y -> tri s (f x) (g y) R) ->
  forall n s x y, wf s -> R s x y -> tri s (siter n f x) (iter_res n g y) R.
Proof.
  intros F n. induction n as [|n IH]; intros s x y W H; cbn.
  - apply tri_ret; auto.
  - eapply tri_bind; [apply F; auto|]. intros s' a b W' E HR. apply IH; auto.
Qed.

(** * SHA-256 *)
Lemma tri_w_next s w v : wf s -> rels s w v -> tri s (on_w_next w) (Ok (v ++ [w_next v])) rels.
Proof.
  intros W H. unfold on_w_next, w_next, M_SymOn.ws, wi. rewrite (rels_len _ _ _ H).
  pose proof (rels_nth s w v (length v - 15) H) as H15.
  pose proof (rels_nth s w v (length v - 2) H) as H2.
  pose proof (rels_nth s w v (length v - 16) H) as H16.
  pose proof (rels_nth s w v (length v - 7) H) as H7.
  do 2 tp tri_srrot. tp tri_sxor. ts tri_sxor. do 2 tp tri_srrot. tp tri_sxor. ts tri_sxor.
  do 3 tp tri_sadd. apply tri_ret; [auto|]. apply rels_app; auto. apply rels1; auto.
Qed.

Definition rel8 (s : cst) (p : sint8) (v : int8) : Prop :=
  let '(a, b, c, d, e, f, g, h) := p in
  let '(a', b', c', d', e', f', g', h') := v in
  rel s a a' /\ rel s b b' /\ rel s c c' /\ rel s d d' /\
  rel s e e' /\ rel s f f' /\ rel s g g' /\ rel s h h'.
Definition rel2 (s : cst) (p : sint * sint) (v : Integer * Integer) : Prop :=
  rel s (fst p) (fst v) /\ rel s (snd p) (snd v).
Lemma tri_round s p v k kv : wf s -> rel8 s p v -> rel2 s k kv ->
  tri s (on_round p k) (Ok (int_round v kv)) rel8.
Proof.
  destruct p as [[[[[[[a b] c] d] e] f] g] h], v as [[[[[[[va vb] vc] vd] ve] vf] vg] vh].
  intros W (Ha & Hb & Hc & Hd & He & Hf & Hg & Hh) (K1 & K2). unfold on_round, int_round.
  do 2 tp tri_srrot. tp tri_sxor. tp tri_srrot. do 2 tp tri_sxor. tp tri_sand. tp tri_sxor.
  do 4 tp tri_sadd. do 2 tp tri_srrot. tp tri_sxor. tp tri_srrot. do 3 tp tri_sxor. tp tri_sand.
  tp tri_sxor. do 3 tp tri_sadd. apply tri_ret; [auto|]. cbn [rel8]. repeat split; auto.
Qed.
Lemma rel2_mono s s' a b : wf s -> wf s' -> ext s s' -> rel2 s a b -> rel2 s' a b.
Proof. intros W W' E [H1 H2]. split; [exact (rel_mono _ _ _ _ W W' E H1)|exact (rel_mono _ _ _ _ W W' E H2)]. Qed.
Lemma tri_w_extend n : forall s w v, wf s -> rels s w v -> tri s (siter n on_w_next w) (Ok (w_extend n v)) rels.
Proof.
  induction n as [|n IH]; intros s w v W H; cbn [siter w_extend].
  - apply tri_ret; auto.
  - tp tri_w_next. apply IH; auto.
Qed.
Lemma rels_pub s l : rels s (map (spub WORDLEN) l) (map (int_of WORDLEN) l).
Proof. induction l; constructor; auto. apply rel_spub. Qed.
Lemma rels_h s : rels s on_h sha256_h. Proof. apply rels_pub. Qed.
Lemma rels_k s : rels s on_k sha256_k. Proof. apply rels_pub. Qed.
Lemma rel2_combine s l1 : forall l2 m1 m2, rels s l1 m1 -> rels s l2 m2 ->
  Forall2 (rel2 s) (combine l1 l2) (combine m1 m2).
Proof.
  induction l1 as [|a l1 IH]; intros l2 m1 m2 H1 H2; inversion H1; subst; cbn; [constructor|].
  inversion H2; subst; constructor; [split; auto|]. apply IH; auto.
Qed.
Local Opaque on_k sha256_k on_h sha256_h.
Lemma tri_compress s ih ch vh vc : wf s -> rels s ih vh -> rels s ch vc ->
  tri s (on_compress ih ch) (Ok (chunk_compress vh vc)) rels.
Proof.
  intros W Hi Hc. unfold on_compress, chunk_compress, M_SymOn.ws, wi.
  tp tri_w_extend. 
  pose proof (fun i => rels_nth _ _ _ i Hi) as Hn.
  eapply tri_pure.
  { apply (tri_sfold rel8 rel2) with
      (m := combine sha256_k (w_extend 48 vc))
      (y := (nth 0 vh [], nth 1 vh [], nth 2 vh [], nth 3 vh [],
             nth 4 vh [], nth 5 vh [], nth 6 vh [], nth 7 vh [])); [apply rel2_mono|apply tri_round|exact W0| |].
    - apply rel2_combine; [apply rels_k|exact H].
    - cbn [rel8]. repeat (split; [apply Hn|]). apply Hn. }
  - clear Hn. intros s' [[[[[[[a' b'] c'] d'] e'] f'] g'] h'] W' E HR. up.
    set (v := fold_left int_round _ _) in *. clearbody v.
    destruct v as [[[[[[[va vb] vc'] vd] ve] vf] vg] vh'].
    destruct HR as (Ha & Hb & Hc' & Hd & He & Hf & Hg & Hh).
    pose proof (rels_nth _ _ _ 0 Hi) as H0. pose proof (rels_nth _ _ _ 1 Hi) as H1.
    pose proof (rels_nth _ _ _ 2 Hi) as H2. pose proof (rels_nth _ _ _ 3 Hi) as H3.
    pose proof (rels_nth _ _ _ 4 Hi) as H4. pose proof (rels_nth _ _ _ 5 Hi) as H5.
    pose proof (rels_nth _ _ _ 6 Hi) as H6. pose proof (rels_nth _ _ _ 7 Hi) as H7.
    do 8 tp tri_sadd. apply tri_ret; [auto|]. repeat (constructor; [assumption|]). constructor.
Qed.

Lemma rel_padding s a x : rel s a x -> rel s (on_padding a) (padding x).
Proof.
  intro H. unfold on_padding, padding. rewrite (rel_len _ _ _ H). cbv zeta.
  repeat (apply rel_concat; [apply rels1; apply rel_spub|]). exact H.
Qed.
Lemma rel_words s a x : rel s a x -> resrel (rels s) (on_words a) (split_words x).
Proof.
  intro H. unfold on_words, split_words. rewrite (rel_len _ _ _ H).
  apply resrel_map. intro. apply rel_extract; auto.
Qed.
Lemma rel_block s a x i : rels s a x -> resrel (rels s) (on_block a i) (block_at x i).
Proof.
  intro H. unfold on_block, block_at, resrel. rewrite (rels_len _ _ _ H).
  destruct (_ <=? _)%nat; auto. apply rels_firstn, rels_skipn; auto.
Qed.
Lemma tri_rest s d x vd vx idx st : wf s -> rels s d vd -> rels s x vx ->
  tri s (on_rest d x idx) (rest_chunks st vd vx idx) (fun s' a b => rels s' a (snd b)).
Proof.
  intros W Hd Hx. unfold on_rest, rest_chunks.
  eapply (tri_bind _ _ _ _ _ (fun s' => Forall2 (rels s'))).
  - apply tri_lift; auto. apply resrel_map. intro. apply rel_block; auto.
  - intros s' bl vb W' E Hb. eapply tri_val.
    + apply (tri_sfold rels rels) with (m := vb) (y := vd) (g := chunk_compress);
        [apply rels_mono|intros ? ? ? ? ? ? ? ?; apply tri_compress; assumption|exact W'|exact Hb|up; exact Hd].
    + intros s2 r Hr. exact Hr.
Qed.

Definition relo (s : cst) (a : option (list sint)) (b : option (list Integer)) : Prop :=
  match a, b with Some a, Some b => rels s a b | None, None => True | _, _ => False end.
Record vsha (s : cst) (a : on_sha) (b : sha_st) : Prop := {
  vs_in : on_in_open a = gc_in_open b;
  vs_out : on_out_open a = gc_out_open b;
  vs_ivs : on_ivs a = iv_in_hashes b;
  vs_pos : on_pos a = pos b;
  vs_iv_out : relo s (on_iv_out a) (iv_out_hash b);
  vs_iv_in : relo s (on_iv_in a) (iv_in_hash b)
}.
Lemma relo_mono s s' a b : wf s -> wf s' -> ext s s' -> relo s a b -> relo s' a b.
Proof. destruct a, b; cbn; auto. apply rels_mono. Qed.
Lemma vsha_mono s s' a b : wf s -> wf s' -> ext s s' -> vsha s a b -> vsha s' a b.
Proof. intros W W' E []; constructor; auto; eapply (relo_mono s); auto. Qed.
Lemma vsha_log s a b e : vsha s a b -> vsha s a (log b e).
Proof. intros []; constructor; auto. Qed.
Definition pairR {A B C D} (R : cst -> A -> B -> Prop) (Q : cst -> C -> D -> Prop)
  (s : cst) (a : A * C) (b : B * D) : Prop := R s (fst a) (fst b) /\ Q s (snd a) (snd b).
Definition eqR {A} (s : cst) (a b : A) : Prop := a = b.

Lemma tri_update s a b x v ro : wf s -> vsha s a b -> rel s x v ->
  tri s (on_update a x ro) (update b v ro) (pairR vsha rels).
Proof.
  intros W Hs Hx. unfold on_update, update. rewrite (rel_len _ _ _ Hx).
  destruct (negb _). { apply tri_lift; auto. }
  eapply (tri_bind _ _ _ _ _ rels); [apply tri_lift; [auto|apply rel_words; auto]|].
  intros s1 data vd W1 E1 Hd. apply (vsha_mono _ s1) in Hs; auto. up.
  eapply (tri_bind _ _ _ _ _ rels); [apply tri_lift; [auto|apply rel_block; auto]|].
  intros s2 bl vb W2 E2 Hb. apply (vsha_mono _ s2) in Hs; auto. up.
  eapply (tri_bind _ _ _ _ _ (pairR vsha rels)).
  - destruct ro; [rewrite (vs_out _ _ _ Hs); destruct (gc_out_open b)|].
    + eapply (tri_bind _ _ _ _ _ rels).
      * apply tri_lift; [auto|]. pose proof (vs_iv_out _ _ _ Hs) as Hi. unfold relo in Hi.
        destruct (on_iv_out a), (iv_out_hash b); cbn; auto.
      * intros s3 iv viv W3 E3 Hiv. apply tri_ret; auto. split; auto. eapply vsha_mono; [| |exact E3|]; auto.
    + eapply tri_pure; [apply tri_compress; [auto|apply rels_h|exact Hb]|].
      intros s3 dg W3 E3 Hdg. apply (vsha_mono _ s3) in Hs; auto. apply tri_ret; auto.
      split; auto. destruct Hs; constructor; auto.
    + eapply tri_pure; [apply tri_compress; [auto|apply rels_h|exact Hb]|].
      intros s3 dg W3 E3 Hdg. apply (vsha_mono _ s3) in Hs; auto. apply tri_ret; auto.
      split; auto. apply vsha_log; auto.
  - intros s3 [a' dg] [b' vdg] W3 E3 [Hs' Hdg]. cbn [fst snd] in *. up.
    unfold tri. pose proof (tri_rest s3 dg data vdg vd (seq 1 (length v / CHUNKLEN - 1)) b' W3 Hdg Hd) as T.
    unfold tri in T. unfold mbind.
    destruct (on_rest dg data _ s3) as [[r s4]| |];
    destruct (rest_chunks b' vdg vd _) as [[b4 vr]| |] eqn:ER; cbn in *; auto.
    destruct T as (W4 & E4 & Hr). split; [auto|]. split; [auto|]. split; auto. cbn.
    apply (vsha_mono s3 s4); auto.
    unfold rest_chunks in ER. destruct (map_res (block_at vd) _); cbn in ER; try discriminate ER.
    injection ER as <- _. apply vsha_log; auto.
Qed.
Lemma tri_digest s a b x v ro : wf s -> vsha s a b -> rel s x v ->
  tri s (on_digest a x ro) (digest b v ro) (pairR vsha rels).
Proof. intros. apply tri_update; auto. apply rel_padding; auto. Qed.

Lemma tri_rounds_update s a b x v ri : wf s -> vsha s a b -> rel s x v ->
  tri s (on_rounds_update a x ri) (opt_rounds_update b v ri) (pairR vsha rels).
Proof.
  intros W Hs Hx. unfold on_rounds_update, opt_rounds_update. rewrite (rel_len _ _ _ Hx).
  destruct (negb _). { apply tri_lift; auto. }
  eapply (tri_bind _ _ _ _ _ rels); [apply tri_lift; [auto|apply rel_words; auto]|].
  intros s1 data vd W1 E1 Hd. apply (vsha_mono _ s1) in Hs; auto. up.
  eapply (tri_bind _ _ _ _ _ rels); [apply tri_lift; [auto|apply rel_block; auto]|].
  intros s2 bl vb W2 E2 Hb. apply (vsha_mono _ s2) in Hs; auto. up.
  eapply (tri_bind _ _ _ _ _ (pairR vsha rels)).
  - destruct ri; [rewrite (vs_in _ _ _ Hs); destruct (gc_in_open b)|].
    + eapply (tri_bind _ _ _ _ _ rels).
      * apply tri_lift; [auto|]. pose proof (vs_iv_in _ _ _ Hs) as Hi. unfold relo in Hi.
        destruct (on_iv_in a), (iv_in_hash b); cbn; auto.
      * intros s3 iv viv W3 E3 Hiv. apply tri_ret; auto. split; auto. eapply vsha_mono; [| |exact E3|]; auto.
    + eapply tri_pure; [apply tri_compress; [auto|apply rels_h|exact Hb]|].
      intros s3 dg W3 E3 Hdg. apply (vsha_mono _ s3) in Hs; auto. apply tri_ret; auto.
      split; auto. destruct Hs; constructor; auto.
    + eapply tri_pure; [apply tri_compress; [auto|apply rels_h|exact Hb]|].
      intros s3 dg W3 E3 Hdg. apply (vsha_mono _ s3) in Hs; auto. apply tri_ret; auto.
      split; auto. apply vsha_log; auto.
  - intros s3 [a' dg] [b' vdg] W3 E3 [Hs' Hdg]. cbn [fst snd] in *. up.
    unfold tri. pose proof (tri_rest s3 dg data vdg vd (seq 1 (length v / CHUNKLEN - 1)) b' W3 Hdg Hd) as T.
    unfold tri in T. unfold mbind.
    destruct (on_rest dg data _ s3) as [[r s4]| |];
    destruct (rest_chunks b' vdg vd _) as [[b4 vr]| |] eqn:ER; cbn in *; auto.
    destruct T as (W4 & E4 & Hr). split; [auto|]. split; [auto|]. split; auto. cbn.
    apply (vsha_mono s3 s4); auto.
    unfold rest_chunks in ER. destruct (map_res (block_at vd) _); cbn in ER; try discriminate ER.
    injection ER as <- _. apply vsha_log; auto.
Qed.
Lemma tri_rounds_digest s a b x v ri : wf s -> vsha s a b -> rel s x v ->
  tri s (on_rounds_digest a x ri) (opt_rounds_digest b v ri) (pairR vsha rels).
Proof. intros. apply tri_rounds_update; auto. apply rel_padding; auto. Qed.

Lemma tri_open8 s w v : wf s -> rels s w v ->
  tri s (on_open8 honest w) (Ok (reveal_as 32 (reverse_concat [] v))) eqR.
Proof.
  intros W H. unfold on_open8. eapply tri_pure.
  - apply tri_greveal; [auto|]. apply rel_rconcat; [exact H|constructor].
  - intros s' a W' E ->. apply tri_ret; auto. reflexivity.
Qed.
Lemma tri_opt_update s a b x v pub ri : wf s -> vsha s a b -> rel s x v ->
  tri s (on_opt_update honest a x pub ri) (opt_update b v pub ri false) (pairR vsha eqR).
Proof.
  intros W Hs Hx. unfold on_opt_update, opt_update. rewrite (rel_len _ _ _ Hx).
  destruct (negb _). { apply tri_lift; auto. }
  eapply (tri_bind _ _ _ _ _ rels); [apply tri_lift; [auto|apply rel_words; auto]|].
  intros s1 data vd W1 E1 Hd. apply (vsha_mono _ s1) in Hs; auto. up.
  eapply (tri_bind _ _ _ _ _ (pairR vsha eqR)).
  - destruct ri; [rewrite (vs_in _ _ _ Hs); destruct (gc_in_open b)|]; cbn [negb].
    + eapply (tri_bind _ _ _ _ _ eqR).
      * apply tri_lift; [auto|]. rewrite (vs_ivs _ _ _ Hs), (vs_pos _ _ _ Hs).
        destruct (read_at _ _); cbn; auto. reflexivity.
      * intros s3 iv viv W3 E3 <-. apply tri_ret; auto. split; [|reflexivity]. eapply vsha_mono; [| |exact E3|]; auto.
    + eapply tri_pure; [apply tri_compress; [auto|apply rels_h|exact Hd]|].
      intros s3 dg W3 E3 Hdg. apply (vsha_mono _ s3) in Hs; auto. up.
      eapply tri_pure; [apply tri_open8; [auto|exact Hdg]|].
      intros s4 pl W4 E4 Hpl. apply (vsha_mono _ s4) in Hs; auto. up. cbv zeta.
      apply tri_ret; auto. red in Hpl. subst pl. split; [|reflexivity].
      apply vsha_log. destruct Hs; constructor; auto; cbn; congruence.
    + eapply tri_pure; [apply tri_compress; [auto|apply rels_h|exact Hd]|].
      intros s3 dg W3 E3 Hdg. apply (vsha_mono _ s3) in Hs; auto. up.
      eapply tri_pure; [apply tri_open8; [auto|exact Hdg]|].
      intros s4 pl W4 E4 Hpl. apply (vsha_mono _ s4) in Hs; auto. up. cbv zeta.
      apply tri_ret; auto. red in Hpl. subst pl. split; [|reflexivity].
      apply vsha_log. auto.
  - intros s3 [a' pl] [b' vpl] W3 E3 [Hs' Hpl]. cbn in Hpl. red in Hpl. subst vpl.
    apply tri_ret; auto. split; auto. reflexivity.
Qed.

(** * HMAC *)
Record vhmac (s : cst) (a : on_hmac) (b : hmac_st) : Prop := {
  vh_sha : vsha s (onh_sha a) (sha b);
  vh_o : rel s (onh_o a) (o_key_pad b);
  vh_i : rel s (onh_i a) (i_key_pad b)
}.
Lemma vhmac_mono s s' a b : wf s -> wf s' -> ext s s' -> vhmac s a b -> vhmac s' a b.
Proof. intros W W' E []; constructor; [apply (vsha_mono s)|apply (rel_mono s)|apply (rel_mono s)]; auto. Qed.
Lemma vsha_refresh s a b : vsha s a b -> vsha s (on_refresh a) (refresh b).
Proof. intros []; constructor; auto. Qed.
Lemma tri_pads n h5 v5 h3 v3 : forall s p vo vi, wf s -> rel s h5 v5 -> rel s h3 v3 -> rel2 s p (vo, vi) ->
  tri s (siter n (on_pad_step h5 h3) p) (Ok (pad_loop n v5 vo, pad_loop n v3 vi)) rel2.
Proof.
  induction n as [|n IH]; intros s p vo vi W H5 H3 [Ho Hi]; cbn [siter pad_loop fst snd] in *.
  - apply tri_ret; auto. split; auto.
  - unfold on_pad_step at 1.
    assert (T : tri s (do o <- sxor (sshl (fst p) 8) h5; do i <- sxor (sshl (snd p) 8) h3; mret (o, i))
                 (Ok (ixor (ishl vo 8) v5, ixor (ishl vi 8) v3)) rel2).
    { ts tri_sxor. ts tri_sxor. apply tri_ret; auto. split; auto. }
    eapply tri_pure; [exact T|]. intros s' q W' E Hq. up. apply IH; auto.
Qed.
Local Opaque int_of spub pad_loop siter.
Lemma tri_hinit s a b x v : wf s -> vhmac s a b -> rel s x v ->
  tri s (on_hinit a x) (hinit b v) vhmac.
Proof.
  intros W Hh Hx. unfold on_hinit, hinit. rewrite (rel_len _ _ _ Hx).
  pose proof (vsha_refresh _ _ _ (vh_sha _ _ _ Hh)) as Hs.
  eapply (tri_bind _ _ _ _ _ (pairR vsha rel)).
  - destruct (_ <? _)%nat.
    + eapply tri_bind; [apply tri_digest; [auto|exact Hs|exact Hx]|].
      intros s1 [a1 t] [b1 vt] W1 E1 [H1 Ht]. cbn [fst snd] in *. cbv zeta.
      apply tri_ret; auto. split; auto. cbn [snd].
      apply rel_concat; [apply rels1, rel_spub|]. apply rel_concat; [exact Ht|constructor].
    + cbv zeta. apply tri_ret; auto. split; auto. cbn [snd].
      apply rel_concat; [apply rels1, rel_spub|]. exact Hx.
  - intros s1 [a1 k] [b1 vk] W1 E1 [H1 Hk]. cbn [fst snd] in *. cbv zeta.
    eapply tri_pure.
    { apply (tri_pads (CHUNKLEN / 8 - 1) (spub CHUNKLEN 92) (int_of CHUNKLEN 92)
              (spub CHUNKLEN 54) (int_of CHUNKLEN 54) s1
              (spub CHUNKLEN 92, spub CHUNKLEN 54) (int_of CHUNKLEN 92) (int_of CHUNKLEN 54));
        [auto|apply rel_spub|apply rel_spub|split; apply rel_spub]. }
    intros s2 [o i] W2 E2 [Ho Hi]. cbn [fst snd] in *. apply (vsha_mono _ s2) in H1; auto. clear E1. up.
    eapply tri_pure; [apply tri_sxor; [auto|exact Hk|exact Ho]|].
    intros s3 o' W3 E3 Ho'. apply (vsha_mono _ s3) in H1; auto. up.
    eapply tri_pure; [apply tri_sxor; [auto|exact Hk|exact Hi]|].
    intros s4 i' W4 E4 Hi'. apply (vsha_mono _ s4) in H1; auto. up.
    apply tri_ret; auto. constructor; auto.
Qed.
Local Transparent siter.

Lemma tri_feed_words l : forall s, wf s -> tri s (on_feed_words l) (Ok (map (int_of 32) l)) rels.
Proof.
  induction l as [|v l IH]; intros s W; cbn [on_feed_words map].
  - apply tri_ret; auto. constructor.
  - eapply tri_pure; [apply tri_gfeed; auto; discriminate|]. intros s1 w W1 E1 Hw.
    eapply tri_pure; [apply IH; auto|]. intros s2 r W2 E2 Hr. clear E1. up.
    apply tri_ret; auto. constructor; auto.
Qed.
Lemma tri_opt_hmac s a b msg ri ro : wf s -> vhmac s a b ->
  tri s (on_opt_hmac honest a msg ri ro) (opt_hmac_core (fun d => d) b msg ri ro false) (pairR vhmac rels).
Proof.
  intros W Hh. unfold on_opt_hmac, opt_hmac_core, opt_digest. destruct Hh as [Hs Ho Hi].
  eapply tri_bind; [apply tri_opt_update; [auto|exact Hs|exact Hi]|].
  intros s1 [a1 d] [b1 vd] W1 E1 [H1 Hd]. cbn [fst snd] in *. red in Hd. subst vd. clear Hs. up. cbv zeta.
  eapply tri_pure; [apply tri_feed_words; auto|].
  intros s2 om W2 E2 Hom. apply (vsha_mono _ s2) in H1; auto. up.
  eapply tri_bind; [apply tri_digest; [auto|apply vsha_log; exact H1|]|].
  { apply rel_concat; [exact Hom|exact Ho]. }
  intros s3 [a3 r] [b3 vr] W3 E3 [H3 Hr]. cbn [fst snd] in *. clear H1. up.
  apply tri_ret; auto. split; auto. constructor; auto.
Qed.
Lemma tri_rounds_hmac s a b msg v ri ro : wf s -> vhmac s a b -> rel s msg v ->
  tri s (on_rounds_hmac a msg ri ro) (opt_rounds_hmac b v ri ro) (pairR vhmac rels).
Proof.
  intros W [Hs Ho Hi] Hm. unfold on_rounds_hmac, opt_rounds_hmac.
  eapply tri_bind; [apply tri_rounds_digest; [auto|exact Hs|]|].
  { apply rel_concat; [apply rels1; exact Hm|exact Hi]. }
  intros s1 [a1 d] [b1 vd] W1 E1 [H1 Hd]. cbn [fst snd] in *. clear Hs. up. cbv zeta.
  eapply tri_bind; [apply tri_digest; [auto|exact H1|]|].
  { apply rel_concat; [exact Hd|exact Ho]. }
  intros s3 [a3 r] [b3 vr] W3 E3 [H3 Hr]. cbn [fst snd] in *. clear H1. up.
  apply tri_ret; auto. split; auto. constructor; auto.
Qed.

(** * PRF *)
Definition vph (s : cst) (x : on_hmac * list N * sint) (y : prf_st * hmac_st * list N * Integer) : Prop :=
  let '(h, A, r) := x in let '(_, h', A', r') := y in vhmac s h h' /\ A = A' /\ rel s r r'.
Lemma tri_phash_step seed ri ro s x y : wf s -> vph s x y ->
  tri s (on_phash_step honest seed ri ro x) (opt_phash_step (fun d => d) seed ri ro false y) vph.
Proof.
  destruct x as [[h A] r], y as [[[p h'] A'] r']. intros W (Hh & <- & Hr).
  unfold on_phash_step, opt_phash_step.
  eapply tri_bind; [apply tri_opt_hmac; [auto|exact Hh]|].
  intros s1 [h1 t] [h1' vt] W1 E1 [H1 Ht]. cbn [fst snd] in *. clear Hh. up. cbn [negb].
  eapply (tri_pure _ _ (reveal_as 32 (reverse_concat [] vt))); [apply tri_open8; [auto|exact Ht]|].
  intros s2 d W2 E2 Hd. red in Hd. subst d. apply (vhmac_mono _ s2) in H1; auto. up. cbv zeta. cbn [bind snd fst].
  eapply tri_bind.
  { apply tri_opt_hmac; [auto|]. destruct H1 as [Q1 Q2 Q3]; constructor; [apply vsha_log; exact Q1|exact Q2|exact Q3]. }
  intros s3 [h3 t3] [h3' vt3] W3 E3 [H3 Ht3]. cbn [fst snd] in *. clear H1. up.
  apply tri_ret; auto. split; [exact H3|]. split; [reflexivity|]. apply rel_concat; auto.
Qed.
Lemma rel_trim s n a x : rel s a x -> rel s (on_trim n a) (prf_trim n x).
Proof. apply rel_skipn. Qed.
Lemma tri_opt_compute s a b r v n label seed ri ro p : wf s -> vhmac s a b -> rel s r v ->
  tri s (on_opt_compute honest a r n label seed ri ro) (prf_opt_compute p b v n label seed ri ro false)
      (fun s' x y => vhmac s' (fst x) (snd (fst y)) /\ rel s' (snd x) (snd y)).
Proof.
  intros W Hh Hr. unfold on_opt_compute, prf_opt_compute, opt_phash_core.
  eapply tri_bind.
  { apply (tri_siter vph) with (y := (p, b, label ++ seed, v)); [intros; apply tri_phash_step; auto|auto|].
    split; [exact Hh|]. split; [reflexivity|exact Hr]. }
  intros s1 [[h A] r'] [[[p' h'] A'] v'] W1 E1 (H1 & _ & H2).
  apply tri_ret; auto. split; [exact H1|]. apply rel_trim; auto.
Qed.
Definition vrh (s : cst) (x : on_hmac * sint * sint) (y : hmac_st * Integer * Integer) : Prop :=
  let '(h, A, r) := x in let '(h', A', r') := y in vhmac s h h' /\ rel s A A' /\ rel s r r'.
Lemma tri_rounds_step A0 V0 ri ro s x y : wf s -> rel s A0 V0 -> vrh s x y ->
  tri s (on_rounds_step A0 ri ro x) (rounds_phash_step V0 ri ro y) vrh.
Proof.
  destruct x as [[h A] r], y as [[h' A'] r']. intros W H0 (Hh & HA & Hr).
  unfold on_rounds_step, rounds_phash_step.
  eapply tri_bind; [apply tri_rounds_hmac; [auto|exact Hh|exact HA]|].
  intros s1 [h1 t] [h1' vt] W1 E1 [H1 Ht]. cbn [fst snd] in *. clear Hh. up. cbv zeta.
  assert (HA1 : rel s1 (sconcat [] t) (iconcat [] vt)) by (apply rel_concat; [exact Ht|constructor]).
  eapply tri_bind; [apply tri_rounds_hmac; [auto|exact H1|]|].
  { apply rel_concat; [apply rels1; exact H0|]. apply rel_concat; [apply rels1; exact HA1|constructor]. }
  intros s3 [h3 t3] [h3' vt3] W3 E3 [H3 Ht3]. cbn [fst snd] in *. clear H1. up.
  apply tri_ret; auto. split; [exact H3|]. split; [exact HA1|]. apply rel_concat; auto.
Qed.
Lemma tri_siter2 {S T} (P : cst -> Prop) (R : cst -> S -> T -> Prop) (f : S -> M S) (g : T -> res T) :
  (forall s s', wf s -> wf s' -> ext s s' -> P s -> P s') ->
  (forall s x y, wf s -> P s -> R s x y -> tri s (f x) (g y) R) ->
  forall n s x y, wf s -> P s -> R s x y -> tri s (siter n f x) (iter_res n g y) R.
Proof.
  intros PM F n. induction n as [|n IH]; intros s x y W HP H; cbn.
  - apply tri_ret; auto.
  - eapply tri_bind; [apply F; auto|]. intros s' a b W' E HR. apply IH; auto. apply (PM s s'); auto.
Qed.
Lemma tri_rounds_compute s a b r v n label seed ri ro : wf s -> vhmac s a b -> rel s r v ->
  tri s (on_rounds_compute a r n label seed ri ro) (prf_opt_rounds_compute b v n label seed ri ro)
      (pairR vhmac rel).
Proof.
  intros W Hh Hr. unfold on_rounds_compute, prf_opt_rounds_compute, rounds_phash_core. cbv zeta.
  eapply tri_pure; [apply tri_gfeed; auto; discriminate|]. intros s1 A0 W1 E1 H0.
  apply (vhmac_mono _ s1) in Hh; auto. up.
  set (V0 := int_of_array _ _ _) in *.
  eapply tri_bind.
  { apply (tri_siter2 (fun s => rel s A0 V0) vrh) with
      (y := (with_sha b (log (sha b) [EvFeed ALICE (8 * length (label ++ seed))]), V0, v)).
    - intros ? ? X1 X2 X3 X4. exact (rel_mono _ _ _ _ X1 X2 X3 X4).
    - intros. apply tri_rounds_step; auto.
    - auto.
    - exact H0.
    - split; [|split; [exact H0|exact Hr]]. destruct Hh; constructor; auto. apply vsha_log; auto. }
  intros s2 [[h A] r'] [[h' A'] v'] W2 E2 (H1 & _ & H2).
  apply tri_ret; auto. split; [exact H1|]. apply rel_trim; auto.
Qed.

(** * addmod *)
Lemma resrel_pop s a x : rel s a x -> resrel (rel s) (spop a) (pop_back x).
Proof. intro H. destruct H; cbn [spop pop_back resrel]; auto. apply rel_removelast. constructor; auto. Qed.
Lemma len_iadd x : forall y c, length x = length y -> length (badd_c c x y) = length x.
Proof. induction x; intros [|b y] c L; try discriminate L; cbn; auto. Qed.
Lemma tri_saddmod s a b Q x y q : wf s -> rel s a x -> rel s b y -> rel s Q q ->
  tri s (saddmod a b Q) (bind (addmod x y q) (fun '(r, _) => Ok r)) rel.
Proof.
  intros W Ha Hb HQ. unfold saddmod, addmod. cbv zeta.
  assert (Ha1 : rel s (a ++ [WPub false]) (x ++ [false])) by (apply rel_app; auto; repeat constructor).
  assert (Hb1 : rel s (b ++ [WPub false]) (y ++ [false])) by (apply rel_app; auto; repeat constructor).
  assert (HQ1 : rel s (Q ++ [WPub false] ++ [WPub false]) (q ++ [false] ++ [false]))
    by (apply rel_app; auto; repeat constructor).
  rewrite (rel_len _ _ _ Ha1), (rel_len _ _ _ Hb1).
  set (X := x ++ [false]) in *. set (Y := y ++ [false]) in *. set (q2 := q ++ [false] ++ [false]) in *.
  destruct (negb (length X =? length Y)%nat) eqn:EL. { apply tri_lift; auto. cbn. auto. }
  eapply tri_pure; [apply tri_sadd; [auto|exact Ha1|exact Hb1]|].
  intros s1 c W1 E1 Hc. up.
  assert (Hc1 : rel s1 (c ++ [WPub false]) (iadd X Y ++ [false])) by (apply rel_app; auto; repeat constructor).
  rewrite (rel_len _ _ _ Hc1), (rel_len _ _ _ HQ1).
  set (C := iadd X Y ++ [false]) in *.
  destruct (negb (length C =? length q2)%nat) eqn:EL2. { apply tri_lift; auto. cbn. auto. }
  eapply tri_pure; [apply tri_sgeq; [auto|exact Hc1|exact HQ1]|]. intros s2 sel W2 E2 Hsel. up.
  eapply tri_pure; [apply tri_ssub; [auto|exact Hc1|exact HQ1]|]. intros s3 d W3 E3 Hd. up.
  eapply tri_pure.
  { apply tri_sselect; [auto| |exact Hc1|exact Hsel|exact Hd].
    rewrite (rel_len _ _ _ Hc1), (rel_len _ _ _ Hd). unfold isub, bsub.
    apply negb_false_iff, Nat.eqb_eq in EL2. rewrite len_iadd; [auto|rewrite map_length; exact EL2]. }
  intros s4 r W4 E4 Hr. up.
  set (Rv := iselect C (igeq C q2) (isub C q2)) in *.
  pose proof (resrel_pop _ _ _ Hr) as P1. unfold resrel in P1.
  destruct (spop r) as [r1| |], (pop_back Rv) as [v1| |]; try contradiction; cbn [bind].
  - change (tri s4 (lift (spop r1)) (bind (bind (pop_back v1) (fun r => Ok (r, q2))) (fun '(r, _) => Ok r)) rel).
    pose proof (resrel_pop _ _ _ P1) as P2.
    destruct (pop_back v1); cbn [bind]; apply tri_lift; auto.
  - cbn. auto.
  - cbn. auto.
Qed.
Lemma tri_saddmod_bn s a b x y q : wf s -> rel s a x -> rel s b y ->
  tri s (saddmod_bn a b q) (addmod_bn x y q) rel.
Proof. intros. apply tri_saddmod; auto. apply rel_pub. Qed.

(** * Handshake *)
Record vhs (s : cst) (a : on_hs) (b : hs) : Prop := {
  vq : on_q a = hs_q b; vr : on_rounds a = hs_rounds b;
  vhm : vhmac s (on_hm a) (hs_hmac b);
  vms : rel s (on_ms a) (hs_ms b);
  vck : rel s (on_cwk a) (hs_cwk b); vsk : rel s (on_swk a) (hs_swk b);
  vci : rel s (on_civ a) (hs_civ b); vsi : rel s (on_siv a) (hs_siv b)
}.
Lemma vhs_mono s s' a b : wf s -> wf s' -> ext s s' -> vhs s a b -> vhs s' a b.
Proof.
  intros W W' E []; constructor; auto; try (apply (rel_mono s); auto). apply (vhmac_mono s); auto.
Qed.
Lemma vhs_hm s a b h h' p : vhs s a b -> vhmac s h h' -> vhs s (on_set_hm a h) (set_prf b p h').
Proof. intros [] H; constructor; auto. Qed.
Lemma tri_prf s a b r v n l sd : wf s -> vhs s a b -> rel s r v ->
  tri s (on_prf honest a r n l sd) (hs_prf_call b v n l sd false) (pairR vhs rel).
Proof.
  intros W Hh Hr. unfold on_prf, hs_prf_call. rewrite (vr _ _ _ Hh).
  destruct (hs_rounds b); cbn [negb].
  - eapply tri_bind; [apply tri_rounds_compute; [auto|apply (vhm _ _ _ Hh)|exact Hr]|].
    intros s1 [h r1] [h' v1] W1 E1 [H1 H2]. apply tri_ret; auto. split; [|exact H2].
    apply vhs_hm; [apply (vhs_mono s); auto|exact H1].
  - eapply tri_bind; [apply tri_opt_compute; [auto|apply (vhm _ _ _ Hh)|exact Hr]|].
    intros s1 [h r1] [[p h'] v1] W1 E1 [H1 H2]. apply tri_ret; auto. split; [|exact H2].
    apply vhs_hm; [apply (vhs_mono s); auto|exact H1].
Qed.
Lemma vhmac_log s a b e : vhmac s a b -> vhmac s a (hlog b e).
Proof. intros []; constructor; auto. apply vsha_log; auto. Qed.
Lemma tri_pms s a b pa pb : wf s -> vhs s a b ->
  tri s (on_pms a pa pb) (pms_addmod b pa pb)
      (fun s' x y => vhs s' a (fst y) /\ rel s' x (snd y)).
Proof.
  intros W Hh. unfold on_pms, pms_addmod. rewrite (vq _ _ _ Hh).
  eapply (tri_bind _ _ _ _ _ eqR).
  { apply tri_lift; auto. destruct (pms_int (hs_q b) pa); auto. reflexivity. }
  intros s1 xa va W1 E1 <-. apply (vhs_mono _ s1) in Hh; auto. clear W E1.
  eapply (tri_bind _ _ _ _ _ eqR).
  { apply tri_lift; auto. destruct (pms_int (hs_q b) pb); auto. reflexivity. }
  intros s2 xb vb W2 E2 <-. apply (vhs_mono _ s2) in Hh; auto. clear W1 E2.
  eapply tri_pure; [apply tri_gfeed; auto; discriminate|]. intros s3 a1 W3 E3 Ha. apply (vhs_mono _ s3) in Hh; auto. up.
  eapply tri_pure; [apply tri_gfeed; auto; discriminate|]. intros s4 b1 W4 E4 Hb. apply (vhs_mono _ s4) in Hh; auto. up.
  cbv zeta. cbn [hs_q set_zk_pms set_prf].
  pose proof (tri_saddmod_bn s4 _ _ _ _ (hs_q b) W4 Ha Hb) as T. unfold tri in *.
  destruct (saddmod_bn a1 b1 (hs_q b) s4) as [[r s5]| |], (addmod_bn xa xb (hs_q b)); cbn [bind fst snd] in *; auto.
  destruct T as (W5 & E5 & Hr). split; [auto|]. split; [auto|]. split; [|exact Hr].
  apply (vhs_mono _ s5) in Hh; auto. destruct Hh; constructor; auto. apply vhmac_log; auto.
Qed.
Lemma tri_master_gen s a b pa pb n l sd : wf s -> vhs s a b ->
  tri s (do pms <- on_pms a pa pb;
         do h <- on_hinit (on_hm a) pms;
         do (s, ms) <- on_prf honest (on_set_hm a h) (on_ms a) n l sd;
         mret (on_set_ms s ms))
        (let* (s, pmsbits) := pms_addmod b pa pb in
         let* h := prf_init (hs_hmac s) pmsbits in
         let* (s, ms) := hs_prf_call (set_prf s (hs_prf s) h) (hs_ms (set_prf s (hs_prf s) h)) n l sd false in
         Ok (set_ms s ms))%res vhs.
Proof.
  intros W Hh. eapply tri_bind; [apply tri_pms; [auto|exact Hh]|].
  intros s1 pms [b1 v1] W1 E1 [H1 Hp]. cbn [fst snd] in *. clear Hh W E1.
  eapply tri_bind; [apply tri_hinit; [auto|apply (vhm _ _ _ H1)|exact Hp]|].
  intros s2 h h' W2 E2 Hh. apply (vhs_mono _ s2) in H1; auto. up.
  eapply tri_bind; [apply tri_prf; [auto|apply vhs_hm; [exact H1|exact Hh]|exact (vms _ _ _ H1)]|].
  intros s3 [a3 ms] [b3 vm] W3 E3 [H3 Hm]. cbn [fst snd] in *.
  apply tri_ret; auto. destruct H3; constructor; auto.
Qed.
Lemma tri_master s a b pa pb rc rs : wf s -> vhs s a b ->
  tri s (on_master honest a pa pb rc rs) (compute_master_key b pa pb rc rs) vhs.
Proof. intros. apply tri_master_gen; auto. Qed.
Lemma tri_ext_master s a b pa pb sh : wf s -> vhs s a b ->
  tri s (on_ext_master honest a pa pb sh) (compute_extended_master_key b pa pb sh) vhs.
Proof. intros. apply tri_master_gen; auto. Qed.
Lemma tri_expand s a b rc rs : wf s -> vhs s a b ->
  tri s (on_expand honest a rc rs) (compute_expansion_keys b rc rs) vhs.
Proof.
  intros W Hh. unfold on_expand, compute_expansion_keys, split_keys. cbv zeta.
  eapply tri_bind; [apply tri_hinit; [auto|apply (vhm _ _ _ Hh)|exact (vms _ _ _ Hh)]|].
  intros s2 h h' W2 E2 H2. apply (vhs_mono _ s2) in Hh; auto. up.
  eapply tri_bind; [apply tri_prf; [auto|apply vhs_hm; [exact Hh|exact H2]|constructor]|].
  intros s3 [a3 k] [b3 vk] W3 E3 [H3 Hk]. cbn [fst snd] in *. clear Hh E3.
  pose proof (rel_extract _ _ _ 0 (key_length * 8) Hk) as X1.
  pose proof (rel_extract _ _ _ (key_length * 8) (key_length * 8) Hk) as X2.
  pose proof (rel_extract _ _ _ (key_length * 8 * 2) (iv_length * 8) Hk) as X3.
  pose proof (rel_extract _ _ _ (key_length * 8 * 2 + iv_length * 8) (iv_length * 8) Hk) as X4.
  unfold resrel in *. unfold tri, mbind, lift.
  destruct (sextract k 0 _), (extract_integer vk 0 _); try contradiction; cbn [bind fst snd]; auto.
  destruct (sextract k _ _), (extract_integer vk _ _); try contradiction; cbn [bind fst snd]; auto.
  destruct (sextract k _ (iv_length * 8)), (extract_integer vk _ (iv_length * 8)); try contradiction; cbn [bind fst snd]; auto.
  destruct (sextract k _ (iv_length * 8)), (extract_integer vk _ (iv_length * 8)); try contradiction; cbn [bind fst snd]; auto.
  split; [auto|]. split; [apply ext_refl|]. destruct H3; constructor; auto.
Qed.
Lemma tri_finished s a b l t : wf s -> vhs s a b ->
  tri s (on_finished honest a l t) (finished_bytes b l t) (pairR vhs eqR).
Proof.
  intros W Hh. unfold on_finished, finished_bytes.
  eapply tri_bind; [apply tri_prf; [auto|exact Hh|constructor]|].
  intros s3 [a3 k] [b3 vk] W3 E3 [H3 Hk]. cbn [fst snd] in *. clear Hh E3. cbv zeta.
  eapply tri_pure; [apply tri_greveal; [auto|exact Hk]|]. intros s4 v W4 E4 ->.
  apply tri_ret; auto. split; [|reflexivity]. cbn [fst].
  apply (vhs_mono _ s4) in H3; auto. destruct H3; constructor; auto. apply vhmac_log; auto.
Qed.

(** * Bristol circuits *)
Definition tmap (s : cst) (w : ptree wire) (v : ptree bool) : Prop :=
  forall i, match nget i w, nget i v with
            | Some a, Some b => wrel s a b | None, None => True | _, _ => False end.
Lemma tmap_mono s s' w v : wf s -> wf s' -> ext s s' -> tmap s w v -> tmap s' w v.
Proof.
  intros W W' E H i. specialize (H i). destruct (nget i w), (nget i v); auto. apply (wrel_mono s); auto.
Qed.
Lemma tmap_set s w v i a b : tmap s w v -> wrel s a b -> tmap s (nset i a w) (nset i b v).
Proof. intros H Hw j. rewrite !ngsspec. destruct (j =? i); auto. apply H. Qed.
Lemma tri_get s w v i : wf s -> tmap s w v ->
  tri s (lift (read (nget i w))) (wire_read v i) wrel.
Proof.
  intros W H. apply tri_lift; auto. specialize (H i). unfold wire_read.
  destruct (nget i w), (nget i v); cbn; auto.
Qed.
Lemma tri_gate_step s w v g : wf s -> tmap s w v -> tri s (sgate_step w g) (gate_step v g) tmap.
Proof.
  intros W H. destruct g as [a b z|a b z|a z]; cbn [sgate_step gate_step].
  - eapply tri_bind; [apply tri_get; [auto|exact H]|]. intros s1 x vx W1 E1 Hx. apply (tmap_mono _ s1) in H; auto. up.
    eapply tri_bind; [apply tri_get; [auto|exact H]|]. intros s2 y vy W2 E2 Hy. apply (tmap_mono _ s2) in H; auto. up.
    eapply tri_pure; [apply tri_gand; [auto|exact Hx|exact Hy]|]. intros s3 o W3 E3 Ho. apply (tmap_mono _ s3) in H; auto.
    apply tri_ret; auto. apply tmap_set; auto.
  - eapply tri_bind; [apply tri_get; [auto|exact H]|]. intros s1 x vx W1 E1 Hx. apply (tmap_mono _ s1) in H; auto. up.
    eapply tri_bind; [apply tri_get; [auto|exact H]|]. intros s2 y vy W2 E2 Hy. apply (tmap_mono _ s2) in H; auto. up.
    eapply tri_pure; [apply tri_gxor; [auto|exact Hx|exact Hy]|]. intros s3 o W3 E3 Ho. apply (tmap_mono _ s3) in H; auto.
    apply tri_ret; auto. apply tmap_set; auto.
  - eapply tri_bind; [apply tri_get; [auto|exact H]|]. intros s1 x vx W1 E1 Hx. apply (tmap_mono _ s1) in H; auto. up.
    eapply tri_pure; [apply tri_gnot; [auto|exact Hx]|]. intros s3 o W3 E3 Ho. apply (tmap_mono _ s3) in H; auto.
    apply tri_ret; auto. apply tmap_set; auto.
Qed.
Lemma tri_run_gates gs : forall s w v, wf s -> tmap s w v -> tri s (srun_gates gs w) (run_gates gs v) tmap.
Proof.
  induction gs as [|g gs IH]; intros s w v W H.
  - cbn. apply tri_ret; auto.
  - cbn [srun_gates]. rewrite run_gates_cons. eapply tri_bind; [apply tri_gate_step; [auto|exact H]|].
    intros s1 w1 v1 W1 E1 H1. apply IH; auto.
Qed.
Lemma tmap_load s l : forall m i w v, rel s l m -> tmap s w v -> tmap s (sload i l w) (load_wires i m v).
Proof.
  induction l as [|a l IH]; intros m i w v H Hm; inversion H; subst; cbn [sload load_wires]; auto.
  apply IH; auto. apply tmap_set; auto.
Qed.
Lemma rel_read s w v l : tmap s w v -> resrel (rel s) (sread_wires w l) (read_wires v l).
Proof.
  intro H. induction l as [|i l IH]; cbn [sread_wires read_wires]; [constructor|].
  specialize (H i). unfold wire_read. destruct (nget i w), (nget i v); try contradiction; cbn [read bind]; [|exact I].
  unfold resrel in *. destruct (sread_wires w l), (read_wires v l); cbn [bind]; auto. constructor; auto.
Qed.
Lemma tri_bristol s c a b x y : wf s -> rel s a x -> rel s b y ->
  tri s (sbristol c a b) (bristol_compute c x y) rel.
Proof.
  intros W Ha Hb. unfold sbristol, bristol_compute. rewrite (rel_len _ _ _ Ha), (rel_len _ _ _ Hb).
  destruct (negb _). { apply tri_lift; auto. }
  eapply tri_bind; [apply tri_run_gates; [auto|]|].
  { apply tmap_load; [exact Hb|]. apply tmap_load; [exact Ha|]. intro i. rewrite !nget_leaf. exact I. }
  intros s1 w v W1 E1 H1. apply tri_lift; auto. apply rel_read; auto.
Qed.
Section Aes.
Variable aes_ks aes_enc : bristol.
Lemma tri_KS s a x : wf s -> rel s a x -> tri s (scomputeKS aes_ks a) (computeKS aes_ks x) rel.
Proof. intros. apply tri_bristol; auto. constructor. Qed.
Lemma tri_AES s a x b y : wf s -> rel s a x -> rel s b y ->
  tri s (scomputeAES aes_enc a b) (computeAES_KS aes_enc x y) rel.
Proof.
  intros W Ha Hb. unfold scomputeAES, computeAES_KS.
  eapply tri_bind; [apply tri_bristol; [auto|exact Ha|exact Hb]|].
  intros s1 o v W1 E1 H1. apply tri_ret; auto. apply rel_rev; auto.
Qed.

(** * AEAD *)
Record vaead (s : cst) (a : on_aead) (g : gcst) : Prop := {
  va_k : rel s (ona_key a) (g_key g);
  va_n : rel s (ona_nonce a) (g_nonce g);
  va_f : rel s (ona_fixed a) (g_fixed g)
}.
Lemma vaead_mono s s' a b : wf s -> wf s' -> ext s s' -> vaead s a b -> vaead s' a b.
Proof. intros W W' E []; constructor; apply (rel_mono s); auto. Qed.
Lemma tri_aead_new s k iv x y : wf s -> rel s k x -> rel s iv y ->
  tri s (on_aead_new aes_ks aes_enc k iv) (v_aead_new aes_ks aes_enc x y) (pairR vaead rel).
Proof.
  intros W Hk Hi. unfold on_aead_new, v_aead_new, computeH.
  eapply tri_bind; [apply tri_KS; [auto|exact Hk]|]. intros s1 ek vk W1 E1 H1. up.
  eapply tri_bind; [apply tri_AES; [auto|exact H1|apply rel_spub]|]. intros s2 h vh W2 E2 H2. up.
  apply tri_ret; auto. split; [|exact H2]. constructor; auto. constructor.
Qed.
Lemma tri_inc s a x n : wf s -> rel s a x -> tri s (on_inc a n) (inc x n) rel.
Proof.
  intros W H. unfold on_inc, inc. rewrite (rel_len _ _ _ H).
  destruct (_ <? _)%nat. { apply tri_lift; auto. }
  cbv zeta. eapply tri_pure; [apply tri_sadd; [auto|apply rel_firstn; exact H|apply rel_spub]|].
  intros s1 l W1 E1 Hl. up. apply tri_ret; auto. apply rel_concat; [apply rels1; exact Hl|apply rel_skipn; exact H].
Qed.
Lemma tri_gctr m : forall s k r n vk vr0 vn, wf s -> rel s k vk -> rel s r vr0 -> rel s n vn ->
  tri s (on_gctr aes_enc m k r n) (gctr aes_enc m vk vr0 vn) (pairR rel rel).
Proof.
  induction m as [|m IH]; intros s k r n vk vr0 vn W Hk Hr Hn; cbn [on_gctr gctr].
  - apply tri_ret; auto. split; auto.
  - eapply tri_bind; [apply tri_AES; [auto|exact Hk|exact Hn]|]. intros s1 t vt W1 E1 H1. up.
    eapply tri_bind; [apply tri_inc; [auto|exact Hn]|]. intros s2 n' vn' W2 E2 H2. up.
    apply IH; auto. apply rel_concat; [apply rels1; exact H1|exact Hr].
Qed.
Lemma tri_set_nonce s eoo f v iv : wf s -> rel s f v ->
  tri s (on_set_nonce eoo f iv) (set_nonce v iv) rel.
Proof.
  intros W H. unfold on_set_nonce, set_nonce. destruct (_ =? _)%nat; [|apply tri_lift; auto].
  cbv zeta. eapply (tri_pure _ _ (int_of_array 64 8 (rev iv)) _ _ rel).
  { destruct eoo; [apply tri_gfeed; auto; discriminate|apply tri_ret; auto; apply rel_pub]. }
  intros s1 w W1 E1 Hw. up. apply tri_ret; auto.
  apply rel_concat; [apply rels1, rel_spub|]. apply rel_concat; [apply rels1; exact Hw|exact H].
Qed.
Definition vcr (sec : bool) (s : cst) (x : on_aead * (sint * sint * list N)) (y : Integer * Integer * Integer)
           (g : gcst) : Prop :=
  vaead s (fst x) {| g_key := g_key g; g_nonce := snd y; g_fixed := g_fixed g |} /\
  rel s (fst (fst (snd x))) (fst (fst y)) /\ rel s (snd (fst (snd x))) (snd (fst y)) /\
  snd (snd x) = if negb sec then reveal_as 8 (snd (fst y)) else [].
Lemma tri_crypt s a g iv len sec : wf s -> vaead s a g ->
  tri s (on_crypt honest aes_enc a iv len sec) (key_material aes_enc g iv len)
      (fun s' x y => vcr sec s' x y g).
Proof.
  intros W H. unfold on_crypt, key_material, pad_bits. cbv zeta.
  eapply tri_bind; [apply tri_set_nonce; [auto|exact (va_f _ _ _ H)]|].
  intros s1 n0 v0 W1 E1 H1. apply (vaead_mono _ s1) in H; auto. up.
  eapply tri_bind; [apply tri_gctr; [auto|exact (va_k _ _ _ H)|constructor|exact H1]|].
  intros s2 [Z n1] [vZ vn] W2 E2 [HZ Hn]. cbn [fst snd] in *. apply (vaead_mono _ s2) in H; auto. up.
  rewrite (rel_len _ _ _ HZ).
  set (Zz := skipn (length vZ - 128) Z). set (Zr := skipn _ (firstn (length vZ - 128) Z)).
  set (vZz := skipn (length vZ - 128) vZ). set (vZr := skipn _ (firstn (length vZ - 128) vZ)).
  assert (R1 : rel s2 Zz vZz) by (apply rel_skipn; exact HZ).
  assert (R2 : rel s2 Zr vZr) by (apply rel_skipn, rel_firstn; exact HZ).
  clearbody Zz Zr vZz vZr.
  eapply (tri_pure _ _ (if negb sec then reveal_as 8 vZr else []) _ _ eqR).
  { destruct sec; cbn [negb]; [apply tri_ret; auto; reflexivity|].
    eapply tri_pure; [apply tri_greveal; [auto|exact R2]|]. intros s3 v W3 E3 ->. apply tri_ret; auto. reflexivity. }
  intros s3 z W3 E3 Hz. apply (vaead_mono _ s3) in H; auto. up.
  apply tri_ret; auto. split; [|split; [|split]]; cbn [fst snd]; auto.
  destruct H; constructor; auto.
Qed.

(** * Sessions *)
Record vsess (s : cst) (a : on_sess) (b : v_sess) : Prop := {
  vse_hs : vhs s (os_hs a) (v_hs b);
  vse_aeads : Forall2 (vaead s) (os_aeads a) (v_aeads b);
  vse_out : os_out a = v_out b;
  vse_sh : rels s (os_sh a) (v_sh b)
}.
Lemma vaeads_mono s s' a b : wf s -> wf s' -> ext s s' -> Forall2 (vaead s) a b -> Forall2 (vaead s') a b.
Proof. intros W W' E H; induction H; constructor; auto. apply (vaead_mono s); auto. Qed.
Lemma F2_nth {A B} (R : A -> B -> Prop) l l' k : Forall2 R l l' ->
  match nth_error l k, nth_error l' k with
  | Some a, Some b => R a b | None, None => True | _, _ => False end.
Proof. intro H; revert k; induction H; intros [|k]; cbn; auto. apply IHForall2. Qed.
Lemma F2_firstn {A B} (R : A -> B -> Prop) l l' k : Forall2 R l l' -> Forall2 R (firstn k l) (firstn k l').
Proof. intro H; revert k; induction H; intros [|k]; cbn; auto. Qed.
Lemma F2_skipn {A B} (R : A -> B -> Prop) l l' k : Forall2 R l l' -> Forall2 R (skipn k l) (skipn k l').
Proof. intro H; revert k; induction H; intros [|k]; cbn; auto. Qed.
Lemma tri_crypt_call s a b k iv len sec : wf s -> vsess s a b ->
  tri s (on_crypt_call honest aes_enc a k iv len sec) (v_crypt_call aes_enc b k iv len sec) vsess.
Proof.
  intros W [H1 H2 H3 H4]. unfold on_crypt_call, v_crypt_call.
  eapply (tri_bind _ _ _ _ _ vaead).
  { apply tri_lift; auto. pose proof (F2_nth _ _ _ k H2) as X.
    destruct (nth_error (os_aeads a) k), (nth_error (v_aeads b) k); cbn; auto. }
  intros s1 x g W1 E1 Hx. apply (vhs_mono _ s1) in H1; auto. apply (vaeads_mono _ s1) in H2; auto. apply (rels_mono _ s1) in H4; auto. clear W E1.
  eapply tri_bind; [apply tri_crypt; [auto|exact Hx]|].
  intros s2 [a' z] [[Zz Zr] n1] W2 E2 (R1 & R2 & R3 & R4). cbn [fst snd] in *.
  apply (vhs_mono _ s2) in H1; auto. apply (vaeads_mono _ s2) in H2; auto. apply (rels_mono _ s2) in H4; auto.
  cbv zeta. apply tri_ret; auto. constructor; cbn [os_hs os_aeads os_out os_sh v_hs v_aeads v_out v_sh]; auto.
  - apply Forall2_app; [apply F2_firstn; auto|]. constructor; [auto|]. exact (F2_skipn _ _ _ (S k) H2).
  - rewrite H3, R4. reflexivity.
  - apply Forall2_app; [exact H4|]. repeat constructor; assumption.
Qed.
Lemma tri_do s a b c : wf s -> vsess s a b ->
  tri s (on_do honest aes_ks aes_enc a c) (v_do aes_ks aes_enc b c) vsess.
Proof.
  intros W H. pose proof H as [H1 H2 H3 H4].
  destruct c as [pa pb rc rs|pa pb sh|rc rs|l t|l t|srv|k iv len sec|k iv len sec]; cbn [on_do v_do].
  - eapply tri_bind; [apply tri_master; [auto|exact H1]|]. intros s1 x y W1 E1 Hx.
    apply tri_ret; auto. constructor; auto; [apply (vaeads_mono s); auto|apply (rels_mono s); auto].
  - eapply tri_bind; [apply tri_ext_master; [auto|exact H1]|]. intros s1 x y W1 E1 Hx.
    apply tri_ret; auto. constructor; auto; [apply (vaeads_mono s); auto|apply (rels_mono s); auto].
  - eapply tri_bind; [apply tri_expand; [auto|exact H1]|]. intros s1 x y W1 E1 Hx.
    apply tri_ret; auto. constructor; auto; [apply (vaeads_mono s); auto|apply (rels_mono s); auto].
  - eapply tri_bind; [apply tri_finished; [auto|exact H1]|]. intros s1 [x u] [y v] W1 E1 [Hx Hu].
    cbn [fst snd] in *. red in Hu. subst v.
    apply tri_ret; auto. constructor; [|apply (vaeads_mono s); auto|cbn; congruence|apply (rels_mono s); auto].
    destruct Hx; constructor; auto.
  - eapply tri_bind; [apply tri_finished; [auto|exact H1]|]. intros s1 [x u] [y v] W1 E1 [Hx Hu].
    cbn [fst snd] in *. red in Hu. subst v.
    apply tri_ret; auto. constructor; [|apply (vaeads_mono s); auto|cbn; congruence|apply (rels_mono s); auto].
    destruct Hx; constructor; auto.
  - cbv zeta. eapply tri_bind.
    { apply tri_aead_new; [auto| |]; destruct srv; apply H1. }
    intros s1 [x u] [y v] W1 E1 [Hx Hu]. cbn [fst snd] in *.
    apply tri_ret; auto. constructor; cbn; auto.
    + apply (vhs_mono s); auto.
    + apply Forall2_app; [apply (vaeads_mono s); auto|]. constructor; auto.
    + apply Forall2_app; [apply (rels_mono s); auto|]. constructor; auto.
  - apply tri_crypt_call; auto.
  - apply tri_crypt_call; auto.
Qed.
Lemma tri_calls cs : forall s a b, wf s -> vsess s a b ->
  tri s (sfold (on_do honest aes_ks aes_enc) cs a) (v_calls aes_ks aes_enc cs b) vsess.
Proof.
  induction cs as [|c cs IH]; intros s a b W H; cbn [sfold v_calls].
  - apply tri_ret; auto.
  - eapply tri_bind; [apply tri_do; [auto|exact H]|]. intros s1 a1 b1 W1 E1 H1. apply IH; auto.
Qed.
Lemma tri_session q r cs :
  tri cst0 (on_session honest aes_ks aes_enc q r cs) (v_session aes_ks aes_enc q r cs) vsess.
Proof.
  apply tri_calls; [split; [reflexivity|exact I]|]. constructor; [|constructor|reflexivity|constructor].
  repeat (constructor; cbn; auto).
Qed.
End Aes.
