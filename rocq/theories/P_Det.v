(** What a party feeds into the circuits of a session depends only on what the party knows: two
    sessions that differ in the peer's shares and open the same values have the same inputs of
    the party. *)
From Coq Require Import List NArith ZArith Bool Arith Lia.
From Verif Require Import L_Bits L_Res L_PTree S_Circuit S_Lower S_GarbleView.
From Verif Require Import S_Netlist M_EmpInteger M_Utils M_Bristol M_Bn M_Sym M_SymOn M_SymSess M_Handshake P_Open.
From Verif Require P_Sym.
Import ListNotations.
Local Open Scope N_scope.
Local Open Scope sym_scope.

Definition own (p q : owner) : bool := match p, q with OA, OA | OB, OB | OPub, OPub => true | _, _ => false end.
Lemma own_refl p : own p p = true. Proof. destruct p; reflexivity. Qed.
Section D.
Variable p : owner.
(** the party's inputs, newest first *)
Fixpoint feeds (tr : list nev) : list (list bool) :=
  match tr with
  | [] => []
  | EFeed q bs :: t => if own p q then bs :: feeds t else feeds t
  | _ :: t => feeds t
  end.
Definition view (s : cst) : N * list nshape * list (list bool) * list (owner * list bool) := (c_next s, S_Netlist.shape (c_tr s), feeds (c_tr s), opn s).
(** two lists of openings that differ at a common position *)
Definition split (l l' : list (owner * list bool)) : Prop :=
  exists u v v' w w', l = u ++ v :: w /\ l' = u ++ v' :: w' /\ v <> v'.
Lemma split_irr l : ~ split l l.
Proof. intros (u & v & v' & w & w' & E & E' & H). rewrite E in E'. apply app_inv_head in E'. congruence. Qed.
Lemma split_app l l' x x' : split l l' -> split (l ++ x) (l' ++ x').
Proof. intros (u & v & v' & w & w' & -> & -> & H). exists u, v, v', (w ++ x), (w' ++ x'). rewrite <- !app_assoc. auto. Qed.
Definition mono {A} (m : M A) : Prop := forall s a t, m s = Ok (a, t) -> exists x, opn t = opn s ++ x.
Definition dt {A} (m m' : M A) : Prop := mono m /\ mono m' /\
  forall s s' a t a' t', view s = view s' -> m s = Ok (a, t) -> m' s' = Ok (a', t') ->
    split (opn t) (opn t') \/ (a = a' /\ view t = view t').
Lemma d_ret {A} (a : A) : dt (mret a) (mret a).
Proof.
  assert (K : mono (mret a)) by (intros s b t E; injection E as _ <-; exists []; now rewrite app_nil_r).
  split; [exact K|split; [exact K|]]. intros s s' b t b' t' V E E'. injection E as <- <-. injection E' as <- <-. right. auto.
Qed.
Lemma d_bind {A B} (m m' : M A) (k k' : A -> M B) : dt m m' -> (forall a, dt (k a) (k' a)) -> dt (mbind m k) (mbind m' k').
Proof.
  intros (H1 & H2 & H3) K. split; [|split].
  - intros s b t E. apply mb_inv in E. destruct E as (a & u & E1 & E2). destruct (H1 _ _ _ E1) as (x & X). destruct (proj1 (K a) _ _ _ E2) as (y & Y).
    exists (x ++ y). now rewrite Y, X, app_assoc.
  - intros s b t E. apply mb_inv in E. destruct E as (a & u & E1 & E2). destruct (H2 _ _ _ E1) as (x & X). destruct (proj1 (proj2 (K a)) _ _ _ E2) as (y & Y).
    exists (x ++ y). now rewrite Y, X, app_assoc.
  - intros s s' b t b' t' V E E'. apply mb_inv in E. destruct E as (a & u & E1 & E2). apply mb_inv in E'. destruct E' as (a' & u' & E1' & E2').
    destruct (H3 _ _ _ _ _ _ V E1 E1') as [S|[<- V1]].
    + left. destruct (proj1 (K a) _ _ _ E2) as (x & ->). destruct (proj1 (proj2 (K a')) _ _ _ E2') as (x' & ->). now apply split_app.
    + exact (proj2 (proj2 (K a)) _ _ _ _ _ _ V1 E2 E2').
Qed.
Lemma d_lift {A} (r : res A) : dt (lift r) (lift r).
Proof.
  assert (K : mono (lift r)) by (intros s b t E; apply lift_inv in E; destruct E as [_ ->]; exists []; now rewrite app_nil_r).
  split; [exact K|split; [exact K|]]. intros s s' b t b' t' V E E'. apply lift_inv in E. apply lift_inv in E'. destruct E as [-> ->], E' as [E' ->]. right.
  injection E' as <-. auto.
Qed.
Lemma view_next s s' : view s = view s' -> c_next s = c_next s' /\ S_Netlist.shape (c_tr s) = S_Netlist.shape (c_tr s') /\ feeds (c_tr s) = feeds (c_tr s') /\ opn s = opn s'.
Proof. unfold view. intro E. repeat split; congruence. Qed.
Lemma silent_mono {A} (m : M A) : quiet m -> mono m.
Proof. intros H s a t E. exists []. rewrite app_nil_r. exact (H _ _ _ E). Qed.
Lemma d_gate (f : wire * wire -> nev) a b : (forall x, match f x with EFeed _ _ | EReveal _ _ => False | _ => True end) ->
  let m := fun s => Ok (WId (c_next s), mkC (N.succ (c_next s)) (f (a, b) :: c_tr s)) in dt m m.
Proof.
  intros F m. specialize (F (a, b)). assert (K : mono m).
  { apply silent_mono. intros s c t E. injection E as _ <-. unfold opn. cbn [c_tr openings]. destruct (f (a, b)); try contradiction; reflexivity. }
  split; [exact K|split; [exact K|]]. intros s s' c t c' t' V E E'. right. apply view_next in V. destruct V as (V1 & V0 & V2 & V3).
  injection E as <- <-. injection E' as <- <-. unfold view, opn, S_Netlist.shape in *. cbn [c_tr c_next map]. rewrite V1, V0. split; [reflexivity|].
  destruct (f (a, b)); try contradiction; cbn [feeds openings]; now rewrite V2, V3.
Qed.
Lemma d_gand a b : dt (gand a b) (gand a b). Proof. exact (d_gate (fun x => EAnd (fst x) (snd x)) a b (fun _ => I)). Qed.
Lemma d_gxor a b : dt (gxor a b) (gxor a b). Proof. exact (d_gate (fun x => EXor (fst x) (snd x)) a b (fun _ => I)). Qed.
Lemma d_gnot a : dt (gnot a) (gnot a). Proof. exact (d_gate (fun x => ENot (fst x)) a a (fun _ => I)). Qed.
(** the peer's inputs may differ *)
Lemma d_gfeed2 q bs bs' : length bs = length bs' -> (own p q = true -> bs = bs') -> dt (gfeed q bs) (gfeed q bs').
Proof.
  intros L H. split; [apply silent_mono, q_gfeed|split; [apply silent_mono, q_gfeed|]].
  intros s s' c t c' t' V E E'. right. apply view_next in V. destruct V as (V1 & V0 & V2 & V3).
  injection E as <- <-. injection E' as <- <-. unfold view, opn, S_Netlist.shape in *. cbn [c_tr c_next feeds openings map shape1]. rewrite V0, V1, V2, V3, L. split; [reflexivity|].
  destruct (own p q); [rewrite H by reflexivity|]; reflexivity.
Qed.
Lemma d_gfeed q bs : dt (gfeed q bs) (gfeed q bs). Proof. now apply d_gfeed2. Qed.
Lemma honest_reveal q ws s a t : greveal honest q ws s = Ok (a, t) -> opn t = opn s ++ [(q, a)] /\ c_next t = c_next s /\ S_Netlist.shape (c_tr t) = SReveal q ws :: S_Netlist.shape (c_tr s) /\ feeds (c_tr t) = feeds (c_tr s).
Proof.
  intro E. injection E as <- <-. unfold opn. cbn [c_tr openings c_next feeds honest]. split; [|auto]. do 3 f_equal.
  transitivity (map (fun i => wval (vals (c_tr s)) (nth i ws (WPub false))) (seq 0 (length ws))); [|reflexivity].
  generalize (vals (c_tr s)). intro V. clear. rewrite <- (map_map (fun i => nth i ws (WPub false)) (wval V)). f_equal.
  induction ws as [|w ws IH]; [reflexivity|]. cbn [length seq map nth]. now rewrite <- seq_shift, map_map, <- IH at 1.
Qed.
Lemma d_reveal q ws : dt (greveal honest q ws) (greveal honest q ws).
Proof.
  assert (K : mono (greveal honest q ws)) by (intros s a t E; apply honest_reveal in E; destruct E as (E & _); eauto).
  split; [exact K|split; [exact K|]]. intros s s' a t a' t' V E E'. apply honest_reveal in E. apply honest_reveal in E'. apply view_next in V.
  destruct E as (O & N1 & S0 & F), E' as (O' & N1' & S0' & F'), V as (V1 & V0 & V2 & V3).
  destruct (list_eq_dec Bool.bool_dec a a') as [<-|NE].
  - right. split; [reflexivity|]. unfold view. now rewrite O, N1, S0, F, O', N1', S0', F', V0, V1, V2, V3.
  - left. rewrite O, O', V3. exists (opn s'), (q, a), (q, a'), [], []. repeat split. congruence.
Qed.
Hint Resolve d_ret d_lift d_gand d_gxor d_gnot d_gfeed d_reveal : dt.
Ltac ds := repeat first
  [ match goal with |- dt (mbind _ _) _ => apply d_bind; [|intro] end
  | match goal with |- dt (if ?c then _ else _) _ => destruct c end
  | match goal with |- dt (match ?x with pair _ _ => _ end) _ => destruct x end
  | solve [auto with dt] ].
Lemma d_szip g a b : (forall x y, dt (g x y) (g x y)) -> dt (szip g a b) (szip g a b).
Proof. intros H; revert b; induction a as [|x a IH]; intros [|y b]; cbn [szip]; ds. Qed.
Lemma d_sxor a b : dt (sxor a b) (sxor a b). Proof. apply d_szip; auto with dt. Qed.
Lemma d_sand a b : dt (sand a b) (sand a b). Proof. apply d_szip; auto with dt. Qed.
Lemma d_sadd_c a : forall c b, dt (sadd_c c a b) (sadd_c c a b).
Proof. induction a as [|x a IH]; intros c [|y b]; cbn [sadd_c]; try apply d_ret. destruct a, b; ds. Qed.
Lemma d_ssub_c a : forall c b, dt (ssub_c c a b) (ssub_c c a b).
Proof. induction a as [|x a IH]; intros c [|y b]; cbn [ssub_c]; try apply d_ret. destruct a, b; ds. Qed.
Lemma d_sadd a b : dt (sadd a b) (sadd a b). Proof. apply d_sadd_c. Qed.
Lemma d_ssub a b : dt (ssub a b) (ssub a b). Proof. apply d_ssub_c. Qed.
Hint Resolve d_sxor d_sand d_sadd d_ssub : dt.
Lemma d_sgeq a b : dt (sgeq a b) (sgeq a b). Proof. unfold sgeq. ds. Qed.
Lemma d_sselect a s b : dt (sselect a s b) (sselect a s b). Proof. apply d_szip; intros; ds. Qed.
Lemma d_srrot x n : dt (srrot x n) (srrot x n). Proof. apply d_sxor. Qed.
Hint Resolve d_sgeq d_sselect d_srrot : dt.
Lemma d_saddmod a b Q : dt (saddmod a b Q) (saddmod a b Q). Proof. unfold saddmod. cbv zeta. ds. Qed.
Lemma d_saddmod_bn a b q : dt (saddmod_bn a b q) (saddmod_bn a b q). Proof. apply d_saddmod. Qed.
Lemma d_sgate w g : dt (sgate_step w g) (sgate_step w g). Proof. destruct g; cbn [sgate_step]; ds. Qed.
Hint Resolve d_sgate d_saddmod_bn : dt.
Lemma d_run_gates gs : forall w, dt (srun_gates gs w) (srun_gates gs w).
Proof. induction gs as [|g gs IH]; intro w; cbn [srun_gates]; ds. Qed.
Hint Resolve d_run_gates : dt.
Lemma d_bristol c a b : dt (sbristol c a b) (sbristol c a b). Proof. unfold sbristol. ds. Qed.
Hint Resolve d_bristol : dt.
Lemma d_KS c k : dt (scomputeKS c k) (scomputeKS c k). Proof. apply d_bristol. Qed.
Lemma d_AES c k m : dt (scomputeAES c k m) (scomputeAES c k m). Proof. unfold scomputeAES. ds. Qed.
Hint Resolve d_KS d_AES : dt.
Lemma d_siter {S} (f : S -> M S) n : (forall x, dt (f x) (f x)) -> forall x, dt (siter n f x) (siter n f x).
Proof. intros H. induction n as [|n IH]; intro x; cbn [siter]; ds. Qed.
Lemma d_sfold2 {S A} (f : S -> A -> M S) l l' : Forall2 (fun a a' => forall x, dt (f x a) (f x a')) l l' -> forall x, dt (sfold f l x) (sfold f l' x).
Proof. induction 1 as [|a a' l l' H F IH]; intro x; cbn [sfold]; ds. Qed.
Lemma d_sfold {S A} (f : S -> A -> M S) l : (forall x a, dt (f x a) (f x a)) -> forall x, dt (sfold f l x) (sfold f l x).
Proof. intros H. apply d_sfold2. induction l; constructor; auto. Qed.
Lemma d_w_next w : dt (on_w_next w) (on_w_next w). Proof. unfold on_w_next. cbv zeta. ds. Qed.
Lemma d_round s kw : dt (on_round s kw) (on_round s kw).
Proof. destruct s as [[[[[[[a b] c] d] e] f] g] h]. unfold on_round. ds. Qed.
Lemma d_compress ih ch : dt (on_compress ih ch) (on_compress ih ch).
Proof.
  unfold on_compress. apply d_bind; [apply d_siter, d_w_next|intro]. apply d_bind; [apply d_sfold, d_round|intro].
  destruct a0 as [[[[[[[? ?] ?] ?] ?] ?] ?] ?]. ds.
Qed.
Hint Resolve d_compress : dt.
Lemma d_rest d data idx : dt (on_rest d data idx) (on_rest d data idx).
Proof. unfold on_rest. apply d_bind; [ds|]. intro. apply d_sfold, d_compress. Qed.
Hint Resolve d_rest : dt.
Lemma d_update st q ro : dt (on_update st q ro) (on_update st q ro). Proof. unfold on_update. ds. Qed.
Lemma d_digest st q ro : dt (on_digest st q ro) (on_digest st q ro). Proof. apply d_update. Qed.
Lemma d_rounds_update st q ri : dt (on_rounds_update st q ri) (on_rounds_update st q ri). Proof. unfold on_rounds_update. ds. Qed.
Lemma d_rounds_digest st q ri : dt (on_rounds_digest st q ri) (on_rounds_digest st q ri). Proof. apply d_rounds_update. Qed.
Hint Resolve d_update d_digest d_rounds_digest : dt.
Lemma d_pad_step a b x : dt (on_pad_step a b x) (on_pad_step a b x). Proof. unfold on_pad_step. ds. Qed.
Lemma d_hinit h k : dt (on_hinit h k) (on_hinit h k).
Proof.
  unfold on_hinit. cbv zeta. apply d_bind; [ds|]. intros [? ?].
  apply d_bind; [apply d_siter; intro; apply d_pad_step|]. intros [? ?]. ds.
Qed.
Lemma d_feed_words l : dt (on_feed_words l) (on_feed_words l). Proof. induction l; cbn [on_feed_words]; ds. Qed.
Hint Resolve d_hinit d_feed_words : dt.
Lemma d_rounds_hmac h m ri ro : dt (on_rounds_hmac h m ri ro) (on_rounds_hmac h m ri ro). Proof. unfold on_rounds_hmac. ds. Qed.
Hint Resolve d_rounds_hmac : dt.
Lemma d_rounds_step A ri ro st : dt (on_rounds_step A ri ro st) (on_rounds_step A ri ro st).
Proof. destruct st as [[? ?] ?]. unfold on_rounds_step. cbv zeta. ds. Qed.
Lemma d_rounds_compute h r n l sd ri ro : dt (on_rounds_compute h r n l sd ri ro) (on_rounds_compute h r n l sd ri ro).
Proof.
  unfold on_rounds_compute. cbv zeta. apply d_bind; [ds|]. intro.
  apply d_bind; [apply d_siter; intro; apply d_rounds_step|]. intros [[? ?] ?]. ds.
Qed.
Lemma d_open8 w : dt (on_open8 honest w) (on_open8 honest w). Proof. unfold on_open8. ds. Qed.
Hint Resolve d_rounds_compute d_open8 : dt.
Lemma d_opt_update st x pub ri : dt (on_opt_update honest st x pub ri) (on_opt_update honest st x pub ri). Proof. unfold on_opt_update. ds. Qed.
Hint Resolve d_opt_update : dt.
Lemma d_opt_hmac h m ri ro : dt (on_opt_hmac honest h m ri ro) (on_opt_hmac honest h m ri ro). Proof. unfold on_opt_hmac. ds. Qed.
Hint Resolve d_opt_hmac : dt.
Lemma d_phash_step sd ri ro st : dt (on_phash_step honest sd ri ro st) (on_phash_step honest sd ri ro st).
Proof. destruct st as [[? ?] ?]. unfold on_phash_step. cbv zeta. ds. Qed.
Lemma d_opt_compute h r n l sd ri ro : dt (on_opt_compute honest h r n l sd ri ro) (on_opt_compute honest h r n l sd ri ro).
Proof. unfold on_opt_compute. apply d_bind; [apply d_siter; intro; apply d_phash_step|]. intros [[? ?] ?]. ds. Qed.
Hint Resolve d_opt_compute : dt.
Lemma d_prf s r n l sd : dt (on_prf honest s r n l sd) (on_prf honest s r n l sd). Proof. unfold on_prf. ds. Qed.
Hint Resolve d_prf : dt.
Lemma d_expand s rc rs : dt (on_expand honest s rc rs) (on_expand honest s rc rs). Proof. unfold on_expand. ds. Qed.
Lemma d_finished s l t : dt (on_finished honest s l t) (on_finished honest s l t). Proof. unfold on_finished. ds. Qed.
Lemma d_aead_new ks enc k iv : dt (on_aead_new ks enc k iv) (on_aead_new ks enc k iv). Proof. unfold on_aead_new. ds. Qed.
Lemma d_inc c n : dt (on_inc c n) (on_inc c n). Proof. unfold on_inc. ds. Qed.
Hint Resolve d_expand d_finished d_aead_new d_inc : dt.
Lemma d_gctr enc m : forall k r n, dt (on_gctr enc m k r n) (on_gctr enc m k r n).
Proof. induction m as [|m IH]; intros k r n; cbn [on_gctr]; ds. Qed.
Lemma d_set_nonce e f iv : dt (on_set_nonce e f iv) (on_set_nonce e f iv). Proof. unfold on_set_nonce. cbv zeta. ds. Qed.
Hint Resolve d_gctr d_set_nonce : dt.
Lemma d_crypt enc s iv len sec : dt (on_crypt honest enc s iv len sec) (on_crypt honest enc s iv len sec). Proof. unfold on_crypt. cbv zeta. ds. Qed.
Hint Resolve d_crypt : dt.
Lemma d_crypt_call enc s k iv len sec : dt (on_crypt_call honest enc s k iv len sec) (on_crypt_call honest enc s k iv len sec). Proof. unfold on_crypt_call. ds. Qed.
Hint Resolve d_crypt_call : dt.
(** shares that may differ: the peer's *)
Definition alike (c c' : on_call) : Prop :=
  match c, c' with
  | NMaster pa pb rc rs, NMaster pa' pb' rc' rs' => (p = OA -> pa = pa') /\ (p = OB -> pb = pb') /\ rc = rc' /\ rs = rs'
  | NExtMaster pa pb sh, NExtMaster pa' pb' sh' => (p = OA -> pa = pa') /\ (p = OB -> pb = pb') /\ sh = sh'
  | _, _ => c = c'
  end.
Lemma pms_len q x a x' a' : pms_int q x = Ok a -> pms_int q x' = Ok a' -> length a = length a'.
Proof.
  assert (K : forall y b, pms_int q y = Ok b -> share_ok q y).
  { intros y b. unfold pms_int, share_ok. cbv zeta. destruct (BN_num_bytes q <? BN_num_bytes y)%nat eqn:L; [discriminate|]. intros _. now apply Nat.ltb_ge in L. }
  intros E E'. destruct (P_Sym.pms_int_ok _ _ (K _ _ E)) as (b & B & L). destruct (P_Sym.pms_int_ok _ _ (K _ _ E')) as (b' & B' & L'). congruence.
Qed.
Lemma own_eq q : own p q = true -> p = q. Proof. destruct p, q; intro H; try discriminate; reflexivity. Qed.
Lemma d_pms s pa pb pa' pb' : (p = OA -> pa = pa') -> (p = OB -> pb = pb') -> dt (on_pms s pa pb) (on_pms s pa' pb').
Proof.
  intros Ha Hb. split; [apply silent_mono, q_pms|split; [apply silent_mono, q_pms|]].
  intros u u' r t r' t' V E E'. unfold on_pms in E, E'. mi E. mi E. mi E'. mi E'. li E0. li E1. li E2. li E3.
  assert (K : dt (do a <- gfeed OA x; do b <- gfeed OB x0; saddmod_bn a b (on_q s)) (do a <- gfeed OA x1; do b <- gfeed OB x2; saddmod_bn a b (on_q s))).
  { apply d_bind; [|intro; apply d_bind; [|intro; apply d_saddmod_bn]]; apply d_gfeed2.
    - eapply pms_len; eassumption.
    - intro O. apply own_eq in O. rewrite (Ha O) in *. congruence.
    - eapply pms_len; eassumption.
    - intro O. apply own_eq in O. rewrite (Hb O) in *. congruence. }
  exact (proj2 (proj2 K) _ _ _ _ _ _ V E E').
Qed.
Lemma d_do ks enc s c c' : alike c c' -> dt (on_do honest ks enc s c) (on_do honest ks enc s c').
Proof.
  destruct c, c'; cbn [alike]; intro H; try discriminate H; try (injection H; intros; subst; cbn [on_do]; cbv zeta; ds); cbn [on_do].
  - destruct H as (H1 & H2 & <- & <-). apply d_bind; [|intro; ds]. unfold on_master. apply d_bind; [now apply d_pms|]. intro. ds.
  - destruct H as (H1 & H2 & <-). apply d_bind; [|intro; ds]. unfold on_ext_master. apply d_bind; [now apply d_pms|]. intro. ds.
Qed.
Lemma same_feeds ks enc q rounds cs cs' x s x' s' : Forall2 alike cs cs' ->
  on_session honest ks enc q rounds cs cst0 = Ok (x, s) -> on_session honest ks enc q rounds cs' cst0 = Ok (x', s') ->
  opn s = opn s' -> x = x' /\ S_Netlist.shape (c_tr s) = S_Netlist.shape (c_tr s') /\ feeds (c_tr s) = feeds (c_tr s').
Proof.
  intros F E E' O. assert (K : dt (on_session honest ks enc q rounds cs) (on_session honest ks enc q rounds cs')).
  { unfold on_session. apply d_sfold2. clear - F. induction F as [|c c' l l' H F IH]; constructor; [intro; now apply d_do|exact IH]. }
  destruct (proj2 (proj2 K) _ _ _ _ _ _ eq_refl E E') as [S|[X V]].
  - rewrite O in S. destruct (split_irr _ S).
  - apply view_next in V. split; [exact X|]. split; apply V.
Qed.
End D.
Lemma feeds_inputs p tr : p <> OPub -> inputs_of (low_party p) (lower tr) = rev (feeds p tr).
Proof.
  intro P. unfold lower, inputs_of. cbn [flat_map app]. induction tr as [|e tr IH]; [reflexivity|]. cbn [rev map]. rewrite map_app, flat_map_app, IH.
  cbn [map flat_map]. destruct e as [| | |q bs|]; cbn [low feeds]; rewrite ?app_nil_r; try reflexivity.
  destruct p, q; cbn [low_party own]; try contradiction; cbn [rev]; rewrite ?app_nil_r; reflexivity.
Qed.
Theorem same_inputs p ks enc q rounds cs cs' x s x' s' : p <> OPub -> Forall2 (alike p) cs cs' ->
  on_session honest ks enc q rounds cs cst0 = Ok (x, s) -> on_session honest ks enc q rounds cs' cst0 = Ok (x', s') ->
  openings (c_tr s) = openings (c_tr s') ->
  x = x' /\ S_Netlist.shape (c_tr s) = S_Netlist.shape (c_tr s') /\ inputs_of (low_party p) (lower (c_tr s)) = inputs_of (low_party p) (lower (c_tr s')).
Proof.
  intros P F E E' O. destruct (same_feeds p ks enc q rounds cs cs' x s x' s' F E E' O) as (X & Sh & Fe).
  split; [exact X|]. split; [exact Sh|]. rewrite !feeds_inputs by exact P. now rewrite Fe.
Qed.
