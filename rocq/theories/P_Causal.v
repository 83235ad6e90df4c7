(** A party's requests depend only on its own data and what was opened before. *)
From Coq Require Import List NArith ZArith Bool Arith Lia.
From Verif Require Import L_Bits L_Res L_PTree S_Netlist S_Causal M_EmpInteger M_Bristol M_Bn M_Sym.
From Verif Require Import M_Sha256 M_Hmac M_Handshake M_SymOn P_Sym.
Import ListNotations.
Local Open Scope sym_scope.

(** ** traces only grow, and what is opened is opened to both *)
Definition pub_open (e : nev) : Prop := match e with EReveal p _ => p = OPub | _ => True end.
Definition grow {A} (m : M A) : Prop := forall s a t, m s = Ok (a, t) -> exists l, c_tr t = l ++ c_tr s /\ Forall pub_open l.
Lemma grow_ret {A} (a : A) : grow (mret a).
Proof. intros s b t H. unfold mret in H. assert (t = s) as -> by congruence. exists []. split; [reflexivity|constructor]. Qed.
Lemma grow_lift {A} (r : res A) : grow (lift r).
Proof. intros s b t H. unfold lift in H. destruct r; cbn in H; try discriminate. assert (t = s) as -> by congruence. exists []. split; [reflexivity|constructor]. Qed.
Lemma grow_bind {A B} (m : M A) (k : A -> M B) : grow m -> (forall a, grow (k a)) -> grow (mbind m k).
Proof.
  intros H K s b t E. unfold mbind in E. destruct (m s) as [[a u]| |] eqn:Em; cbn in E; try discriminate.
  destruct (H _ _ _ Em) as [l1 [E1 P1]]. destruct (K _ _ _ _ E) as [l2 [E2 P2]]. exists (l2 ++ l1). rewrite E2, E1, app_assoc.
  split; [reflexivity|]. now apply Forall_app.
Qed.
Lemma grow_gand a b : grow (gand a b).
Proof. intros s x t H. unfold gand in H. inversion H. cbn. eexists [_]. split; [reflexivity|]. repeat constructor. Qed.
Lemma grow_gxor a b : grow (gxor a b).
Proof. intros s x t H. unfold gxor in H. inversion H. cbn. eexists [_]. split; [reflexivity|]. repeat constructor. Qed.
Lemma grow_gnot a : grow (gnot a).
Proof. intros s x t H. unfold gnot in H. inversion H. cbn. eexists [_]. split; [reflexivity|]. repeat constructor. Qed.
Lemma grow_gfeed p b : grow (gfeed p b).
Proof. intros s x t H. unfold gfeed in H. inversion H. cbn. eexists [_]. split; [reflexivity|]. repeat constructor. Qed.
Lemma grow_greveal o b : grow (greveal o OPub b).
Proof. intros s x t H. unfold greveal in H. inversion H. cbn. eexists [_]. split; [reflexivity|]. repeat constructor. Qed.

Ltac gstep0 := match goal with
  | |- forall _, _ => intro
  | |- grow (mbind _ _) => apply grow_bind
  | |- grow (mret _) => apply grow_ret
  | |- grow (lift _) => apply grow_lift
  | |- grow (gand _ _) => apply grow_gand
  | |- grow (gxor _ _) => apply grow_gxor
  | |- grow (gnot _) => apply grow_gnot
  | |- grow (gfeed _ _) => apply grow_gfeed
  | |- grow (greveal _ _ _) => apply grow_greveal
  | |- grow (match ?x with _ => _ end) => destruct x
  | H : _ |- grow _ => apply H
  end.
Ltac gr := repeat gstep0; auto.
Lemma grow_szip g a b : (forall x y, grow (g x y)) -> grow (szip g a b).
Proof. intros H; revert b; induction a as [|x a IH]; intros [|y b]; cbn; gr. Qed.
Lemma grow_sxor a b : grow (sxor a b). Proof. apply grow_szip. gr. Qed.
Lemma grow_sand a b : grow (sand a b). Proof. apply grow_szip. gr. Qed.
Lemma grow_sadd_c a : forall c b, grow (sadd_c c a b).
Proof. induction a as [|x a IH]; intros c [|y b]; cbn [sadd_c]; try apply grow_ret. destruct a, b; try solve [gr]. Qed.
Lemma grow_ssub_c a : forall c b, grow (ssub_c c a b).
Proof. induction a as [|x a IH]; intros c [|y b]; cbn [ssub_c]; try apply grow_ret. destruct a, b; try solve [gr]. Qed.
Lemma grow_sadd a b : grow (sadd a b). Proof. apply grow_sadd_c. Qed.
Lemma grow_ssub a b : grow (ssub a b). Proof. apply grow_ssub_c. Qed.
Lemma grow_sgeq a b : grow (sgeq a b). Proof. unfold sgeq. apply grow_bind; [apply grow_ssub|gr]. Qed.
Lemma grow_sselect a s b : grow (sselect a s b). Proof. apply grow_szip. gr. Qed.
Lemma grow_srrot x n : grow (srrot x n). Proof. apply grow_sxor. Qed.
Lemma grow_siter {S} (f : S -> M S) n : (forall s, grow (f s)) -> forall s, grow (siter n f s).
Proof. intro H. induction n; intro s; cbn [siter]; gr. Qed.
Lemma grow_sfold {S A} (f : S -> A -> M S) l : (forall s a, grow (f s a)) -> forall s, grow (sfold f l s).
Proof. intro H. induction l; intro s; cbn [sfold]; gr. Qed.
Ltac gstep1 := match goal with
  | |- grow (sxor _ _) => apply grow_sxor
  | |- grow (sand _ _) => apply grow_sand
  | |- grow (sadd _ _) => apply grow_sadd
  | |- grow (ssub _ _) => apply grow_ssub
  | |- grow (sgeq _ _) => apply grow_sgeq
  | |- grow (sselect _ _ _) => apply grow_sselect
  | |- grow (srrot _ _) => apply grow_srrot
  | |- grow (siter _ _ _) => apply grow_siter
  | |- grow (sfold _ _ _) => apply grow_sfold
  end.
Ltac gr ::= repeat (gstep0 || gstep1); auto.
Lemma grow_saddmod a b Q : grow (saddmod a b Q). Proof. unfold saddmod. gr. Qed.
Lemma grow_gate w g : grow (sgate_step w g). Proof. destruct g; cbn [sgate_step]; gr. Qed.
Lemma grow_run_gates gs : forall w, grow (srun_gates gs w).
Proof. induction gs as [|g gs IH]; intro w; cbn [srun_gates]; [gr|]. apply grow_bind; [apply grow_gate|auto]. Qed.
Lemma grow_sbristol c a b : grow (sbristol c a b).
Proof. unfold sbristol. destruct (negb _); [gr|]. apply grow_bind; [apply grow_run_gates|gr]. Qed.
Lemma grow_scomputeKS c k : grow (scomputeKS c k). Proof. apply grow_sbristol. Qed.
Lemma grow_scomputeAES c k m : grow (scomputeAES c k m).
Proof. unfold scomputeAES. apply grow_bind; [apply grow_sbristol|gr]. Qed.
Lemma grow_w_next w : grow (on_w_next w). Proof. unfold on_w_next. gr. Qed.
Lemma grow_round s kw : grow (on_round s kw). Proof. unfold on_round. gr. Qed.
Lemma grow_compress ih c : grow (on_compress ih c).
Proof.
  unfold on_compress. apply grow_bind; [apply grow_siter, grow_w_next|]. intro w. apply grow_bind; [apply grow_sfold; intros; apply grow_round|]. gr.
Qed.
Lemma grow_rest d x i : grow (on_rest d x i).
Proof. unfold on_rest. apply grow_bind; [gr|]. intro. apply grow_sfold. intros. apply grow_compress. Qed.
Ltac gstep2 := match goal with
  | |- grow (saddmod _ _ _) => apply grow_saddmod
  | |- grow (scomputeKS _ _) => apply grow_scomputeKS
  | |- grow (scomputeAES _ _ _) => apply grow_scomputeAES
  | |- grow (on_compress _ _) => apply grow_compress
  | |- grow (on_rest _ _ _) => apply grow_rest
  end.
Ltac gr ::= repeat (gstep0 || gstep1 || gstep2); auto.
Lemma grow_update st p r : grow (on_update st p r). Proof. unfold on_update. gr. Qed.
Lemma grow_digest st p r : grow (on_digest st p r). Proof. apply grow_update. Qed.
Lemma grow_rounds_update st p r : grow (on_rounds_update st p r). Proof. unfold on_rounds_update. gr. Qed.
Lemma grow_rounds_digest st p r : grow (on_rounds_digest st p r). Proof. apply grow_rounds_update. Qed.
Lemma grow_feed_words l : grow (on_feed_words l). Proof. induction l; cbn [on_feed_words]; gr. Qed.
Lemma grow_pad_step a b p : grow (on_pad_step a b p). Proof. unfold on_pad_step. gr. Qed.
Ltac gstep3 := match goal with
  | |- grow (on_update _ _ _) => apply grow_update
  | |- grow (on_digest _ _ _) => apply grow_digest
  | |- grow (on_rounds_digest _ _ _) => apply grow_rounds_digest
  | |- grow (on_feed_words _) => apply grow_feed_words
  | |- grow (on_pad_step _ _ _) => apply grow_pad_step
  end.
Ltac gr ::= repeat (gstep0 || gstep1 || gstep2 || gstep3); auto.
Local Opaque siter sfold prf_blks CHUNKLEN.
Lemma grow_hinit h k : grow (on_hinit h k). Proof. unfold on_hinit. gr. Qed.
Lemma grow_rounds_hmac h m a b : grow (on_rounds_hmac h m a b). Proof. unfold on_rounds_hmac. gr. Qed.
Lemma grow_rounds_step A a b st : grow (on_rounds_step A a b st).
Proof. unfold on_rounds_step. destruct st as [[h x] r]. apply grow_bind; [apply grow_rounds_hmac|]. intros [? ?]. apply grow_bind; [apply grow_rounds_hmac|]. gr. Qed.
Lemma grow_rounds_compute h r n l s a b : grow (on_rounds_compute h r n l s a b).
Proof. unfold on_rounds_compute. apply grow_bind; [gr|]. intro. apply grow_bind; [apply grow_siter; intro; apply grow_rounds_step|]. gr. Qed.
Lemma grow_set_nonce e f iv : grow (on_set_nonce e f iv). Proof. unfold on_set_nonce. gr. Qed.
Lemma grow_inc c n : grow (on_inc c n). Proof. unfold on_inc. gr. Qed.
Lemma grow_gctr c m : forall k r n, grow (on_gctr c m k r n).
Proof. induction m; intros; cbn [on_gctr]; [gr|]. apply grow_bind; [gr|]. intro. apply grow_bind; [apply grow_inc|auto]. Qed.
Lemma grow_aead_new a b k iv : grow (on_aead_new a b k iv). Proof. unfold on_aead_new. gr. Qed.
Lemma grow_pms s pa pb : grow (on_pms s pa pb). Proof. unfold on_pms, saddmod_bn. gr. Qed.

Section ORC.
Variable orc : list nev -> nat -> bool.
Variable ks enc : bristol.
Lemma grow_open8 d : grow (on_open8 orc d). Proof. unfold on_open8. gr. Qed.
Lemma grow_opt_update st x m r : grow (on_opt_update orc st x m r).
Proof.
  unfold on_opt_update. destruct (negb _); [gr|]. apply grow_bind; [gr|]. intro. apply grow_bind; [|gr].
  destruct r; [destruct (negb _)|]; repeat (apply grow_bind; [gr|]; intro; try (apply grow_bind; [apply grow_open8|]; intro)); gr.
Qed.
Lemma grow_opt_hmac h m a b : grow (on_opt_hmac orc h m a b).
Proof. unfold on_opt_hmac. apply grow_bind; [apply grow_opt_update|]. gr. Qed.
Lemma grow_phash_step sd a b st : grow (on_phash_step orc sd a b st).
Proof.
  unfold on_phash_step. destruct st as [[h x] r]. apply grow_bind; [apply grow_opt_hmac|]. intros [? ?]. apply grow_bind; [apply grow_open8|]. intro.
  apply grow_bind; [apply grow_opt_hmac|]. gr.
Qed.
Lemma grow_opt_compute h r n l s a b : grow (on_opt_compute orc h r n l s a b).
Proof. unfold on_opt_compute. apply grow_bind; [apply grow_siter; intro; apply grow_phash_step|]. gr. Qed.
Lemma grow_prf s r n l sd : grow (on_prf orc s r n l sd).
Proof. unfold on_prf. apply grow_bind; [|gr]. destruct (negb _); [apply grow_opt_compute|apply grow_rounds_compute]. Qed.
Lemma grow_master s pa pb rc rs : grow (on_master orc s pa pb rc rs).
Proof. unfold on_master. apply grow_bind; [apply grow_pms|]. intro. apply grow_bind; [apply grow_hinit|]. intro. apply grow_bind; [apply grow_prf|]. gr. Qed.
Lemma grow_ext_master s pa pb sh : grow (on_ext_master orc s pa pb sh).
Proof. unfold on_ext_master. apply grow_bind; [apply grow_pms|]. intro. apply grow_bind; [apply grow_hinit|]. intro. apply grow_bind; [apply grow_prf|]. gr. Qed.
Lemma grow_expand s rc rs : grow (on_expand orc s rc rs).
Proof. unfold on_expand. apply grow_bind; [apply grow_hinit|]. intro. apply grow_bind; [apply grow_prf|]. gr. Qed.
Lemma grow_finished s l t : grow (on_finished orc s l t).
Proof. unfold on_finished. apply grow_bind; [apply grow_prf|]. gr. Qed.
Lemma grow_crypt s iv len sec : grow (on_crypt orc enc s iv len sec).
Proof.
  unfold on_crypt. cbv zeta. apply grow_bind; [apply grow_set_nonce|]. intro. apply grow_bind; [apply grow_gctr|]. intros [? ?]. apply grow_bind; [|gr].
  destruct (negb sec); gr.
Qed.
Lemma grow_do x c : grow (on_do orc ks enc x c).
Proof.
  destruct c; cbn [on_do]; try lazymatch goal with |- grow (mbind _ _) => apply grow_bind; [|gr] end.
  - apply grow_master.
  - apply grow_ext_master.
  - apply grow_expand.
  - apply grow_finished.
  - apply grow_finished.
  - apply grow_aead_new.
  - unfold on_crypt_call. apply grow_bind; [gr|]. intro. apply grow_bind; [apply grow_crypt|]. gr.
  - unfold on_crypt_call. apply grow_bind; [gr|]. intro. apply grow_bind; [apply grow_crypt|]. gr.
Qed.
End ORC.

Lemma grow_session orc ks enc q r cs : grow (on_session orc ks enc q r cs).
Proof. unfold on_session. apply grow_sfold. intros. apply grow_do. Qed.

(** ** two runs that agree as far as the openings do *)
Definition sfx (t F : list nev) : Prop := exists l, F = l ++ t.
Section REL.
Variable alice : bool.
Variable n : nat.
Variable F : list nev.
Local Notation msk := (map (own_part alice)).
Definition steq (s1 s2 : cst) : Prop := c_next s1 = c_next s2 /\ msk (c_tr s1) = msk (c_tr s2).
Definition agree (t1 t2 : list nev) : Prop := firstn (S n) (rev (msk t1)) = firstn (S n) (rev (msk t2)).
Definition far (s1 s2 : cst) : Prop := n < length (c_tr s1) /\ n < length (c_tr s2) /\ agree (c_tr s1) (c_tr s2).
Definition rel {A} (m1 m2 : M A) : Prop :=
  forall s1 s2, steq s1 s2 -> forall a1 t1 a2 t2, m1 s1 = Ok (a1, t1) -> m2 s2 = Ok (a2, t2) -> sfx (c_tr t1) F ->
  (a1 = a2 /\ steq t1 t2) \/ far t1 t2.

Lemma steq_agree s1 s2 : steq s1 s2 -> agree (c_tr s1) (c_tr s2).
Proof. intros [_ H]. unfold agree. now rewrite H. Qed.
Lemma steq_len s1 s2 : steq s1 s2 -> length (c_tr s1) = length (c_tr s2).
Proof. intros [_ H]. rewrite <- (map_length (own_part alice) (c_tr s1)), H. apply map_length. Qed.
Lemma agree_ext l1 l2 t1 t2 : n < length t1 -> n < length t2 -> agree t1 t2 -> agree (l1 ++ t1) (l2 ++ t2).
Proof.
  unfold agree. intros H1 H2 E. rewrite !map_app, !rev_app_distr, !firstn_app, !rev_length, !map_length.
  replace (S n - length t1) with 0 by lia. replace (S n - length t2) with 0 by lia. cbn [firstn]. now rewrite !app_nil_r.
Qed.
Lemma rel_ret {A} (a : A) : rel (mret a) (mret a).
Proof. intros s1 s2 E a1 t1 a2 t2 H1 H2 _. unfold mret in *. left. assert (t1 = s1) as -> by congruence. assert (t2 = s2) as -> by congruence. split; [congruence|auto]. Qed.
Lemma rel_lift {A} (r : res A) : rel (lift r) (lift r).
Proof.
  intros s1 s2 E a1 t1 a2 t2 H1 H2 _. unfold lift in *. destruct r; cbn in *; try discriminate. left.
  assert (t1 = s1) as -> by congruence. assert (t2 = s2) as -> by congruence. split; [congruence|auto].
Qed.
Lemma rel_bind {A B} (m1 m2 : M A) (k1 k2 : A -> M B) :
  rel m1 m2 -> (forall a, rel (k1 a) (k2 a)) -> (forall a, grow (k1 a)) -> (forall a, grow (k2 a)) -> rel (mbind m1 k1) (mbind m2 k2).
Proof.
  intros H K G1 G2 s1 s2 E b1 t1 b2 t2 E1 E2 X. unfold mbind in E1, E2.
  destruct (m1 s1) as [[a1 u1]| |] eqn:M1; cbn in E1; try discriminate.
  destruct (m2 s2) as [[a2 u2]| |] eqn:M2; cbn in E2; try discriminate.
  destruct (G1 _ _ _ _ E1) as [l1 [L1 _]]. destruct (G2 _ _ _ _ E2) as [l2 [L2 _]].
  assert (XU : sfx (c_tr u1) F) by (destruct X as [l ->]; exists (l ++ l1); now rewrite L1, app_assoc).
  destruct (H _ _ E _ _ _ _ M1 M2 XU) as [[-> E']|(P1 & P2 & P3)].
  - exact (K _ _ _ E' _ _ _ _ E1 E2 X).
  - right. unfold far. rewrite L1, L2, !app_length. split; [lia|]. split; [lia|]. now apply agree_ext.
Qed.
Lemma rel_ev {A} (m : M A) (f : cst -> A) (g : cst -> N) (e : cst -> nev) :
  (forall s, m s = Ok (f s, mkC (g s) (e s :: c_tr s))) ->
  (forall s s', c_next s = c_next s' -> f s = f s' /\ g s = g s' /\ e s = e s') -> rel m m.
Proof.
  intros Hm Hf s1 s2 [E1 E2] a1 t1 a2 t2 H1 H2 _. rewrite Hm in H1, H2. destruct (Hf _ _ E1) as (Q1 & Q2 & Q3). left.
  assert (a1 = f s1) as -> by congruence. assert (a2 = f s2) as -> by congruence.
  assert (t1 = mkC (g s1) (e s1 :: c_tr s1)) as -> by congruence. assert (t2 = mkC (g s2) (e s2 :: c_tr s2)) as -> by congruence.
  split; auto. split; cbn; [auto|]. now rewrite Q3, E2.
Qed.
Lemma rel_gand a b : rel (gand a b) (gand a b).
Proof. eapply rel_ev; [intro s; unfold gand; reflexivity|]. cbn. intros s s' H. now rewrite H. Qed.
Lemma rel_gxor a b : rel (gxor a b) (gxor a b).
Proof. eapply rel_ev; [intro s; unfold gxor; reflexivity|]. cbn. intros s s' H. now rewrite H. Qed.
Lemma rel_gnot a : rel (gnot a) (gnot a).
Proof. eapply rel_ev; [intro s; unfold gnot; reflexivity|]. cbn. intros s s' H. now rewrite H. Qed.
Lemma rel_gfeed p b : rel (gfeed p b) (gfeed p b).
Proof. eapply rel_ev; [intro s; unfold gfeed; reflexivity|]. cbn. intros s s' H. now rewrite H. Qed.
Lemma rel_gfeed_peer p b b' : peer alice p = true -> length b = length b' -> rel (gfeed p b) (gfeed p b').
Proof.
  intros HP L s1 s2 [E1 E2] a1 t1 a2 t2 H1 H2 _. unfold gfeed in H1, H2. rewrite <- L, <- E1 in H2. left.
  injection H1 as <- <-. injection H2 as <- <-. split; [reflexivity|]. split; cbn; [reflexivity|]. now rewrite HP, L, E2.
Qed.

Ltac rstep0 := match goal with
  | |- forall _, _ => intro
  | |- grow _ => solve [gr]
  | |- rel (mbind _ _) _ => apply rel_bind
  | |- rel (mret _) _ => apply rel_ret
  | |- rel (lift _) _ => apply rel_lift
  | |- rel (gand _ _) _ => apply rel_gand
  | |- rel (gxor _ _) _ => apply rel_gxor
  | |- rel (gnot _) _ => apply rel_gnot
  | |- rel (gfeed _ _) _ => apply rel_gfeed
  | |- rel (match ?x with _ => _ end) _ => destruct x
  | H : _ |- rel _ _ => apply H
  end.
Ltac rl := repeat rstep0; auto.
Lemma rel_szip g a b : (forall x y, rel (g x y) (g x y)) -> (forall x y, grow (g x y)) -> rel (szip g a b) (szip g a b).
Proof. intros H G; revert b; induction a as [|x a IH]; intros [|y b]; cbn [szip]; try solve [rl]. pose proof (grow_szip g a b G) as G'. rl. Qed.
Lemma rel_sxor a b : rel (sxor a b) (sxor a b). Proof. apply rel_szip; [rl|gr]. Qed.
Lemma rel_sand a b : rel (sand a b) (sand a b). Proof. apply rel_szip; [rl|gr]. Qed.
Lemma rel_sadd_c a : forall c b, rel (sadd_c c a b) (sadd_c c a b).
Proof.
  induction a as [|x a IH]; intros c [|y b]; cbn [sadd_c]; try apply rel_ret.
  pose proof (grow_sadd_c a) as G. destruct a, b; rl.
Qed.
Lemma rel_ssub_c a : forall c b, rel (ssub_c c a b) (ssub_c c a b).
Proof.
  induction a as [|x a IH]; intros c [|y b]; cbn [ssub_c]; try apply rel_ret.
  pose proof (grow_ssub_c a) as G. destruct a, b; rl.
Qed.
Lemma rel_sadd a b : rel (sadd a b) (sadd a b). Proof. apply rel_sadd_c. Qed.
Lemma rel_ssub a b : rel (ssub a b) (ssub a b). Proof. apply rel_ssub_c. Qed.
Lemma rel_sgeq a b : rel (sgeq a b) (sgeq a b). Proof. unfold sgeq. apply rel_bind; [apply rel_ssub|rl|gr|gr]. Qed.
Lemma rel_sselect a s b : rel (sselect a s b) (sselect a s b). Proof. apply rel_szip; [rl|gr]. Qed.
Lemma rel_srrot x k : rel (srrot x k) (srrot x k). Proof. apply rel_sxor. Qed.
Lemma rel_siter {S} (f g : S -> M S) k : (forall s, rel (f s) (g s)) -> (forall s, grow (f s)) -> (forall s, grow (g s)) ->
  forall s, rel (siter k f s) (siter k g s).
Proof.
  intros H G1 G2. Local Transparent siter. induction k; intro s; cbn [siter]; [apply rel_ret|].
  apply rel_bind; auto; intro; apply grow_siter; auto.
Qed.
Lemma rel_sfold {S A} (f g : S -> A -> M S) (R : A -> A -> Prop) l l' : (forall s a a', R a a' -> rel (f s a) (g s a')) ->
  (forall s a, grow (f s a)) -> (forall s a, grow (g s a)) -> Forall2 R l l' ->
  forall s, rel (sfold f l s) (sfold g l' s).
Proof.
  intros H G1 G2. Local Transparent sfold. induction 1; intro s; cbn [sfold]; [apply rel_ret|].
  apply rel_bind; auto; intro; apply grow_sfold; auto.
Qed.
Lemma F2_refl {A} (l : list A) : Forall2 eq l l. Proof. induction l; auto. Qed.
Lemma rel_sfold1 {S A} (f g : S -> A -> M S) l : (forall s a, rel (f s a) (g s a)) ->
  (forall s a, grow (f s a)) -> (forall s a, grow (g s a)) -> forall s, rel (sfold f l s) (sfold g l s).
Proof. intros. apply (rel_sfold f g eq); auto; [intros; subst; auto|apply F2_refl]. Qed.
Local Opaque siter sfold.
Ltac rstep1 := match goal with
  | |- rel (sxor _ _) _ => apply rel_sxor
  | |- rel (sand _ _) _ => apply rel_sand
  | |- rel (sadd _ _) _ => apply rel_sadd
  | |- rel (ssub _ _) _ => apply rel_ssub
  | |- rel (sgeq _ _) _ => apply rel_sgeq
  | |- rel (sselect _ _ _) _ => apply rel_sselect
  | |- rel (srrot _ _) _ => apply rel_srrot
  | |- rel (siter _ _ _) _ => apply rel_siter
  | |- rel (sfold _ _ _) _ => apply rel_sfold1
  end.
Ltac rl ::= repeat (rstep0 || rstep1); auto.
Lemma rel_saddmod a b Q : rel (saddmod a b Q) (saddmod a b Q). Proof. unfold saddmod. rl. Qed.
Lemma rel_gate w g : rel (sgate_step w g) (sgate_step w g). Proof. destruct g; cbn [sgate_step]; rl. Qed.
Lemma rel_run_gates gs : forall w, rel (srun_gates gs w) (srun_gates gs w).
Proof.
  induction gs as [|g gs IH]; intro w; cbn [srun_gates]; [rl|]. apply rel_bind; [apply rel_gate|auto| |]; intro; apply grow_run_gates.
Qed.
Lemma rel_sbristol c a b : rel (sbristol c a b) (sbristol c a b).
Proof. unfold sbristol. destruct (negb _); [rl|]. apply rel_bind; [apply rel_run_gates|rl|gr|gr]. Qed.
Lemma rel_scomputeKS c k : rel (scomputeKS c k) (scomputeKS c k). Proof. apply rel_sbristol. Qed.
Lemma rel_scomputeAES c k m : rel (scomputeAES c k m) (scomputeAES c k m).
Proof. unfold scomputeAES. apply rel_bind; [apply rel_sbristol|rl|gr|gr]. Qed.
Lemma rel_w_next w : rel (on_w_next w) (on_w_next w). Proof. unfold on_w_next. rl. Qed.
Lemma rel_round s kw : rel (on_round s kw) (on_round s kw). Proof. unfold on_round. rl. Qed.
Ltac rl1 := first [apply grow_w_next|apply grow_round|apply grow_compress|apply rel_w_next|apply rel_round].
Lemma rel_compress ih c : rel (on_compress ih c) (on_compress ih c).
Proof.
  unfold on_compress. assert (Gw := grow_w_next). assert (Gr := grow_round). assert (Rw := rel_w_next). assert (Rr := rel_round).
  apply rel_bind; [apply rel_siter; auto| |gr|gr]. intro w. apply rel_bind; [apply rel_sfold1; auto| |gr|gr]. rl.
Qed.
Lemma rel_rest d x i : rel (on_rest d x i) (on_rest d x i).
Proof.
  unfold on_rest. apply rel_bind; [rl| |gr|gr]. intro. apply rel_sfold1; intros; first [apply rel_compress|apply grow_compress].
Qed.
Ltac rstep2 := match goal with
  | |- rel (saddmod _ _ _) _ => apply rel_saddmod
  | |- rel (scomputeKS _ _) _ => apply rel_scomputeKS
  | |- rel (scomputeAES _ _ _) _ => apply rel_scomputeAES
  | |- rel (on_compress _ _) _ => apply rel_compress
  | |- rel (on_rest _ _ _) _ => apply rel_rest
  end.
Ltac rl ::= repeat (rstep0 || rstep1 || rstep2); auto.
Lemma rel_update st p r : rel (on_update st p r) (on_update st p r). Proof. unfold on_update. rl. Qed.
Lemma rel_digest st p r : rel (on_digest st p r) (on_digest st p r). Proof. apply rel_update. Qed.
Lemma rel_rounds_update st p r : rel (on_rounds_update st p r) (on_rounds_update st p r). Proof. unfold on_rounds_update. rl. Qed.
Lemma rel_rounds_digest st p r : rel (on_rounds_digest st p r) (on_rounds_digest st p r). Proof. apply rel_rounds_update. Qed.
Lemma rel_feed_words l : rel (on_feed_words l) (on_feed_words l).
Proof. induction l as [|x l IH]; cbn [on_feed_words]; [rl|]. pose proof (grow_feed_words l). rl. Qed.
Lemma rel_pad_step a b p : rel (on_pad_step a b p) (on_pad_step a b p). Proof. unfold on_pad_step. rl. Qed.
Ltac rstep3 := match goal with
  | |- rel (on_update _ _ _) _ => apply rel_update
  | |- rel (on_digest _ _ _) _ => apply rel_digest
  | |- rel (on_rounds_digest _ _ _) _ => apply rel_rounds_digest
  | |- rel (on_feed_words _) _ => apply rel_feed_words
  | |- rel (on_pad_step _ _ _) _ => apply rel_pad_step
  end.
Ltac rl ::= repeat (rstep0 || rstep1 || rstep2 || rstep3); auto.
Lemma rel_hinit h k : rel (on_hinit h k) (on_hinit h k). Proof. unfold on_hinit. rl. Qed.
Lemma rel_rounds_hmac h m a b : rel (on_rounds_hmac h m a b) (on_rounds_hmac h m a b). Proof. unfold on_rounds_hmac. rl. Qed.
Lemma rel_rounds_step A a b st : rel (on_rounds_step A a b st) (on_rounds_step A a b st).
Proof.
  pose proof grow_rounds_hmac. pose proof rel_rounds_hmac. unfold on_rounds_step. destruct st as [[h x] r]. rl.
Qed.
Lemma rel_rounds_compute h r k l s a b : rel (on_rounds_compute h r k l s a b) (on_rounds_compute h r k l s a b).
Proof. pose proof grow_rounds_step. pose proof rel_rounds_step. unfold on_rounds_compute. rl. Qed.
Lemma rel_set_nonce e f iv : rel (on_set_nonce e f iv) (on_set_nonce e f iv). Proof. unfold on_set_nonce. rl. Qed.
Lemma rel_inc c k : rel (on_inc c k) (on_inc c k). Proof. unfold on_inc. rl. Qed.
Lemma rel_gctr c m : forall k r x, rel (on_gctr c m k r x) (on_gctr c m k r x).
Proof.
  induction m; intros; cbn [on_gctr]; [rl|]. pose proof (grow_gctr c m). pose proof grow_inc. pose proof rel_inc. rl.
Qed.
Lemma rel_aead_new a b k iv : rel (on_aead_new a b k iv) (on_aead_new a b k iv). Proof. unfold on_aead_new. rl. Qed.
Lemma pms_int_len q p x : pms_int q p = Ok x -> length x = (BN_num_bytes q * 8)%nat.
Proof.
  intro H. destruct (Nat.ltb_spec (BN_num_bytes q) (BN_num_bytes p)) as [L|L].
  - unfold pms_int in H. apply Nat.ltb_lt in L. rewrite L in H. discriminate.
  - destruct (pms_int_ok q p L) as (y & E & Ly). congruence.
Qed.
Lemma rel_if_ok {A B} (r1 r2 : res A) (k1 k2 : A -> M B) :
  (forall a1 a2, r1 = Ok a1 -> r2 = Ok a2 -> rel (k1 a1) (k2 a2)) -> rel (do a <- lift r1; k1 a) (do a <- lift r2; k2 a).
Proof.
  intros H s1 s2 E b1 t1 b2 t2 E1 E2 X. unfold mbind, lift in E1, E2. destruct r1, r2; cbn in E1, E2; try discriminate.
  exact (H _ _ eq_refl eq_refl _ _ E _ _ _ _ E1 E2 X).
Qed.
Lemma rel_pms s pa pb pa' pb' : (if alice then pa = pa' else pb = pb') -> rel (on_pms s pa pb) (on_pms s pa' pb').
Proof.
  intro O. unfold on_pms, saddmod_bn. apply rel_if_ok. intros x1 x2 X1 X2. apply rel_if_ok. intros y1 y2 Y1 Y2.
  apply rel_bind; [|intro|gr|gr].
  - destruct alice eqn:EA; [|apply rel_gfeed_peer].
    + assert (x1 = x2) as <- by congruence. apply rel_gfeed.
    + now rewrite EA.
    + now rewrite (pms_int_len _ _ _ X1), (pms_int_len _ _ _ X2).
  - apply rel_bind; [|rl|gr|gr]. destruct alice eqn:EA; [apply rel_gfeed_peer|].
    + now rewrite EA.
    + now rewrite (pms_int_len _ _ _ Y1), (pms_int_len _ _ _ Y2).
    + assert (y1 = y2) as <- by congruence. apply rel_gfeed.
Qed.
End REL.
