(** Proofs about session set-up, switching and teardown. *)
From Coq Require Import List Arith Bool Lia.
From Verif Require Import L_Res S_Heap M_Switch.
Import ListNotations.

(** ** the heap discipline is kept by every primitive, hence by every call *)
Definition ids (s : gst) : list nat := map fst (g_live s).

Record Inv (s : gst) : Prop := {
  i_dup : NoDup (ids s);
  i_lt : forall o, In o (ids s) -> o < g_next s;
  i_alloc : forall o, In (HAlloc o) (g_log s) <-> o < g_next s;
  i_free : forall o, In (HFree o) (g_log s) <-> (o < g_next s /\ ~ In o (ids s));
  i_once : forall o, frees o (g_log s) <= 1;
  i_safe : mem_safe (g_log s) }.

Lemma mem_safe_snoc l e : mem_safe l ->
  match e with
  | HAlloc o => ~ In (HAlloc o) l
  | HFree o => In (HAlloc o) l /\ ~ In (HFree o) l
  | HTouch o => In (HAlloc o) l /\ ~ In (HFree o) l
  end -> mem_safe (l ++ [e]).
Proof.
  intros Hm He l1 e' l2 E.
  destruct l2 as [|x l2 _] using rev_ind.
  - apply app_inj_tail in E. destruct E as [<- <-]. exact He.
  - rewrite app_comm_cons, app_assoc in E. apply app_inj_tail in E. destruct E as [E _].
    exact (Hm _ _ _ E).
Qed.

Lemma frees_app o l1 l2 : frees o (l1 ++ l2) = frees o l1 + frees o l2.
Proof. unfold frees. rewrite filter_app, app_length. reflexivity. Qed.
Lemma frees_none o l : ~ In (HFree o) l -> frees o l = 0.
Proof.
  induction l as [|e l IH]; intro H; [reflexivity|].
  unfold frees in *. cbn [filter]. destruct e as [a|a|a]; cbn [is_free].
  - apply IH. intro; apply H; right; assumption.
  - destruct (Nat.eqb_spec o a) as [->|]; [exfalso; apply H; left; reflexivity|].
    apply IH. intro; apply H; right; assumption.
  - apply IH. intro; apply H; right; assumption.
Qed.
Lemma frees_some o l : In (HFree o) l -> 1 <= frees o l.
Proof.
  induction l as [|e l IH]; intro H; [destruct H|].
  unfold frees in *. cbn [filter]. destruct H as [->|H].
  - cbn [is_free]. rewrite Nat.eqb_refl. cbn [length]. lia.
  - specialize (IH H). destruct (is_free o e); cbn [length]; lia.
Qed.

Lemma lookup_in o h : (exists c, lookup o h = Some c) <-> In o (map fst h).
Proof.
  unfold lookup. induction h as [|[a c] h IH]; cbn [find map fst].
  - split; [intros [c H]; discriminate|intros []].
  - destruct (Nat.eqb_spec a o) as [->|N]; cbn [snd].
    + split; [intros _; left; reflexivity|intros _; eexists; reflexivity].
    + rewrite IH. cbn [In]. split; [right; assumption|]. intros [E|H]; [contradiction|exact H].
Qed.
Lemma in_drop o x h : In x (map fst (drop o h)) <-> (In x (map fst h) /\ x <> o).
Proof.
  unfold drop. induction h as [|[a c] h IH]; cbn [filter map fst].
  - cbn. tauto.
  - destruct (Nat.eqb_spec a o) as [->|N]; cbn [negb map fst In]; rewrite ?IH.
    + split; [tauto|]. intros [[E|H] D]; [congruence|tauto].
    + split; [intros [->|[H D]]; tauto|]. intros [[E|H] D]; tauto.
Qed.
Lemma nodup_drop o h : NoDup (map fst h) -> NoDup (map fst (drop o h)).
Proof.
  induction h as [|[a c] h IH]; cbn [drop filter map fst]; intro H; [constructor|].
  inversion H as [|? ? Hn Hd]; subst. fold (drop o h).
  destruct (a =? o); cbn [negb]; [apply IH, Hd|].
  cbn [map fst]. constructor; [|apply IH, Hd].
  intro K. apply (in_drop o a h) in K. tauto.
Qed.

Lemma inv_init : Inv g_init.
Proof.
  constructor; cbn.
  - constructor.
  - intros o [].
  - intro o. split; [intros []|lia].
  - intro o. split; [intros []|lia].
  - intro o. lia.
  - intros l1 e l2 E. destruct l1; discriminate.
Qed.

(** the parts of the state that matter to the invariant *)
Definition same_heap (s s' : gst) : Prop :=
  g_live s = g_live s' /\ g_next s = g_next s' /\ g_log s = g_log s'.
Lemma inv_same s s' : same_heap s s' -> Inv s -> Inv s'.
Proof.
  intros (E1 & E2 & E3) [D L A F O S].
  unfold ids in *. rewrite E1 in *. rewrite E2 in *. rewrite E3 in *.
  constructor; unfold ids; assumption.
Qed.

Lemma inv_new c s : Inv s -> Inv (snd (g_new c s)).
Proof.
  intros [D L A F O S]. unfold g_new. cbn [snd].
  constructor; unfold ids in *; cbn [g_live g_next g_log with_heap map fst].
  - constructor; [|exact D]. intro H. apply L in H. lia.
  - intros o [<-|H]; [lia|]. apply L in H. lia.
  - intro o. rewrite in_app_iff. cbn [In]. rewrite A. split.
    + intros [H|[E|[]]]; [lia|]. injection E as <-. lia.
    + intro H. destruct (Nat.eq_dec o (g_next s)) as [->|]; [right; left; reflexivity|left; lia].
  - intro o. rewrite in_app_iff. cbn [In]. rewrite F. split.
    + intros [[H1 H2]|[E|[]]]; [|discriminate]. split; [lia|]. intros [E|E]; [lia|tauto].
    + intros [H1 H2]. left. split; [|tauto].
      destruct (Nat.eq_dec o (g_next s)) as [->|]; [exfalso; apply H2; left; reflexivity|lia].
  - intro o. rewrite frees_app. specialize (O o). unfold frees at 2. cbn. lia.
  - apply mem_safe_snoc; [exact S|]. rewrite A. lia.
Qed.

Lemma inv_delete p s s' : Inv s -> g_delete p s = Ok s' -> Inv s'.
Proof.
  intros I E. destruct p as [o|]; cbn [g_delete] in E.
  2: { injection E as <-. exact I. }
  destruct (lookup o (g_live s)) as [c|] eqn:K; [|discriminate].
  injection E as <-. destruct I as [D L A F O S].
  assert (Hin : In o (map fst (g_live s))) by (apply lookup_in; exists c; exact K).
  unfold ids in *.
  constructor; unfold ids; cbn [g_live g_next g_log with_heap].
  - apply nodup_drop, D.
  - intros x H. apply in_drop in H. apply L. tauto.
  - intro x. rewrite in_app_iff, A. cbn [In]. split; [intros [H|[E|[]]]; [exact H|discriminate]|tauto].
  - intro x. rewrite in_app_iff, F, in_drop. cbn [In]. split.
    + intros [[H1 H2]|[E|[]]]; [tauto|]. injection E as <-. split; [apply L, Hin|tauto].
    + intros [H1 H2]. destruct (Nat.eq_dec x o) as [->|N]; [right; left; reflexivity|].
      left. split; [exact H1|]. tauto.
  - intro x. rewrite frees_app. specialize (O x). unfold frees at 2. cbn [filter is_free].
    destruct (Nat.eqb_spec x o) as [->|N]; cbn [length]; [|lia].
    rewrite frees_none; [lia|]. rewrite F. tauto.
  - apply mem_safe_snoc; [exact S|]. rewrite A, F. split; [apply L, Hin|tauto].
Qed.

Lemma inv_touch p s c s' : Inv s -> g_touch p s = Ok (c, s') -> Inv s'.
Proof.
  intros I E. destruct p as [o|]; cbn [g_touch] in E; [|discriminate].
  destruct (lookup o (g_live s)) as [c'|] eqn:K; [|discriminate].
  injection E as <- <-. destruct I as [D L A F O S].
  assert (Hin : In o (map fst (g_live s))) by (apply lookup_in; exists c'; exact K).
  unfold ids in *.
  constructor; unfold ids; cbn [g_live g_next g_log with_heap]; try assumption.
  - intro x. rewrite in_app_iff, A. cbn [In]. split; [intros [H|[E|[]]]; [exact H|discriminate]|tauto].
  - intro x. rewrite in_app_iff, F. cbn [In]. split; [intros [H|[E|[]]]; [exact H|discriminate]|tauto].
  - intro x. rewrite frees_app. specialize (O x). unfold frees at 2. cbn. lia.
  - apply mem_safe_snoc; [exact S|]. rewrite A, F. split; [apply L, Hin|tauto].
Qed.

Lemma inv_set s : Inv s -> forall c p, Inv (set_active c p s) /\ Inv (set_gc c p s) /\
  Inv (set_zk c p s) /\ Inv (set_off c p s) /\ Inv (set_files c p s).
Proof. intros I c p. split; [|split; [|split; [|split]]]; (apply (inv_same s); [repeat split|exact I]). Qed.
Lemma inv_en b s : Inv s -> Inv (set_en b s).
Proof. intro I. apply (inv_same s); [repeat split|exact I]. Qed.

Lemma bind_inv {A B} (m : res A) (f : A -> res B) b : bind m f = Ok b ->
  exists a, m = Ok a /\ f a = Ok b.
Proof. destruct m as [a| |]; cbn; intro H; [exists a; split; [reflexivity|exact H]|discriminate|discriminate]. Qed.

Lemma inv_delete_prot s s' : Inv s -> delete_prot_ptr s = Ok s' -> Inv s'.
Proof.
  intros I E. unfold delete_prot_ptr in E.
  apply bind_inv in E. destruct E as (s1 & E1 & E). apply bind_inv in E. destruct E as (s2 & E2 & E).
  injection E as <-. apply inv_set. eapply inv_delete; [|exact E2]. eapply inv_delete; [exact I|exact E1].
Qed.
Lemma inv_setup_fn b f s : Inv s -> Inv (fst (setup_fn b f s)).
Proof.
  intro I. unfold setup_fn.
  assert (J : Inv (set_active (Some (g_next s)) (g_prot (snd (g_new (CCirc b) s))) (snd (g_new (CCirc b) s)))).
  { apply inv_set, inv_new, I. }
  destruct f as [[| |]|]; cbn [fst].
  - exact I.
  - exact J.
  - apply inv_set. apply (inv_new (CProt b) _ J).
  - apply inv_set. apply (inv_new (CProt b) _ J).
Qed.
Lemma inv_safe_setup b f bf rf s r : Inv s ->
  (forall s, Inv s -> Inv (bf s)) -> (forall s, Inv s -> Inv (rf s)) ->
  safe_setup_protocol b f bf rf s = Ok r -> Inv (fst r).
Proof.
  intros I Hb Hr E. unfold safe_setup_protocol in E.
  assert (J : Inv (fst (setup_fn b f (reset_prot_ptr s)))) by (apply inv_setup_fn, inv_set, I).
  destruct (setup_fn b f (reset_prot_ptr s)) as [s1 [|]]; cbn [fst] in J.
  - apply bind_inv in E. destruct E as (s2 & E2 & E). injection E as <-. cbn [fst].
    apply Hr. eapply inv_delete_prot; [exact J|exact E2].
  - injection E as <-. apply Hb, J.
Qed.
Lemma inv_init_files f s : Inv s -> Inv (fst (init_files f s)).
Proof.
  intro I. unfold init_files.
  assert (J : Inv (set_files (Some (g_next s)) (g_enc (snd (g_new CKs s))) (snd (g_new CKs s)))).
  { apply inv_set, inv_new, I. }
  destruct f as [[| |p|p|p]|]; cbn [fst]; try exact I; try exact J;
    apply inv_set; apply (inv_new CEnc _ J).
Qed.
Lemma inv_uninit s s' : Inv s -> uninit_files s = Ok s' -> Inv s'.
Proof.
  intros I E. apply bind_inv in E. destruct E as (s1 & E1 & E2).
  eapply inv_delete; [|exact E2]. eapply inv_delete; [exact I|exact E1].
Qed.
Lemma inv_setup off f s r : Inv s -> setup_protocol off f s = Ok r -> Inv (fst r).
Proof.
  intros I E. unfold setup_protocol in E.
  assert (J := inv_init_files f s I).
  destruct (init_files f s) as [s1 [|]]; cbn [fst] in J.
  { injection E as <-. exact J. }
  apply bind_inv in E. destruct E as ([s2 t2] & E2 & E).
  assert (J2 : Inv s2).
  { apply (inv_safe_setup _ _ _ _ _ _ J) in E2; [exact E2| |]; intros; apply inv_set; assumption. }
  destruct t2; [injection E as <-; exact J2|].
  destruct off; cbn [negb] in E.
  - apply bind_inv in E. destruct E as ([s3 t3] & E3 & E).
    assert (J3 : Inv s3).
    { apply (inv_safe_setup _ _ _ _ _ _ J2) in E3; [exact E3| |]; intros; apply inv_set; assumption. }
    destruct t3; [injection E as <-; exact J3|].
    apply bind_inv in E. destruct E as ([s4 t4] & E4 & E).
    assert (J4 : Inv s4).
    { apply (inv_safe_setup _ _ _ _ _ _ J3) in E4; [exact E4| |]; intros; apply inv_set; assumption. }
    destruct t4; injection E as <-; [exact J4|apply inv_en, J4].
  - apply bind_inv in E. destruct E as ([s3 t3] & E3 & E).
    assert (J3 : Inv s3).
    { apply (inv_safe_setup _ _ _ _ _ _ J2) in E3; [exact E3| |]; intros; apply inv_set; assumption. }
    destruct t3; injection E as <-; [exact J3|apply inv_en, J3].
Qed.
Lemma inv_touch_as ok p s s' : Inv s -> touch_as ok p s = Ok s' -> Inv s'.
Proof.
  intros I E. apply bind_inv in E. destruct E as ([c s1] & E1 & E).
  destruct (ok c); [|discriminate]. injection E as <-. eapply inv_touch; [exact I|exact E1].
Qed.
Lemma inv_finalize s s' : Inv s -> finalize_protocol s = Ok s' -> Inv s'.
Proof.
  intros I E. unfold finalize_protocol in E.
  apply bind_inv in E. destruct E as (s1 & E1 & E). apply bind_inv in E. destruct E as (s2 & E2 & E).
  apply bind_inv in E. destruct E as (s3 & E3 & E). apply bind_inv in E. destruct E as (s4 & E4 & E).
  apply bind_inv in E. destruct E as (s5 & E5 & E).
  assert (I4 : Inv s4).
  { eapply inv_delete; [|exact E4]. eapply inv_delete; [|exact E3]. eapply inv_delete; [|exact E2].
    eapply inv_delete; [exact I|exact E1]. }
  assert (I5 : Inv s5).
  { destruct (g_en s4).
    - apply bind_inv in E5. destruct E5 as (s6 & E6 & E5). eapply inv_delete; [|exact E5].
      eapply inv_delete; [exact I4|exact E6].
    - injection E5 as <-. exact I4. }
  eapply inv_uninit; [exact I5|exact E].
Qed.

Lemma inv_call c s r : Inv s -> do_call c s = Ok r -> Inv (fst r).
Proof.
  intros I E. destruct c as [off f|b f|f| | | | | | | |]; cbn [do_call] in E.
  - eapply inv_setup; [exact I|exact E].
  - injection E as <-. apply inv_setup_fn, I.
  - injection E as <-. unfold setup_proxy_protocol. assert (J := inv_init_files f s I).
    destruct (init_files f s) as [s1 [|]]; cbn [fst] in *; [exact J|apply inv_setup_fn, J].
  - injection E as <-. apply inv_set, I.
  - injection E as <-. apply inv_set, I.
  - apply bind_inv in E. destruct E as (s1 & E1 & E). injection E as <-. cbn [fst].
    apply bind_inv in E1. destruct E1 as (s2 & E2 & E1). injection E1 as <-. apply inv_set.
    apply bind_inv in E2. destruct E2 as (s3 & E3 & E2).
    apply bind_inv in E2. destruct E2 as (s4 & E4 & E2).
    apply bind_inv in E2. destruct E2 as (s5 & E5 & E2).
    eapply inv_touch_as; [|exact E2]. eapply inv_touch_as; [|exact E5].
    eapply inv_touch_as; [|exact E4]. eapply inv_touch_as; [exact I|exact E3].
  - apply bind_inv in E. destruct E as (s1 & E1 & E). injection E as <-.
    eapply inv_touch_as; [exact I|exact E1].
  - apply bind_inv in E. destruct E as (s1 & E1 & E). injection E as <-.
    apply bind_inv in E1. destruct E1 as ([c2 s2] & E2 & E1).
    apply bind_inv in E1. destruct E1 as ([c3 s3] & E3 & E1). injection E1 as <-.
    eapply inv_touch; [|exact E3]. eapply inv_touch; [exact I|exact E2].
  - apply bind_inv in E. destruct E as (s1 & E1 & E). injection E as <-.
    eapply inv_finalize; [exact I|exact E1].
  - apply bind_inv in E. destruct E as (s1 & E1 & E). injection E as <-.
    apply bind_inv in E1. destruct E1 as (s2 & E2 & E1). eapply inv_delete; [|exact E1].
    eapply inv_delete; [exact I|exact E2].
  - apply bind_inv in E. destruct E as (s1 & E1 & E). injection E as <-.
    apply bind_inv in E1. destruct E1 as (s2 & E2 & E1). apply bind_inv in E1. destruct E1 as (s3 & E3 & E1).
    apply bind_inv in E1. destruct E1 as (s4 & E4 & E1).
    eapply inv_uninit; [|exact E1]. eapply inv_delete; [|exact E4]. eapply inv_delete; [|exact E3].
    eapply inv_touch_as; [exact I|exact E2].
Qed.

Lemma run_app cs1 cs2 s : run_calls (cs1 ++ cs2) s = bind (run_calls cs1 s) (run_calls cs2).
Proof.
  revert s. induction cs1 as [|c cs1 IH]; intro s; [reflexivity|].
  cbn [app run_calls]. destruct (do_call c s) as [[s1 t]| |]; cbn [bind]; [apply IH|reflexivity|reflexivity].
Qed.

(** whatever the calls, a run that reaches no undefined behaviour has a safe log *)
Lemma inv_run cs : forall s s', Inv s -> run_calls cs s = Ok s' -> Inv s'.
Proof.
  induction cs as [|c cs IH]; intros s s' I E; cbn [run_calls] in E.
  - injection E as <-. exact I.
  - apply bind_inv in E. destruct E as ([s1 t] & E1 & E). apply (inv_call c s _ I) in E1.
    exact (IH _ _ E1 E).
Qed.

Lemma inv_freed_once s : Inv s -> g_live s = [] -> freed_once (g_log s).
Proof.
  intros I E o H. destruct I as [D L A F O S].
  apply A in H. assert (K : In (HFree o) (g_log s)).
  { apply F. split; [exact H|]. unfold ids. rewrite E. intros []. }
  apply frees_some in K. specialize (O o). lia.
Qed.
Lemma inv_leaks s : Inv s -> g_live s <> [] -> leaks (g_log s).
Proof.
  intros I H. destruct I as [D L A F O S]. unfold ids in *.
  destruct (g_live s) as [|[o c] h] eqn:E; [contradiction|].
  exists o. split.
  - apply A, L. left. reflexivity.
  - apply frees_none. rewrite F. intros [_ K]. apply K. left. reflexivity.
Qed.
