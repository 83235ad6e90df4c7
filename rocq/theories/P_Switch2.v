(** Complete sessions, failing set-ups and repeated finalisation. *)
From Coq Require Import List Arith Bool Lia.
From Verif Require Import L_Res S_Heap M_Switch P_Switch.
Import ListNotations.

(** ** the documented order of calls *)
(** the garbled backend of a session *)
Definition gc_kind (off : bool) : bk := if off then Online else Gc.
(** the backend selected after a call *)
Definition select1 (off : bool) (cur : bk) (c : call) : bk :=
  match c with ToZk => Zk | ToGc | ToOnline => gc_kind off | _ => cur end.
(** what may be called between set-up and finalisation: ToOnline needs an offline phase,
    Sync needs the zero-knowledge backend to be selected *)
Definition call_ok (off : bool) (cur : bk) (c : call) : bool :=
  match c with
  | ToZk | ToGc | Use => true
  | ToOnline => off
  | Sync => match cur with Zk => true | _ => false end
  | _ => false
  end.
Fixpoint body_ok (off : bool) (cur : bk) (cs : list call) : bool :=
  match cs with
  | [] => true
  | c :: cs => call_ok off cur c && body_ok off (select1 off cur c) cs
  end.
Definition selected (off : bool) (cur : bk) (cs : list call) : bk := fold_left (select1 off) cs cur.
Definition first_kind (off : bool) : bk := if off then Offline else Gc.

Inductive session : Type :=
| SProtocol (off : bool) (body : list call)
| SBackend (b : bk) (uses : nat)
| SProxy (uses : nat).
Definition session_ok (x : session) : Prop :=
  match x with SProtocol off body => body_ok off (first_kind off) body = true | _ => True end.
Definition session_calls (x : session) : list call :=
  match x with
  | SProtocol off body => Setup off None :: body ++ [Finalize]
  | SBackend b k => SetupBackend b None :: repeat Use k ++ [FinalizeBackend]
  | SProxy k => SetupProxy None :: repeat Use k ++ [FinalizeProxy]
  end.

(** ** small arithmetic on object names *)
Ltac eqbs :=
  repeat match goal with
  | |- context [?a =? ?b] =>
      first [ replace (a =? b) with true by (symmetry; apply Nat.eqb_eq; lia)
            | replace (a =? b) with false by (symmetry; apply Nat.eqb_neq; lia) ]
  end.
Lemma del_mk a b c d e f g h en k l lv n lg o cl : lookup o lv = Some cl ->
  g_delete (Some o) (mkG a b c d e f g h en k l lv n lg) =
  Ok (mkG a b c d e f g h en k l (drop o lv) n (lg ++ [HFree o])).
Proof. intro H. cbn [g_delete g_live]. rewrite H. reflexivity. Qed.
Lemma del_dead a b c d e f g h en k l lv n lg o : lookup o lv = None ->
  g_delete (Some o) (mkG a b c d e f g h en k l lv n lg) = UB.
Proof. intro H. cbn [g_delete g_live]. rewrite H. reflexivity. Qed.
Lemma del_null s : g_delete None s = Ok s.
Proof. reflexivity. Qed.
Lemma tch_mk a b c d e f g h en k l lv n lg o cl : lookup o lv = Some cl ->
  g_touch (Some o) (mkG a b c d e f g h en k l lv n lg) =
  Ok (cl, mkG a b c d e f g h en k l lv n (lg ++ [HTouch o])).
Proof. intro H. cbn [g_touch g_live]. rewrite H. reflexivity. Qed.
Lemma lookup_hit o c h : lookup o ((o, c) :: h) = Some c.
Proof. unfold lookup. cbn [find fst]. rewrite Nat.eqb_refl. reflexivity. Qed.
Lemma lookup_miss o o' c h : o' <> o -> lookup o ((o', c) :: h) = lookup o h.
Proof. intro H. unfold lookup. cbn [find fst]. apply Nat.eqb_neq in H. rewrite H. reflexivity. Qed.
Lemma lookup_nil o : lookup o [] = None.
Proof. reflexivity. Qed.
Lemma drop_hit o c h : drop o ((o, c) :: h) = drop o h.
Proof. unfold drop. cbn [filter fst]. rewrite Nat.eqb_refl. reflexivity. Qed.
Lemma drop_miss o o' c h : o' <> o -> drop o ((o', c) :: h) = (o', c) :: drop o h.
Proof. intro H. unfold drop. cbn [filter fst]. apply Nat.eqb_neq in H. rewrite H. reflexivity. Qed.
Lemma drop_nil o : drop o [] = [].
Proof. reflexivity. Qed.
Ltac lk := repeat first [rewrite lookup_hit | rewrite lookup_nil | rewrite lookup_miss by lia].
Ltac dr := repeat first [rewrite drop_hit | rewrite drop_nil | rewrite drop_miss by lia].
Ltac prj := cbn [bind g_circ g_prot g_gc_c g_gc_p g_zk_c g_zk_p g_off_c g_off_p g_en g_ks g_enc
                 g_live g_next g_log].
Ltac dl := prj; first
  [ rewrite del_null
  | (erewrite del_mk by (lk; reflexivity)); dr
  | (rewrite del_dead by (lk; reflexivity)) ]; prj.
Ltac hs := repeat (progress (cbn -[Nat.eqb Nat.add]; eqbs)).

(** ** inside a session whose objects are numbered from n *)
Record In_sess (n : nat) (off : bool) (cur : bk) (s : gst) : Prop := {
  s_ks : g_ks s = Some n; s_enc : g_enc s = Some (S n);
  s_zkc : g_zk_c s = Some (2 + n); s_zkp : g_zk_p s = Some (3 + n);
  s_gcc : g_gc_c s = Some (4 + n); s_gcp : g_gc_p s = Some (5 + n);
  s_off : off = true -> g_off_c s = Some (6 + n) /\ g_off_p s = Some (7 + n);
  s_en : g_en s = off;
  s_next : g_next s = (if off then 8 else 6) + n;
  s_live : g_live s =
    (if off then [(7 + n, CProt Offline); (6 + n, CCirc Offline)] else []) ++
    [(5 + n, CProt (gc_kind off)); (4 + n, CCirc (gc_kind off));
     (3 + n, CProt Zk); (2 + n, CCirc Zk); (S n, CEnc); (n, CKs)];
  s_cur : (cur = Zk /\ g_circ s = Some (2 + n) /\ g_prot s = Some (3 + n)) \/
          (cur = gc_kind off /\ g_circ s = Some (4 + n) /\ g_prot s = Some (5 + n)) \/
          (off = true /\ cur = Offline /\ g_circ s = Some (6 + n) /\ g_prot s = Some (7 + n)) }.

Lemma setup_ok off s : g_live s = [] -> exists s',
  setup_protocol off None s = Ok (s', false) /\ In_sess (g_next s) off (first_kind off) s'.
Proof.
  destruct s as [a b c d e f g h en k l lv n lg]. cbn [g_live g_next]. intros ->.
  destruct off; (eexists; split; [cbv -[app]; reflexivity|]); constructor; cbn; auto; try discriminate.
  right. right. auto.
Qed.

Lemma touch_ok n cl s c : lookup n (g_live s) = Some cl -> c = Some n -> exists s',
  g_touch c s = Ok (cl, s') /\ s' = with_heap s (g_live s) (g_next s) (g_log s ++ [HTouch n]).
Proof. intros H ->. cbn [g_touch]. rewrite H. eexists; split; reflexivity. Qed.

Lemma in_sess_log n off cur s lg : In_sess n off cur s ->
  In_sess n off cur (with_heap s (g_live s) (g_next s) lg).
Proof. intros [A B C D E F G H X I J]. constructor; assumption. Qed.

Definition active_is (b : bk) (s : gst) : Prop :=
  exists c p, g_circ s = Some c /\ g_prot s = Some p /\
    lookup c (g_live s) = Some (CCirc b) /\ lookup p (g_live s) = Some (CProt b).

Lemma sess_active n off cur s : In_sess n off cur s -> active_is cur s.
Proof.
  intros [A B C D E F G H X I J]. unfold active_is, lookup. rewrite I.
  destruct J as [(-> & -> & ->)|[(-> & -> & ->)|(-> & -> & -> & ->)]];
    do 2 eexists; (split; [reflexivity|split; [reflexivity|]]);
    try destruct off; hs; split; reflexivity.
Qed.

Lemma touch_active n off cur s : In_sess n off cur s -> exists s' ,
  (use_backend s = Ok s') /\ In_sess n off cur s'.
Proof.
  intro H. destruct (sess_active _ _ _ _ H) as (c & p & Ec & Ep & Lc & Lp).
  unfold use_backend. rewrite Ec. cbn [g_touch]. rewrite Lc. cbn [bind g_prot with_heap].
  rewrite Ep. cbn [g_touch g_live with_heap]. rewrite Lp. cbn [bind].
  eexists. split; [reflexivity|].
  exact (in_sess_log _ _ _ _ _ (in_sess_log _ _ _ _ _ H)).
Qed.

Lemma sess_touch n off cur s o ok cl : In_sess n off cur s -> lookup o (g_live s) = Some cl ->
  ok cl = true ->
  touch_as ok (Some o) s = Ok (with_heap s (g_live s) (g_next s) (g_log s ++ [HTouch o])).
Proof. intros H L K. unfold touch_as. cbn [g_touch]. rewrite L. cbn [bind]. rewrite K. reflexivity. Qed.

Lemma sess_call n off cur c s : In_sess n off cur s -> call_ok off cur c = true -> exists s',
  do_call c s = Ok (s', false) /\ In_sess n off (select1 off cur c) s'.
Proof.
  intros H K. destruct c as [o f|b f|f| | | | | | | |]; try discriminate K; cbn [do_call select1].
  - eexists; split; [reflexivity|]. destruct H as [A B C D E F G I X J L]. constructor; try assumption.
    left. cbn. auto.
  - eexists; split; [reflexivity|]. destruct H as [A B C D E F G I X J L]. constructor; try assumption.
    right. left. cbn. auto.
  - cbn [call_ok] in K. subst off.
    assert (E : exists lg, sync_offline_online (g_off_p s) (g_off_c s) (g_gc_p s) (g_gc_c s) s =
                Ok (with_heap s (g_live s) (g_next s) lg)).
    { assert (L := s_live _ _ _ _ H). assert (Eo := s_off _ _ _ _ H eq_refl). destruct Eo as [E1 E2].
      rewrite E1, E2, (s_gcc _ _ _ _ H), (s_gcp _ _ _ _ H). unfold sync_offline_online.
      rewrite (sess_touch n true cur _ _ _ (CProt Offline) H); [|rewrite L; unfold lookup; hs; reflexivity|reflexivity].
      cbn [bind].
      rewrite (sess_touch n true cur _ _ _ (CCirc Offline) (in_sess_log _ _ _ _ _ H));
        [|cbn [g_live with_heap]; rewrite L; unfold lookup; hs; reflexivity|reflexivity].
      cbn [bind].
      rewrite (sess_touch n true cur _ _ _ (CProt Online) (in_sess_log _ _ _ _ _ (in_sess_log _ _ _ _ _ H)));
        [|cbn [g_live with_heap]; rewrite L; unfold lookup; hs; reflexivity|reflexivity].
      cbn [bind].
      rewrite (sess_touch n true cur _ _ _ (CCirc Online)
                 (in_sess_log _ _ _ _ _ (in_sess_log _ _ _ _ _ (in_sess_log _ _ _ _ _ H))));
        [|cbn [g_live with_heap]; rewrite L; unfold lookup; hs; reflexivity|reflexivity].
      eexists. reflexivity. }
    destruct E as (lg & E). unfold switch_to_online. rewrite E. cbn [bind].
    eexists; split; [reflexivity|].
    apply (in_sess_log _ _ _ _ lg) in H.
    destruct H as [A B C D E' F G I X J L]. constructor; try assumption.
    right. left. auto.
  - destruct cur; try discriminate K.
    destruct (s_cur _ _ _ _ H) as [(_ & Hc & Hp)|[(E & _)|(_ & E & _)]]; [|destruct off; discriminate|discriminate].
    unfold sync_zk_gc. rewrite Hp.
    rewrite (sess_touch n off Zk _ _ _ (CProt Zk) H).
    + cbn [bind]. eexists; split; [reflexivity|]. apply in_sess_log, H.
    + rewrite (s_live _ _ _ _ H). unfold lookup. destruct off; hs; reflexivity.
    + reflexivity.
  - destruct (touch_active _ _ _ _ H) as (s' & E & I). rewrite E. cbn [bind]. eauto.
Qed.

Lemma sess_body n off : forall body cur s, In_sess n off cur s -> body_ok off cur body = true -> exists s',
  run_calls body s = Ok s' /\ In_sess n off (selected off cur body) s'.
Proof.
  induction body as [|c body IH]; intros cur s H K; cbn [run_calls body_ok] in *.
  - exists s. split; [reflexivity|exact H].
  - apply andb_true_iff in K. destruct K as [K1 K2].
    destruct (sess_call _ _ _ _ _ H K1) as (s1 & E & H1). rewrite E. cbn [bind].
    destruct (IH _ _ H1 K2) as (s2 & E2 & H2). exists s2. split; [exact E2|exact H2].
Qed.

(** the garbage pointers finalize_protocol leaves behind *)
Definition stale (n : nat) (off : bool) (s : gst) : Prop :=
  g_gc_c s = Some (4 + n) /\ g_zk_c s = Some (2 + n) /\ g_ks s = Some n /\
  (off = true -> g_off_c s = Some (6 + n)) /\ g_en s = off /\
  g_next s = (if off then 8 else 6) + n /\
  (exists c p, g_circ s = Some c /\ c < g_next s /\ g_prot s = Some p /\ p < g_next s).

Lemma sess_finalize n off cur s : In_sess n off cur s -> exists s',
  finalize_protocol s = Ok s' /\ g_live s' = [] /\ stale n off s'.
Proof.
  destruct s as [a b c d e f g h en k l lv nx lg].
  intros [A B C D E F G H X I J].
  cbn [g_ks g_enc g_zk_c g_zk_p g_gc_c g_gc_p g_en g_live g_off_c g_off_p g_next g_circ g_prot] in *.
  assert (Q : exists c p, a = Some c /\ c < nx /\ b = Some p /\ p < nx).
  { destruct J as [(_ & -> & ->)|[(_ & -> & ->)|(-> & _ & -> & ->)]]; do 2 eexists;
      (split; [reflexivity|split; [|split; [reflexivity|]]]); subst nx; try destruct off; lia. }
  clear J. subst. destruct off; cbn [app].
  - destruct (G eq_refl) as [-> ->].
    unfold finalize_protocol, uninit_files. do 8 dl.
    eexists; split; [reflexivity|]. split; [reflexivity|]. unfold stale; prj. auto 10.
  - unfold finalize_protocol, uninit_files. do 6 dl.
    eexists; split; [reflexivity|]. split; [reflexivity|]. unfold stale; prj.
    repeat split; auto; try discriminate.
Qed.

(** ** a whole session leaves nothing behind *)
Definition prot_bound (s : gst) : Prop := forall o, g_prot s = Some o -> o < g_next s.

Lemma uses_run k s c p cc cp : g_circ s = Some c -> g_prot s = Some p ->
  lookup c (g_live s) = Some cc -> lookup p (g_live s) = Some cp ->
  exists lg, run_calls (repeat Use k) s = Ok (with_heap s (g_live s) (g_next s) lg).
Proof.
  revert s. induction k as [|k IH]; intros s Hc Hp Lc Lp; cbn [repeat run_calls do_call].
  - exists (g_log s). destruct s; reflexivity.
  - unfold use_backend. rewrite Hc. cbn [g_touch]. rewrite Lc. cbn [bind g_prot with_heap].
    rewrite Hp. cbn [g_touch g_live with_heap]. rewrite Lp. cbn [bind].
    edestruct IH as (lg & E); [| | | |exists lg; rewrite E; reflexivity]; assumption.
Qed.

Lemma protocol_run off body s : body_ok off (first_kind off) body = true -> g_live s = [] -> exists s',
  run_calls (session_calls (SProtocol off body)) s = Ok s' /\ g_live s' = [] /\ stale (g_next s) off s'.
Proof.
  intros K L. cbn [session_calls run_calls do_call].
  destruct (setup_ok off s L) as (s1 & E1 & H1). rewrite E1. cbn [bind].
  rewrite run_app. destruct (sess_body _ _ _ _ _ H1 K) as (s2 & E2 & H2). rewrite E2. cbn [bind run_calls do_call].
  destruct (sess_finalize _ _ _ _ H2) as (s3 & E3 & L3 & St). rewrite E3. cbn [bind].
  exists s3. auto.
Qed.

Lemma session_run x s : session_ok x -> g_live s = [] -> exists s',
  run_calls (session_calls x) s = Ok s' /\ g_live s' = [] /\ prot_bound s'.
Proof.
  intros K L. destruct x as [off body|b k|k].
  - destruct (protocol_run off body s K L) as (s' & E & L' & St). exists s'. split; [exact E|]. split; [exact L'|].
    destruct St as (_ & _ & _ & _ & _ & _ & c & p & _ & _ & Ep & Lp). intros o Ho. rewrite Ep in Ho.
    injection Ho as <-. exact Lp.
  - destruct s as [a b0 c d e f g h en k0 l lv n lg]. cbn [g_live] in L. subst lv.
    cbn [session_calls run_calls do_call].
    assert (E0 : exists r, r = setup_fn b None (mkG a b0 c d e f g h en k0 l [] n lg)) by (eexists; reflexivity).
    destruct E0 as (r & E0). rewrite <- E0. cbv -[app] in E0. subst r. cbn [bind].
    rewrite run_app.
    match goal with |- context [run_calls (repeat Use k) ?s0] => destruct (uses_run k s0 n (S n) (CCirc b) (CProt b) eq_refl eq_refl) as (lg1 & E1);
      [prj; lk; reflexivity|prj; lk; reflexivity|] end.
    rewrite E1. cbn [bind run_calls do_call].
    unfold finalize_backend, with_heap. do 2 dl.
    eexists. split; [reflexivity|]. split; [reflexivity|]. intros o Ho. cbn in *. injection Ho as <-. lia.
  - destruct s as [a b0 c d e f g h en k0 l lv n lg]. cbn [g_live] in L. subst lv.
    cbn [session_calls run_calls do_call].
    assert (E0 : exists r, r = setup_proxy_protocol None (mkG a b0 c d e f g h en k0 l [] n lg)) by (eexists; reflexivity).
    destruct E0 as (r & E0). rewrite <- E0. cbv -[app] in E0. subst r. cbn [bind].
    rewrite run_app.
    match goal with |- context [run_calls (repeat Use k) ?s0] => destruct (uses_run k s0 (S (S n)) (S (S (S n))) (CCirc Zk) (CProt Zk) eq_refl eq_refl) as (lg1 & E1);
      [prj; lk; reflexivity|prj; lk; reflexivity|] end.
    rewrite E1. cbn [bind run_calls do_call].
    unfold finalize_proxy_protocol, touch_as, uninit_files, with_heap. prj.
    rewrite (tch_mk _ _ _ _ _ _ _ _ _ _ _ _ _ _ _ (CProt Zk)) by (lk; reflexivity). prj. cbn [is_prot]. do 4 dl.
    eexists. split; [reflexivity|]. split; [reflexivity|]. intros o Ho. cbn in *. injection Ho as <-. lia.
Qed.

Definition all_calls (xs : list session) : list call := concat (map session_calls xs).

Lemma sessions_run xs : forall s, Forall session_ok xs -> g_live s = [] -> prot_bound s -> exists s',
  run_calls (all_calls xs) s = Ok s' /\ g_live s' = [] /\ prot_bound s'.
Proof.
  induction xs as [|x xs IH]; intros s K L B; unfold all_calls; cbn [map concat].
  - exists s. cbn. auto.
  - inversion K as [|? ? K1 K2]; subst. rewrite run_app.
    destruct (session_run x s K1 L) as (s1 & E1 & L1 & B1). rewrite E1. cbn [bind]. exact (IH s1 K2 L1 B1).
Qed.

(** ** the theorems *)
(** complete sessions, of all three kinds and in any number, free every object exactly once *)
Lemma sessions_clean xs : Forall session_ok xs -> exists s,
  run_calls (all_calls xs) g_init = Ok s /\ mem_safe (g_log s) /\ freed_once (g_log s).
Proof.
  intro K. destruct (sessions_run xs g_init K eq_refl) as (s & E & L & _); [intros o H; discriminate H|].
  exists s. split; [exact E|]. assert (I := inv_run _ _ _ inv_init E).
  split; [apply (i_safe _ I)|apply (inv_freed_once s I L)].
Qed.

(** at every point of a session the active backend is the one last selected *)
Lemma session_active xs off body : Forall session_ok xs -> body_ok off (first_kind off) body = true ->
  exists s, run_calls (all_calls xs ++ Setup off None :: body) g_init = Ok s /\
    active_is (selected off (first_kind off) body) s /\ mem_safe (g_log s).
Proof.
  intros K B. destruct (sessions_run xs g_init K eq_refl) as (s & E & L & _); [intros o H; discriminate H|].
  assert (J := run_app (all_calls xs) (Setup off None :: body) g_init).
  rewrite E in J. cbn [bind] in J. cbn [run_calls do_call] in J.
  destruct (setup_ok off s L) as (s1 & E1 & H1). rewrite E1 in J. cbn [bind] in J.
  destruct (sess_body _ _ _ _ _ H1 B) as (s2 & E2 & H2). rewrite E2 in J.
  exists s2. split; [exact J|]. split; [exact (sess_active _ _ _ _ H2)|].
  apply i_safe. exact (inv_run _ _ _ inv_init J).
Qed.

(** whether a failure point is reached *)
Definition throws (off : bool) (f : fail) : bool := match f with FOff _ => off | _ => true end.

(** a set-up that fails at any point, as the first of the process, can be finalised *)
Lemma first_failure off f : throws off f = true -> exists s1 s2,
  do_call (Setup off (Some f)) g_init = Ok (s1, true) /\
  g_circ s1 = None /\ g_prot s1 = None /\
  do_call Finalize s1 = Ok (s2, false) /\ mem_safe (g_log s2) /\ freed_once (g_log s2).
Proof.
  intro T.
  assert (X : exists s1 s2, do_call (Setup off (Some f)) g_init = Ok (s1, true) /\
    g_circ s1 = None /\ g_prot s1 = None /\ do_call Finalize s1 = Ok (s2, false) /\ g_live s2 = []).
  { destruct off, f as [| |[]|[]|[]]; try discriminate T;
      (do 2 eexists; split; [vm_compute; reflexivity|]);
      (split; [reflexivity|split; [reflexivity|split; [vm_compute; reflexivity|reflexivity]]]). }
  destruct X as (s1 & s2 & E1 & A & B & E2 & L). exists s1, s2.
  assert (I1 := inv_call _ _ _ inv_init E1). assert (I2 := inv_call _ _ _ I1 E2). cbn [fst] in I2.
  repeat (split; [assumption|]). split; [apply (i_safe _ I2)|apply (inv_freed_once _ I2 L)].
Qed.

(** a retry without finalising the failed attempt leaks what it had allocated *)
Lemma retry_leaks off1 f off : throws off1 f = true -> f <> FKs -> exists s,
  run_calls [Setup off1 (Some f); Setup off None; Finalize] g_init = Ok s /\ leaks (g_log s).
Proof.
  intros T N.
  assert (X : exists s, run_calls [Setup off1 (Some f); Setup off None; Finalize] g_init = Ok s /\ g_live s <> []).
  { destruct off1, off, f as [| |[]|[]|[]]; try discriminate T; try (exfalso; apply N; reflexivity);
      (eexists; split; [vm_compute; reflexivity|discriminate]). }
  destruct X as (s & E & L). exists s. split; [exact E|]. exact (inv_leaks s (inv_run _ _ _ inv_init E) L).
Qed.

Lemma delete_dead o s : g_live s = [] -> g_delete (Some o) s = UB.
Proof. intro L. cbn [g_delete]. rewrite L. reflexivity. Qed.

(** a second finalize_protocol after a session is always a double free; so is any use *)
Lemma finalize_twice xs off body : Forall session_ok xs -> body_ok off (first_kind off) body = true ->
  run_calls (all_calls (xs ++ [SProtocol off body]) ++ [Finalize]) g_init = UB /\
  run_calls (all_calls (xs ++ [SProtocol off body]) ++ [Use]) g_init = UB.
Proof.
  intros K B. destruct (sessions_run xs g_init K eq_refl) as (s & E & L & _); [intros o H; discriminate H|].
  destruct (protocol_run off body s B L) as (s' & E' & L' & St).
  destruct St as (Eg & _ & _ & _ & _ & _ & c & p & Ec & _ & _).
  unfold all_calls in *. rewrite map_app, concat_app. cbn [map concat]. rewrite app_nil_r.
  assert (J : run_calls (concat (map session_calls xs) ++ session_calls (SProtocol off body)) g_init = Ok s').
  { rewrite run_app, E. exact E'. }
  split; rewrite run_app, J; cbn [bind run_calls do_call].
  - unfold finalize_protocol. rewrite Eg, delete_dead by exact L'. reflexivity.
  - unfold use_backend. rewrite Ec. cbn [g_touch]. rewrite L'. reflexivity.
Qed.

(** a re-setup that fails after a complete session, then finalised: exactly when it frees a
    pointer left over from the earlier session *)
Definition frees_stale (off0 : bool) (f : fail) : bool :=
  match f with FKs | FEnc | FZk _ => true | FGc _ => off0 | FOff _ => false end.

Lemma drop_fresh o h : (forall x, In x (map fst h) -> x <> o) -> drop o h = h.
Proof.
  induction h as [|[x c] h IH]; intro H; [reflexivity|].
  rewrite drop_miss by (apply H; left; reflexivity). f_equal. apply IH. intros y Hy. apply H. right. exact Hy.
Qed.
Lemma safe_ok b bf rf x y c d e f g h en k l lv n lg :
  safe_setup_protocol b None bf rf (mkG x y c d e f g h en k l lv n lg) =
  Ok (bf (mkG (Some n) (Some (S n)) c d e f g h en k l ((S n, CProt b) :: (n, CCirc b) :: lv) (S (S n))
          ((lg ++ [HAlloc n]) ++ [HAlloc (S n)])), false).
Proof. cbv -[app]. reflexivity. Qed.
Lemma safe_fail b p bf rf x y c d e f g h en k l lv n lg : (forall o, In o (map fst lv) -> o < n) ->
  exists n' lg', n <= n' /\
  safe_setup_protocol b (Some p) bf rf (mkG x y c d e f g h en k l lv n lg) =
  Ok (rf (mkG None None c d e f g h en k l lv n' lg'), true).
Proof.
  intro B.
  assert (B0 : forall o, n <= o -> drop o lv = lv).
  { intros o Ho. apply drop_fresh. intros z Hz. apply B in Hz. lia. }
  unfold safe_setup_protocol, reset_prot_ptr, set_active. prj. destruct p; unfold setup_fn.
  - exists n, lg. split; [lia|]. reflexivity.
  - unfold g_new, set_active, with_heap. prj. unfold delete_prot_ptr. dl. rewrite B0 by lia. dl.
    eexists (S _), _. split; [|reflexivity]. lia.
  - unfold g_new, set_active, with_heap. prj. unfold delete_prot_ptr. dl. rewrite B0 by lia. dl.
    rewrite B0 by lia. eexists (S _), _. split; [|reflexivity]. lia.
Qed.
Lemma files_ok a b c d e f g h en k l lv n lg ff :
  match ff with Some FKs | Some FEnc => False | _ => True end ->
  init_files ff (mkG a b c d e f g h en k l lv n lg) =
  (mkG a b c d e f g h en (Some n) (Some (S n)) ((S n, CEnc) :: (n, CKs) :: lv) (S (S n))
       ((lg ++ [HAlloc n]) ++ [HAlloc (S n)]), false).
Proof. destruct ff as [[]|]; try contradiction; reflexivity. Qed.

Ltac bnd := prj; cbn [map fst In]; intros; lia.

Lemma refail_step n off0 off f s : stale n off0 s -> g_live s = [] -> throws off f = true ->
  exists s1, setup_protocol off (Some f) s = Ok (s1, true) /\
    (if frees_stale off0 f then finalize_protocol s1 = UB
     else exists s2, finalize_protocol s1 = Ok s2 /\ g_live s2 = []).
Proof.
  destruct s as [a b c d e g h i en k l lv nx lg].
  intros (Eg & Ez & Ek & Eo & Een & En & _) L T.
  cbn [g_gc_c g_zk_c g_ks g_off_c g_en g_next g_live] in *. subst lv c e k en.
  assert (Hn : 6 + n <= nx) by (subst nx; destruct off0; lia).
  assert (Ho : off0 = true -> 8 + n <= nx) by (intros ->; lia). clear En.
  destruct f as [| |p|p|p]; unfold setup_protocol; cbn [at_zk at_gc at_off frees_stale].
  - eexists; split; [reflexivity|]. unfold finalize_protocol. dl. reflexivity.
  - eexists; split; [reflexivity|]. unfold set_files, with_heap. prj. unfold finalize_protocol. dl. reflexivity.
  - rewrite files_ok by exact I.
    edestruct (safe_fail Zk p backup_zk_ptr reset_zk_ptr) as (n' & lg' & Hn' & E); [|rewrite E].
    { bnd. }
    prj. eexists; split; [reflexivity|]. unfold reset_zk_ptr, set_zk, finalize_protocol. dl. reflexivity.
  - rewrite files_ok by exact I. rewrite safe_ok. unfold backup_zk_ptr, set_zk. prj.
    assert (X : exists n' lg',
      (if negb off
       then let* (s, threw) := safe_setup_protocol Gc (Some p) backup_gc_ptr reset_gc_ptr
              (mkG (Some (S (S nx))) (Some (S (S (S nx)))) (Some (4 + n)) d (Some (S (S nx)))
                 (Some (S (S (S nx)))) h i off0 (Some nx) (Some (S nx))
                 [(S (S (S nx)), CProt Zk); (S (S nx), CCirc Zk); (S nx, CEnc); (nx, CKs)] (S (S (S (S nx))))
                 ((((lg ++ [HAlloc nx]) ++ [HAlloc (S nx)]) ++ [HAlloc (S (S nx))]) ++ [HAlloc (S (S (S nx)))])) in
            if threw then Ok (s, true) else Ok (set_en off s, false)
       else let* (s, threw) := safe_setup_protocol Online (Some p) backup_gc_ptr reset_gc_ptr
              (mkG (Some (S (S nx))) (Some (S (S (S nx)))) (Some (4 + n)) d (Some (S (S nx)))
                 (Some (S (S (S nx)))) h i off0 (Some nx) (Some (S nx))
                 [(S (S (S nx)), CProt Zk); (S (S nx), CCirc Zk); (S nx, CEnc); (nx, CKs)] (S (S (S (S nx))))
                 ((((lg ++ [HAlloc nx]) ++ [HAlloc (S nx)]) ++ [HAlloc (S (S nx))]) ++ [HAlloc (S (S (S nx)))])) in
            if threw then Ok (s, true) else
            let* (s, threw) := safe_setup_protocol Offline None backup_offline_ptr reset_offline_ptr s in
            if threw then Ok (s, true) else Ok (set_en off s, false))%res =
      Ok (mkG None None None None (Some (S (S nx))) (Some (S (S (S nx)))) h i off0 (Some nx) (Some (S nx))
            [(S (S (S nx)), CProt Zk); (S (S nx), CCirc Zk); (S nx, CEnc); (nx, CKs)] n' lg', true)).
    { destruct off; cbn [negb];
        (edestruct safe_fail as (n' & lg' & Hn' & E); [|rewrite E; prj; exists n', lg'; reflexivity]; bnd). }
    destruct X as (n' & lg' & X).
    eexists; split; [exact X|]. unfold finalize_protocol, uninit_files.
    destruct off0.
    + rewrite (Eo eq_refl). specialize (Ho eq_refl). do 5 dl. reflexivity.
    + do 6 dl. eexists; split; reflexivity.
  - cbn [throws] in T. subst off. cbn [negb].
    rewrite files_ok by exact I. rewrite safe_ok. unfold backup_zk_ptr, set_zk. prj.
    rewrite safe_ok. unfold backup_gc_ptr, set_gc. prj.
    edestruct (safe_fail Offline p backup_offline_ptr reset_offline_ptr) as (n' & lg' & Hn' & E); [|rewrite E].
    { bnd. }
    prj. eexists; split; [reflexivity|]. unfold reset_offline_ptr, set_off, finalize_protocol, uninit_files.
    do 4 dl. destruct off0; prj; repeat dl; (eexists; split; reflexivity).
Qed.

Lemma refail xs off0 body off f : Forall session_ok xs -> body_ok off0 (first_kind off0) body = true ->
  throws off f = true ->
  let cs := all_calls (xs ++ [SProtocol off0 body]) ++ [Setup off (Some f); Finalize] in
  if frees_stale off0 f then run_calls cs g_init = UB
  else exists s, run_calls cs g_init = Ok s /\ mem_safe (g_log s) /\ freed_once (g_log s).
Proof.
  intros K B T cs. destruct (sessions_run xs g_init K eq_refl) as (s & E & L & _); [intros o H; discriminate H|].
  destruct (protocol_run off0 body s B L) as (s' & E' & L' & St).
  assert (J : run_calls (all_calls (xs ++ [SProtocol off0 body])) g_init = Ok s').
  { unfold all_calls in *. rewrite map_app, concat_app. cbn [map concat]. rewrite app_nil_r.
    rewrite run_app, E. exact E'. }
  destruct (refail_step _ _ off f _ St L' T) as (s1 & E1 & R).
  assert (Jc : run_calls cs g_init = bind (finalize_protocol s1) (fun s => Ok s)).
  { unfold cs. rewrite run_app, J. cbn [bind run_calls do_call]. rewrite E1. cbn [bind].
    destruct (finalize_protocol s1); reflexivity. }
  destruct (frees_stale off0 f).
  - rewrite Jc, R. reflexivity.
  - destruct R as (s2 & E2 & L2). rewrite E2 in Jc. cbn [bind] in Jc. exists s2. split; [exact Jc|].
    assert (I := inv_run _ _ _ inv_init Jc). split; [apply (i_safe _ I)|apply (inv_freed_once _ I L2)].
Qed.

(** finalising the proxy session after its set-up failed always touches a null or freed object *)
Lemma proxy_failure xs f : Forall session_ok xs ->
  match f with FKs | FEnc | FZk InCirc | FZk InProt => True | _ => False end ->
  run_calls (all_calls xs ++ [SetupProxy (Some f); FinalizeProxy]) g_init = UB.
Proof.
  intros K T. destruct (sessions_run xs g_init K eq_refl) as (s & E & L & B); [intros o H; discriminate H|].
  rewrite run_app, E. cbn [bind run_calls do_call].
  destruct s as [a b c d e g h i en k l lv nx lg]. unfold prot_bound in B. cbn [g_prot g_next g_live] in *. subst lv.
  destruct b as [o|].
  - specialize (B o eq_refl).
    destruct f as [| |[]|[]|[]]; try contradiction;
      unfold setup_proxy_protocol, init_files, setup_fn, finalize_proxy_protocol, touch_as, g_touch, lookup; hs; reflexivity.
  - destruct f as [| |[]|[]|[]]; try contradiction; reflexivity.
Qed.
