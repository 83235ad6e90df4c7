(** Which wires of a session are constants: constant propagation (S_Circuit) applied to the requests
    of the online classes. *)
From Coq Require Import List NArith ZArith Bool Arith Lia.
From Verif Require Import L_Bits L_Res L_PTree S_Lower.
From Verif Require S_Circuit.
From Verif Require Import S_Netlist M_EmpInteger M_Bristol M_Bn M_Sym M_SymOn M_SymSess.
From Verif Require Import M_Sha256 M_Hmac M_Handshake D_AesKs D_AesEnc P_Sha256Msg.
Import ListNotations.
Local Open Scope nat_scope.
Local Open Scope sym_scope.
Local Opaque aes_ks_file aes_enc_file.

(** * Kinds of the wires of a trace *)
Definition wk (k : list (option bool)) (w : wire) : option bool :=
  match w with WPub b => Some b | WId n => nth (N.to_nat n) k None end.
Definition kev (k : list (option bool)) (e : nev) : list (option bool) :=
  match e with
  | EAnd a b => [match wk k a, wk k b with
                 | Some false, _ | _, Some false => Some false
                 | Some true, x => x
                 | x, Some true => x
                 | None, None => None
                 end]
  | EXor a b => [match wk k a, wk k b with Some x, Some y => Some (xorb x y) | _, _ => None end]
  | ENot a => [option_map negb (wk k a)]
  | EFeed _ bs => repeat None (length bs)
  | EReveal _ _ => []
  end.
Fixpoint klist (tr : list nev) : list (option bool) :=
  match tr with [] => [] | e :: t => klist t ++ kev (klist t) e end.
Definition kcons (k : list (option bool)) := Some false :: Some true :: k.
Lemma kind_wk k w : S_Circuit.kind (kcons k) (low_wire w) = wk k w.
Proof. destruct w as [[|]|n]; reflexivity. Qed.
Lemma kind_ev k e : S_Circuit.kind_step (kcons k) (low e) = kcons (k ++ kev k e).
Proof.
  destruct e; cbn [low S_Circuit.kind_step kev]; rewrite ?kind_wk; unfold kcons; cbn [app]; try reflexivity. now rewrite app_nil_r.
Qed.
Lemma lower_kinds tr : fold_left S_Circuit.kind_step (lower tr) [] = kcons (klist tr).
Proof.
  unfold lower. cbn [fold_left S_Circuit.kind_step app]. change [Some false; Some true] with (kcons []).
  induction tr as [|e t IH]; [reflexivity|]. cbn [rev]. rewrite map_app, fold_left_app, IH. apply kind_ev.
Qed.

(** * Live wires *)
Definition kl (s : cst) := klist (c_tr s).
Definition kok (s : cst) : Prop := N.to_nat (c_next s) = length (kl s).
Definition live (s : cst) (w : wire) : Prop :=
  match w with WId n => nth_error (kl s) (N.to_nat n) = Some None | WPub _ => False end.
Definition grow (s s' : cst) : Prop := exists l, kl s' = kl s ++ l.
Lemma live_wk s w : live s w -> wk (kl s) w = None.
Proof. destruct w as [|n]; [contradiction|]. cbn. intro H. now rewrite (nth_error_nth _ _ _ H). Qed.
Lemma grow_refl s : grow s s. Proof. exists []. now rewrite app_nil_r. Qed.
Lemma grow_trans a b c : grow a b -> grow b c -> grow a c.
Proof. intros [l H] [m K]. exists (l ++ m). rewrite K, H. now rewrite app_assoc. Qed.
Lemma live_grow s s' w : grow s s' -> live s w -> live s' w.
Proof.
  intros [l H]. destruct w as [|n]; [tauto|]. cbn. intro E. rewrite H, nth_error_app1; [exact E|].
  apply nth_error_Some. rewrite E. discriminate.
Qed.
Ltac gr := match goal with
  | |- grow ?a ?a => apply grow_refl
  | H : grow ?a ?b |- grow ?a ?c => apply (grow_trans _ _ _ H); gr
  end.
Definition lives (s : cst) (w : sint) : Prop := Forall (live s) w.
Lemma lives_grow s s' w : grow s s' -> lives s w -> lives s' w.
Proof. intros G. apply Forall_impl. intros. eapply live_grow; eauto. Qed.
Definition lat (s : cst) (w : sint) (i : nat) : Prop := live s (nth i w (WPub false)).
Lemma lat_grow s s' w i : grow s s' -> lat s w i -> lat s' w i.
Proof. apply live_grow. Qed.
Lemma lat_lt s w i : lat s w i -> i < length w.
Proof. intro H. destruct (Nat.ltb_spec i (length w)) as [L|L]; [exact L|]. unfold lat in H. rewrite nth_overflow in H by exact L. destruct H. Qed.
Lemma lives_lat s w : lives s w <-> forall i, i < length w -> lat s w i.
Proof.
  split.
  - intros F i L. unfold lives in F. rewrite Forall_forall in F. apply F, nth_In, L.
  - intro H. apply Forall_forall. intros x Hx. destruct (In_nth _ _ (WPub false) Hx) as (i & L & <-). exact (H i L).
Qed.

(** * Programs *)
Definition pc {A} (s : cst) (m : M A) (Q : cst -> A -> Prop) : Prop :=
  kok s -> forall a s', m s = Ok (a, s') -> kok s' /\ grow s s' /\ Q s' a.
Lemma pc_ret {A} s (a : A) (Q : cst -> A -> Prop) : Q s a -> pc s (mret a) Q.
Proof. intros H K b s' E. injection E as <- <-. split; [exact K|]. split; [apply grow_refl|exact H]. Qed.
Lemma pc_bind {A B} s (m : M A) (k : A -> M B) Q R : pc s m Q ->
  (forall s' a, grow s s' -> Q s' a -> pc s' (k a) R) -> pc s (mbind m k) R.
Proof.
  intros H K Ks b s' E. unfold mbind in E. destruct (m s) as [[a t]| |] eqn:Em; try discriminate E. cbn in E.
  destruct (H Ks _ _ Em) as (Kt & G & Qa). destruct (K _ _ G Qa Kt _ _ E) as (K' & G' & Rb).
  split; [exact K'|]. split; [eapply grow_trans; eauto|exact Rb].
Qed.
Lemma pc_lift {A} s (r : res A) (Q : cst -> A -> Prop) : (forall a, r = Ok a -> Q s a) -> pc s (lift r) Q.
Proof. intros H K b s' E. unfold lift in E. destruct r; try discriminate E. injection E as <- <-. split; [exact K|]. split; [apply grow_refl|auto]. Qed.
Lemma pc_mono {A} s (m : M A) (Q R : cst -> A -> Prop) : pc s m Q -> (forall s' a, grow s s' -> Q s' a -> R s' a) -> pc s m R.
Proof. intros H I K a s' E. destruct (H K _ _ E) as (K' & G & q). auto. Qed.
Lemma pc_err {A} s (Q : cst -> A -> Prop) : pc s (lift Err) Q. Proof. apply pc_lift. discriminate. Qed.
Lemma pc_ub {A} s (Q : cst -> A -> Prop) : pc s (lift UB) Q. Proof. apply pc_lift. discriminate. Qed.

Lemma step1 s e o : kok s -> kev (kl s) e = [o] -> let s' := mkC (N.succ (c_next s)) (e :: c_tr s) in
  kok s' /\ grow s s' /\ (o = None -> live s' (WId (c_next s))).
Proof.
  intros K E s'. subst s'. unfold kok, grow, kl in *. cbn [c_tr klist c_next live]. unfold kl. cbn [c_tr klist]. rewrite E.
  split; [rewrite N2Nat.inj_succ, app_length, K; cbn; lia|]. split; [eauto|]. intros ->.
  rewrite K, nth_error_app2, Nat.sub_diag by lia. reflexivity.
Qed.
Lemma pc_gxor s a b : pc s (gxor a b) (fun s' w => live s a \/ live s b -> live s' w).
Proof.
  intros K w s' E. injection E as <- <-. destruct (step1 s (EXor a b) _ K eq_refl) as (K' & G & L).
  split; [exact K'|]. split; [exact G|]. intro H. apply L. destruct H as [H|H]; rewrite (live_wk _ _ H); [reflexivity|now destruct (wk (kl s) a)].
Qed.
Lemma pc_gand s a b : pc s (gand a b) (fun s' w => live s a -> live s b -> live s' w).
Proof.
  intros K w s' E. injection E as <- <-. destruct (step1 s (EAnd a b) _ K eq_refl) as (K' & G & L).
  split; [exact K'|]. split; [exact G|]. intros H1 H2. apply L. now rewrite (live_wk _ _ H1), (live_wk _ _ H2).
Qed.
Lemma pc_gnot s a : pc s (gnot a) (fun s' w => live s a -> live s' w).
Proof.
  intros K w s' E. injection E as <- <-. destruct (step1 s (ENot a) _ K eq_refl) as (K' & G & L).
  split; [exact K'|]. split; [exact G|]. intros H. apply L. now rewrite (live_wk _ _ H).
Qed.
Lemma nseq_in x start n : In x (nseq start n) -> exists i, i < n /\ x = (start + N.of_nat i)%N.
Proof. unfold nseq. rewrite in_map_iff. intros (i & <- & H). apply in_seq in H. exists i. split; [lia|reflexivity]. Qed.
Lemma pc_gfeed s p bs : pc s (gfeed p bs) (fun s' w => lives s' w /\ length w = length bs).
Proof.
  intros K w s' E. injection E as <- <-. unfold kok, grow, kl in *. cbn [c_tr klist c_next kev].
  split; [rewrite app_length, repeat_length, <- K; lia|]. split; [eauto|]. split.
  - apply Forall_forall. intros x H. apply in_map_iff in H as (n & <- & H). apply nseq_in in H as (i & L & ->).
    cbn [live kl c_tr klist kev]. unfold kl. cbn [c_tr klist kev]. rewrite N2Nat.inj_add, Nat2N.id, K, nth_error_app2 by lia.
    replace (_ + i - _) with i by lia. now rewrite nth_error_repeat.
  - unfold nseq. now rewrite !map_length, seq_length.
Qed.
Lemma pc_greveal orc s p ws : pc s (greveal orc p ws) (fun _ _ => True).
Proof.
  intros K w s' E. injection E as <- <-. unfold kok, grow, kl in *. cbn [c_tr klist c_next kev]. rewrite app_nil_r.
  split; [exact K|]. split; [exists []; now rewrite app_nil_r|exact I].
Qed.
Ltac pb := eapply pc_bind; [|intros ? ? ? ?].

(** * Vectors *)
Lemma pc_szip g : (forall s x y, pc s (g x y) (fun s' w => live s x \/ live s y -> live s' w)) -> forall a b s,
  pc s (szip g a b) (fun s' r => length r = Nat.min (length a) (length b) /\
    forall i, i < length r -> lat s a i \/ lat s b i -> lat s' r i).
Proof.
  intros Hg. induction a as [|x a IH]; intros [|y b] s; cbn [szip]; try (apply pc_ret; split; [reflexivity|cbn; lia]).
  eapply pc_bind; [apply Hg|]. intros s1 z G1 Hz. eapply pc_bind; [apply IH|]. intros s2 r G2 [L Hr]. apply pc_ret.
  split; [cbn; now rewrite L|]. intros [|i] Hi H; unfold lat in *; cbn [nth] in *.
  - eapply live_grow; [exact G2|]. apply Hz. exact H.
  - apply Hr; [cbn in Hi; lia|]. destruct H as [H|H]; [left|right]; eapply live_grow; eauto.
Qed.
Lemma pc_sxor a b s : pc s (sxor a b) (fun s' r => length r = Nat.min (length a) (length b) /\
    forall i, i < length r -> lat s a i \/ lat s b i -> lat s' r i).
Proof. apply pc_szip. intros. apply pc_gxor. Qed.
Lemma pc_zlen g : (forall s x y, pc s (g x y) (fun _ _ => True)) -> forall a b s,
  pc s (szip g a b) (fun s' r => length r = Nat.min (length a) (length b)).
Proof.
  intros Hg. induction a as [|x a IH]; intros [|y b] s; cbn [szip]; try (apply pc_ret; reflexivity).
  eapply pc_bind; [apply Hg|]. intros s1 z G1 Hz. eapply pc_bind; [apply IH|]. intros s2 r G2 L. apply pc_ret. cbn. now rewrite L.
Qed.
Lemma pc_sand a b s : pc s (sand a b) (fun s' r => length r = Nat.min (length a) (length b)).
Proof. apply pc_zlen. intros. eapply pc_mono; [apply pc_gand|auto]. Qed.
Lemma pc_sselect a c b s : pc s (sselect a c b) (fun s' r => length r = Nat.min (length a) (length b) /\
    forall i, i < length r -> lat s a i -> lat s' r i).
Proof.
  unfold sselect. revert b s. induction a as [|x a IH]; intros [|y b] s; cbn [szip]; try (apply pc_ret; split; [reflexivity|cbn; lia]).
  eapply pc_bind with (Q := fun s' w => live s x -> live s' w).
  { eapply pc_bind; [apply pc_gxor|]. intros s1 t G1 _. eapply pc_bind; [apply pc_gand|]. intros s2 u G2 _.
    eapply pc_mono; [apply pc_gxor|]. intros s3 w G3 H L. apply H. left. eapply live_grow; [|exact L]. eapply grow_trans; eauto. }
  intros s1 z G1 Hz. eapply pc_bind; [apply IH|]. intros s2 r G2 [L Hr]. apply pc_ret.
  split; [cbn; now rewrite L|]. intros [|i] Hi H; unfold lat in *; cbn [nth] in *.
  - eapply live_grow; [exact G2|]. apply Hz. exact H.
  - apply Hr; [cbn in Hi; lia|]. eapply live_grow; eauto.
Qed.
Lemma pc_sadd_c : forall a c b s, pc s (sadd_c c a b) (fun s' r => length r = Nat.min (length a) (length b) /\
    forall i, i < length r -> lat s a i \/ lat s b i -> lat s' r i).
Proof.
  induction a as [|x a IH]; intros c [|y b] s; cbn [sadd_c]; try (apply pc_ret; split; [reflexivity|cbn; lia]).
  assert (Last : pc s (do t <- gxor c y; do d <- gxor t x; mret [d])
    (fun s' r => length r = 1 /\ forall i, i < length r -> lat s (x :: a) i \/ lat s (y :: b) i -> lat s' r i)).
  { eapply pc_bind; [apply pc_gxor|]. intros s1 t G1 H1. eapply pc_bind; [apply pc_gxor|]. intros s2 d G2 H2. apply pc_ret.
    split; [reflexivity|]. intros [|i] Hi H; [|cbn in Hi; lia]. unfold lat in *. cbn [nth] in *. apply H2.
    destruct H as [H|H]; [right; eapply live_grow; eauto|left; apply H1; right; exact H]. }
  destruct a as [|x' a]; [|destruct b as [|y' b]].
  - eapply pc_mono; [exact Last|]. intros s' r _ [L H]. split; [exact L|exact H].
  - eapply pc_mono; [exact Last|]. intros s' r _ [L H]. split; [exact L|exact H].
  - clear Last. eapply pc_bind; [apply pc_gxor|]. intros s1 axc G1 H1. eapply pc_bind; [apply pc_gxor|]. intros s2 bxc G2 H2.
    eapply pc_bind; [apply pc_gxor|]. intros s3 d G3 H3. eapply pc_bind; [apply pc_gand|]. intros s4 t G4 _.
    eapply pc_bind; [apply pc_gxor|]. intros s5 c' G5 _. eapply pc_bind; [apply IH|]. intros s6 r G6 [L Hr]. apply pc_ret.
    assert (G02 := grow_trans _ _ _ G1 G2). assert (G36 := grow_trans _ _ _ G4 (grow_trans _ _ _ G5 G6)).
    assert (G05 := grow_trans _ _ _ G02 (grow_trans _ _ _ G3 (grow_trans _ _ _ G4 G5))).
    split; [cbn [length] in *; now rewrite L|]. intros [|i] Hi H; unfold lat in *; cbn [nth] in H |- *.
    + eapply live_grow; [exact G36|]. apply H3. destruct H as [H|H]; [left; exact (live_grow _ _ _ G02 H)|].
      right. apply H2. left. exact (live_grow _ _ _ G1 H).
    + apply Hr; [cbn in Hi; lia|]. destruct H as [H|H]; [left|right]; exact (live_grow _ _ _ G05 H).
Qed.
Lemma pc_sadd a b s : pc s (sadd a b) (fun s' r => length r = Nat.min (length a) (length b) /\
    forall i, i < length r -> lat s a i \/ lat s b i -> lat s' r i).
Proof. apply pc_sadd_c. Qed.
Lemma pc_ssub_c : forall a c b s, pc s (ssub_c c a b) (fun s' r => length r = Nat.min (length a) (length b)).
Proof.
  induction a as [|x a IH]; intros c [|y b] s; cbn [ssub_c]; try (apply pc_ret; reflexivity).
  destruct a as [|x' a]; [|destruct b as [|y' b]].
  - pb; [apply pc_gxor|]. pb; [apply pc_gxor|]. apply pc_ret. reflexivity.
  - pb; [apply pc_gxor|]. pb; [apply pc_gxor|]. apply pc_ret. reflexivity.
  - do 5 (pb; [first [apply pc_gxor|apply pc_gand]|]). pb; [apply IH|]. apply pc_ret. cbn [length] in *. match goal with H : length _ = _ |- _ => rewrite H end. reflexivity.
Qed.
Lemma pc_sgeq a b s : pc s (sgeq a b) (fun _ _ => True).
Proof. unfold sgeq. pb; [apply pc_ssub_c|]. eapply pc_mono; [apply pc_gnot|auto]. Qed.

(** * SHA-256 words *)
Definition w32 (w : sint) : Prop := length w = 32.
Definition lw (s : cst) (w : sint) : Prop := length w = 32 /\ lives s w.
Lemma lw_grow s s' w : grow s s' -> lw s w -> lw s' w.
Proof. intros G [L H]. split; [exact L|]. exact (lives_grow _ _ _ G H). Qed.
Lemma lws_grow s s' l : grow s s' -> Forall (lw s) l -> Forall (lw s') l.
Proof. intros G. apply Forall_impl. intros. eapply lw_grow; eauto. Qed.
Lemma pc_add32 a b s : w32 a -> w32 b -> pc s (sadd a b) (fun s' r => w32 r /\ (lw s a \/ lw s b -> lw s' r)).
Proof.
  intros A B. eapply pc_mono; [apply pc_sadd|]. intros s' r G [L H]. rewrite A, B in L.
  split; [exact L|]. intro X. split; [exact L|]. apply lives_lat. intros i Hi. apply H; [exact Hi|].
  destruct X as [[_ X]|[_ X]]; rewrite lives_lat in X; [left|right]; apply X; [rewrite A|rewrite B]; change (Nat.min 32 32) with 32 in L; lia.
Qed.
Lemma pc_xor32 a b s : w32 a -> w32 b -> pc s (sxor a b) (fun s' r => w32 r).
Proof. intros A B. eapply pc_mono; [apply pc_sxor|]. intros s' r G [L H]. now rewrite A, B in L. Qed.
Lemma pc_and32 a b s : w32 a -> w32 b -> pc s (sand a b) (fun s' r => w32 r).
Proof. intros A B. eapply pc_mono; [apply pc_sand|]. intros s' r G L. now rewrite A, B in L. Qed.
Lemma sshr_len x n : length (sshr x n) = length x.
Proof. unfold sshr. rewrite app_length, skipn_length, repeat_length. lia. Qed.
Lemma sshl_len x n : length (sshl x n) = length x.
Proof. unfold sshl. rewrite firstn_length, app_length, repeat_length. lia. Qed.
Lemma pc_rrot32 a n s : w32 a -> pc s (srrot a n) (fun s' r => w32 r).
Proof. intros A. apply pc_xor32; unfold w32; [rewrite sshr_len|rewrite sshl_len]; exact A. Qed.
Lemma sshr32 x n : w32 x -> w32 (sshr x n). Proof. unfold w32. now rewrite sshr_len. Qed.

(** the message schedule: if the first eight words are live, all words from the 16th on are *)
Definition sched_ok (s : cst) (w : list sint) : Prop := 16 <= length w /\ Forall w32 w.
Lemma ws32 w i : Forall w32 w -> i < length w -> w32 (ws w i).
Proof. intros F L. rewrite Forall_forall in F. apply F, nth_In, L. Qed.
Lemma pc_w_next w s : 16 <= length w -> Forall w32 w -> pc s (on_w_next w) (fun s' w' => exists t, w' = w ++ [t] /\ w32 t /\
  (lw s (ws w (length w - 16)) \/ lw s (ws w (length w - 7)) -> lw s' t)).
Proof.
  intros L F. assert (W : forall j, 2 <= j <= 16 -> w32 (ws w (length w - j))) by (intros; apply ws32; [exact F|lia]).
  unfold on_w_next. cbv zeta.
  pb; [apply pc_rrot32, W; lia|]. pb; [apply pc_rrot32, W; lia|]. pb; [apply pc_xor32; assumption|].
  pb; [apply pc_xor32; [assumption|apply sshr32, W; lia]|].
  pb; [apply pc_rrot32, W; lia|]. pb; [apply pc_rrot32, W; lia|]. pb; [apply pc_xor32; assumption|].
  pb; [apply pc_xor32; [assumption|apply sshr32, W; lia]|].
  eapply pc_bind; [apply pc_add32; [apply W; lia|assumption]|]. intros s1 t1 G1 [A1 B1].
  eapply pc_bind; [apply pc_add32; [exact A1|apply W; lia]|]. intros s2 t2 G2 [A2 B2].
  eapply pc_bind; [apply pc_add32; [exact A2|assumption]|]. intros s3 t3 G3 [A3 B3].
  apply pc_ret. exists t3. split; [reflexivity|]. split; [exact A3|]. intro X.
  assert (GG : grow s s'6) by gr.
  apply B3. left. apply B2. destruct X as [X|X]; [left; apply B1; left|right; eapply lw_grow; [exact G1|]]; eapply lw_grow; eauto.
Qed.

(** loops *)
Lemma pc_sfold {S A} (f : S -> A -> M S) (I : cst -> S -> Prop) : forall l st s, I s st ->
  (forall s' st x, grow s s' -> In x l -> I s' st -> pc s' (f st x) I) -> pc s (sfold f l st) I.
Proof.
  induction l as [|x l IH]; intros st s H K; cbn [sfold]; [apply pc_ret, H|].
  eapply pc_bind; [apply K; [apply grow_refl|now left|exact H]|]. intros s1 a G1 H1. apply IH; [exact H1|].
  intros s2 st2 y G2 Hy H2. apply K; [eapply grow_trans; eauto|now right|exact H2].
Qed.
Lemma pc_siter {S} (f : S -> M S) (I : nat -> cst -> S -> Prop) :
  (forall k s st, I k s st -> pc s (f st) (I (Datatypes.S k))) -> forall n k st s, I k s st -> pc s (siter n f st) (I (k + n)).
Proof.
  intro K. induction n as [|n IH]; intros k st s H; cbn [siter]; [apply pc_ret; now rewrite Nat.add_0_r|].
  eapply pc_bind; [apply K, H|]. intros s1 a G1 H1. replace (k + Datatypes.S n) with (Datatypes.S k + n) by lia. apply IH, H1.
Qed.
Lemma pc_ext {A} s (m m' : M A) Q : m s = m' s -> pc s m' Q -> pc s m Q.
Proof. intros E H K a s' R. rewrite E in R. exact (H K a s' R). Qed.
Lemma sfold_app {S A} (f : S -> A -> M S) : forall l1 l2 st s,
  sfold f (l1 ++ l2) st s = mbind (sfold f l1 st) (sfold f l2) s.
Proof.
  induction l1 as [|x l1 IH]; intros l2 st s; cbn [app sfold]; [reflexivity|].
  unfold mbind at 1 2 3. destruct (f st x s) as [[a t]| |]; cbn [bind fst snd]; [|reflexivity|reflexivity]. rewrite IH. reflexivity.
Qed.

(** message schedule *)
Definition sched (k : nat) (s : cst) (w : list sint) : Prop :=
  length w = 16 + k /\ Forall w32 w /\ (forall i, i < 8 -> lw s (ws w i)) /\ (forall i, 16 <= i < length w -> lw s (ws w i)).
Definition words (k : nat) (s : cst) (w : list sint) : Prop := length w = 16 + k /\ Forall w32 w.
Lemma ws_app w t i : i < length w -> ws (w ++ [t]) i = ws w i.
Proof. intro. unfold ws. now rewrite app_nth1. Qed.
Lemma ws_last w t : ws (w ++ [t]) (length w) = t.
Proof. unfold ws. rewrite app_nth2, Nat.sub_diag by lia. reflexivity. Qed.
Lemma pc_words c s : length c = 16 -> Forall w32 c -> pc s (siter 48 on_w_next c) (words 48).
Proof.
  intros L F. apply (pc_siter on_w_next words) with (k := 0) (n := 48); [|split; [lia|exact F]].
  clear. intros k s w [L F]. eapply pc_mono; [apply pc_w_next; [lia|exact F]|]. intros s' w' _ (t & -> & T & _).
  split; [rewrite app_length; cbn; lia|apply Forall_app; auto].
Qed.
Lemma pc_sched c s : length c = 16 -> Forall w32 c -> (forall i, i < 8 -> lw s (ws c i)) -> pc s (siter 48 on_w_next c) (sched 48).
Proof.
  intros L F H. apply (pc_siter on_w_next sched) with (k := 0) (n := 48); [|split; [lia|split; [exact F|split; [exact H|intros; lia]]]].
  clear. intros k s w (L & F & H1 & H2). eapply pc_mono; [apply pc_w_next; [lia|exact F]|]. intros s' w' G (t & -> & T & Ht).
  split; [rewrite app_length; cbn; lia|]. split; [apply Forall_app; auto|]. split.
  - intros i Hi. rewrite ws_app by lia. eapply lw_grow; eauto.
  - intros i Hi. rewrite app_length in Hi. cbn [length] in Hi. destruct (Nat.eq_dec i (length w)) as [->|N].
    + rewrite ws_last. apply Ht. destruct (Nat.ltb_spec k 8); [left; apply H1; lia|right; apply H2; lia].
    + rewrite ws_app by lia. eapply lw_grow; [exact G|]. apply H2. lia.
Qed.

(** one round *)
Definition all8 (P : sint -> Prop) (x : sint8) : Prop :=
  let '(a, b, c, d, e, f, g, h) := x in P a /\ P b /\ P c /\ P d /\ P e /\ P f /\ P g /\ P h.
Lemma pc_round x kw s : all8 w32 x -> w32 (fst kw) -> w32 (snd kw) -> pc s (on_round x kw) (fun s' y =>
  all8 w32 y /\
  let '(a, b, c, d, e, f, g, h) := x in let '(a', b', c', d', e', f', g', h') := y in
  (b' = a /\ c' = b /\ d' = c /\ f' = e /\ g' = f /\ h' = g) /\ (lw s h \/ lw s (snd kw) -> lw s' a' /\ lw s' e')).
Proof.
  destruct x as [[[[[[[a b] c] d] e] f] g] h]. intros (A & B & C & D & E & F & G & H) K W. unfold on_round.
  do 2 (pb; [apply pc_rrot32; assumption|]). pb; [apply pc_xor32; assumption|]. pb; [apply pc_rrot32; assumption|].
  pb; [apply pc_xor32; assumption|]. pb; [apply pc_xor32; assumption|]. pb; [apply pc_and32; assumption|]. pb; [apply pc_xor32; assumption|].
  eapply pc_bind; [apply pc_add32; assumption|]. intros s1 t1 G1 [A1 B1].
  eapply pc_bind; [apply pc_add32; assumption|]. intros s2 t2 G2 [A2 B2].
  eapply pc_bind; [apply pc_add32; assumption|]. intros s3 t3 G3 [A3 B3].
  eapply pc_bind; [apply pc_add32; assumption|]. intros s4 t4 G4 [A4 B4].
  do 2 (pb; [apply pc_rrot32; assumption|]). pb; [apply pc_xor32; assumption|]. pb; [apply pc_rrot32; assumption|].
  pb; [apply pc_xor32; assumption|]. pb; [apply pc_xor32; assumption|]. pb; [apply pc_xor32; assumption|].
  pb; [apply pc_and32; assumption|]. pb; [apply pc_xor32; assumption|].
  eapply pc_bind; [apply pc_add32; assumption|]. intros s5 t5 G5 [A5 B5].
  eapply pc_bind; [apply pc_add32; assumption|]. intros s6 t6 G6 [A6 B6].
  eapply pc_bind; [apply pc_add32; assumption|]. intros s7 t7 G7 [A7 B7].
  apply pc_ret. split; [cbn; tauto|]. split; [tauto|]. intro X.
  assert (T : lw s4 t4).
  { apply B4. destruct X as [X|X].
    - left. apply B3. left. apply B2. left. apply B1. left. eapply lw_grow; [|exact X]. gr.
    - right. eapply lw_grow; [|exact X]. gr. }
  split.
  - apply B7. left. eapply lw_grow; [|exact T]. gr.
  - eapply lw_grow; [exact G7|]. apply B6. right. eapply lw_grow; [|exact T]. gr.
Qed.
Definition d8 (s : cst) (l : list sint) : Prop := length l = 8 /\ Forall (lw s) l.
Definition dw (l : list sint) : Prop := length l = 8 /\ Forall w32 l.
Lemma d8_grow s s' l : grow s s' -> d8 s l -> d8 s' l.
Proof. intros G [L F]. split; [exact L|]. exact (lws_grow _ _ _ G F). Qed.
Lemma lw_w32 s w : lw s w -> w32 w. Proof. intros [L _]. exact L. Qed.
Lemma d8_dw s l : d8 s l -> dw l. Proof. intros [L F]. split; [exact L|]. eapply Forall_impl; [|exact F]. intros. eapply lw_w32; eauto. Qed.
Lemma spub_len n v : length (spub n v) = n. Proof. unfold spub. rewrite map_length. unfold int_of. apply bits_of_N_length. Qed.
Lemma on_k_ok : Forall w32 on_k /\ length on_k = 64.
Proof. split; [|reflexivity]. unfold on_k. apply Forall_map, Forall_forall. intros. apply spub_len. Qed.
Lemma on_h_ok : dw on_h.
Proof. split; [reflexivity|]. unfold on_h. apply Forall_map, Forall_forall. intros. apply spub_len. Qed.
Lemma all8_impl (P Q : sint -> Prop) x : (forall w, P w -> Q w) -> all8 P x -> all8 Q x.
Proof. destruct x as [[[[[[[a b] c] d] e] f] g] h]. cbn. intros I H. decompose [and] H. repeat split; auto. Qed.
Lemma pc_final ih x s : dw ih -> all8 w32 x -> all8 (lw s) x -> pc s (
  let '(a, b, c, d, e, f, g, h) := x in
  do a <- sadd a (ws ih 0); do b <- sadd b (ws ih 1); do c <- sadd c (ws ih 2);
  do d <- sadd d (ws ih 3); do e <- sadd e (ws ih 4); do f <- sadd f (ws ih 5);
  do g <- sadd g (ws ih 6); do h <- sadd h (ws ih 7);
  mret [a; b; c; d; e; f; g; h]) d8.
Proof.
  destruct x as [[[[[[[a b] c] d] e] f] g] h]. intros [L F] (A & B & C & D & E & P & G & H) (LA & LB & LC & LD & LE & LF & LG & LH).
  assert (W : forall i, i < 8 -> w32 (ws ih i)) by (intros; apply ws32; [exact F|lia]).
  eapply pc_bind; [apply pc_add32; [assumption|apply W; lia]|]. intros s1 t1 G1 [A1 B1].
  eapply pc_bind; [apply pc_add32; [assumption|apply W; lia]|]. intros s2 t2 G2 [A2 B2].
  eapply pc_bind; [apply pc_add32; [assumption|apply W; lia]|]. intros s3 t3 G3 [A3 B3].
  eapply pc_bind; [apply pc_add32; [assumption|apply W; lia]|]. intros s4 t4 G4 [A4 B4].
  eapply pc_bind; [apply pc_add32; [assumption|apply W; lia]|]. intros s5 t5 G5 [A5 B5].
  eapply pc_bind; [apply pc_add32; [assumption|apply W; lia]|]. intros s6 t6 G6 [A6 B6].
  eapply pc_bind; [apply pc_add32; [assumption|apply W; lia]|]. intros s7 t7 G7 [A7 B7].
  eapply pc_bind; [apply pc_add32; [assumption|apply W; lia]|]. intros s8 t8 G8 [A8 B8].
  apply pc_ret. split; [reflexivity|].
  assert (T1 : lw s1 t1) by (apply B1; left; assumption).
  assert (T2 : lw s2 t2) by (apply B2; left; eapply lw_grow; [|eassumption]; gr).
  assert (T3 : lw s3 t3) by (apply B3; left; eapply lw_grow; [|eassumption]; gr).
  assert (T4 : lw s4 t4) by (apply B4; left; eapply lw_grow; [|eassumption]; gr).
  assert (T5 : lw s5 t5) by (apply B5; left; eapply lw_grow; [|eassumption]; gr).
  assert (T6 : lw s6 t6) by (apply B6; left; eapply lw_grow; [|eassumption]; gr).
  assert (T7 : lw s7 t7) by (apply B7; left; eapply lw_grow; [|eassumption]; gr).
  assert (T8 : lw s8 t8) by (apply B8; left; eapply lw_grow; [|eassumption]; gr).
  repeat (apply Forall_cons; [eapply lw_grow; [|eassumption]; gr|]). apply Forall_nil.
Qed.
Lemma in_comb {A B} (P : A -> Prop) (Q : B -> Prop) l l' (x : A * B) : Forall P l -> Forall Q l' -> In x (combine l l') -> P (fst x) /\ Q (snd x).
Proof.
  intros F G H. destruct x as [a b]. rewrite Forall_forall in F, G. split; [apply F; eapply in_combine_l; eauto|apply G; eapply in_combine_r; eauto].
Qed.
Definition start8 (ih : list sint) : sint8 := (ws ih 0, ws ih 1, ws ih 2, ws ih 3, ws ih 4, ws ih 5, ws ih 6, ws ih 7).
Lemma start8_ok P ih : length ih = 8 -> Forall P ih -> all8 P (start8 ih).
Proof.
  intros L F. rewrite Forall_forall in F.
  assert (W : forall i, i < 8 -> P (ws ih i)) by (intros; apply F, nth_In; lia).
  cbn. repeat split; apply W; lia.
Qed.
Lemma pc_compress_ih ih c s : d8 s ih -> length c = 16 -> Forall w32 c -> pc s (on_compress ih c) d8.
Proof.
  intros D L F. unfold on_compress. eapply pc_bind; [apply pc_words; assumption|]. intros s1 w G1 [Lw Fw].
  eapply pc_bind with (Q := fun s' x => all8 (lw s') x).
  - apply pc_sfold.
    + apply (start8_ok (lw s1)); [exact (proj1 D)|]. exact (proj2 (d8_grow _ _ _ G1 D)).
    + intros s' x kw G Hin H. destruct (in_comb _ _ _ _ _ (proj1 on_k_ok) Fw Hin) as [W1 W2].
      eapply pc_mono; [apply pc_round; [eapply all8_impl; [|exact H]; intros; eapply lw_w32; eauto|assumption|assumption]|].
      intros s2 y G2 [_ R]. destruct x as [[[[[[[a b] cc] d] e] f] g] h], y as [[[[[[[a' b'] c'] d'] e'] f'] g'] h'].
      destruct R as ((-> & -> & -> & -> & -> & ->) & R). destruct H as (HA & HB & HC & HD & HE & HF & HG & HH).
      destruct R as [Ra Re]; [left; exact HH|]. cbn. repeat split; solve [apply Ra|apply Re|eapply lw_grow; [exact G2|assumption]].
  - intros s2 x G2 H. apply pc_final; [exact (d8_dw _ _ D)| |exact H]. eapply all8_impl; [|exact H]. intros; eapply lw_w32; eauto.
Qed.
Lemma combine_split {A B} (l : list A) (l' : list B) n : combine l l' = combine (firstn n l) (firstn n l') ++ combine (skipn n l) (skipn n l').
Proof.
  revert l l'. induction n as [|n IH]; intros l l'; [reflexivity|]. destruct l as [|a l], l' as [|b l']; try reflexivity.
  - cbn [firstn skipn combine app]. now destruct (skipn n l).
  - cbn [firstn skipn combine app]. f_equal. apply IH.
Qed.
Lemma firstn_all_P {A} (P : A -> Prop) n l : Forall P l -> Forall P (firstn n l).
Proof. intro F. rewrite <- (firstn_skipn n l) in F. apply Forall_app in F. tauto. Qed.
Lemma skipn_all_P {A} (P : A -> Prop) n l : Forall P l -> Forall P (skipn n l).
Proof. intro F. rewrite <- (firstn_skipn n l) in F. apply Forall_app in F. tauto. Qed.
Lemma pc_compress_chunk ih c s : dw ih -> length c = 16 -> Forall w32 c -> (forall i, i < 8 -> lw s (ws c i)) -> pc s (on_compress ih c) d8.
Proof.
  intros D L F H. unfold on_compress. eapply pc_bind; [apply pc_sched; assumption|]. intros s1 w G1 (Lw & Fw & _ & Hw).
  destruct on_k_ok as [Fk Lk].
  eapply pc_bind with (Q := fun s' x => all8 w32 x /\ all8 (lw s') x).
  - eapply pc_ext; [rewrite (combine_split on_k w 60); apply sfold_app|].
    eapply pc_bind with (Q := fun s' x => all8 w32 x).
    + apply pc_sfold; [apply (start8_ok w32); apply D|]. intros s' x kw G Hin Hx.
      destruct (in_comb _ _ _ _ _ (firstn_all_P _ 60 _ Fk) (firstn_all_P _ 60 _ Fw) Hin) as [W1 W2].
      eapply pc_mono; [apply pc_round; assumption|]. intros s2 y _ [R _]. exact R.
    + intros s2 x G2 Hx.
      destruct (skipn 60 on_k) as [|k0 [|k1 [|k2 [|k3 [|]]]]] eqn:Ek; try (apply (f_equal (@length sint)) in Ek; rewrite skipn_length, Lk in Ek; discriminate Ek).
      assert (W4 : exists w0 w1 w2 w3, skipn 60 w = [w0; w1; w2; w3] /\ lw s1 w0 /\ lw s1 w1 /\ lw s1 w2 /\ lw s1 w3).
      { assert (X : forall i, i < 4 -> lw s1 (nth i (skipn 60 w) [])).
        { intros i Hi. assert (E : nth i (skipn 60 w) [] = ws w (60 + i)).
          { unfold ws. rewrite <- (firstn_skipn 60 w) at 2. rewrite app_nth2, firstn_length, Nat.min_l by (rewrite ?firstn_length; lia).
            f_equal. lia. }
          rewrite E. apply Hw. lia. }
        assert (Ls : length (skipn 60 w) = 4) by (rewrite skipn_length; lia).
        destruct (skipn 60 w) as [|w0 [|w1 [|w2 [|w3 [|]]]]]; try discriminate Ls. exists w0, w1, w2, w3. split; [reflexivity|].
        split; [apply (X 0); lia|]. split; [apply (X 1); lia|]. split; [apply (X 2); lia|apply (X 3); lia]. }
      destruct W4 as (w0 & w1 & w2 & w3 & -> & H0 & H1 & H2 & H3). cbn [combine sfold].
      assert (Kk : Forall w32 [k0; k1; k2; k3]) by (rewrite <- Ek; apply skipn_all_P, Fk).
      inversion Kk as [|? ? K0 Kk1]; subst. inversion Kk1 as [|? ? K1 Kk2]; subst. inversion Kk2 as [|? ? K2 Kk3]; subst. inversion Kk3 as [|? ? K3 Kk4]; subst.
      clear Kk Kk1 Kk2 Kk3 Kk4 Ek.
      eapply pc_bind; [apply pc_round; [exact Hx|exact K0|exact (lw_w32 _ _ H0)]|]. intros s3 x1 G3 [X1 R1].
      eapply pc_bind; [apply pc_round; [exact X1|exact K1|exact (lw_w32 _ _ H1)]|]. intros s4 x2 G4 [X2 R2].
      eapply pc_bind; [apply pc_round; [exact X2|exact K2|exact (lw_w32 _ _ H2)]|]. intros s5 x3 G5 [X3 R3].
      eapply pc_bind; [apply pc_round; [exact X3|exact K3|exact (lw_w32 _ _ H3)]|]. intros s6 x4 G6 [X4 R4].
      apply pc_ret. split; [exact X4|].
      destruct x as [[[[[[[a b] cc] d] e] f] g] h], x1 as [[[[[[[a1 b1] c1] d1] e1] f1] g1] h1], x2 as [[[[[[[a2 b2] c2] d2] e2] f2] g2] h2],
        x3 as [[[[[[[a3 b3] c3] d3] e3] f3] g3] h3], x4 as [[[[[[[a4 b4] c4] d4] e4] f4] g4] h4]. cbn [snd] in R1, R2, R3, R4.
      destruct R1 as ((-> & -> & -> & -> & -> & ->) & R1). destruct R2 as ((-> & -> & -> & -> & -> & ->) & R2).
      destruct R3 as ((-> & -> & -> & -> & -> & ->) & R3). destruct R4 as ((-> & -> & -> & -> & -> & ->) & R4).
      destruct R1 as [A1 E1]; [right; eapply lw_grow; [|exact H0]; gr|]. destruct R2 as [A2 E2]; [right; eapply lw_grow; [|exact H1]; gr|].
      destruct R3 as [A3 E3]; [right; eapply lw_grow; [|exact H2]; gr|]. destruct R4 as [A4 E4]; [right; eapply lw_grow; [|exact H3]; gr|].
      clear - A1 A2 A3 A4 E1 E2 E3 E4 G4 G5 G6. cbn [all8]. 
      assert (g36 : grow s3 s6) by gr. assert (g46 : grow s4 s6) by gr.
      split; [exact A4|]. split; [exact (lw_grow _ _ _ G6 A3)|]. split; [exact (lw_grow _ _ _ g46 A2)|]. split; [exact (lw_grow _ _ _ g36 A1)|].
      split; [exact E4|]. split; [exact (lw_grow _ _ _ G6 E3)|]. split; [exact (lw_grow _ _ _ g46 E2)|exact (lw_grow _ _ _ g36 E1)].
  - intros s2 x G2 [H1 H2]. apply pc_final; assumption.
Qed.
