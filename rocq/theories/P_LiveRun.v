(** Requests computed on the way: any backend. *)
From Coq Require Import List NArith ZArith Bool Arith Lia.
From Verif Require Import L_Bits L_Res S_Sched S_Lower S_Causal.
From Verif Require S_Netlist S_Circuit.
From Verif Require Import M_EmpInteger M_Utils M_Bristol M_Bn M_Sym M_SymOn M_SymOff M_SymSess M_Causal M_Block M_Ole2k M_Garble.
From Verif Require Import M_Aead M_Exch M_View M_LabRec M_GcProc M_Inter M_Live.
From Verif Require Import P_Lower P_Sched P_Exch P_ExchAead P_Sym P_LabRec P_LabSess P_Causal P_Causal2 P_LiveItems P_Inter.
Import ListNotations.
Local Opaque on_session.

(** ** only the number of requests of an item is used *)
Section R.
Variable gfr : N -> N -> N.
Variable hash : list N -> list N.
Variable St : Type.
Variable run : St -> list S_Circuit.instr -> proc (res St).
Hypothesis RL : forall g a b, length a = length b -> run g a = run g b.
Variable labels : St -> list N.
Variable saws : St -> list (list bool).
Variable alice : bool.
Lemma lnew_own srv srv' r r' ro ro' h : own_icall alice (CAead srv r ro) = own_icall alice (CAead srv' r' ro') -> l_new gfr alice h r ro = l_new gfr alice h r' ro'.
Proof. cbn [own_icall]. destruct alice; intro H; injection H; intros; subst; reflexivity. Qed.
Lemma lop_own i i' p w ro : own_in alice i = own_in alice i' -> in_sec i = in_sec i' /\ l_op gfr hash alice p i w ro = l_op gfr hash alice p i' w ro.
Proof.
  destruct i as [ma mb aad iv sec|ct tg aad iv sec ra rb], i' as [ma' mb' aad' iv' sec'|ct' tg' aad' iv' sec' ra' rb']; cbn [own_in]; intro H;
    try (destruct alice; discriminate).
  - destruct alice; injection H; intros; subst; [auto|].
    assert (L : length ma = length ma') by (match goal with H : repeat _ _ = repeat _ _ |- _ => apply (f_equal (@length _)) in H; now rewrite !repeat_length in H end).
    split; [reflexivity|]. cbn [l_op]. now rewrite L.
  - destruct alice; injection H; intros; subst; auto.
Qed.
Lemma irun_like : forall its its', Forall2 (like alice) its its' -> forall g objs,
  peq eq (i_run gfr hash St run labels saws alice g objs its) (i_run gfr hash St run labels saws alice g objs its').
Proof.
  assert (K : forall A B (p : proc (res A)) (f h : A -> proc (res B)), (forall a, peq eq (f a) (h a)) -> peq eq (rbind p f) (rbind p h)).
  { intros A B p f h H. unfold rbind. apply (peq_bind eq); [apply peq_refl|]. intros [a| |] ? <-; [apply H|constructor; reflexivity..]. }
  induction 1 as [|i i' its its' (L & C & W) F IH]; intros g objs; [constructor; reflexivity|].
  destruct i as [seg c ws], i' as [seg' c' ws']. cbn [it_seg it_call it_ws] in L, C, W. subst ws'. cbn [i_run it_seg it_call it_ws].
  rewrite (RL g _ _ L). apply K. intro g1.
  destruct c as [c|srv r ro|o], c' as [c'|srv' r' ro'|o']; try (cbn [own_icall] in C; destruct alice; discriminate).
  - destruct ws; [apply IH|apply peq_refl].
  - destruct ws as [|h [|? ?]]; try apply peq_refl. rewrite (lnew_own _ _ _ _ _ _ _ C). apply K. intro. apply IH.
  - destruct o as [sv i ro], o' as [sv' i' ro']. cbn [own_icall lc_srv lc_in lc_ole] in C |- *. injection C as <- C <-.
    destruct ws as [|z0 [|z [|? ?]]]; try apply peq_refl. cbv zeta. destruct (nth_error _ _) as [p|]; [|apply peq_refl].
    destruct (lop_own i i' p {| w_z0 := low_bits (labels g1) z0; w_z := low_bits (labels g1) z; w_open := if in_sec i then [] else last (saws g1) [] |} ro C) as [Si ->].
    rewrite Si. apply K. intros [p1 x]. unfold rbind. apply (peq_bind eq); [apply IH|]. intros [[g2 xs]| |] ? <-; apply peq_refl.
Qed.
Lemma istart_like its its' g : Forall2 (like alice) its its' ->
  peq eq (i_start gfr hash St run labels saws alice g its) (i_start gfr hash St run labels saws alice g its').
Proof.
  intro F. unfold i_start, rbind. apply (peq_bind eq); [apply peq_refl|]. intros [a| |] ? <-; [now apply irun_like|constructor; reflexivity..].
Qed.
End R.
Lemma live_len ks enc q r cs St step saws (x : St * nat) a b : length a = length b ->
  live_run ks enc q r cs St step saws x a = live_run ks enc q r cs St step saws x b.
Proof. unfold live_run. now intros ->. Qed.

(** ** the requests a party computes *)
Section Q.
Variables (ks enc : bristol) (q : Z) (r : bool).
Lemma session_shape orc orc' cs cs' x s : Forall (sizes_ok q r) cs -> Forall (sizes_ok q r) cs' -> map announce cs = map announce cs' ->
  on_session orc ks enc q r cs cst0 = Ok (x, s) -> exists x' s', on_session orc' ks enc q r cs' cst0 = Ok (x', s') /\
    S_Netlist.shape (c_tr s') = S_Netlist.shape (c_tr s).
Proof.
  intros Z Z' A H.
  pose proof (sim_session orc orc (fun _ => false) ks enc q r cs Z cst0 cst0 eq_refl eq_refl) as S1.
  pose proof (sim_session orc' orc (fun _ => false) ks enc q r cs' Z' cst0 cst0 eq_refl eq_refl) as S2.
  rewrite H in S1. rewrite <- A in S2. destruct (off_session _ _ _ _ _ _ _ _) as [[]| |]; try contradiction.
  destruct (on_session orc' _ _ _ _ _ _) as [[x' s']| |]; try contradiction. exists x', s'. split; [reflexivity|].
  destruct S1 as (_ & S1 & _), S2 as (_ & S2 & _). cbn [fst snd] in S1, S2. congruence.
Qed.
Variable alice : bool.
Variables cs cs' : list icall.
Variables (x : on_sess) (s : cst).
Hypothesis Z : Forall (sizes_ok q r) (map on_of cs).
Hypothesis Z' : Forall (sizes_ok q r) (map on_of cs').
Hypothesis O : map (own_call alice) (map on_of cs) = map (own_call alice) (map on_of cs').
Hypothesis E : on_session honest ks enc q r (map on_of cs) cst0 = Ok (x, s).
Lemma requests_shape seen : map S_Circuit.shape (requests ks enc q r cs' seen) = map S_Circuit.shape (lower (c_tr s)).
Proof.
  destruct (session_shape honest (replay seen) _ _ x s Z Z' (own_announce _ _ _ O) E) as (x' & s' & E' & Sh).
  unfold requests. rewrite E'. now apply lower_shape.
Qed.
Lemma nth_first n (t t' : list S_Netlist.nev) e : map (own_part alice) (first_reqs (S n) t) = map (own_part alice) (first_reqs (S n) t') ->
  nth_error (rev t) n = Some e -> exists e', nth_error (rev t') n = Some e' /\ own_part alice e = own_part alice e'.
Proof.
  intros H N.
  assert (K : forall u, map (own_part alice) (firstn (S n) (rev u)) = rev (map (own_part alice) (first_reqs (S n) u))).
  { intro u. unfold first_reqs. now rewrite firstn_rev, map_rev. }
  assert (H2 : map (own_part alice) (firstn (S n) (rev t)) = map (own_part alice) (firstn (S n) (rev t'))) by now rewrite !K, H.
  apply (f_equal (fun l => nth_error l n)) in H2. rewrite !nth_error_map in H2.
  assert (F : forall (u : list S_Netlist.nev), nth_error (firstn (S n) u) n = nth_error u n).
  { clear. induction n as [|n IH]; intros [|a u]; try reflexivity. cbn [firstn nth_error]. apply IH. }
  rewrite !F, N in H2. cbn in H2. destruct (nth_error (rev t') n) as [e'|]; [|discriminate]. exists e'. split; [reflexivity|].
  now injection H2.
Qed.
(** the next request, from the values opened so far *)
Lemma next_request p c p2 seen : lower (c_tr s) = p ++ c :: p2 ->
  (forall t t2, c_tr s = t2 ++ t -> p = lower t -> seen = map snd (S_Netlist.openings t)) ->
  exists c', nth_error (requests ks enc q r cs' seen) (length p) = Some c' /\
    (c = c' \/ exists e e', c = low e /\ c' = low e' /\ own_part alice e = own_part alice e').
Proof.
  intros T H.
  destruct p as [|c0 [|c1 p]].
  - destruct (session_ok honest (replay seen) ks enc q r _ _ x s Z Z' (own_announce _ _ _ O) E) as (x' & s' & E').
    unfold requests. change (mkC 0 []) with cst0 in E'. rewrite E'. cbn in T |- *. injection T as <- _. eauto.
  - destruct (session_ok honest (replay seen) ks enc q r _ _ x s Z Z' (own_announce _ _ _ O) E) as (x' & s' & E').
    unfold requests. change (mkC 0 []) with cst0 in E'. rewrite E'. cbn in T |- *. injection T as _ <- _. eauto.
  - unfold lower in T. cbn [app] in T. injection T as <- <- T.
    set (n := length p). set (t := first_reqs n (c_tr s)).
    assert (Lt : map low (rev t) = p).
    { unfold t, first_reqs. rewrite <- (rev_involutive (c_tr s)) at 2. rewrite <- rev_length.
      rewrite skipn_rev, rev_involutive. rewrite rev_length.
      assert (LL : length (c_tr s) = length p + S (length p2)).
      { apply (f_equal (@length _)) in T. rewrite map_length, rev_length, app_length in T. exact T. }
      replace (length (c_tr s) - (length (c_tr s) - n)) with n by (unfold n; lia).
      rewrite <- firstn_map, T. unfold n. rewrite firstn_app, Nat.sub_diag, firstn_all, firstn_O. apply app_nil_r. }
    rewrite (H t (firstn (length (c_tr s) - n) (c_tr s))).
    2: { unfold t, first_reqs. symmetry. apply firstn_skipn. }
    2: { unfold lower. now rewrite Lt. }
    destruct (requests_causal_honest alice ks enc q r _ _ x s n Z Z' O E) as (x' & s' & E' & Q). fold t in E'.
    change (mkC 0 []) with cst0 in E'. unfold requests. rewrite E'. cbn [lower length nth_error].
    assert (N : nth_error (map low (rev (c_tr s))) n = Some c) by (rewrite T; unfold n; rewrite nth_error_app2, Nat.sub_diag; [reflexivity|lia]).
    rewrite nth_error_map in N. destruct (nth_error (rev (c_tr s)) n) as [e|] eqn:Ne; [|discriminate]. injection N as <-.
    destruct (nth_first _ _ _ _ Q Ne) as (e' & Ne' & Oe). exists (low e'). unfold lower. cbn [nth_error]. fold n. rewrite nth_error_map, Ne'. split; [reflexivity|].
    right. exists e, e'. auto.
Qed.
(** all openings are public: both parties see the values *)
Lemma seen_vals t t2 op w : c_tr s = t2 ++ t -> Forall2 S_Circuit.seen (map low_open (S_Netlist.openings t)) op -> saw w op = map snd (S_Netlist.openings t).
Proof.
  intros T F. destruct (grow_session honest ks enc q r (map on_of cs) cst0 x s E) as (l & G & P). cbn in G. rewrite app_nil_r in G. subst l.
  rewrite T in P. apply Forall_app in P as [_ P].
  assert (K : S_Netlist.openings t = map (pair S_Netlist.OPub) (map snd (S_Netlist.openings t))).
  { clear - P. induction P as [|e t Pe P IH]; [reflexivity|]. destruct e; cbn [S_Netlist.openings]; auto. cbn in Pe. subst p.
    rewrite !map_app, <- IH. reflexivity. }
  rewrite K in F. exact (saw_pub w _ _ F).
Qed.
End Q.

(** ** any backend, both parties *)
Section B.
Variables (J SA SB : Type).
Variable st : list S_Circuit.instr -> J -> Prop.
Variables (fA : J -> SA) (fB : J -> SB).
Variable tot : list S_Circuit.instr.
Hypothesis SP : forall p j, st p j -> exists p2, tot = p ++ p2.
Hypothesis PRE : forall p p2, tot = p ++ p2 -> exists j, st p j.
Hypothesis DET : forall p j j', st p j -> st p j' -> j = j'.
Variables (stepA : SA -> S_Circuit.instr -> proc (res SA)) (stepB : SB -> S_Circuit.instr -> proc (res SB)).
Variables (sawA : SA -> list (list bool)) (sawB : SB -> list (list bool)).
Variables (ks enc : bristol) (q : Z) (r : bool) (csA csB : list icall).
Hypothesis STEP : forall p c j j', st p j -> st (p ++ [c]) j' -> conv (stepA (fA j) c) (stepB (fB j) c) (Ok (fA j')) (Ok (fB j')).
Hypothesis REQA : forall p c p2 j, tot = p ++ c :: p2 -> st p j ->
  exists c', nth_error (requests ks enc q r csA (sawA (fA j))) (length p) = Some c' /\ stepA (fA j) c' = stepA (fA j) c.
Hypothesis REQB : forall p c p2 j, tot = p ++ c :: p2 -> st p j ->
  exists c', nth_error (requests ks enc q r csB (sawB (fB j))) (length p) = Some c' /\ stepB (fB j) c' = stepB (fB j) c.
Lemma cut p c u j : st (p ++ c :: u) j -> exists j1, st (p ++ [c]) j1 /\ st ((p ++ [c]) ++ u) j /\ exists p2, tot = p ++ c :: p2.
Proof.
  intro H. destruct (SP _ _ H) as [p2 T]. replace (p ++ c :: u) with ((p ++ [c]) ++ u) in * by now rewrite <- app_assoc.
  rewrite <- app_assoc in T. destruct (PRE _ _ T) as [j1 S1]. exists j1. split; [exact S1|]. split; [exact H|].
  rewrite <- app_assoc in T. cbn in T. eauto.
Qed.
Lemma conv_live : forall seg p j j', st p j -> st (p ++ seg) j' ->
  conv (live ks enc q r csA SA stepA sawA (length seg) (fA j) (length p)) (live ks enc q r csB SB stepB sawB (length seg) (fB j) (length p))
    (Ok (fA j', length (p ++ seg))) (Ok (fB j', length (p ++ seg))).
Proof.
  induction seg as [|c seg IH]; intros p j j' S0 S1; cbn [length live].
  - rewrite app_nil_r in *. rewrite (DET _ _ _ S0 S1). apply conv_ret.
  - destruct (cut _ _ _ _ S1) as (j1 & Sm & S2 & p2 & T).
    destruct (REQA _ _ _ _ T S0) as (ca & -> & ->). destruct (REQB _ _ _ _ T S0) as (cb & -> & ->).
    eapply conv_rbind; [exact (STEP _ _ _ _ S0 Sm)|]. specialize (IH _ _ _ Sm S2).
    replace (length (p ++ [c])) with (S (length p)) in IH by (rewrite app_length; cbn; lia).
    rewrite <- app_assoc in IH. exact IH.
Qed.
(** the discipline of the channel, for any values opened *)
Section W.
Variables (S : Type) (step : S -> S_Circuit.instr -> proc (res S)) (saws : S -> list (list bool)) (csX : list icall) (IX : J -> S -> Prop).
Hypothesis SHP : forall seen, map S_Circuit.shape (requests ks enc q r csX seen) = map S_Circuit.shape tot.
Hypothesis WST : forall p c c' j j' g d, st p j -> st (p ++ [c]) j' -> S_Circuit.shape c' = S_Circuit.shape c -> IX j g -> snd d = false ->
  wp (step g c') d (after_run (IX j')).
Lemma wp_live : forall seg p j j' g d, st p j -> st (p ++ seg) j' -> IX j g -> snd d = false ->
  wp (live ks enc q r csX S step saws (length seg) g (length p)) d (after_run (fun x => IX j' (fst x) /\ snd x = length (p ++ seg))).
Proof.
  induction seg as [|c seg IH]; intros p j j' g d S0 S1 I D; cbn [length live].
  - rewrite app_nil_r in *. rewrite <- (DET _ _ _ S0 S1). cbn [wp]. split; [exact D|]. auto.
  - destruct (cut _ _ _ _ S1) as (j1 & Sm & S2 & p2 & T).
    pose proof (SHP (saws g)) as Q. rewrite T, map_app in Q. apply (f_equal (fun l => nth_error l (length p))) in Q.
    rewrite nth_error_map in Q. rewrite nth_error_app2 in Q by (rewrite map_length; lia). rewrite map_length, Nat.sub_diag in Q. cbn [map nth_error] in Q.
    destruct (nth_error (requests _ _ _ _ _ _) _) as [c'|]; [|discriminate]. cbn in Q. assert (Q' : S_Circuit.shape c' = S_Circuit.shape c) by congruence.
    apply wp_rbind. eapply wp_mono; [|exact (WST _ _ _ _ _ _ _ S0 Sm Q' I D)]. intros [g1| |] d1 [D1 H1].
    + specialize (IH _ _ _ g1 d1 Sm S2 H1 D1). rewrite app_length in IH. cbn [length] in IH. rewrite Nat.add_1_r in IH. rewrite <- app_assoc in IH. exact IH.
    + split; [exact D1|exact H1].
    + contradiction.
Qed.
End W.
End B.
