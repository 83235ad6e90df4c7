(** The two programs of OLE and E2F, run together under any schedule. *)
From Coq Require Import List NArith ZArith Znumtheory Bool Arith Lia.
From Verif Require Import L_Bits L_Res S_Sched M_Bn M_Ole M_E2f M_Exch P_Bn P_Ole P_E2f P_Sched S_Ec.
Import ListNotations.
Local Open Scope Z_scope.

(** * Composition *)
Lemma astep_bind {A B} (p : proc A) (f : A -> proc B) so si p' so' si' :
  astep p so si p' so' si' -> astep (pbind p f) so si (pbind p' f) so' si'.
Proof. destruct 1; cbn [pbind]; [constructor|constructor|]. now apply (ARecv c n (fun bs => pbind (k bs) f)). Qed.
Lemma abs_bind {A B C D} (f : A -> proc C) (g : B -> proc D) n : forall p q s t p' q' s' t',
  abs_steps n (mkA p q s t) (mkA p' q' s' t') ->
  abs_steps n (mkA (pbind p f) (pbind q g) s t) (mkA (pbind p' f) (pbind q' g) s' t').
Proof.
  induction n as [|n IH]; intros p q s t p' q' s' t' H.
  - remember (mkA p q s t) as x eqn:Ex. remember (mkA p' q' s' t') as y eqn:Ey.
    inversion H; subst. match goal with H : mkA _ _ _ _ = mkA _ _ _ _ |- _ =>
      pose proof (f_equal pa H) as E1; pose proof (f_equal pb H) as E2;
      pose proof (f_equal sa H) as E3; pose proof (f_equal sb H) as E4 end.
    cbn in E1, E2, E3, E4. subst. constructor.
  - inversion H as [|m x y z S1 S2]; subst. inversion S1; subst.
    + econstructor; [constructor; apply astep_bind; eassumption|]. now apply IH.
    + econstructor; [apply AbsB; apply astep_bind; eassumption|]. now apply IH.
Qed.

(** the abstract run ends, with these results and nothing left to read *)
Definition conv {A B} (p : proc A) (q : proc B) (a : A) (b : B) : Prop :=
  exists n, abs_steps n (mkA p q nobufs nobufs) (final a b).
Lemma conv_ret {A B} (a : A) (b : B) : conv (Ret a) (Ret b) a b.
Proof. exists O. constructor. Qed.
Lemma conv_bind {A B C D} (f : A -> proc C) (g : B -> proc D) p q a b c d :
  conv p q a b -> conv (f a) (g b) c d -> conv (pbind p f) (pbind q g) c d.
Proof.
  intros [n H] [m K]. exists (n + m)%nat.
  eapply abs_trans; [apply (abs_bind f g), H|]. exact K.
Qed.
Lemma conv_rbind {A B C D} (f : A -> proc (res C)) (g : B -> proc (res D)) p q a b c d :
  conv p q (Ok a) (Ok b) -> conv (f a) (g b) c d -> conv (rbind p f) (rbind q g) c d.
Proof. intros H K. eapply conv_bind; [exact H|exact K]. Qed.
Lemma conv_rerr {A B C D} (f : A -> proc (res C)) (g : B -> proc (res D)) p q :
  conv p q Err Err -> conv (rbind p f) (rbind q g) Err Err.
Proof. intros H. eapply conv_bind; [exact H|apply conv_ret]. Qed.
Lemma conv_rub {A B C D} (f : A -> proc (res C)) (g : B -> proc (res D)) p q :
  conv p q UB UB -> conv (rbind p f) (rbind q g) UB UB.
Proof. intros H. eapply conv_bind; [exact H|apply conv_ret]. Qed.
(** ALICE runs as far as it can, then BOB, then ALICE *)
Lemma conv_aba {A B} (p p1 : proc A) (q : proc B) a b s t : solo p nobufs nobufs p1 s nobufs ->
  solo q nobufs s (Ret b) t nobufs -> solo p1 nobufs t (Ret a) nobufs nobufs -> conv p q a b.
Proof.
  intros H1 H2 H3. destruct (solo_A _ _ _ _ _ _ q H1) as [n1 K1].
  destruct (solo_B p1 _ _ _ _ _ _ H2) as [n2 K2]. destruct (solo_A _ _ _ _ _ _ (Ret b) H3) as [n3 K3].
  exists (n1 + (n2 + n3))%nat. eapply abs_trans; [exact K1|]. eapply abs_trans; [exact K2|exact K3].
Qed.
Lemma conv_ab {A B} (p : proc A) (q : proc B) a b s : solo p nobufs nobufs (Ret a) s nobufs ->
  solo q nobufs s (Ret b) nobufs nobufs -> conv p q a b.
Proof. intros H1 H2. eapply conv_aba; [exact H1|exact H2|constructor]. Qed.
Lemma solo_rbind {A B} (p : proc (res A)) (f : A -> proc (res B)) so si a so' si' p'' so'' si'' :
  solo p so si (Ret (Ok a)) so' si' -> solo (f a) so' si' p'' so'' si'' ->
  solo (rbind p f) so si p'' so'' si''.
Proof. intros H K. eapply solo_bind_ret; [exact H|exact K]. Qed.

Lemma wp_rbind {A B} (p : proc (res A)) (f : A -> proc (res B)) d Q :
  wp p d (fun r d' => match r with Ok a => wp (f a) d' Q | Err => Q Err d' | UB => Q UB d' end) -> wp (rbind p f) d Q.
Proof. intro H. apply wp_bind. eapply wp_mono; [|exact H]. intros [a| |] d' K; exact K. Qed.
Lemma fset_same d c b : fget d c = b -> fset d c b = d.
Proof. destruct d, c; cbn; now intros <-. Qed.

(** * Numbers *)
Lemma put_get_eq s c x : get s c = x -> put s c x = s.
Proof. intros <-. apply put_get. Qed.
Lemma solo_send_bn c x bs so si : send_bn x = Ok bs ->
  solo (p_send_bn c x) so si (Ret (Ok tt)) (put so c (get so c ++ bs)) si.
Proof.
  unfold send_bn, p_send_bn. destruct (bn_buf <? length (BN_bn2bin x))%nat; [discriminate|].
  intro H. assert (bs = u32_bytes (N.of_nat (length (BN_bn2bin x))) ++ BN_bn2bin x) as -> by congruence.
  eapply solo_step; [constructor|]. eapply solo_step; [constructor|].
  rewrite put_put, get_put_same, app_assoc. constructor.
Qed.
Lemma solo_recv_bn c x rest so si : recv_bn (get si c) = Ok (x, rest) ->
  solo (p_recv_bn c) so si (Ret (Ok x)) so (put si c rest).
Proof.
  unfold recv_bn, p_recv_bn. destruct (Nat.ltb_spec (length (get si c)) 4) as [|L]; [discriminate|].
  set (len := u32_value (firstn 4 (get si c))).
  destruct (N.of_nat bn_buf <? len)%N eqn:E1; [discriminate|].
  destruct (Nat.ltb_spec (length (skipn 4 (get si c))) (N.to_nat len)) as [|L2]; [discriminate|].
  intro H.
  assert (x = BN_bin2bn (firstn (N.to_nat len) (skipn 4 (get si c)))) as -> by congruence.
  assert (rest = skipn (N.to_nat len) (skipn 4 (get si c))) as -> by congruence. clear H.
  eapply solo_step; [constructor; exact L|]. cbv zeta. fold len. rewrite E1.
  set (si1 := put si c (skipn 4 (get si c))).
  assert (G : get si1 c = skipn 4 (get si c)) by apply get_put_same.
  rewrite <- G in *. replace (put si c (skipn (N.to_nat len) (get si1 c))) with (put si1 c (skipn (N.to_nat len) (get si1 c)))
    by (unfold si1 at 1; now rewrite put_put).
  eapply solo_step; [apply (ARecv c (N.to_nat len) (fun arr => Ret (Ok (BN_bin2bn arr)))); exact L2|]. constructor.
Qed.
Lemma solo_send_bns c : forall l bs so si, send_bns l = Ok bs ->
  solo (p_send_bns c l) so si (Ret (Ok tt)) (put so c (get so c ++ bs)) si.
Proof.
  induction l as [|x l IH]; intros bs so si H; cbn [send_bns p_send_bns] in *.
  - assert (bs = []) as -> by congruence. rewrite app_nil_r, put_get. constructor.
  - destruct (send_bn x) as [a| |] eqn:E; try discriminate H. cbn [bind] in H.
    destruct (send_bns l) as [b| |] eqn:E2; try discriminate H. cbn [bind] in H.
    assert (bs = a ++ b) as -> by congruence.
    eapply solo_rbind; [apply solo_send_bn, E|]. 
    replace (put so c (get so c ++ a ++ b)) with (put (put so c (get so c ++ a)) c (get (put so c (get so c ++ a)) c ++ b)).
    + now apply IH.
    + now rewrite put_put, get_put_same, app_assoc.
Qed.
Lemma solo_recv_bns c : forall n l rest so si, recv_bns n (get si c) = Ok (l, rest) ->
  solo (p_recv_bns c n) so si (Ret (Ok l)) so (put si c rest).
Proof.
  induction n as [|n IH]; intros l rest so si H; cbn [recv_bns p_recv_bns] in *.
  - assert (l = []) as -> by congruence. rewrite put_get_eq by congruence. constructor.
  - destruct (recv_bn (get si c)) as [[x s1]| |] eqn:E; try discriminate H. cbn [bind] in H.
    destruct (recv_bns n s1) as [[l' s2]| |] eqn:E2; try discriminate H. cbn [bind] in H.
    assert (l = x :: l') as -> by congruence. assert (rest = s2) as -> by congruence.
    eapply solo_rbind; [apply solo_recv_bn, E|]. eapply solo_rbind.
    + apply (IH l' s2). now rewrite get_put_same.
    + rewrite put_put. constructor.
Qed.

Definition fits (x : Z) : Prop := (Z.abs_N x < 256 ^ N.of_nat bn_buf)%N.
Lemma wp_send_bn c x d (Q : res unit -> flags -> Prop) : fits x -> Q (Ok tt) (fset d c true) -> wp (p_send_bn c x) d Q.
Proof.
  intros F H. unfold p_send_bn. pose proof (send_bn_ok x F) as E. unfold send_bn in E.
  destruct (bn_buf <? length (BN_bn2bin x))%nat; [discriminate|]. cbn.
  replace (fset (fset d c true) c true) with (fset d c true) by (destruct d, c; reflexivity). exact H.
Qed.
Lemma wp_recv_bn c d (Q : res Z -> flags -> Prop) : fget d (other c) = false -> (forall r, Q r (fset d c false)) -> wp (p_recv_bn c) d Q.
Proof.
  intros F H. unfold p_recv_bn. cbn [wp]. split; [exact F|]. intros bs _. cbv zeta.
  destruct (N.of_nat bn_buf <? u32_value bs)%N; cbn [wp]; [apply H|].
  split; [destruct d, c; exact F|]. intros arr _.
  replace (fset (fset d c false) c false) with (fset d c false) by (destruct d, c; reflexivity). apply H.
Qed.
Lemma wp_send_bns c l d (Q : res unit -> flags -> Prop) : Forall fits l -> (forall d', fget d' (other c) = fget d (other c) -> Q (Ok tt) d') -> wp (p_send_bns c l) d Q.
Proof.
  revert d. induction l as [|x l IH]; intros d F H; cbn [p_send_bns].
  - now apply H.
  - inversion F; subst. apply wp_rbind, wp_send_bn; [assumption|]. apply IH; [assumption|].
    intros d' E. apply H. rewrite E. now destruct d, c.
Qed.
Lemma wp_recv_bns c : forall n d (Q : res (list Z) -> flags -> Prop), d = (false, false) ->
  (forall r, (forall l, r = Ok l -> length l = n) -> Q r (false, false)) -> wp (p_recv_bns c n) d Q.
Proof.
  induction n as [|n IH]; intros d Q -> H; cbn [p_recv_bns].
  - apply H. now intros l [= <-].
  - apply wp_rbind, wp_recv_bn; [now destruct c|]. intros [x| |].
    + apply wp_rbind, IH; [now destruct c|]. intros [l| |] L.
      * cbn. apply H. intros l' [= <-]. cbn. f_equal. now apply L.
      * apply H. discriminate.
      * apply H. discriminate.
    + replace (fset (false, false) c false) with (false, false) by now destruct c. apply H. discriminate.
    + replace (fset (false, false) c false) with (false, false) by now destruct c. apply H. discriminate.
Qed.

Section Q.
Variable ccrh : N -> N.
Variable q : Z.
Hypothesis Hq : bound1000 q.
Notation inq := (fun x => 0 <= x < q).
Lemma inq_fits l : Forall inq l -> Forall fits l.
Proof. intro F. eapply Forall_impl; [|exact F]. intros x Hx. now apply (bound_fits q). Qed.

(** * open *)
Definition opened (v w : list Z) : list Z := map2 (fun v t => (v + t) mod q) v w.
Lemma conv_open va vb : length vb = length va -> Forall inq va -> Forall inq vb ->
  conv (p_open q true va) (p_open q false vb) (Ok (opened va vb)) (Ok (opened vb va)).
Proof.
  intros L Fa Fb.
  destruct (recv_send_seq va [] (inq_fits _ Fa)) as (ba & Ea & Ra).
  destruct (recv_send_seq vb [] (inq_fits _ Fb)) as (bb & Eb & Rb).
  rewrite app_nil_r in Ra, Rb. rewrite (abs_map q) in Ra, Rb by assumption.
  unfold p_open. eapply conv_aba.
  - eapply solo_rbind; [apply solo_send_bns, Ea|]. eapply solo_step; [constructor|]. apply solo_refl.
  - eapply solo_rbind; [apply solo_send_bns, Eb|]. eapply solo_step; [constructor|].
    eapply solo_rbind; [apply (solo_recv_bns IO _ va []); rewrite L; exact Ra|]. apply solo_refl.
  - eapply solo_rbind; [apply (solo_recv_bns IO_OPT _ vb []); rewrite <- L; exact Rb|]. apply solo_refl.
Qed.
Lemma wp_open alice v (Q : res (list Z) -> flags -> Prop) : Forall inq v -> (forall r, (forall l, r = Ok l -> length l = length v /\ Forall inq l) -> Q r (false, false)) ->
  wp (p_open q alice v) (false, false) Q.
Proof.
  intros F H. unfold p_open.
  assert (G : forall mine theirs, theirs = other mine -> wp (rbind (p_send_bns mine v) (fun _ =>
    Flush mine (rbind (p_recv_bns theirs (length v)) (fun t => Ret (Ok (map2 (fun v t => BN_mod_add v t q) v t)))))) (false, false) Q).
  { intros mine theirs ->. apply wp_rbind, wp_send_bns; [now apply inq_fits|]. intros d' E.
    cbn [wp]. apply wp_rbind, wp_recv_bns; [destruct d', mine; cbn in *; now subst|].
    intros [l| |] L.
    - cbn. apply H. intros l' [= <-]. specialize (L l eq_refl). rewrite map2_length, L, Nat.min_id. split; [reflexivity|].
      clear -Hq. revert l. induction v as [|x v IH]; intros [|y l]; cbn [map2]; try apply Forall_nil.
      apply Forall_cons; [apply (in_q q Hq)|apply IH].
    - apply H. discriminate.
    - apply H. discriminate. }
  destruct alice; now apply G.
Qed.

(** * OLE *)
Lemma solo_ole_send bl Delta : forall ins raw os bytes so si, ole_send ccrh q bl Delta raw ins = Ok (os, bytes) ->
  solo (p_ole_send ccrh q bl Delta raw ins) so si (Ret (Ok os)) (put so IO (get so IO ++ bytes)) si.
Proof.
  induction ins as [|x ins IH]; intros raw os bytes so si H; cbn [ole_send p_ole_send] in *.
  - assert (os = []) as -> by (destruct raw; cbn in H; congruence).
    assert (bytes = []) as -> by (destruct raw; cbn in H; congruence).
    rewrite app_nil_r, put_get. destruct raw; constructor.
  - destruct raw as [|row raw]; [discriminate|]. cbn [ole_send p_ole_send ole_recv p_ole_recv] in *.
    destruct (ole_send_loop ccrh q Delta x (combine (ole_exp q bl) row) 0) as [o ms].
    destruct (send_bns ms) as [b| |] eqn:E1; try discriminate H. cbn [bind] in H.
    destruct (ole_send ccrh q bl Delta raw ins) as [[os' bs]| |] eqn:E2; try discriminate H. cbn [bind] in H.
    assert (os = o :: os') as -> by congruence. assert (bytes = b ++ bs) as -> by congruence.
    eapply solo_rbind; [apply solo_send_bns, E1|]. eapply solo_step; [constructor|].
    eapply solo_rbind; [apply IH, E2|]. rewrite put_put, get_put_same, app_assoc. constructor.
Qed.
Lemma solo_ole_recv_loop : forall l out r rest so si, ole_recv_loop ccrh q l out (get si IO) = Ok (r, rest) ->
  solo (p_ole_recv_loop ccrh q l out) so si (Ret (Ok r)) so (put si IO rest).
Proof.
  induction l as [|[e [raw bit]] l IH]; intros out r rest so si H; cbn [ole_recv_loop p_ole_recv_loop] in *.
  - assert (r = out) as -> by congruence. rewrite put_get_eq by congruence. constructor.
  - destruct (recv_bn (get si IO)) as [[tmp s1]| |] eqn:E; try discriminate H. cbn [bind] in H.
    eapply solo_rbind; [apply solo_recv_bn, E|]. cbv zeta.
    replace (put si IO rest) with (put (put si IO s1) IO rest) by apply put_put.
    apply IH. rewrite get_put_same. exact H.
Qed.
Lemma solo_ole_recv bl : forall ins raw os rest so si, ole_recv ccrh q bl raw ins (get si IO) = Ok (os, rest) ->
  solo (p_ole_recv ccrh q bl raw ins) so si (Ret (Ok os)) so (put si IO rest).
Proof.
  induction ins as [|x ins IH]; intros raw os rest so si H; cbn [ole_recv p_ole_recv] in *.
  - assert (os = []) as -> by (destruct raw; cbn in H; congruence).
    rewrite put_get_eq by (destruct raw; cbn in *; congruence). destruct raw; constructor.
  - destruct raw as [|row raw]; [discriminate|]. cbn [ole_send p_ole_send ole_recv p_ole_recv] in *.
    destruct (ole_recv_loop _ _ _ _ _) as [[o s1]| |] eqn:E1; try discriminate H. cbn [bind] in H.
    destruct (ole_recv ccrh q bl raw ins s1) as [[os' s2]| |] eqn:E2; try discriminate H. cbn [bind] in H.
    assert (os = o :: os') as -> by congruence. assert (rest = s2) as -> by congruence.
    eapply solo_rbind; [apply solo_ole_recv_loop, E1|]. eapply solo_rbind; [apply IH; rewrite get_put_same; exact E2|].
    rewrite put_put. constructor.
Qed.
Lemma conv_ole bl Delta raw in_s in_r os or_ : ole_compute ccrh q bl Delta raw in_s in_r = Ok (os, or_, []) ->
  conv (p_ole_send ccrh q bl Delta raw in_s)
       (p_ole_recv ccrh q bl (map2 (fun row x => cot_recv Delta row (ole_bits bl x)) raw in_r) in_r) (Ok os) (Ok or_).
Proof.
  unfold ole_compute. intro H.
  destruct (ole_send ccrh q bl Delta raw in_s) as [[os' bytes]| |] eqn:E1; try discriminate H. cbn [bind] in H.
  destruct (ole_recv _ _ _ _ _ _) as [[or' rest]| |] eqn:E2; try discriminate H. cbn [bind] in H.
  assert (os' = os) as -> by congruence. assert (or' = or_) as -> by congruence. assert (rest = []) as -> by congruence.
  eapply conv_ab; [apply solo_ole_send, E1|]. cbn [get nobufs on_io app put on_opt].
  exact (solo_ole_recv _ _ _ _ _ nobufs (mkBufs bytes []) E2).
Qed.

Lemma ole_send_loop_inq Delta x : forall l out o ms, ole_send_loop ccrh q Delta x l out = (o, ms) -> Forall inq ms.
Proof.
  induction l as [|[e raw] l IH]; intros out o ms H; cbn [ole_send_loop] in H.
  - assert (ms = []) as -> by congruence. constructor.
  - destruct (ole_send_loop ccrh q Delta x l _) as [o' ms'] eqn:E.
    assert (ms = BN_mod_add (bn_H ccrh raw q + bn_H ccrh (N.lxor raw Delta) q) x q :: ms') as -> by congruence.
    constructor; [apply (in_q q Hq)|eapply IH, E].
Qed.
Lemma wp_ole_send bl Delta : forall ins raw (Q : res (list Z) -> flags -> Prop), (forall r, Q r (false, false)) ->
  wp (p_ole_send ccrh q bl Delta raw ins) (false, false) Q.
Proof.
  induction ins as [|x ins IH]; intros raw Q H; cbn [p_ole_send].
  - destruct raw; apply H.
  - destruct raw as [|row raw]; [apply H|]. cbn [p_ole_send p_ole_recv].
    destruct (ole_send_loop ccrh q Delta x (combine (ole_exp q bl) row) 0) as [o ms] eqn:E.
    apply wp_rbind, wp_send_bns; [eapply inq_fits, ole_send_loop_inq, E|]. intros d' D. cbn [wp].
    replace (fset d' IO false) with (false, false) by (destruct d'; cbn in *; now subst).
    apply wp_rbind, IH. intros [os| |]; cbn; apply H.
Qed.
Lemma wp_ole_recv bl : forall ins raw (Q : res (list Z) -> flags -> Prop), (forall r, Q r (false, false)) ->
  wp (p_ole_recv ccrh q bl raw ins) (false, false) Q.
Proof.
  assert (G : forall l out (Q : res Z -> flags -> Prop), (forall r, Q r (false, false)) -> wp (p_ole_recv_loop ccrh q l out) (false, false) Q).
  { induction l as [|[e [raw bit]] l IH]; intros out Q H; cbn [p_ole_recv_loop]; [apply H|].
    apply wp_rbind, wp_recv_bn; [reflexivity|]. intros [x| |]; [apply IH, H|apply H|apply H]. }
  induction ins as [|x ins IH]; intros raw Q H; cbn [p_ole_recv].
  - destruct raw; apply H.
  - destruct raw as [|row raw]; [apply H|]. cbn [p_ole_send p_ole_recv]. apply wp_rbind, G. intros [o| |]; [|apply H|apply H].
    apply wp_rbind, IH. intros [os| |]; cbn; apply H.
Qed.

(** * E2F *)
Lemma map2_add_comm : forall v w, opened v w = opened w v.
Proof. unfold opened. induction v as [|x v IH]; intros [|y w]; cbn; try reflexivity. f_equal; [f_equal; ring|apply IH]. Qed.
Definition both {X Y} (r : res (X * Y)) (ra : res X) (rb : res Y) : Prop :=
  match r with
  | Ok (a, b) => ra = Ok a /\ rb = Ok b
  | Err => ra = Err /\ rb = Err
  | UB => ra = UB /\ rb = UB
  end.
Lemma open_eq va vb : length vb = length va -> Forall inq va -> Forall inq vb -> e2f_open q va vb = Ok (opened va vb, opened vb va).
Proof. exact (open_ok q Hq va vb). Qed.
Lemma conv_online s t xa ya xb yb ra rb : both (e2f_online q s t xa ya xb yb) ra rb ->
  conv (p_e2f_online q true s xa ya) (p_e2f_online q false t xb yb) ra rb.
Proof.
  intro B. unfold p_e2f_online, e2f_online in *.
  assert (F : forall al s x y, Forall inq (e2f_eps q al s x y)) by (intros; repeat constructor; apply (in_q q Hq)).
  rewrite open_eq in B by (try apply F; reflexivity). cbn [bind] in B.
  eapply conv_rbind; [apply conv_open; [reflexivity|apply F|apply F]|].
  rewrite (map2_add_comm (e2f_eps q false t xb yb)) in *.
  set (e := opened (e2f_eps q true s xa ya) (e2f_eps q false t xb yb)) in *. clearbody e.
  assert (G : forall s x, Forall inq [e2f_w q s x]) by (intros; repeat constructor; apply (in_q q Hq)).
  rewrite open_eq in B by (try apply G; reflexivity). cbn [bind] in B.
  eapply conv_rbind; [apply conv_open; [reflexivity|apply G|apply G]|].
  rewrite (map2_add_comm [e2f_w q t _]) in *.
  set (w := nth 0 (opened _ _) 0) in *. clearbody w. unfold local.
  assert (K : e2f_eta q s w (nth 1 e 0) = Err /\ e2f_eta q t w (nth 1 e 0) = Err \/
              e2f_eta q s w (nth 1 e 0) = UB /\ e2f_eta q t w (nth 1 e 0) = UB \/
              exists ta tb, e2f_eta q s w (nth 1 e 0) = Ok ta /\ e2f_eta q t w (nth 1 e 0) = Ok tb /\ inq ta /\ inq tb).
  { unfold e2f_eta. destruct (w =? 0); [now left|]. destruct (BN_mod_inverse w q); [|right; now left].
    right. right. eexists _, _. split; [reflexivity|]. split; [reflexivity|]. split; apply (in_q q Hq). }
  destruct K as [[E1 E2]|[[E1 E2]|(ta & tb & E1 & E2 & I1 & I2)]]; rewrite E1, E2 in *; cbn [bind] in B.
  - destruct B as [-> ->]. apply conv_rerr, conv_ret.
  - destruct B as [-> ->]. apply conv_rub, conv_ret.
  - eapply conv_rbind; [apply conv_ret|].
    assert (H1 : Forall inq [ta]) by (constructor; [exact I1|constructor]).
    assert (H2 : Forall inq [tb]) by (constructor; [exact I2|constructor]).
    rewrite open_eq in B by (try assumption; reflexivity). cbn [bind both] in B. destruct B as [-> ->].
    eapply conv_rbind; [apply conv_open; [reflexivity|assumption|assumption]|]. apply conv_ret.
Qed.
Lemma wp_online alice s x y : wp (p_e2f_online q alice s x y) (false, false) clean.
Proof.
  unfold p_e2f_online. apply wp_rbind, wp_open; [repeat constructor; apply (in_q q Hq)|].
  intros [e| |] _; [|reflexivity|reflexivity].
  apply wp_rbind, wp_open; [repeat constructor; apply (in_q q Hq)|]. intros [w| |] _; [|reflexivity|reflexivity].
  apply wp_rbind. unfold local. cbn [wp]. unfold e2f_eta. destruct (nth 0 w 0 =? 0); [reflexivity|].
  destruct (BN_mod_inverse _ q); [|reflexivity].
  apply wp_rbind, wp_open; [repeat constructor; apply (in_q q Hq)|]. intros [o| |] _; reflexivity.
Qed.
Lemma conv_offline bl ra rb Delta raw : q < 2 ^ Z.of_nat bl -> length raw = 5%nat -> Forall (fun r => length r = bl) raw ->
  exists s t, e2f_offline ccrh q bl ra rb Delta raw = Ok (s, t) /\
  conv (p_e2f_offline ccrh q bl true ra Delta raw) (p_e2f_offline ccrh q bl false rb Delta raw) (Ok s) (Ok t).
Proof.
  intros B L F. unfold e2f_offline, p_e2f_offline.
  assert (X : forall rnd, 0 <= e2f_mask q bl rnd < 2 ^ Z.of_nat bl) by (intro rnd; pose proof (mask_range q Hq bl rnd B); lia).
  destruct (ole_correct ccrh q bl Delta
    [e2f_mask q bl (rnd_a ra); e2f_mask q bl (rnd_b ra); e2f_mask q bl (rnd_a ra); e2f_mask q bl (rnd_bp ra); e2f_mask q bl (rnd_r ra)]
    [e2f_mask q bl (rnd_b rb); e2f_mask q bl (rnd_a rb); e2f_mask q bl (rnd_bp rb); e2f_mask q bl (rnd_a rb); e2f_mask q bl (rnd_r rb)]
    raw Hq eq_refl L F) as (os & or_ & E & _).
  { repeat (apply Forall_cons; [apply X|]). apply Forall_nil. }
  rewrite E. cbn [bind fst snd]. eexists _, _. split; [reflexivity|].
  eapply conv_rbind; [apply conv_ole, E|]. apply conv_ret.
Qed.
Lemma wp_offline bl alice r Delta raw (Q : res e2f -> flags -> Prop) : (forall r, Q r (false, false)) -> wp (p_e2f_offline ccrh q bl alice r Delta raw) (false, false) Q.
Proof.
  intro H. unfold p_e2f_offline. apply wp_rbind. destruct alice.
  - apply wp_ole_send. intros [o| |]; apply H.
  - apply wp_ole_recv. intros [o| |]; apply H.
Qed.

Theorem ole_completes bl Delta in_s in_r raw : length in_r = length in_s -> length raw = length in_s ->
  Forall (fun r => length r = bl) raw ->
  exists os or_, ole_compute ccrh q bl Delta raw in_s in_r = Ok (os, or_, []) /\
  always_completes (p_ole_send ccrh q bl Delta raw in_s)
    (p_ole_recv ccrh q bl (map2 (fun row x => cot_recv Delta row (ole_bits bl x)) raw in_r) in_r) (Ok os) (Ok or_).
Proof.
  intros L1 L2 F. destruct (ole_ok ccrh q Hq bl Delta in_s in_r raw L1 L2 F) as (os & or_ & E & _).
  exists os, or_. split; [exact E|]. destruct (conv_ole _ _ _ _ _ _ _ E) as [n C].
  apply (completes _ _ _ _ n); [apply wp_ole_send; reflexivity|apply wp_ole_recv; reflexivity|exact C].
Qed.
Theorem e2f_completes bl ra rb Delta raw xa ya xb yb : q < 2 ^ Z.of_nat bl ->
  length raw = 5%nat -> Forall (fun r => length r = bl) raw ->
  exists s t oa ob, e2f_offline ccrh q bl ra rb Delta raw = Ok (s, t) /\
    both (e2f_online q s t xa ya xb yb) oa ob /\
    always_completes (p_e2f ccrh q bl true ra Delta raw xa ya) (p_e2f ccrh q bl false rb Delta raw xb yb) oa ob.
Proof.
  intros B L F. destruct (conv_offline bl ra rb Delta raw B L F) as (s & t & E & C). exists s, t.
  assert (X : exists oa ob, both (e2f_online q s t xa ya xb yb) oa ob).
  { destruct (e2f_online q s t xa ya xb yb) as [[a b]| |]; cbn; eauto. }
  destruct X as (oa & ob & X). exists oa, ob. split; [exact E|]. split; [exact X|].
  destruct (conv_rbind (fun s => p_e2f_online q true s xa ya) (fun s => p_e2f_online q false s xb yb) _ _ _ _ _ _ C (conv_online s t xa ya xb yb oa ob X)) as [n C'].
  apply (completes _ _ _ _ n); [| |exact C'].
  - apply wp_rbind, wp_offline. intros [u| |]; [apply wp_online|reflexivity|reflexivity].
  - apply wp_rbind, wp_offline. intros [u| |]; [apply wp_online|reflexivity|reflexivity].
Qed.
End Q.
