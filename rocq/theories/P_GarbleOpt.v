(** The streaming backend executes every circuit correctly (C26), opening of wires (C29). *)
From Coq Require Import List NArith Bool Arith Lia.
From Verif Require Import L_Bits L_Res L_Xor S_Circuit M_Block M_Garble P_Garble P_GarbleFeed.
Import ListNotations.
Local Open Scope N_scope.

(** the two reserved labels *)
Definition special (x : N) : Prop := x = 0 \/ x = mask128.
Definition blk (x : N) : Prop := x < 2 ^ 128.

Lemma isZero_no : forall x, ~ special x -> isZero x = false.
Proof. intros x H. apply N.eqb_neq. intro E; apply H; left; exact E. Qed.
Lemma isOne_no : forall x, ~ special x -> isOne x = false.
Proof. intros x H. apply N.eqb_neq. intro E; apply H; right; exact E. Qed.
Lemma isZero_pub : forall b, isZero (opt_public b) = negb b.
Proof. destruct b; reflexivity. Qed.
Lemma isOne_pub : forall b, isOne (opt_public b) = b.
Proof. destruct b; reflexivity. Qed.
Lemma land_ones_l : forall x, blk x -> N.land mask128 x = x.
Proof. intros x H. rewrite N.land_comm. unfold mask128. rewrite N.land_ones. apply N.mod_small. exact H. Qed.
Lemma land_ones_r : forall x, blk x -> N.land x mask128 = x.
Proof. intros x H. unfold mask128. rewrite N.land_ones. apply N.mod_small. exact H. Qed.

Ltac nosp := repeat match goal with
  | H : ~ special ?x |- context [isZero ?x] => rewrite (isZero_no x H)
  | H : ~ special ?x |- context [isOne ?x] => rewrite (isOne_no x H)
  end.
Definition quad : Type := bool * option bool * N * N.
Definition qv (q : quad) : bool := fst (fst (fst q)).
Definition qk (q : quad) : option bool := snd (fst (fst q)).
Definition qg (q : quad) : N := snd (fst q).
Definition qe (q : quad) : N := snd q.
(** one wire: its value, its kind, the two labels *)
Definition rel (delta : N) (q : quad) : Prop :=
  match qk q with
  | Some b => qv q = b /\ qg q = opt_public b /\ qe q = opt_public b
  | None => ~ special (qg q) /\ ~ special (qe q) /\ qe q = N.lxor (qg q) (sel (qv q) delta) /\ blk (qg q) /\ blk (qe q)
  end.
Definition q0 : quad := (false, None, 0, 0).

Section Opt.
Variables (sigma aes : N -> N) (Hash : list N -> N) (fixk Kc : nat -> N) (rnd : nat -> bool) (lab : nat -> N) (delta : N).
Hypothesis Hdelta : getLSB delta = true.
Hypothesis Bd : blk delta.
Hypothesis Bs : forall x, blk (sigma x).
Hypothesis Ba : forall x, blk (aes x).
Hypothesis Bf : forall i, blk (fixk i).
Hypothesis Bk : forall i, blk (Kc i).
Hypothesis Bl : forall i, blk (lab i).
Notation o_step := (o_step sigma aes Hash fixk Kc rnd lab delta).
Notation o_run := (o_run sigma aes Hash fixk Kc rnd lab delta).

Lemma delta_nz : delta <> 0.
Proof. intro E. rewrite E in Hdelta. discriminate. Qed.
Lemma blk_xor : forall a b, blk a -> blk b -> blk (N.lxor a b).
Proof. intros a b; apply lxor_lt. Qed.
Lemma blk_sel : forall b x, blk x -> blk (sel b x).
Proof. destruct b; intros; [assumption | reflexivity]. Qed.
Lemma blk_tweak : forall i, blk (makeBlock i 0).
Proof.
  intro i. unfold makeBlock, blk. rewrite N.mod_0_l by discriminate. rewrite N.lor_0_r, N.shiftl_mul_pow2.
  assert (i mod 2 ^ 64 < 2 ^ 64) by (apply N.mod_lt; discriminate).
  change (2 ^ 128) with (2 ^ 64 * 2 ^ 64). apply N.mul_lt_mono_pos_r; [reflexivity | assumption].
Qed.
Lemma blk_hash : forall x i, blk (hg_hash sigma aes x (makeBlock i 0)).
Proof. intros. unfold hg_hash. apply blk_xor; [apply Ba | apply blk_xor; [apply Bs | apply blk_tweak]]. Qed.
Lemma blk_garble : forall a a1 b b1 idx, blk a -> let '(o, t0, t1) := garble_gate sigma aes a a1 b b1 delta idx in blk o /\ blk t0 /\ blk t1.
Proof. intros. unfold garble_gate. repeat split; repeat (assumption || apply blk_hash || apply blk_sel || apply blk_xor). Qed.
Lemma blk_eval : forall a b t0 t1 idx, blk a -> blk t0 -> blk t1 -> blk (eval_gate sigma aes a b t0 t1 idx).
Proof. intros. unfold eval_gate. repeat (assumption || apply blk_hash || apply blk_sel || apply blk_xor). Qed.

(** *** Single gates *)
Definition and_kind (a b : option bool) : option bool :=
  match a, b with
  | Some false, _ | _, Some false => Some false
  | Some true, x => x
  | x, Some true => x
  | None, None => None
  end.
Definition xor_kind (a b : option bool) : option bool :=
  match a, b with Some a, Some b => Some (xorb a b) | _, _ => None end.

Lemma and_ok : forall p q gid, rel delta p -> rel delta q ->
  let '(o, gid', m) := og_and sigma aes delta (qg p) (qg q) gid in
  exists oe, (forall ch, oe_and sigma aes (qe p) (qe q) gid (m ++ ch) = Ok (oe, gid', ch)) /\
    gid' = gid + (match qk p, qk q with None, None => 1 | _, _ => 0 end) /\
    (match and_kind (qk p) (qk q) with None => ~ special o /\ ~ special oe | _ => True end ->
     rel delta (qv p && qv q, and_kind (qk p) (qk q), o, oe)).
Proof.
  intros [[[vp kp] gp] ep] [[[vq kq] gq] eq] gid. unfold rel; cbn [qv qk qg qe fst snd]. intros Hp Hq.
  destruct kp as [bp|]; [destruct Hp as (-> & -> & ->)|destruct Hp as (P1 & P2 & P3 & P4 & P5)];
    (destruct kq as [bq|]; [destruct Hq as (-> & -> & ->)|destruct Hq as (Q1 & Q2 & Q3 & Q4 & Q5)]);
    unfold og_and, oe_and; rewrite ?isZero_pub, ?isOne_pub; nosp.
  - destruct bp, bq; cbn; eexists; (split; [reflexivity|]); (split; [rewrite N.add_0_r; reflexivity|]); intros _; repeat split; reflexivity.
  - destruct bp; cbn [negb orb and_kind andb].
    + eexists; split; [reflexivity|]. split; [rewrite N.add_0_r; reflexivity|].
      cbn [opt_public]. rewrite land_ones_l by assumption. intros _. repeat split; assumption.
    + eexists; split; [reflexivity|]. split; [rewrite N.add_0_r; reflexivity|]. intros _. repeat split; reflexivity.
  - destruct bq; cbn [negb orb and_kind]; rewrite ?andb_true_r, ?andb_false_r.
    + eexists; split; [reflexivity|]. split; [rewrite N.add_0_r; reflexivity|].
      cbn [opt_public]. rewrite land_ones_r by assumption. intros _. repeat split; assumption.
    + eexists; split; [reflexivity|]. split; [rewrite N.add_0_r; reflexivity|].
      intros _. cbn [opt_public]. rewrite N.land_0_r. repeat split; reflexivity.
  - cbn [orb and_kind].
    pose proof (half_gate_ok sigma aes delta gp gq vp vq gid) as HG.
    pose proof (blk_garble gp (N.lxor gp delta) gq (N.lxor gq delta) gid P4) as HB.
    destruct (garble_gate sigma aes gp (N.lxor gp delta) gq (N.lxor gq delta) delta gid) as [[o t0] t1].
    destruct HB as (B1 & B2 & B3). specialize (HG o t0 t1 Hdelta eq_refl). rewrite <- P3, <- Q3 in HG.
    eexists; split; [intro ch; reflexivity|]. cbn [fst snd]. split; [reflexivity|]. rewrite HG.
    intros [S1 S2]. repeat split; try assumption. rewrite <- HG. apply blk_eval; assumption.
Qed.

Definition xor_clean (p q : quad) : Prop :=
  match qk p, qk q with
  | None, None => (qg p = qg q -> qv p = qv q) /\ (qg p = N.lxor (qg q) delta -> qv p <> qv q)
  | _, _ => True
  end.
Lemma xor_ok : forall p q, rel delta p -> rel delta q -> xor_clean p q ->
  let o := og_xor fixk delta (qg p) (qg q) in
  let oe := oe_xor fixk (qe p) (qe q) in
  (match xor_kind (qk p) (qk q) with None => ~ special o /\ ~ special oe | _ => True end ->
     rel delta (xorb (qv p) (qv q), xor_kind (qk p) (qk q), o, oe)).
Proof.
  intros [[[vp kp] gp] ep] [[[vq kq] gq] eq]. unfold rel, xor_clean; cbn [qv qk qg qe fst snd]. intros Hp Hq.
  destruct kp as [bp|]; [destruct Hp as (-> & -> & ->)|destruct Hp as (P1 & P2 & P3 & P4 & P5)];
    (destruct kq as [bq|]; [destruct Hq as (-> & -> & ->)|destruct Hq as (Q1 & Q2 & Q3 & Q4 & Q5)]); intro Hc;
    unfold og_xor, oe_xor, og_not, oe_not; rewrite ?isZero_pub, ?isOne_pub; nosp.
  - destruct bp, bq; cbn; intros _; repeat split; reflexivity.
  - destruct bp; cbn [negb xor_kind]; intros [S1 S2]; repeat split; try assumption.
    + rewrite Q3. destruct vq; cbn; rewrite ?N.lxor_0_r; xor_solve.
    + apply blk_xor; assumption.
    + rewrite Q3. destruct vq; reflexivity.
  - destruct bq; cbn [negb xor_kind]; intros [S1 S2]; repeat split; try assumption.
    + rewrite P3. destruct vp; cbn; rewrite ?N.lxor_0_r; xor_solve.
    + apply blk_xor; assumption.
    + rewrite P3. destruct vp; reflexivity.
  - cbn [xor_kind]. destruct Hc as [H1 H2].
    assert (Bfp : blk (fix_point fixk)) by apply Bf.
    destruct (isZero (N.lxor gp gq)) eqn:Z.
    + apply N.eqb_eq, N.lxor_eq in Z. specialize (H1 Z). subst vq gq.
      rewrite Q3, <- P3, N.lxor_nilpotent. cbn [isZero N.eqb]. intros [S1 S2]. cbn zeta in *.
      rewrite xorb_nilpotent. cbn [sel]. rewrite N.lxor_0_r. repeat split; assumption.
    + destruct (N.lxor gp gq =? delta) eqn:D.
      * apply N.eqb_eq in D. assert (E : gp = N.lxor gq delta) by (rewrite <- D; xor_solve).
        specialize (H2 E). assert (V : vp = negb vq) by (destruct vp, vq; try reflexivity; contradiction H2; reflexivity).
        assert (EE : N.lxor ep eq = 0) by (rewrite P3, Q3, E, V; destruct vq; cbn; rewrite ?N.lxor_0_r; xor_solve).
        rewrite EE. cbn [isZero N.eqb]. intros [S1 S2]. repeat split; try assumption.
        -- rewrite V. destruct vq; cbn; rewrite ?N.lxor_0_r; xor_solve.
        -- apply blk_xor; assumption.
      * apply N.eqb_neq in D, Z.
        assert (EE : N.lxor ep eq = N.lxor (N.lxor gp gq) (sel (xorb vp vq) delta)).
        { rewrite P3, Q3. destruct vp, vq; cbn; rewrite ?N.lxor_0_r; xor_solve. }
        assert (NZ : isZero (N.lxor ep eq) = false).
        { apply N.eqb_neq. rewrite EE. intro Q. apply N.lxor_eq in Q. destruct (xorb vp vq); cbn in Q; contradiction. }
        rewrite NZ. intros [S1 S2]. repeat split; try assumption; try (apply blk_xor; assumption).
Qed.
Lemma not_ok : forall p, rel delta p ->
  let o := og_not delta (qg p) in
  (match qk p with None => ~ special o | _ => True end ->
     rel delta (negb (qv p), option_map negb (qk p), o, oe_not (qe p))).
Proof.
  intros [[[vp kp] gp] ep]. unfold rel; cbn [qv qk qg qe fst snd]. intros Hp.
  destruct kp as [bp|]; [destruct Hp as (-> & -> & ->)|destruct Hp as (P1 & P2 & P3 & P4 & P5)];
    unfold og_not, oe_not; rewrite ?isZero_pub, ?isOne_pub; nosp.
  - destruct bp; cbn; intros _; repeat split; reflexivity.
  - cbn. intro S1. repeat split; try assumption; [|apply blk_xor; assumption].
    rewrite P3. destruct vp; cbn; rewrite ?N.lxor_0_r; xor_solve.
Qed.

(** *** Opening *)
Lemma is_public_no : forall x, ~ special x -> is_public x = false.
Proof. intros; unfold is_public. rewrite isZero_no, isOne_no by assumption. reflexivity. Qed.
Lemma open_alice : forall Q, Forall (rel delta) Q -> exists be m, oe_reveal_send (map qe Q) = (be, m) /\
  forall ch, og_reveal_recv (map qg Q) (m ++ ch) = Ok (map qv Q, ch).
Proof.
  induction 1 as [|[[[v k] g] e] Q HR HQ IH]; [exists [], []; split; reflexivity|].
  destruct IH as (be & m & E & R). unfold rel in HR; cbn [qv qk qg qe fst snd map] in *.
  destruct k as [b|]; cbn [oe_reveal_send og_reveal_recv]; rewrite E.
  - destruct HR as (-> & -> & ->). rewrite isOne_pub, isZero_pub.
    destruct b; cbn [negb]; eexists _, m; (split; [reflexivity|]); intro ch; rewrite R; reflexivity.
  - destruct HR as (P1 & P2 & P3 & P4 & P5). nosp.
    eexists _, _. split; [reflexivity|]. intro ch. cbn [app recv as_bit bind]. rewrite R. cbn [bind].
    do 3 f_equal. rewrite P3, lsb_xor, lsb_sel by assumption. destruct (getLSB g), v; reflexivity.
Qed.
Lemma open_bob : forall Q, Forall (rel delta) Q -> exists bg m, og_reveal_send (map qg Q) = (bg, m) /\
  forall ch, oe_reveal_recv (map qe Q) (m ++ ch) = Ok (map qv Q, ch).
Proof.
  induction 1 as [|[[[v k] g] e] Q HR HQ IH]; [exists [], []; split; reflexivity|].
  destruct IH as (bg & m & E & R). unfold rel in HR; cbn [qv qk qg qe fst snd map] in *.
  destruct k as [b|]; cbn [og_reveal_send oe_reveal_recv]; rewrite E.
  - destruct HR as (-> & -> & ->). rewrite isOne_pub, isZero_pub.
    destruct b; cbn [negb]; eexists _, m; (split; [reflexivity|]); intro ch; rewrite R; reflexivity.
  - destruct HR as (P1 & P2 & P3 & P4 & P5). nosp.
    eexists _, _. split; [reflexivity|]. intro ch. cbn [app recv as_bit bind]. rewrite R. cbn [bind].
    do 3 f_equal. rewrite P3, lsb_xor, lsb_sel by assumption. destruct (getLSB g), v; reflexivity.
Qed.
Lemma open_check : forall Q, Forall (rel delta) Q ->
  map2 (fun l (x : bool) => if is_public l then l else if x then N.lxor l delta else l) (map qg Q) (map qv Q) = map qe Q.
Proof.
  induction 1 as [|[[[v k] g] e] Q HR HQ IH]; [reflexivity|].
  unfold rel in HR; cbn [qv qk qg qe fst snd map map2] in *. rewrite IH. f_equal.
  destruct k as [b|].
  - destruct HR as (-> & -> & ->). destruct b; reflexivity.
  - destruct HR as (P1 & P2 & P3 & P4 & P5). rewrite is_public_no by assumption. rewrite P3. destruct v; cbn; rewrite ?N.lxor_0_r; reflexivity.
Qed.

(** *** Whole executions *)
Definition oinv (bs : nat) (s : ostate) (w : list bool) (k : list (option bool)) : Prop :=
  exists Q p, Forall (rel delta) Q /\ w = map qv Q /\ k = map qk Q /\ og_w s = map qg Q /\ oe_w s = map qe Q /\
    og_gid s = oe_gid s /\ o_ge s = [] /\ o_eg s = [] /\ finv Kc rnd delta bs p (og_f s) (oe_f s).

(** the labels made by one instruction avoid the reserved values and accidental equality *)
Definition clean_step (s : ostate) (w : list bool) (k : list (option bool)) (c : instr) : Prop :=
  match c with
  | IXor i j =>
      match kind k i, kind k j with
      | None, None => (lbl (og_w s) i = lbl (og_w s) j -> wire w i = wire w j) /\
                      (lbl (og_w s) i = N.lxor (lbl (og_w s) j) delta -> wire w i <> wire w j)
      | _, _ => True
      end
  | _ => True
  end /\
  match o_step s c with
  | Ok (s', _) => forall i, (length w <= i < length w + new_wires c)%nat -> kind (kind_step k c) i = None ->
                    ~ special (lbl (og_w s') i) /\ ~ special (lbl (oe_w s') i)
  | _ => True
  end.
Fixpoint clean_run (s : ostate) (w : list bool) (k : list (option bool)) (prog : list instr) : Prop :=
  match prog with
  | [] => True
  | c :: t => clean_step s w k c /\
      match o_step s c with Ok (s', _) => clean_run s' (spec_step w c) (kind_step k c) t | _ => True end
  end.

Lemma nth_q : forall Q i, (i < length Q)%nat -> Forall (rel delta) Q -> rel delta (nth i Q q0).
Proof. intros Q i Hi HF. rewrite Forall_forall in HF. apply HF, nth_In, Hi. Qed.
Lemma lbl_g : forall Q i, lbl (map qg Q) i = qg (nth i Q q0).
Proof. intros; unfold lbl. exact (map_nth qg Q q0 i). Qed.
Lemma lbl_e : forall Q i, lbl (map qe Q) i = qe (nth i Q q0).
Proof. intros; unfold lbl. exact (map_nth qe Q q0 i). Qed.
Lemma wire_q : forall Q i, wire (map qv Q) i = qv (nth i Q q0).
Proof. intros; unfold wire. exact (map_nth qv Q q0 i). Qed.
Lemma kind_q : forall Q i, kind (map qk Q) i = qk (nth i Q q0).
Proof. intros; unfold kind. exact (map_nth qk Q q0 i). Qed.
Lemma nth_last : forall {A} (l : list A) x d, nth (length l) (l ++ [x]) d = x.
Proof. intros. rewrite app_nth2, Nat.sub_diag by lia. reflexivity. Qed.
Lemma last_g : forall {A} (l : list A) x d n, n = length l -> nth n (l ++ [x]) d = x.
Proof. intros; subst. apply nth_last. Qed.

(** the wires of an input request *)
Definition inq (bits : list bool) (g : list N) : list quad := map2 (fun b x => (b, None, x, N.lxor x (sel b delta))) bits g.
Lemma inq_ok : forall bits g, length g = length bits ->
  map qv (inq bits g) = bits /\ map qk (inq bits g) = repeat None (length bits) /\ map qg (inq bits g) = g /\
  map qe (inq bits g) = evl delta g bits.
Proof.
  induction bits; destruct g; cbn; intros; try discriminate; [repeat split; reflexivity|].
  destruct (IHbits g) as (I1 & I2 & I3 & I4); [lia|]. unfold inq in *. rewrite I1, I2, I3, I4. repeat split; reflexivity.
Qed.
Lemma inq_nth : forall bits g i, length g = length bits -> (i < length bits)%nat ->
  nth i (inq bits g) q0 = (nth i bits false, None, nth i g 0, N.lxor (nth i g 0) (sel (nth i bits false) delta)).
Proof.
  induction bits; destruct g; cbn; intros; try discriminate; [lia|]. destruct i; [reflexivity|]. apply IHbits; lia.
Qed.
Lemma evl_blk : forall g b, Forall blk g -> length g = length b -> Forall blk (evl delta g b).
Proof.
  intros g b H; revert b; induction H; destruct b; cbn; intros; try discriminate; [constructor|].
  unfold evl in *; cbn. constructor; [apply blk_xor; [assumption | apply blk_sel, Bd] | apply IHForall; lia].
Qed.

Definition step_goal (bs : nat) (s : ostate) (w : list bool) (k : list (option bool)) (c : instr) : Prop :=
  exists s' op, o_step s c = Ok (s', op) /\ Forall2 seen (spec_opened w c) op /\
    oinv bs s' (spec_step w c) (kind_step k c) /\ og_gid s' = og_gid s + N.of_nat (live_and k c).

Lemma feed_step : forall bs s w k p bits, oinv bs s w k -> p <> PUBLIC ->
  clean_step s w k (IFeed p bits) -> step_goal bs s w k (IFeed p bits).
Proof.
  intros bs s w k p bits (Q & ps & F & -> & -> & Hg & He & Hi & C1 & C2 & Hf) Hpt [_ Hc].
  assert (X : exists lg fg fe m q, eva_feed Kc rnd lab delta p bits (oe_f s) = Ok (evl delta lg bits, fe, m) /\
    gen_feed Kc lab delta p bits (og_f s) m = Ok (lg, fg, []) /\ length lg = length bits /\ Forall blk lg /\ finv Kc rnd delta bs q fg fe).
  { destruct p; [| |contradiction].
    - destruct (feed_alice Kc rnd lab delta bs ps _ _ bits Hf) as (fe & fg & E1 & E2 & E3 & E4).
      eexists _, _, _, _, _. rewrite E1, E2, E3. split; [reflexivity|]. split; [reflexivity|].
      assert (LL : length (map lab (seq (p_shared ps) (length bits))) = length bits) by apply len_map_seq.
      split; [rewrite evl_length; exact LL|]. split; [|exact E4]. apply evl_blk; [|exact LL].
      apply Forall_forall. intros x Hx. apply in_map_iff in Hx. destruct Hx as (y & <- & _). apply Bl.
    - pose proof (pos_take_ridx bs ps (length bits) (proj1 Hf)) as Hr.
      pose proof (feed_bob Kc rnd lab delta bs ps _ _ bits Hf) as H.
      destruct (pos_take bs ps (length bits)) as [[idx ridx] q]. cbn zeta in H.
      destruct H as (fe & fg & lg & E0 & E1 & E2 & E3 & E4 & E5).
      specialize (E2 []). rewrite app_nil_r in E2.
      eexists lg, fg, fe, _, q. split; [exact E1|]. split; [exact E2|]. split; [exact E5|]. split; [|exact E3].
      assert (BK : Forall blk (map Kc idx)).
      { apply Forall_forall. intros x Hx. apply in_map_iff in Hx. destruct Hx as (y & <- & _). apply Bk. }
      rewrite E0. destruct (bs <? length bits)%nat; [exact BK|].
      apply evl_blk; [exact BK|]. rewrite map2_length2; rewrite !map_length; lia. }
  destruct X as (lg & fg & fe & m & q & E1 & E2 & E3 & E4 & E5).
  destruct (inq_ok bits lg E3) as (I1 & I2 & I3 & I4).
  cbn [M_Garble.o_step] in Hc. rewrite E1 in Hc. cbn [bind] in Hc. rewrite C2 in Hc. cbn [app] in Hc. rewrite E2 in Hc. cbn [bind] in Hc.
  unfold step_goal. cbn [M_Garble.o_step]. rewrite E1. cbn [bind]. rewrite C2. cbn [app]. rewrite E2. cbn [bind].
  eexists _, []. split; [reflexivity|]. split; [constructor|]. split; [|cbn; rewrite N.add_0_r; reflexivity].
  exists (Q ++ inq bits lg), q.
  cbn [og_w oe_w og_gid oe_gid o_ge o_eg og_f oe_f spec_step kind_step] in *.
  rewrite !map_app, I1, I2, I3, I4, Hg, He.
  split; [|repeat split; assumption || apply E5].
  apply Forall_app. split; [exact F|]. apply Forall_forall. intros x Hx.
  apply (In_nth _ _ q0) in Hx. destruct Hx as (i & Hl & <-).
  assert (LQ : length (inq bits lg) = length bits) by (rewrite <- (map_length qg), I3; exact E3).
  specialize (Hc (length Q + i)%nat). rewrite map_length in Hc. cbn [new_wires] in Hc.
  assert (Hi' : (length Q <= length Q + i < length Q + length bits)%nat) by lia. specialize (Hc Hi').
  unfold kind, lbl in Hc. rewrite Hg, He, !app_nth2 in Hc by (rewrite map_length; lia). rewrite !map_length in Hc.
  replace (length Q + i - length Q)%nat with i in Hc by lia. rewrite nth_repeat in Hc. specialize (Hc eq_refl).
  rewrite inq_nth by (assumption || lia).
  unfold rel; cbn [qk qv qg qe fst snd].
  assert (HB : blk (nth i lg 0)) by (rewrite Forall_forall in E4; apply E4, nth_In; lia).
  assert (HE : nth i (evl delta lg bits) 0 = N.lxor (nth i lg 0) (sel (nth i bits false) delta)) by exact (evl_nth delta lg bits i E3).
  rewrite HE in Hc. destruct Hc as [H1 H2].
  split; [exact H1|]. split; [exact H2|]. split; [reflexivity|]. split; [exact HB|].
  apply blk_xor; [exact HB | apply blk_sel, Bd].
Qed.

(** a one-wire instruction with no effect on the rest of the state *)
Lemma wire_step : forall bs s w k c v kd g e gid gid' ch s', oinv bs s w k ->
  new_wires c = 1%nat -> spec_opened w c = [] ->
  spec_step w c = w ++ [v] -> kind_step k c = k ++ [kd] ->
  s' = {| og_w := og_w s ++ [g]; og_gid := gid; og_f := og_f s;
          oe_w := oe_w s ++ [e]; oe_gid := gid'; oe_f := oe_f s; o_ge := ch; o_eg := o_eg s |} ->
  o_step s c = Ok (s', []) -> gid = gid' -> ch = [] -> gid = og_gid s + N.of_nat (live_and k c) ->
  (match kd with None => ~ special g /\ ~ special e | _ => True end -> rel delta (v, kd, g, e)) ->
  clean_step s w k c -> step_goal bs s w k c.
Proof.
  intros bs s w k c v kd g e gid gid' ch s' (Q & ps & F & -> & -> & Hg & He & Hi & C1 & C2 & Hf) Hn Ho Hs Hk -> E <- -> Hl Hr [_ Hc].
  rewrite E in Hc. cbn [og_w oe_w] in Hc. specialize (Hc (length Q)). rewrite map_length, Hn, Hk in Hc.
  assert (X : (length Q <= length Q < length Q + 1)%nat) by lia. specialize (Hc X).
  unfold kind, lbl in Hc. rewrite Hg, He in Hc. rewrite !last_g in Hc by (rewrite map_length; reflexivity).
  eexists _, _. split; [exact E|]. split; [rewrite Ho; constructor|]. split; [|exact Hl].
  exists (Q ++ [(v, kd, g, e)]), ps. rewrite Hs, Hk. cbn [og_w oe_w og_gid oe_gid o_ge o_eg og_f oe_f].
  rewrite !map_app, Hg, He. cbn [map qv qk qg qe fst snd].
  split; [|repeat split; assumption || apply Hf].
  apply Forall_app. split; [exact F|]. constructor; [|constructor]. apply Hr.
  destruct kd; [exact I | apply Hc; reflexivity].
Qed.

Lemma opt_step : forall bs s w k c, oinv bs s w k -> wf_instr (length w) c = true ->
  clean_step s w k c -> step_goal bs s w k c.
Proof.
  intros bs s w k c Hinv Hwf Hclean. pose proof Hinv as (Q & ps & F & Ew & Ek & Hg & He & Hi & C1 & C2 & Hf).
  assert (LQ : length w = length Q) by (rewrite Ew; apply map_length).
  destruct c as [b|p bits|i j|i j|i|p ws].
  - eapply (wire_step bs s w k (IPub b) b (Some b) (opt_public b) (opt_public b)); try reflexivity; try eassumption.
    + cbn. rewrite N.add_0_r. reflexivity.
    + intros _. repeat split; reflexivity.
  - apply feed_step; [exact Hinv| |exact Hclean]. intro; subst p; discriminate.
  - cbn [wf_instr] in Hwf. apply andb_prop in Hwf. destruct Hwf as [Wi Wj]. apply Nat.ltb_lt in Wi, Wj. rewrite LQ in Wi, Wj.
    pose proof (and_ok (nth i Q q0) (nth j Q q0) (og_gid s) (nth_q Q i Wi F) (nth_q Q j Wj F)) as H.
    rewrite <- !lbl_g, <- !lbl_e, <- !wire_q, <- !kind_q, <- Hg, <- He, <- Ew, <- Ek in H.
    destruct (og_and sigma aes delta (lbl (og_w s) i) (lbl (og_w s) j) (og_gid s)) as [[o gid'] m] eqn:EA.
    destruct H as (oe & H1 & H2 & H3). specialize (H1 []). rewrite app_nil_r in H1.
    eapply (wire_step bs s w k (IAnd i j) (wire w i && wire w j) (and_kind (kind k i) (kind k j)) o oe gid' gid' []); try reflexivity; try assumption.
    + cbn [kind_step]. destruct (kind k i) as [[]|], (kind k j) as [[]|]; reflexivity.
    + cbn [M_Garble.o_step]. rewrite EA, C1. cbn [app]. rewrite <- Hi, H1. cbn [bind fst snd]. reflexivity.
    + rewrite H2. cbn [live_and]. destruct (kind k i), (kind k j); reflexivity.
  - cbn [wf_instr] in Hwf. apply andb_prop in Hwf. destruct Hwf as [Wi Wj]. apply Nat.ltb_lt in Wi, Wj. rewrite LQ in Wi, Wj.
    assert (HX : xor_clean (nth i Q q0) (nth j Q q0)).
    { unfold xor_clean. rewrite <- !lbl_g, <- !wire_q, <- !kind_q, <- Hg, <- Ew, <- Ek. apply Hclean. }
    pose proof (xor_ok (nth i Q q0) (nth j Q q0) (nth_q Q i Wi F) (nth_q Q j Wj F) HX) as H. cbn zeta in H.
    rewrite <- !lbl_g, <- !lbl_e, <- !wire_q, <- !kind_q, <- Hg, <- He, <- Ew, <- Ek in H.
    eapply (wire_step bs s w k (IXor i j) (xorb (wire w i) (wire w j)) (xor_kind (kind k i) (kind k j)) _ _ (og_gid s) (oe_gid s) (o_ge s)); try reflexivity; try assumption.
    + cbn. rewrite N.add_0_r. reflexivity.
  - cbn [wf_instr] in Hwf. apply Nat.ltb_lt in Hwf. rewrite LQ in Hwf.
    pose proof (not_ok (nth i Q q0) (nth_q Q i Hwf F)) as H. cbn zeta in H.
    rewrite <- !lbl_g, <- !lbl_e, <- !wire_q, <- !kind_q, <- Hg, <- He, <- Ew, <- Ek in H.
    eapply (wire_step bs s w k (INot i) (negb (wire w i)) (option_map negb (kind k i)) _ _ (og_gid s) (oe_gid s) (o_ge s)); try reflexivity; try assumption.
    + cbn. rewrite N.add_0_r. reflexivity.
    + intro HS. apply H. destruct (kind k i); [exact I | apply HS].
  - cbn [wf_instr] in Hwf. rewrite LQ in Hwf.
    set (R := map (fun i => nth i Q q0) ws).
    assert (FR : Forall (rel delta) R).
    { apply Forall_forall. intros x Hx. apply in_map_iff in Hx. destruct Hx as (i & <- & Hin).
      rewrite forallb_forall in Hwf. apply Hwf, Nat.ltb_lt in Hin. apply nth_q; assumption. }
    assert (RG : map (lbl (og_w s)) ws = map qg R).
    { unfold R. rewrite map_map, Hg. apply map_ext. intro; apply lbl_g. }
    assert (RE : map (lbl (oe_w s)) ws = map qe R).
    { unfold R. rewrite map_map, He. apply map_ext. intro; apply lbl_e. }
    assert (RV : map (wire w) ws = map qv R).
    { unfold R. rewrite map_map, Ew. apply map_ext. intro; apply wire_q. }
    unfold step_goal. cbn [M_Garble.o_step spec_opened spec_step kind_step live_and]. rewrite RG, RE, RV, N.add_0_r, C1, C2.
    destruct p.
    + destruct (open_alice R FR) as (be & m & E1 & E2). specialize (E2 []). rewrite app_nil_r in E2.
      rewrite E1. cbn [app]. rewrite E2. cbn [bind].
      eexists _, _. split; [reflexivity|]. split; [constructor; [|constructor]; split; reflexivity|]. split; [|reflexivity].
      exists Q, ps. repeat split; assumption || apply Hf.
    + destruct (open_bob R FR) as (bg & m & E1 & E2). specialize (E2 []). rewrite app_nil_r in E2.
      rewrite E1. cbn [app]. rewrite E2. cbn [bind].
      eexists _, _. split; [reflexivity|]. split; [constructor; [|constructor]; split; reflexivity|]. split; [|reflexivity].
      exists Q, ps. repeat split; assumption || apply Hf.
    + destruct (open_bob R FR) as (bg & m & E1 & E2). specialize (E2 []). rewrite app_nil_r in E2.
      rewrite E1. cbn [app]. rewrite E2. cbn [bind app oe_reveal_report recv as_bits as_hash].
      unfold og_reveal_check. rewrite open_check by exact FR. rewrite N.eqb_refl. cbn [bind].
      eexists _, _. split; [reflexivity|]. split; [constructor; [|constructor]; repeat split; reflexivity|]. split; [|reflexivity].
      exists Q, ps. repeat split; assumption || apply Hf.
Qed.

Lemma opt_run : forall bs prog s w k, oinv bs s w k -> wf (length w) prog = true -> clean_run s w k prog ->
  exists s' op, o_run s prog = Ok (s', op) /\ Forall2 seen (snd (spec_run w prog)) op /\
    oinv bs s' (fst (spec_run w prog)) (fold_left kind_step prog k) /\
    og_gid s' = og_gid s + N.of_nat (live_ands k prog).
Proof.
  intros bs prog; induction prog as [|c t IH]; intros s w k Hi Hwf Hc.
  - exists s, []. split; [reflexivity|]. split; [constructor|]. split; [exact Hi | cbn; rewrite N.add_0_r; reflexivity].
  - cbn [wf] in Hwf. apply andb_prop in Hwf. destruct Hwf as [W1 W2]. destruct Hc as [Hc1 Hc2].
    destruct (opt_step bs s w k c Hi W1 Hc1) as (s1 & op1 & E1 & E2 & E3 & E4).
    rewrite E1 in Hc2. rewrite <- spec_step_length in W2.
    destruct (IH s1 _ _ E3 W2 Hc2) as (s2 & op2 & F1 & F2 & F3 & F4).
    exists s2, (op1 ++ op2). cbn [M_Garble.o_run]. rewrite E1. cbn [bind]. rewrite F1. cbn [bind].
    split; [reflexivity|]. cbn [spec_run fold_left live_ands]. destruct (spec_run (spec_step w c) t) as [w' ov]. cbn [fst snd] in *.
    split; [apply Forall2_app; assumption|]. split; [exact F3|]. rewrite F4, E4, Nat2N.inj_add, N.add_assoc. reflexivity.
Qed.

Theorem streaming_ok : forall bs prog, wf 0 prog = true -> clean_run (o_init Kc rnd delta bs) [] [] prog ->
  exists s op, o_run (o_init Kc rnd delta bs) prog = Ok (s, op) /\
    Forall2 seen (snd (spec_run [] prog)) op /\
    og_gid s = N.of_nat (live_ands [] prog) /\ oe_gid s = og_gid s /\ o_ge s = [] /\ o_eg s = [] /\
    length (og_w s) = length (fst (spec_run [] prog)) /\
    (forall i, (i < length (og_w s))%nat ->
       match kind (fold_left kind_step prog []) i with
       | Some b => wire (fst (spec_run [] prog)) i = b /\ lbl (og_w s) i = opt_public b /\ lbl (oe_w s) i = opt_public b
       | None => lbl (oe_w s) i = N.lxor (lbl (og_w s) i) (sel (wire (fst (spec_run [] prog)) i) delta)
       end).
Proof.
  intros bs prog Hwf Hc.
  assert (H0 : oinv bs (o_init Kc rnd delta bs) [] []).
  { exists [], (pos_init bs). split; [constructor|]. repeat (split; [reflexivity|]). apply finv_init. }
  destruct (opt_run bs prog _ _ _ H0 Hwf Hc) as (s & op & R & O & I & G).
  exists s, op. split; [exact R|]. split; [exact O|].
  destruct I as (Q & ps & F & -> & -> & Hg & He & Hi & C1 & C2 & Hf).
  split; [rewrite G; reflexivity|]. split; [symmetry; exact Hi|]. split; [exact C1|]. split; [exact C2|].
  rewrite Hg, He, !map_length. split; [reflexivity|].
  intros i Hl. pose proof (nth_q Q i Hl F) as HR. rewrite kind_q, lbl_g, lbl_e, wire_q.
  unfold rel in HR. destruct (qk (nth i Q q0)); [exact HR|]. apply HR.
Qed.

(** *** Opening to both parties against a cheating evaluator (C29) *)
(** The evaluator sends any bits and the hash of any labels of its choosing.  If the
    garbler accepts, either the hash has a collision or the evaluator knew, for every wire
    that is not a constant, the label of the bit it claimed. *)
Theorem reveal_sound : forall lg b h L b', og_reveal_check Hash delta lg b h = Ok b' -> h = Hash L ->
  length b = length lg ->
  b' = b /\
  let blks := map2 (fun l (x : bool) => if is_public l then l else if x then N.lxor l delta else l) lg b in
  (L <> blks /\ Hash L = Hash blks) \/
  (length L = length lg /\
   forall i, (i < length lg)%nat -> is_public (lbl lg i) = false ->
     lbl L i = N.lxor (lbl lg i) (sel (nth i b false) delta)).
Proof.
  intros lg b h L b' H Hh Hlen. unfold og_reveal_check in H.
  set (blks := map2 (fun l (x : bool) => if is_public l then l else if x then N.lxor l delta else l) lg b) in *.
  destruct (Hash blks =? h) eqn:E; [|discriminate]. inversion H; subst b'. split; [reflexivity|]. cbn zeta.
  apply N.eqb_eq in E. destruct (list_eq_dec N.eq_dec L blks) as [EL|NL].
  - right. subst L. split; [unfold blks; apply map2_length2; symmetry; exact Hlen|]. intros i Hi Hp.
    unfold lbl in *. unfold blks.
    pose proof (map2_nth2 (fun l (x : bool) => if is_public l then l else if x then N.lxor l delta else l) lg b i 0 false (eq_sym Hlen)) as HN.
    cbn [is_public isZero N.eqb orb] in HN. rewrite HN, Hp. destruct (nth i b false); cbn; rewrite ?N.lxor_0_r; reflexivity.
  - left. split; [exact NL|]. rewrite <- Hh. symmetry; exact E.
Qed.
Theorem online_reveal_sound : forall lg b h L b', ng_reveal_check Hash delta lg b h = Ok b' -> h = Hash L ->
  length b = length lg ->
  b' = b /\
  let blks := map2 (fun l (x : bool) => if x then N.lxor l delta else l) lg b in
  (L <> blks /\ Hash L = Hash blks) \/
  (length L = length lg /\
   forall i, (i < length lg)%nat -> lbl L i = N.lxor (lbl lg i) (sel (nth i b false) delta)).
Proof.
  intros lg b h L b' H Hh Hlen. unfold ng_reveal_check in H.
  set (blks := map2 (fun l (x : bool) => if x then N.lxor l delta else l) lg b) in *.
  destruct (Hash blks =? h) eqn:E; [|discriminate]. inversion H; subst b'. split; [reflexivity|]. cbn zeta.
  apply N.eqb_eq in E. destruct (list_eq_dec N.eq_dec L blks) as [EL|NL].
  - right. subst L. split; [unfold blks; apply map2_length2; symmetry; exact Hlen|]. intros i Hi.
    unfold lbl in *. unfold blks.
    pose proof (map2_nth2 (fun l (x : bool) => if x then N.lxor l delta else l) lg b i 0 false (eq_sym Hlen)) as HN.
    rewrite HN. destruct (nth i b false); cbn; rewrite ?N.lxor_0_r; reflexivity.
  - left. split; [exact NL|]. rewrite <- Hh. symmetry; exact E.
Qed.
(** with honest labels of values v, a lie on wire i needs the other label of that wire *)
Corollary reveal_lie : forall lg b h L v i b', og_reveal_check Hash delta lg b h = Ok b' -> h = Hash L ->
  length b = length lg -> (i < length lg)%nat -> is_public (lbl lg i) = false -> nth i b false = negb v ->
  (exists L', L' <> L /\ Hash L' = Hash L) \/
  lbl L i = N.lxor (N.lxor (lbl lg i) (sel v delta)) delta.
Proof.
  intros lg b h L v i b' H Hh Hlen Hi Hp Hv.
  destruct (reveal_sound _ _ _ _ _ H Hh Hlen) as [_ [[N1 N2]|[_ S]]].
  - left. eexists. split; [|symmetry; exact N2]. intro X; apply N1; symmetry; exact X.
  - right. rewrite (S i Hi Hp), Hv. destruct v; cbn; rewrite ?N.lxor_0_r; xor_solve.
Qed.
End Opt.

(** a checker for the no-collision condition *)
Section Check.
Variables (sigma aes : N -> N) (Hash : list N -> N) (fixk Kc : nat -> N) (rnd : nat -> bool) (lab : nat -> N) (delta : N).
Definition specialb (x : N) : bool := (x =? 0) || (x =? mask128).
Definition clean_stepb (s : ostate) (w : list bool) (k : list (option bool)) (c : instr) : bool :=
  match c with
  | IXor i j =>
      match kind k i, kind k j with
      | None, None => (negb (lbl (og_w s) i =? lbl (og_w s) j) || eqb (wire w i) (wire w j)) &&
                      (negb (lbl (og_w s) i =? N.lxor (lbl (og_w s) j) delta) || negb (eqb (wire w i) (wire w j)))
      | _, _ => true
      end
  | _ => true
  end &&
  match o_step sigma aes Hash fixk Kc rnd lab delta s c with
  | Ok (s', _) => forallb (fun i => match kind (kind_step k c) i with
                                    | None => negb (specialb (lbl (og_w s') i)) && negb (specialb (lbl (oe_w s') i))
                                    | _ => true end) (seq (length w) (new_wires c))
  | _ => true
  end.
Fixpoint clean_runb (s : ostate) (w : list bool) (k : list (option bool)) (prog : list instr) : bool :=
  match prog with
  | [] => true
  | c :: t => clean_stepb s w k c &&
      match o_step sigma aes Hash fixk Kc rnd lab delta s c with Ok (s', _) => clean_runb s' (spec_step w c) (kind_step k c) t | _ => true end
  end.
Lemma specialb_no : forall x, specialb x = false -> ~ special x.
Proof.
  intros x H. unfold specialb in H. apply orb_false_elim in H. destruct H as [H1 H2]. apply N.eqb_neq in H1, H2.
  intros [E|E]; contradiction.
Qed.
Lemma clean_stepb_ok : forall s w k c, clean_stepb s w k c = true -> clean_step sigma aes Hash fixk Kc rnd lab delta s w k c.
Proof.
  intros s w k c H. unfold clean_stepb in H. apply andb_prop in H. destruct H as [H1 H2]. split.
  - destruct c; try exact I. destruct (kind k i), (kind k j); try exact I. apply andb_prop in H1. destruct H1 as [A B].
    split; intro E.
    + rewrite E, N.eqb_refl in A. cbn in A. apply eqb_prop; exact A.
    + rewrite E, N.eqb_refl in B. cbn in B. intro V. rewrite V, eqb_reflx in B. discriminate.
  - destruct (o_step sigma aes Hash fixk Kc rnd lab delta s c) as [[s' op]| |]; try exact I.
    intros i Hi Hk. rewrite forallb_forall in H2. specialize (H2 i). rewrite Hk in H2.
    assert (In i (seq (length w) (new_wires c))) as Hin by (apply in_seq; lia). specialize (H2 Hin).
    apply andb_prop in H2. destruct H2 as [A B]. apply negb_true_iff in A, B. split; apply specialb_no; assumption.
Qed.
Lemma clean_runb_ok : forall prog s w k, clean_runb s w k prog = true -> clean_run sigma aes Hash fixk Kc rnd lab delta s w k prog.
Proof.
  induction prog as [|c t IH]; intros s w k H; [exact I|]. cbn [clean_runb] in H. apply andb_prop in H. destruct H as [H1 H2].
  split; [apply clean_stepb_ok; exact H1|].
  destruct (o_step sigma aes Hash fixk Kc rnd lab delta s c) as [[s' op]| |]; try exact I. apply IH; exact H2.
Qed.
End Check.

(** XOR shares of garbled wires *)
Lemma lsb_evl : forall delta g v, getLSB delta = true -> length g = length v ->
  map getLSB (evl delta g v) = bxor (map getLSB g) v.
Proof.
  intros delta g v Hd. revert v. unfold bxor. induction g; destruct v; cbn; intros; try discriminate; [reflexivity|].
  unfold evl in *; cbn. rewrite IHg by lia. rewrite lsb_xor, lsb_sel by exact Hd. reflexivity.
Qed.
Lemma set_delta_lsb : forall d, getLSB (set_delta d) = true.
Proof. intro d. unfold set_delta, getLSB. rewrite N.lor_spec. reflexivity. Qed.

Lemma reveal_honest : forall Hash delta lg v, length lg = length v -> Forall (fun l => ~ special l) lg ->
  og_reveal_check Hash delta lg v (Hash (evl delta lg v)) = Ok v.
Proof.
  intros Hash delta lg v Hl HF. unfold og_reveal_check.
  replace (map2 _ lg v) with (evl delta lg v); [rewrite N.eqb_refl; reflexivity|].
  revert v Hl; induction HF; destruct v; cbn; intros; try discriminate; [reflexivity|].
  unfold evl in *; cbn. rewrite <- IHHF by lia. rewrite is_public_no by assumption. destruct b; cbn; rewrite ?N.lxor_0_r; reflexivity.
Qed.
Lemma online_reveal_honest : forall Hash delta lg v, length lg = length v ->
  ng_reveal_check Hash delta lg v (Hash (evl delta lg v)) = Ok v.
Proof. intros. unfold ng_reveal_check. rewrite check_labels by assumption. rewrite N.eqb_refl. reflexivity. Qed.
