(** The evaluator's view of the two-phase backend fits every input with the same opened values. *)
From Coq Require Import List NArith Bool Arith Lia.
From Verif Require Import L_Bits L_Res L_Xor S_Circuit S_GarbleView M_Block M_Garble M_GarbleTr P_Garble.
Import ListNotations.
Local Open Scope N_scope.

Lemma lxx a : N.lxor a a = 0.
Proof. apply N.lxor_nilpotent. Qed.
Lemma lxor_sel_sel d (a b : bool) : N.lxor (sel a d) (sel b d) = sel (xorb a b) d.
Proof. destruct a, b; cbn [sel xorb]; now rewrite ?lxx, ?N.lxor_0_r, ?N.lxor_0_l. Qed.

(** ** One gate *)
Section GATE.
Variables (sigma aes aes' : N -> N) (delta : N).
Hypothesis Hd : getLSB delta = true.
Notation h := (hg_hash sigma aes).
Notation h' := (hg_hash sigma aes').
Lemma pair_sum (g : N -> N -> N) A (v : bool) t :
  N.lxor (g (N.lxor A (sel v delta)) t) (g (N.lxor (N.lxor A (sel v delta)) delta) t) = N.lxor (g A t) (g (N.lxor A delta) t).
Proof.
  destruct v; cbn [sel]; rewrite ?N.lxor_0_r; [|reflexivity].
  rewrite (N.lxor_assoc A delta delta), lxx, N.lxor_0_r. apply N.lxor_comm.
Qed.
Lemma gate_same A B va vb va' vb' k o t0 t1 :
  let t := makeBlock (2 * k) 0 in let u := makeBlock (2 * k + 1) 0 in
  h' A t = h A t -> h' B u = h B u ->
  h' (N.lxor A delta) t = N.lxor (h (N.lxor A delta) t) (sel (xorb vb vb') delta) ->
  h' (N.lxor B delta) u = N.lxor (h (N.lxor B delta) u) (sel (xorb va va') delta) ->
  let a := N.lxor A (sel va delta) in let b := N.lxor B (sel vb delta) in
  let a' := N.lxor A (sel va' delta) in let b' := N.lxor B (sel vb' delta) in
  garble_gate sigma aes a (N.lxor a delta) b (N.lxor b delta) delta k = (o, t0, t1) ->
  garble_gate sigma aes' a' (N.lxor a' delta) b' (N.lxor b' delta) delta k =
    (N.lxor (N.lxor o (sel (va && vb) delta)) (sel (va' && vb') delta), t0, t1).
Proof.
  intros t u H1 H2 H3 H4 a b a' b' G.
  assert (E1 := half_gate_ok sigma aes delta a b va vb k o t0 t1 Hd G).
  destruct (garble_gate sigma aes' a' (N.lxor a' delta) b' (N.lxor b' delta) delta k) as [[o' t0'] t1'] eqn:G'.
  assert (E2 := half_gate_ok sigma aes' delta a' b' va' vb' k o' t0' t1' Hd G').
  assert (RA : forall v, N.lxor (N.lxor A (sel v delta)) (sel v delta) = A) by (intro v; now rewrite N.lxor_assoc, lxx, N.lxor_0_r).
  assert (RB : forall v, N.lxor (N.lxor B (sel v delta)) (sel v delta) = B) by (intro v; now rewrite N.lxor_assoc, lxx, N.lxor_0_r).
  unfold a, b in E1. unfold a', b' in E2. rewrite RA, RB in E1, E2.
  assert (T : t0' = t0 /\ t1' = t1).
  { unfold garble_gate in G, G'. fold t u in G, G'. injection G as _ G0 G1. injection G' as _ G0' G1'. subst t0 t1 t0' t1'.
    unfold a, b, a', b'.
    rewrite !(pair_sum h), !(pair_sum h'), H1, H2, H3, H4, !lsb_xor, !lsb_sel by exact Hd. split.
    - destruct vb, vb', (getLSB B); cbn [sel xorb]; rewrite ?N.lxor_0_r; xor_solve.
    - destruct va, va'; cbn [sel xorb]; rewrite ?N.lxor_0_r; xor_solve. }
  destruct T as [-> ->]. f_equal. f_equal.
  assert (EV : eval_gate sigma aes' A B t0 t1 k = eval_gate sigma aes A B t0 t1 k).
  { unfold eval_gate. fold t u. now rewrite H1, H2. }
  rewrite EV, E1 in E2. rewrite E2, N.lxor_assoc, lxx, N.lxor_0_r. reflexivity.
Qed.
End GATE.

(** ** Values at the points *)
Lemma shift_off sigma delta gs l w w' p : ~ In p (unknown_points sigma delta gs l) -> shift sigma delta gs l w w' p = 0.
Proof.
  unfold shift, unknown_points, differences. induction gs as [|[[k i] j] gs IH]; [reflexivity|].
  cbn [flat_map app fold_right fst snd In]. intro H.
  destruct (N.eqb_spec p (hash_point sigma (N.lxor (nth i l 0) delta) (2 * k))) as [->|_]; [exfalso; auto|].
  destruct (N.eqb_spec p (hash_point sigma (N.lxor (nth j l 0) delta) (2 * k + 1))) as [->|_]; [exfalso; auto|]. apply IH. tauto.
Qed.
Lemma fold_at (es : list (N * N)) p v : NoDup (map fst es) -> In (p, v) es ->
  fold_right (fun e acc => if p =? fst e then N.lxor (snd e) acc else acc) 0 es = v.
Proof.
  induction es as [|[q u] es IH]; [intros _ []|]. cbn [map fst fold_right snd]. intros ND I. inversion ND as [|? ? N1 N2]; subst.
  assert (Z : forall q', ~ In q' (map fst es) -> fold_right (fun e acc => if q' =? fst e then N.lxor (snd e) acc else acc) 0 es = 0).
  { clear. induction es as [|[q u] es IH]; [reflexivity|]. cbn [map fst fold_right snd In]. intros q' H.
    destruct (N.eqb_spec q' q) as [->|_]; [exfalso; auto|auto]. }
  destruct I as [E|I].
  - injection E as -> ->. rewrite N.eqb_refl, (Z p N1). apply N.lxor_0_r.
  - destruct (N.eqb_spec p q) as [->|_]; [|auto]. exfalso. apply N1. apply in_map_iff. exists (q, v). auto.
Qed.
Lemma diff_points sigma delta gs l w w' : map fst (differences sigma delta gs l w w') = unknown_points sigma delta gs l.
Proof.
  unfold differences, unknown_points. induction gs as [|[[k i] j] gs IH]; [reflexivity|].
  cbn [flat_map app map fst]. now rewrite IH.
Qed.
Lemma makeBlock_point sigma aes x j : hg_hash sigma aes x (makeBlock j 0) = N.lxor (aes (hash_point sigma x j)) (hash_point sigma x j).
Proof.
  unfold hg_hash, hash_point, makeBlock. rewrite N.mod_0_l by discriminate. rewrite N.lor_0_r, N.shiftl_mul_pow2. reflexivity.
Qed.

Section OFF.
Variables (sigma aes : N -> N) (Hash : list N -> N) (fixk lab : nat -> N) (delta : N).
Hypothesis Hd : getLSB delta = true.

(** the offline garbler alone *)
Definition f_fin (ae : N -> N) (la : nat -> N) (g : fgen) (prog : list instr) : fgen :=
  fold_left (fun g c => fst (fg_step sigma ae fixk la delta g c)) prog g.
Lemma fg_w_grows ae la prog : forall g, exists tl, fg_w (f_fin ae la g prog) = fg_w g ++ tl.
Proof.
  unfold f_fin. induction prog as [|c t IH]; intro g; [exists []; symmetry; apply app_nil_r|]. cbn [fold_left].
  destruct (IH (fst (fg_step sigma ae fixk la delta g c))) as (tl & E). rewrite E.
  assert (X : exists x, fg_w (fst (fg_step sigma ae fixk la delta g c)) = fg_w g ++ x).
  { destruct c as [b|p bits|i j|i j|i|p ws]; cbn [fg_step fst fg_w]; try (eexists; reflexivity).
    exists []. symmetry. apply app_nil_r. }
  destruct X as (x & ->). exists (x ++ tl). symmetry. apply app_assoc.
Qed.
Lemma f_run_fin ae la prog : forall g e g' e' ch, f_run sigma ae fixk la delta g e [] prog = Ok (g', e', ch) -> g' = f_fin ae la g prog /\ ch = [].
Proof.
  induction prog as [|c t IH]; intros g e g' e' ch H.
  - cbn in H. injection H as <- _ <-. split; reflexivity.
  - cbn [f_run app] in H. destruct (f_step_ok sigma ae fixk la delta g e c) as (e1 & o & gc & pb & S1 & _).
    unfold f_fin. cbn [fold_left]. destruct (fg_step sigma ae fixk la delta g c) as [g1 m]. cbn [fst snd] in *. rewrite S1 in H. cbn [bind] in H.
    exact (IH _ _ _ _ _ H).
Qed.
Lemma spec_grows prog : forall w, exists tl, fst (spec_run w prog) = w ++ tl.
Proof.
  induction prog as [|c t IH]; intro w; [exists []; symmetry; apply app_nil_r|]. cbn [spec_run].
  destruct (IH (spec_step w c)) as (tl & E). destruct (spec_run (spec_step w c) t) as [w' o]. cbn [fst] in *. rewrite E.
  assert (X : exists x, spec_step w c = w ++ x) by (destruct c; cbn [spec_step]; try (eexists; reflexivity); exists []; symmetry; apply app_nil_r).
  destruct X as (x & ->). exists (x ++ tl). symmetry. apply app_assoc.
Qed.

(** the two runs: same gate count, same position in the label stream, same active labels *)
Definition alike (g g' : fgen) (w w' : list bool) : Prop :=
  length (fg_w g) = length w /\ length w' = length w /\
  fg_w g' = evl delta (evl delta (fg_w g) w) w' /\ fg_gid g' = fg_gid g /\ fg_prg g' = fg_prg g.
Definition told_pub (w : list bool) (c : instr) : list (list bool) := told BOB (spec_opened w c).

Lemma evl_evl g w : length g = length w -> evl delta (evl delta g w) w = g.
Proof.
  revert w. induction g as [|x g IH]; intros [|b w] L; try discriminate; [reflexivity|]. unfold evl in *. cbn [map2].
  rewrite N.lxor_assoc, lxx, N.lxor_0_r. f_equal. apply IH. cbn in L. lia.
Qed.
Lemma evl_evl_nth g w w' i : length g = length w -> length w' = length w ->
  lbl (evl delta (evl delta g w) w') i = N.lxor (N.lxor (lbl g i) (sel (wire w i) delta)) (sel (wire w' i) delta).
Proof. intros L L'. rewrite !evl_nth; rewrite ?evl_length; congruence. Qed.
Lemma evl2_app1 g w w' x v v' : length g = length w -> length w' = length w ->
  evl delta (evl delta (g ++ [x]) (w ++ [v])) (w' ++ [v']) = evl delta (evl delta g w) w' ++ [N.lxor (N.lxor x (sel v delta)) (sel v' delta)].
Proof. intros L L'. rewrite !evl_app; rewrite ?evl_length; try congruence. reflexivity. Qed.

Variables (aes' : N -> N) (lab' : nat -> N).
Definition gate_ok (l : list N) (W W' : list bool) (x : N * nat * nat) : Prop :=
  let '(k, i, j) := x in
  let A := nth i l 0 in let B := nth j l 0 in
  aes' (hash_point sigma A (2 * k)) = aes (hash_point sigma A (2 * k)) /\
  aes' (hash_point sigma B (2 * k + 1)) = aes (hash_point sigma B (2 * k + 1)) /\
  aes' (hash_point sigma (N.lxor A delta) (2 * k)) = N.lxor (aes (hash_point sigma (N.lxor A delta) (2 * k))) (sel (xorb (wire W j) (wire W' j)) delta) /\
  aes' (hash_point sigma (N.lxor B delta) (2 * k + 1)) = N.lxor (aes (hash_point sigma (N.lxor B delta) (2 * k + 1))) (sel (xorb (wire W i) (wire W' i)) delta).

Lemma step_alike l W W' g g' w w' c d d' tl tw tw' :
  alike g g' w w' -> shape c = shape d -> shape d = shape d' -> wf_instr (length w) d = true ->
  l = evl delta (fg_w g) w ++ tl -> W = w ++ tw -> W' = w' ++ tw' ->
  (forall x, In x (gates (fg_gid g) [d]) -> gate_ok l W W' x) ->
  (match d, d' with
   | IFeed _ bits, IFeed _ bits' => forall m, (m < length bits)%nat ->
       lab' (fg_prg g + m)%nat = N.lxor (lab (fg_prg g + m)%nat) (sel (xorb (nth m bits false) (nth m bits' false)) delta)
   | _, _ => True end) ->
  told_pub w d = told_pub w' d' ->
  snd (fg_step sigma aes' fixk lab' delta g' c) = snd (fg_step sigma aes fixk lab delta g c) /\
  alike (fst (fg_step sigma aes fixk lab delta g c)) (fst (fg_step sigma aes' fixk lab' delta g' c)) (spec_step w d) (spec_step w' d').
Proof.
  intros (A1 & A2 & A3 & A4 & A5) Hc Hdd Wf El EW EW' HG HF HT.
  destruct d as [b|p bits|i j|i j|i|p ws].
  - apply shape_other in Hc. symmetry in Hdd. apply shape_other in Hdd. subst c d'. split; [reflexivity|].
    unfold alike. cbn [fg_step fst fg_w fg_gid fg_prg spec_step]. rewrite !app_length, A1, A2, A4, A5, evl2_app1, A3 by assumption.
    repeat split. f_equal. f_equal. rewrite N.lxor_assoc, lxx, N.lxor_0_r. reflexivity.
  - apply shape_feed in Hc. destruct Hc as (b0 & -> & L0). symmetry in Hdd. apply shape_feed in Hdd. destruct Hdd as (bits' & -> & L1).
    split; [reflexivity|]. unfold alike. cbn [fg_step fst fg_w fg_gid fg_prg spec_step]. rewrite A4, A5.
    assert (L2 : length (map lab (seq (fg_prg g) (length b0))) = length bits) by (rewrite map_length, seq_length; exact L0).
    rewrite !app_length, L2, L1, A1, A2. split; [reflexivity|]. split; [reflexivity|]. split; [|split; reflexivity].
    rewrite evl_app by exact A1. rewrite evl_app by (rewrite evl_length; congruence). rewrite <- A3. f_equal.
    rewrite L0. clear - HF L1. revert bits' L1 HF. generalize (fg_prg g). induction bits as [|x bits IH]; intros n [|y bits'] L HF; try discriminate; [reflexivity|].
    cbn [length seq map]. unfold evl in *. cbn [map2]. cbn in L. f_equal.
    + specialize (HF 0%nat ltac:(cbn; lia)). rewrite Nat.add_0_r in HF. rewrite HF. cbn [nth]. now rewrite N.lxor_assoc, lxor_sel_sel.
    + apply IH; [lia|]. intros m Hm. specialize (HF (S m) ltac:(cbn; lia)). replace (n + S m)%nat with (S n + m)%nat in HF by lia. exact HF.
  - apply shape_other in Hc. symmetry in Hdd. apply shape_other in Hdd. subst c d'. cbn [wf_instr] in Wf. apply andb_prop in Wf. destruct Wf as [Wi Wj].
    apply Nat.ltb_lt in Wi, Wj.
    specialize (HG _ (or_introl eq_refl)). unfold gate_ok in HG.
    assert (Li : nth i l 0 = N.lxor (lbl (fg_w g) i) (sel (wire w i) delta)).
    { rewrite El, app_nth1 by (rewrite evl_length; congruence). now rewrite <- evl_nth by exact A1. }
    assert (Lj : nth j l 0 = N.lxor (lbl (fg_w g) j) (sel (wire w j) delta)).
    { rewrite El, app_nth1 by (rewrite evl_length; congruence). now rewrite <- evl_nth by exact A1. }
    assert (Wi1 : wire W i = wire w i) by (unfold wire; rewrite EW; now apply app_nth1).
    assert (Wj1 : wire W j = wire w j) by (unfold wire; rewrite EW; now apply app_nth1).
    assert (Wi2 : wire W' i = wire w' i) by (unfold wire; rewrite EW'; apply app_nth1; congruence).
    assert (Wj2 : wire W' j = wire w' j) by (unfold wire; rewrite EW'; apply app_nth1; congruence).
    rewrite Wi1, Wj1, Wi2, Wj2 in HG. set (A := nth i l 0) in *. set (B := nth j l 0) in *.
    destruct HG as (P1 & P2 & P3 & P4).
    assert (Ea : lbl (fg_w g) i = N.lxor A (sel (wire w i) delta)) by (rewrite Li, N.lxor_assoc, lxx, N.lxor_0_r; reflexivity).
    assert (Eb : lbl (fg_w g) j = N.lxor B (sel (wire w j) delta)) by (rewrite Lj, N.lxor_assoc, lxx, N.lxor_0_r; reflexivity).
    assert (Ea' : lbl (fg_w g') i = N.lxor A (sel (wire w' i) delta)) by (rewrite A3, evl_evl_nth, Li by assumption; reflexivity).
    assert (Eb' : lbl (fg_w g') j = N.lxor B (sel (wire w' j) delta)) by (rewrite A3, evl_evl_nth, Lj by assumption; reflexivity).
    cbn [fg_step]. rewrite Ea, Eb, Ea', Eb', A4.
    destruct (garble_gate sigma aes _ _ _ _ _ _) as [[o t0] t1] eqn:G.
    rewrite (gate_same sigma aes aes' delta Hd A B (wire w i) (wire w j) (wire w' i) (wire w' j) (fg_gid g) o t0 t1); try exact G;
      rewrite ?makeBlock_point; try congruence.
    + cbn [snd fst]. split; [reflexivity|]. unfold alike. cbn [fg_w fg_gid fg_prg spec_step]. rewrite !app_length, A1, A2, A5, evl2_app1, A3 by assumption.
      repeat split.
    + rewrite P3. xor_solve.
    + rewrite P4. xor_solve.
  - apply shape_other in Hc. symmetry in Hdd. apply shape_other in Hdd. subst c d'. split; [reflexivity|].
    unfold alike. cbn [fg_step fst fg_w fg_gid fg_prg spec_step]. rewrite !app_length, A1, A2, A4, A5, evl2_app1, A3 by assumption.
    repeat split. f_equal. f_equal. rewrite !evl_evl_nth by assumption. rewrite <- !lxor_sel_sel. xor_solve.
  - apply shape_other in Hc. symmetry in Hdd. apply shape_other in Hdd. subst c d'. split; [reflexivity|].
    unfold alike. cbn [fg_step fst fg_w fg_gid fg_prg spec_step]. rewrite !app_length, A1, A2, A4, A5, evl2_app1, A3 by assumption.
    repeat split. f_equal. f_equal. rewrite !evl_evl_nth by assumption.
    destruct (wire w i), (wire w' i); cbn [sel negb]; rewrite ?N.lxor_0_r; xor_solve.
  - apply shape_other in Hc. symmetry in Hdd. apply shape_other in Hdd. subst c d'.
    cbn [fg_step fst snd spec_step]. split; [|repeat split; assumption].
    destruct p; try reflexivity. unfold told_pub, told in HT. cbn [spec_opened flat_map fst snd app] in HT. injection HT as HT.
    clear - HT A1 A2 A3 Hd. induction ws as [|i ws IH]; [reflexivity|]. cbn [map] in *. injection HT as H1 H2. f_equal; [|exact (IH H2)].
    f_equal. rewrite A3, evl_evl_nth, !lsb_xor, !lsb_sel, H1 by assumption. destruct (getLSB (lbl (fg_w g) i)), (wire w' i); reflexivity.
Qed.

Lemma told_app p a b : told p (a ++ b) = told p a ++ told p b.
Proof. apply flat_map_app. Qed.
Lemma told_len p w w' d d' : shape d = shape d' -> length (told p (spec_opened w d)) = length (told p (spec_opened w' d')).
Proof. intro H. destruct d as [| | | | |pd wd], d' as [| | | | |pe we]; cbn in H; try discriminate; try reflexivity. injection H as -> ->. cbn. destruct pe, p; reflexivity. Qed.
Lemma app_split {A} (a b c d : list A) : a ++ b = c ++ d -> length a = length c -> a = c /\ b = d.
Proof.
  revert c. induction a as [|x a IH]; intros [|y c] H L; try discriminate; [auto|]. cbn in *. injection H as -> H. injection L as L.
  destruct (IH c H L) as [-> ->]. auto.
Qed.
Lemma gates_cons k d t : gates k (d :: t) = gates k [d] ++ gates (match d with IAnd _ _ => k + 1 | _ => k end) t.
Proof. destruct d; reflexivity. Qed.
Lemma gid_step ae la g c d : shape c = shape d ->
  fg_gid (fst (fg_step sigma ae fixk la delta g c)) = match d with IAnd _ _ => fg_gid g + 1 | _ => fg_gid g end.
Proof. intro H. destruct c, d; cbn in H; try discriminate; reflexivity. Qed.
Lemma prg_step ae la g c d : shape c = shape d ->
  fg_prg (fst (fg_step sigma ae fixk la delta g c)) = (fg_prg g + length (inputs [d]))%nat.
Proof.
  intro H. destruct d; [..|]; try (apply shape_other in H; subst c; cbn; lia).
  apply shape_feed in H. destruct H as (b & -> & L). unfold inputs. cbn. rewrite app_nil_r. lia.
Qed.

Lemma run_alike : forall off on1 on2 g g' w w', alike g g' w w' -> map shape off = map shape on1 -> map shape on1 = map shape on2 ->
  wf (length w) on1 = true ->
  let W := fst (spec_run w on1) in let W' := fst (spec_run w' on2) in
  (forall x, In x (gates (fg_gid g) on1) -> gate_ok (evl delta (fg_w (f_fin aes lab g off)) W) W W' x) ->
  (forall m, (m < length (inputs on1))%nat ->
     lab' (fg_prg g + m)%nat = N.lxor (lab (fg_prg g + m)%nat) (sel (xorb (nth m (inputs on1) false) (nth m (inputs on2) false)) delta)) ->
  told BOB (snd (spec_run w on1)) = told BOB (snd (spec_run w' on2)) ->
  alike (f_fin aes lab g off) (f_fin aes' lab' g' off) W W' /\
  f_sent sigma aes' fixk lab' delta g' off = f_sent sigma aes fixk lab delta g off /\
  forall e G e' ch, f_run sigma aes fixk lab delta g e [] off = Ok (G, e', ch) ->
    f_run sigma aes' fixk lab' delta g' e [] off = Ok (f_fin aes' lab' g' off, e', ch).
Proof.
  induction off as [|c off IH]; intros on1 on2 g g' w w' AL S1 S2 Wf W W' HG HF HT; destruct on1 as [|d on1]; try discriminate;
    destruct on2 as [|d' on2]; try discriminate.
  - split; [exact AL|]. split; [reflexivity|]. intros e G e' ch H. cbn in H |- *. injection H as _ <- <-. reflexivity.
  - cbn [map] in S1, S2. injection S1 as Sc S1. injection S2 as Sd S2. cbn [wf] in Wf. apply andb_prop in Wf. destruct Wf as [Wf1 Wf2].
    set (g1 := fst (fg_step sigma aes fixk lab delta g c)). set (g1' := fst (fg_step sigma aes' fixk lab' delta g' c)).
    change (f_fin aes lab g (c :: off)) with (f_fin aes lab g1 off) in *. change (f_fin aes' lab' g' (c :: off)) with (f_fin aes' lab' g1' off).
    assert (EW : W = fst (spec_run (spec_step w d) on1)) by (unfold W; cbn [spec_run]; destruct (spec_run (spec_step w d) on1); reflexivity).
    assert (EW' : W' = fst (spec_run (spec_step w' d') on2)) by (unfold W'; cbn [spec_run]; destruct (spec_run (spec_step w' d') on2); reflexivity).
    assert (HT1 : told_pub w d = told_pub w' d' /\ told BOB (snd (spec_run (spec_step w d) on1)) = told BOB (snd (spec_run (spec_step w' d') on2))).
    { cbn [spec_run] in HT. destruct (spec_run (spec_step w d) on1) as [x o]. destruct (spec_run (spec_step w' d') on2) as [x' o'].
      cbn [snd] in *. rewrite !told_app in HT. apply app_split in HT; [exact HT|]. now apply told_len. }
    destruct HT1 as [HT1 HT2].
    assert (IN : inputs (d :: on1) = inputs [d] ++ inputs on1) by (unfold inputs; cbn [flat_map]; now rewrite app_nil_r).
    assert (IN' : inputs (d' :: on2) = inputs [d'] ++ inputs on2) by (unfold inputs; cbn [flat_map]; now rewrite app_nil_r).
    assert (LI : length (inputs [d']) = length (inputs [d])).
    { clear - Sd. destruct d, d'; cbn in Sd; try discriminate; try reflexivity. unfold inputs. cbn. rewrite !app_nil_r. injection Sd as _ H.
      rewrite <- (repeat_length false (length bits)), H, repeat_length. reflexivity. }
    destruct (fg_w_grows aes lab (c :: off) g) as (tg & Eg). change (f_fin aes lab g (c :: off)) with (f_fin aes lab g1 off) in Eg.
    destruct (spec_grows (d :: on1) w) as (tw & Ew). fold W in Ew. destruct (spec_grows (d' :: on2) w') as (tw' & Ew'). fold W' in Ew'.
    assert (AL0 := AL). destruct AL0 as (A1 & A2 & A3 & A4 & A5).
    destruct (step_alike (evl delta (fg_w (f_fin aes lab g1 off)) W) W W' g g' w w' c d d' (evl delta tg tw) tw tw' AL Sc Sd Wf1) as [M AL1];
      [rewrite Eg, Ew; now apply evl_app|exact Ew|exact Ew'|..|exact HT1|].
    { intros x X. apply HG. rewrite gates_cons. apply in_or_app. left. exact X. }
    { destruct d as [|p bits| | | |], d' as [|p' bits'| | | |]; try exact I. intros m Hm.
      assert (I1 : inputs [IFeed p bits] = bits) by (unfold inputs; cbn [flat_map]; apply app_nil_r).
      assert (I2 : inputs [IFeed p' bits'] = bits') by (unfold inputs; cbn [flat_map]; apply app_nil_r).
      rewrite IN, IN', I1, I2 in HF. rewrite I1, I2 in LI.
      rewrite HF by (rewrite app_length; lia). rewrite !app_nth1 by lia. reflexivity. }
    fold g1 g1' in AL1.
    destruct (IH on1 on2 g1 g1' (spec_step w d) (spec_step w' d') AL1 S1 S2) as (R1 & R2 & R3).
    + rewrite spec_step_length. exact Wf2.
    + intros x X. rewrite <- EW, <- EW'. apply HG. rewrite gates_cons. apply in_or_app. right. unfold g1 in X. rewrite (gid_step aes lab g c d Sc) in X.
      destruct d; exact X.
    + intros m Hm. unfold g1. rewrite (prg_step aes lab g c d Sc), <- Nat.add_assoc. rewrite HF by (rewrite IN, app_length; lia).
      rewrite IN, IN'. rewrite !app_nth2 by lia. rewrite LI. replace (length (inputs [d]) + m - length (inputs [d]))%nat with m by lia. reflexivity.
    + exact HT2.
    + rewrite EW, EW'. split; [exact R1|]. split.
      * cbn [f_sent]. unfold g1, g1' in R2. destruct (fg_step sigma aes fixk lab delta g c) as [x m], (fg_step sigma aes' fixk lab' delta g' c) as [x' m'].
        cbn [fst snd] in *. now rewrite M, R2.
      * intros e G e' ch H. cbn [f_run app] in H |- *. unfold g1, g1' in *.
        destruct (fg_step sigma aes fixk lab delta g c) as [x m] eqn:Ex, (fg_step sigma aes' fixk lab' delta g' c) as [x' m'] eqn:Ex'.
        cbn [fst snd] in *. rewrite M.
        destruct (f_step_ok sigma aes fixk lab delta g e c) as (e1 & o & gc & pb & S & _). rewrite Ex in S. cbn [snd] in S.
        rewrite S in *. cbn [bind] in *. exact (R3 _ _ _ _ H).
Qed.
End OFF.
