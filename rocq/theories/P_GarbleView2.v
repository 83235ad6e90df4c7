(** Views of both parties of the two-phase backend. *)
From Coq Require Import List NArith Bool Arith Lia.
From Verif Require Import L_Bits L_Res L_Xor S_Circuit S_GarbleView M_Block M_Garble M_GarbleTr P_Garble P_GarbleView.
Import ListNotations.
Local Open Scope N_scope.

Section TR.
Variables (sigma aes : N -> N) (Hash : list N -> N) (fixk lab : nat -> N) (delta : N).
Hypothesis Hd : getLSB delta = true.

(** the online messages in terms of the final labels and values *)
Definition tr1 (l : list N) (W : list bool) (n : nat) (c : instr) : list msg :=
  match c with
  | IFeed _ bits => map (fun i => MLabel (nth i l 0)) (seq n (length bits))
  | IReveal BOB ws => map (fun i => MBit (xorb (getLSB (nth i l 0)) (wire W i))) ws
  | _ => []
  end.
Definition tr2 (l : list N) (W : list bool) (c : instr) : list msg :=
  match c with
  | IReveal ALICE ws => map (fun i => MBit (getLSB (nth i l 0))) ws
  | IReveal PUBLIC ws => [MBits (map (wire W) ws); MHash (Hash (map (fun i => nth i l 0) ws))]
  | _ => []
  end.
Fixpoint trs (l : list N) (W : list bool) (n : nat) (prog : list instr) : list msg * list msg :=
  match prog with
  | [] => ([], [])
  | c :: t => let (a, b) := trs l W (n + new_wires c)%nat t in (tr1 l W n c ++ a, tr2 l W c ++ b)
  end.
Lemma nth_slice {A} (d : A) (a m b : list A) : map (fun i => nth i (a ++ m ++ b) d) (seq (length a) (length m)) = m.
Proof.
  revert a. induction m as [|x m IH]; intro a; [reflexivity|]. cbn [length seq map]. f_equal.
  - rewrite app_nth2, Nat.sub_diag by lia. reflexivity.
  - specialize (IH (a ++ [x])). rewrite app_length in IH. cbn [length] in IH. replace (length a + 1)%nat with (S (length a)) in IH by lia.
    rewrite <- app_assoc in IH. exact IH.
Qed.
Lemma feed_msgs p bits L : n_feed_msgs delta p bits L = map MLabel (evl delta L bits).
Proof.
  unfold n_feed_msgs, evl. revert L. induction bits as [|b bits IH]; intros [|x L]; try reflexivity. cbn [map2 map]. rewrite IH.
  destruct b; cbn [sel]; now rewrite ?N.lxor_0_r.
Qed.
Lemma wires_pre (W w tw : list bool) ws : W = w ++ tw -> forallb (fun i => (i <? length w)%nat) ws = true -> map (wire W) ws = map (wire w) ws.
Proof.
  intros -> H. apply map_ext_in. intros i Hi. rewrite forallb_forall in H. specialize (H i Hi). apply Nat.ltb_lt in H. unfold wire. now apply app_nth1.
Qed.
Lemma lbls_pre (l m tl : list N) ws : l = m ++ tl -> forallb (fun i => (i <? length m)%nat) ws = true -> map (fun i => nth i l 0) ws = map (lbl m) ws.
Proof.
  intros -> H. apply map_ext_in. intros i Hi. rewrite forallb_forall in H. specialize (H i Hi). apply Nat.ltb_lt in H. unfold lbl. now apply app_nth1.
Qed.

Lemma n_sent_trs : forall off on_ g e s w, sync delta g e s w -> map shape off = map shape on_ -> wf (length w) on_ = true ->
  forall g' e', f_run sigma aes fixk lab delta g e [] off = Ok (g', e', []) ->
  let W := fst (spec_run w on_) in
  n_sent sigma aes Hash fixk lab delta (fg_out g') (fe_GC e') (fe_pub e') s on_ = trs (evl delta (fg_w g') W) W (length w) on_.
Proof.
  induction off as [|c off IH]; intros on_ g e s w Sy Sh Wf g' e' R W; destruct on_ as [|d on_]; try discriminate; [reflexivity|].
  cbn [map] in Sh. injection Sh as Sc Sh. cbn [wf] in Wf. apply andb_prop in Wf. destruct Wf as [Wf1 Wf2].
  assert (EW : W = fst (spec_run (spec_step w d) on_)) by (unfold W; cbn [spec_run]; destruct (spec_run (spec_step w d) on_); reflexivity).
  assert (Fin := f_run_fin _ _ _ _ _ _ _ _ _ _ _ R). destruct Fin as [Fin _].
  destruct (f_step_ok sigma aes fixk lab delta g e c) as (e1 & o & gc & pb & H1 & _).
  cbn [f_run app] in R. destruct (fg_step sigma aes fixk lab delta g c) as [g1 m] eqn:Eg. cbn [fst snd] in *.
  rewrite H1 in R. cbn [bind] in R.
  destruct (f_run_ok sigma aes fixk lab delta off g1 e1) as (g'' & e'' & o' & gc' & pb' & R1 & R2 & R3 & R4).
  rewrite R1 in R. injection R as E1 E2. subst g'' e''.
  destruct (sync_step sigma aes Hash fixk lab delta Hd g e s w c d e1 g' e' o' gc' pb') as (s1 & op & N1 & N2 & N3); try assumption;
    rewrite ?Eg; cbn [fst snd]; try assumption.
  rewrite Eg in N3. cbn [fst] in N3. rewrite <- spec_step_length in Wf2.
  cbn [n_sent trs]. rewrite N1. rewrite (IH on_ g1 e1 s1 (spec_step w d) N3 Sh Wf2 g' e' R1). rewrite <- EW, spec_step_length.
  destruct (trs _ W _ on_) as [a b].
  destruct (fg_w_grows sigma fixk delta aes lab (c :: off) g) as (tg & Etg). rewrite <- Fin in Etg.
  destruct (spec_grows (d :: on_) w) as (tw & Ew). fold W in Ew.
  assert (Ss := Sy). destruct Ss as (S1 & S2 & S3 & S4 & S5 & S6 & S7 & S8 & S9 & S10 & S11).
  assert (El : evl delta (fg_w g') W = evl delta (fg_w g) w ++ evl delta tg tw) by (rewrite Etg, Ew; now apply evl_app).
  set (l := evl delta (fg_w g') W) in *.
  assert (Lw : length (evl delta (fg_w g) w) = length w) by (rewrite evl_length; assumption).
  f_equal; f_equal.
  - destruct d as [|p bits| | | |p ws]; try reflexivity.
    + apply shape_feed in Sc. destruct Sc as (b0 & -> & Lb). cbn [n_sent_gen tr1]. rewrite feed_msgs, S4.
      rewrite <- (map_map (fun i => nth i l 0) MLabel). f_equal.
      injection Eg as <- _. cbn [fg_w] in *.
      destruct N3 as (_ & N3 & _). cbn [fg_w spec_step] in N3.
      destruct (fg_w_grows sigma fixk delta aes lab off {| fg_w := fg_w g ++ map lab (seq (fg_prg g) (length b0)); fg_gid := fg_gid g; fg_prg := fg_prg g + length b0; fg_out := fg_out g |}) as (t2 & Et2).
      unfold f_fin in Et2. unfold f_fin in Fin. cbn [fold_left fg_step fst] in Fin. rewrite <- Fin in Et2. cbn [fg_w] in Et2.
      destruct (spec_grows on_ (spec_step w (IFeed p bits))) as (t3 & Et3). rewrite <- EW in Et3. cbn [spec_step] in Et3.
      unfold l. rewrite Et2, Et3, Lb. rewrite evl_app by (rewrite Lb in N3; exact N3). rewrite evl_app by exact S2.
      rewrite <- app_assoc. rewrite <- Lw.
      assert (LB : length (evl delta (map lab (seq (fg_prg g) (length bits))) bits) = length bits) by (rewrite evl_length; now rewrite map_length, seq_length).
      rewrite <- LB at 2. symmetry. apply nth_slice.
    + destruct p; try reflexivity. cbn [n_sent_gen tr1 wf_instr] in *. rewrite S1, map_map. apply map_ext_in. intros i Hi.
      rewrite forallb_forall in Wf1. specialize (Wf1 i Hi). apply Nat.ltb_lt in Wf1. f_equal. rewrite El, app_nth1 by lia.
      replace (wire W i) with (wire w i) by (unfold wire; rewrite Ew; symmetry; now apply app_nth1).
      change (nth i (evl delta (fg_w g) w) 0) with (lbl (evl delta (fg_w g) w) i). rewrite evl_nth, lsb_xor, lsb_sel by assumption.
      destruct (getLSB (lbl (fg_w g) i)), (wire w i); reflexivity.
  - destruct d as [|p bits| | | |p ws]; try reflexivity. destruct p; try reflexivity; cbn [n_sent_eva tr2 wf_instr] in *.
    + rewrite <- (map_map (fun i => nth i l 0) (fun x => MBit (getLSB x))). rewrite S3. f_equal. symmetry. apply (lbls_pre l _ (evl delta tg tw)); [exact El|].
      now rewrite Lw.
    + apply shape_other in Sc. subst c. rewrite S3, evl_map by exact S2.
      assert (HL : length (map (lbl (fg_w g)) ws) = length (map (wire w) ws)) by (rewrite !map_length; reflexivity).
      injection Eg as <- <-. cbn [fe_step snd] in H1. rewrite <- (map_map (fun i => getLSB (lbl (fg_w g) i)) MBit) in H1.
      rewrite <- (map_length (fun i => getLSB (lbl (fg_w g) i)) ws), <- (app_nil_r (map MBit _)), recv_bits_map in H1. cbn [bind] in H1. injection H1 as <-.
      cbn [fe_pub] in R4. rewrite R4, S9, <- app_assoc. rewrite <- (map_map (lbl (fg_w g)) getLSB).
      rewrite (ne_pub_ok (map getLSB (map (lbl (fg_w g)) ws))) by (rewrite evl_length, !map_length by exact HL; reflexivity).
      rewrite open_bits by assumption. rewrite (wires_pre W w tw ws Ew Wf1). f_equal. f_equal. f_equal. f_equal.
      rewrite <- evl_map by exact S2. symmetry. apply (lbls_pre l _ (evl delta tg tw)); [exact El|]. now rewrite Lw.
Qed.
End TR.

Definition told1 (p : party) (W : list bool) (c : instr) : list (list bool) :=
  match c with IReveal q ws => told p [(q, map (wire W) ws)] | _ => [] end.
Lemma told_final p : forall prog w, wf (length w) prog = true ->
  told p (snd (spec_run w prog)) = flat_map (told1 p (fst (spec_run w prog))) prog.
Proof.
  induction prog as [|c t IH]; intros w H; [reflexivity|]. cbn [wf] in H. apply andb_prop in H. destruct H as [H1 H2].
  rewrite <- spec_step_length in H2. specialize (IH _ H2). destruct (spec_grows (c :: t) w) as (tw & Ew).
  cbn [spec_run] in *. destruct (spec_run (spec_step w c) t) as [W o]. cbn [fst snd] in *.
  rewrite told_app, IH. cbn [flat_map]. f_equal. destruct c; try reflexivity. cbn [told1 spec_opened].
  rewrite (wires_pre W w tw ws Ew H1). reflexivity.
Qed.
Lemma shape_wf : forall a b n, map shape a = map shape b -> wf n a = wf n b.
Proof.
  induction a as [|c a IH]; intros [|d b] n H; try discriminate; [reflexivity|]. cbn [map] in H. injection H as Hc H. cbn [wf].
  assert (E : wf_instr n c = wf_instr n d /\ new_wires c = new_wires d).
  { destruct d; try (apply shape_other in Hc; subst c; split; reflexivity). apply shape_feed in Hc. destruct Hc as (b' & -> & L). split; [reflexivity|exact L]. }
  destruct E as [-> ->]. now rewrite (IH b).
Qed.
Lemma told1_split p W W' : forall a b, map shape a = map shape b -> flat_map (told1 p W) a = flat_map (told1 p W') b ->
  Forall2 (fun c d => told1 p W c = told1 p W' d) a b.
Proof.
  induction a as [|c a IH]; intros [|d b] H E; try discriminate; [constructor|]. cbn [map] in H. injection H as Hc H. cbn [flat_map] in E.
  apply app_split in E.
  - destruct E as [E1 E2]. constructor; [exact E1|]. now apply IH.
  - destruct c as [| | | | |pc wc], d as [| | | | |pd wd]; cbn in Hc; try discriminate; try reflexivity. injection Hc as -> ->. destruct pd, p; reflexivity.
Qed.

Section VIEWS.
Variables (sigma aes : N -> N) (Hash : list N -> N) (fixk lab : nat -> N) (delta : N).
Hypothesis Hd : getLSB delta = true.

Lemma trs_bob l W W' : forall a b n, map shape a = map shape b -> Forall2 (fun c d => told1 BOB W c = told1 BOB W' d) a b ->
  trs Hash l W n a = trs Hash l W' n b.
Proof.
  induction a as [|c a IH]; intros [|d b] n H F; try discriminate; [reflexivity|]. cbn [map] in H. injection H as Hc H. inversion F as [|? ? ? ? F1 F2]; subst.
  cbn [trs]. assert (E : tr1 l W n c = tr1 l W' n d /\ tr2 Hash l W c = tr2 Hash l W' d /\ new_wires c = new_wires d).
  { destruct d as [|p bits| | | |p ws]; try (apply shape_other in Hc; subst c; repeat split; reflexivity).
    - apply shape_feed in Hc. destruct Hc as (b' & -> & L). cbn [tr1 tr2 new_wires]. now rewrite L.
    - apply shape_other in Hc. subst c. destruct p; cbn [tr1 tr2 new_wires]; repeat split; try reflexivity.
      + cbn in F1. injection F1 as F1. clear - F1. induction ws as [|i ws IH]; [reflexivity|]. cbn [map] in *. injection F1 as E F1. rewrite E, IH by exact F1. reflexivity.
      + cbn in F1. injection F1 as F1. now rewrite F1. }
  destruct E as (E1 & E2 & E3). rewrite E1, E2, E3, (IH b) by assumption. reflexivity.
Qed.

Lemma sync0 : sync delta f_init_g f_init_e n_init [].
Proof. unfold sync; cbn; repeat split; reflexivity. Qed.
Lemma run_state off on_ g e s op : map shape off = map shape on_ -> wf 0 on_ = true ->
  f_run sigma aes fixk lab delta f_init_g f_init_e [] off = Ok (g, e, []) ->
  n_run sigma aes Hash fixk lab delta (fg_out g) (fe_GC e) (fe_pub e) n_init on_ = Ok (s, op) ->
  sync delta g e s (fst (spec_run [] on_)) /\ Forall2 seen (snd (spec_run [] on_)) op.
Proof.
  intros Sh Wf R1 R2. destruct (sync_run sigma aes Hash fixk lab delta Hd off on_ _ _ _ _ sync0 Sh Wf) as (g' & e' & F & s' & op' & R & O & S).
  rewrite R1 in F. injection F as <- <-. rewrite R2 in R. injection R as <- <-. auto.
Qed.

Theorem evaluator_view : forall off on1 on2, map shape off = map shape on1 -> map shape on1 = map shape on2 -> wf 0 on1 = true ->
  let W := fst (spec_run [] on1) in let W' := fst (spec_run [] on2) in
  told BOB (snd (spec_run [] on1)) = told BOB (snd (spec_run [] on2)) ->
  forall g e s op, f_run sigma aes fixk lab delta f_init_g f_init_e [] off = Ok (g, e, []) ->
  n_run sigma aes Hash fixk lab delta (fg_out g) (fe_GC e) (fe_pub e) n_init on1 = Ok (s, op) ->
  let l := ne_w s in
  NoDup (unknown_points sigma delta (gates 0 on1) l) ->
  (forall p, In p (unknown_points sigma delta (gates 0 on1) l) -> ~ In p (known_points sigma (gates 0 on1) l)) ->
  let aes' p := N.lxor (aes p) (shift sigma delta (gates 0 on1) l W W' p) in
  let lab' k := N.lxor (lab k) (if xorb (nth k (inputs on1) false) (nth k (inputs on2) false) then delta else 0) in
  exists g' s' op',
    f_run sigma aes' fixk lab' delta f_init_g f_init_e [] off = Ok (g', e, []) /\
    f_sent sigma aes' fixk lab' delta f_init_g off = f_sent sigma aes fixk lab delta f_init_g off /\
    n_run sigma aes' Hash fixk lab' delta (fg_out g') (fe_GC e) (fe_pub e) n_init on2 = Ok (s', op') /\
    Forall2 seen (snd (spec_run [] on2)) op' /\
    ne_w s' = ne_w s /\
    n_sent sigma aes' Hash fixk lab' delta (fg_out g') (fe_GC e) (fe_pub e) n_init on2 =
    n_sent sigma aes Hash fixk lab delta (fg_out g) (fe_GC e) (fe_pub e) n_init on1.
Proof.
  intros off on1 on2 S1 S2 Wf W W' T g e s op R1 R2 l ND DJ aes' lab'.
  destruct (run_state off on1 g e s op S1 Wf R1 R2) as [Sy _]. fold W in Sy.
  assert (Sy0 := Sy). destruct Sy0 as (Y1 & Y2 & Y3 & _). fold l in Y3.
  assert (Fin := f_run_fin _ _ _ _ _ _ _ _ _ _ _ R1). destruct Fin as [Fin _].
  assert (GO : forall x, In x (gates 0 on1) -> gate_ok sigma aes delta aes' (evl delta (fg_w (f_fin sigma fixk delta aes lab f_init_g off)) W) W W' x).
  { rewrite <- Fin, <- Y3. intros [[k i] j] X. unfold gate_ok, aes'.
    assert (K : forall p, In p (known_points sigma (gates 0 on1) l) -> shift sigma delta (gates 0 on1) l W W' p = 0) by (intros p Hp; apply shift_off; intro U; exact (DJ p U Hp)).
    assert (U : forall p v, In (p, v) (differences sigma delta (gates 0 on1) l W W') -> shift sigma delta (gates 0 on1) l W W' p = v).
    { intros p v Hp. apply fold_at; [|exact Hp]. rewrite diff_points. exact ND. }
    split; [|split; [|split]].
    - rewrite K; [apply N.lxor_0_r|]. unfold known_points. apply in_flat_map. exists (k, i, j). split; [exact X|left; reflexivity].
    - rewrite K; [apply N.lxor_0_r|]. unfold known_points. apply in_flat_map. exists (k, i, j). split; [exact X|right; left; reflexivity].
    - f_equal. apply U. unfold differences. apply in_flat_map. exists (k, i, j). split; [exact X|left; reflexivity].
    - f_equal. apply U. unfold differences. apply in_flat_map. exists (k, i, j). split; [exact X|right; left; reflexivity]. }
  destruct (run_alike sigma aes fixk lab delta Hd aes' lab' off on1 on2 f_init_g f_init_g [] []) as (AL & Sent & Run); try assumption.
  { repeat split. }
  { intros m Hm. unfold lab'. cbn [f_init_g fg_prg plus]. reflexivity. }
  fold W W' in AL. specialize (Run _ _ _ _ R1).
  set (g' := f_fin sigma fixk delta aes' lab' f_init_g off) in *. rewrite <- Fin in AL.
  assert (S3 : map shape off = map shape on2) by congruence. assert (Wf2 : wf 0 on2 = true) by (now rewrite <- (shape_wf on1 on2)).
  destruct (sync_run sigma aes' Hash fixk lab' delta Hd off on2 _ _ _ _ sync0 S3 Wf2) as (g2 & e2 & F & s' & op' & Rn & O & Sy').
  rewrite Run in F. injection F as <- <-.
  destruct AL as (A1 & A2 & A3 & A4 & A5).
  assert (EL : evl delta (fg_w g') W' = l).
  { rewrite A3, Y3. apply evl_evl. rewrite evl_length by exact A1. congruence. }
  exists g', s', op'. split; [exact Run|]. split; [exact Sent|]. split; [exact Rn|]. split; [exact O|]. split.
  - destruct Sy' as (_ & _ & Z3 & _). fold W' in Z3. rewrite Z3. exact EL.
  - rewrite (n_sent_trs sigma aes' Hash fixk lab' delta Hd off on2 _ _ _ _ sync0 S3 Wf2 _ _ Run).
    rewrite (n_sent_trs sigma aes Hash fixk lab delta Hd off on1 _ _ _ _ sync0 S1 Wf _ _ R1). fold W W'. rewrite EL, <- Y3. cbn [length].
    symmetry. apply trs_bob; [exact S2|]. apply told1_split; [exact S2|]. unfold W, W'. rewrite <- !told_final by assumption. exact T.
Qed.

(** the garbler receives bits that depend on what it is told only *)
Lemma trs_alice G W W' : length G = length W -> length W' = length W -> forall a b n, map shape a = map shape b ->
  wf n a = true -> (n + length (flat_map (fun c => repeat tt (new_wires c)) a) <= length W)%nat ->
  Forall2 (fun c d => told1 ALICE W c = told1 ALICE W' d) a b ->
  snd (trs Hash (evl delta G W) W n a) = snd (trs Hash (evl delta G W') W' n b).
Proof.
  intros LG LW. induction a as [|c a IH]; intros [|d b] n H Wf LN F; try discriminate; [reflexivity|].
  cbn [map] in H. injection H as Hc H. inversion F as [|? ? ? ? F1 F2]; subst. cbn [wf] in Wf. apply andb_prop in Wf. destruct Wf as [Wf1 Wf2].
  cbn [flat_map] in LN. rewrite app_length, repeat_length in LN.
  cbn [trs]. specialize (IH b (n + new_wires c)%nat H Wf2 ltac:(lia) F2).
  assert (N1 : new_wires c = new_wires d).
  { destruct d; try (apply shape_other in Hc; subst c; reflexivity). apply shape_feed in Hc. destruct Hc as (b' & -> & L). exact L. }
  rewrite <- N1. destruct (trs Hash (evl delta G W) W (n + new_wires c) a) as [x y], (trs Hash (evl delta G W') W' (n + new_wires c) b) as [x' y'].
  cbn [snd] in *. subst y'. f_equal.
  destruct d as [|p bits| | | |p ws]; try (apply shape_other in Hc; subst c; reflexivity).
  - apply shape_feed in Hc. destruct Hc as (b' & -> & L). reflexivity.
  - apply shape_other in Hc. subst c. cbn [wf_instr] in Wf1.
    assert (Q : map (wire W) ws = map (wire W') ws -> map (fun i => nth i (evl delta G W) 0) ws = map (fun i => nth i (evl delta G W') 0) ws).
    { intro E. apply map_ext_in. intros i Hi.
      change (lbl (evl delta G W) i = lbl (evl delta G W') i). rewrite !evl_nth by congruence. f_equal. f_equal.
      clear - E Hi. induction ws as [|j ws IH]; [destruct Hi|]. cbn [map] in E. injection E as E1 E2. destruct Hi as [->|Hi]; auto. }
    destruct p; try reflexivity; cbn in F1; injection F1 as F1; cbn [tr2].
    + specialize (Q F1). rewrite <- (map_map (fun i => nth i (evl delta G W) 0) (fun x => MBit (getLSB x))), Q. apply map_map.
    + now rewrite F1, (Q F1).
Qed.
Lemma spec_len : forall prog w, length (fst (spec_run w prog)) = (length w + length (flat_map (fun c => repeat tt (new_wires c)) prog))%nat.
Proof.
  induction prog as [|c t IH]; intro w; [cbn; lia|]. cbn [spec_run flat_map]. specialize (IH (spec_step w c)). rewrite spec_step_length in IH.
  destruct (spec_run (spec_step w c) t). cbn [fst] in *. rewrite app_length, repeat_length. lia.
Qed.
Lemma shape_len : forall a b, map shape a = map shape b ->
  length (flat_map (fun c => repeat tt (new_wires c)) a) = length (flat_map (fun c => repeat tt (new_wires c)) b).
Proof.
  induction a as [|c a IH]; intros [|d b] H; try discriminate; [reflexivity|]. cbn [map] in H. injection H as Hc H. cbn [flat_map].
  rewrite !app_length, !repeat_length, (IH b H). f_equal.
  destruct d; try (apply shape_other in Hc; subst c; reflexivity). apply shape_feed in Hc. destruct Hc as (b' & -> & L). exact L.
Qed.
Theorem garbler_view : forall off on1 on2, map shape off = map shape on1 -> map shape on1 = map shape on2 -> wf 0 on1 = true ->
  told ALICE (snd (spec_run [] on1)) = told ALICE (snd (spec_run [] on2)) ->
  forall g e, f_run sigma aes fixk lab delta f_init_g f_init_e [] off = Ok (g, e, []) ->
  exists s s' op op',
    n_run sigma aes Hash fixk lab delta (fg_out g) (fe_GC e) (fe_pub e) n_init on1 = Ok (s, op) /\
    n_run sigma aes Hash fixk lab delta (fg_out g) (fe_GC e) (fe_pub e) n_init on2 = Ok (s', op') /\
    ng_w s' = ng_w s /\
    snd (n_sent sigma aes Hash fixk lab delta (fg_out g) (fe_GC e) (fe_pub e) n_init on1) =
    snd (n_sent sigma aes Hash fixk lab delta (fg_out g) (fe_GC e) (fe_pub e) n_init on2).
Proof.
  intros off on1 on2 S1 S2 Wf T g e R.
  assert (S3 : map shape off = map shape on2) by congruence. assert (Wf2 : wf 0 on2 = true) by (now rewrite <- (shape_wf on1 on2)).
  destruct (sync_run sigma aes Hash fixk lab delta Hd off on1 _ _ _ _ sync0 S1 Wf) as (g1 & e1 & F1 & s & op & R1 & O1 & Y1).
  rewrite R in F1. injection F1 as <- <-.
  destruct (sync_run sigma aes Hash fixk lab delta Hd off on2 _ _ _ _ sync0 S3 Wf2) as (g2 & e2 & F2 & s' & op' & R2 & O2 & Y2).
  rewrite R in F2. injection F2 as <- <-.
  exists s, s', op, op'. split; [exact R1|]. split; [exact R2|].
  destruct Y1 as (Y1 & L1 & _). destruct Y2 as (Y2 & L2 & _). split; [congruence|].
  rewrite (n_sent_trs sigma aes Hash fixk lab delta Hd off on1 _ _ _ _ sync0 S1 Wf _ _ R).
  rewrite (n_sent_trs sigma aes Hash fixk lab delta Hd off on2 _ _ _ _ sync0 S3 Wf2 _ _ R).
  apply trs_alice; try assumption.
  - congruence.
  - rewrite spec_len. cbn. lia.
  - apply told1_split; [exact S2|]. rewrite <- !told_final by assumption. exact T.
Qed.
End VIEWS.

(** the change that leads back is the same one *)
Lemma shape_gates : forall a b k, map shape a = map shape b -> gates k a = gates k b.
Proof.
  induction a as [|c a IH]; intros [|d b] k H; try discriminate; [reflexivity|]. cbn [map] in H. injection H as Hc H.
  destruct d; try (apply shape_other in Hc; subst c; cbn [gates]; rewrite (IH b) by exact H; reflexivity).
  apply shape_feed in Hc. destruct Hc as (b' & -> & _). cbn [gates]. apply IH, H.
Qed.
Theorem shift_back sigma delta on1 on2 l W W' : map shape on1 = map shape on2 ->
  (forall p, shift sigma delta (gates 0 on2) l W' W p = shift sigma delta (gates 0 on1) l W W' p) /\
  unknown_points sigma delta (gates 0 on2) l = unknown_points sigma delta (gates 0 on1) l /\ known_points sigma (gates 0 on2) l = known_points sigma (gates 0 on1) l.
Proof.
  intro H. unfold shift, differences, unknown_points, known_points. rewrite (shape_gates _ _ 0 H). split; [|auto]. intro p. f_equal.
  induction (gates 0 on2) as [|[[k i] j] t IH]; [reflexivity|]. cbn [flat_map]. rewrite IH.
  rewrite (xorb_comm (wire W' j)), (xorb_comm (wire W' i)). reflexivity.
Qed.
