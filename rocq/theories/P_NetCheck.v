(** A checker for netlists made of S-boxes and XORs, with its soundness proof: gates as
    equations, S-box cones by truth tables, everything else by symbolic XOR sums. *)
From Coq Require Import List NArith Bool Arith Lia.
From Verif Require Import L_Bits L_Res L_PTree M_Bristol S_Aes.
Import ListNotations.
Local Open Scope N_scope.

(** * Gates as equations *)
Definition val (w : ptree bool) (i : N) : bool :=
  match nget i w with Some b => b | None => false end.
Definition gsat (v : N -> bool) (g : gate) : Prop :=
  match g with
  | GA a b z => v z = v a && v b
  | GX a b z => v z = xorb (v a) (v b)
  | GI a z => v z = negb (v a)
  end.

(** every input defined before, every output new *)
Definition is_def (d : ptree unit) (i : N) : bool :=
  match nget i d with Some _ => true | None => false end.
Definition ssa_step (d : ptree unit) (g : gate) : option (ptree unit) :=
  match g with
  | GA a b z | GX a b z =>
      if is_def d a && is_def d b && negb (is_def d z) then Some (nset z tt d) else None
  | GI a z => if is_def d a && negb (is_def d z) then Some (nset z tt d) else None
  end.
Fixpoint ssa (gs : list gate) (d : ptree unit) : option (ptree unit) :=
  match gs with
  | [] => Some d
  | g :: t => match ssa_step d g with Some d => ssa t d | None => None end
  end.

Definition agree (d : ptree unit) (w : ptree bool) : Prop :=
  forall i, is_def d i = true <-> exists b, nget i w = Some b.
Definition extends (w w' : ptree bool) : Prop :=
  forall i b, nget i w = Some b -> nget i w' = Some b.

Lemma extends_trans a b c : extends a b -> extends b c -> extends a c.
Proof. unfold extends; auto. Qed.

Lemma is_def_set d z i : is_def (nset z tt d) i = (i =? z) || is_def d i.
Proof. unfold is_def. rewrite ngsspec. destruct (i =? z); reflexivity. Qed.

Lemma agree_set d w z b : agree d w -> agree (nset z tt d) (nset z b w).
Proof.
  intros H i. rewrite is_def_set, ngsspec. destruct (i =? z) eqn:E; cbn.
  - split; eauto.
  - apply H.
Qed.

Lemma extends_set d w z b : agree d w -> is_def d z = false -> extends w (nset z b w).
Proof.
  intros H Hz i c Hi. rewrite ngsspec. destruct (N.eqb_spec i z) as [->|]; [|exact Hi].
  exfalso. assert (X : is_def d z = true) by (apply H; eauto). congruence.
Qed.

Lemma val_ext w w' i b : extends w w' -> nget i w = Some b -> val w' i = b.
Proof. intros E H. unfold val. now rewrite (E _ _ H). Qed.

Lemma gate_step_sat d w g d' : agree d w -> ssa_step d g = Some d' ->
  exists w', gate_step w g = Ok w' /\ agree d' w' /\ extends w w' /\
    forall w'', extends w' w'' -> gsat (val w'') g.
Proof.
  intros H E. destruct g as [a b z|a b z|a z]; cbn [ssa_step gate_step] in *.
  1,2: destruct (is_def d a) eqn:Ea; [|discriminate]; destruct (is_def d b) eqn:Eb; [|discriminate];
    destruct (is_def d z) eqn:Ez; [discriminate|]; cbn in E; injection E as <-;
    apply H in Ea; apply H in Eb; destruct Ea as [x Ea]; destruct Eb as [y Eb];
    unfold wire_read; rewrite Ea, Eb; cbn [read bind]; eexists; split; [reflexivity|];
    split; [now apply agree_set|]; split; [now apply extends_set with d|];
    intros w'' X; cbn [gsat];
    pose proof (extends_trans _ _ _ (extends_set d w z _ H Ez) X) as X2;
    rewrite (val_ext _ _ _ _ X2 Ea), (val_ext _ _ _ _ X2 Eb);
    apply (val_ext _ _ _ _ X), ngss.
  destruct (is_def d a) eqn:Ea; [|discriminate]; destruct (is_def d z) eqn:Ez; [discriminate|].
  cbn in E. injection E as <-. apply H in Ea. destruct Ea as [x Ea].
  unfold wire_read; rewrite Ea; cbn [read bind]; eexists; split; [reflexivity|].
  split; [now apply agree_set|]; split; [now apply extends_set with d|].
  intros w'' X; cbn [gsat].
  pose proof (extends_trans _ _ _ (extends_set d w z _ H Ez) X) as X2.
  rewrite (val_ext _ _ _ _ X2 Ea). apply (val_ext _ _ _ _ X), ngss.
Qed.

Lemma run_gates_cons g gs w : run_gates (g :: gs) w = bind (gate_step w g) (run_gates gs).
Proof.
  unfold run_gates. cbn [fold_left bind].
  assert (X : forall gs (m : res (ptree bool)),
    fold_left (fun acc g => bind acc (fun w => gate_step w g)) gs m =
    bind m (fun w => fold_left (fun acc g => bind acc (fun w => gate_step w g)) gs (Ok w))).
  { clear. induction gs as [|g gs IH]; intro m; [destruct m; reflexivity|].
    cbn [fold_left]. rewrite IH. destruct m as [w| |]; cbn [bind]; auto. }
  apply X.
Qed.

Lemma run_gates_sat gs : forall d w d', agree d w -> ssa gs d = Some d' ->
  exists w', run_gates gs w = Ok w' /\ agree d' w' /\ extends w w' /\
    Forall (gsat (val w')) gs.
Proof.
  induction gs as [|g gs IH]; intros d w d' H E.
  { cbn in E. injection E as <-. exists w. split; [reflexivity|]. split; [exact H|]. split; [unfold extends; auto|constructor]. }
  cbn [ssa] in E. destruct (ssa_step d g) as [d1|] eqn:E1; [|discriminate].
  destruct (gate_step_sat _ _ _ _ H E1) as (w1 & G & A1 & X1 & S1).
  destruct (IH _ _ _ A1 E) as (w' & R & A' & X' & F').
  exists w'. rewrite run_gates_cons, G. cbn [bind]. split; [exact R|]. split; [exact A'|].
  split; [now apply extends_trans with w1|]. constructor; auto.
Qed.

(** * Loading inputs, reading outputs *)
Fixpoint def_wires (start : N) (n : nat) (d : ptree unit) : ptree unit :=
  match n with O => d | S k => def_wires (N.succ start) k (nset start tt d) end.

Lemma load_agree bits : forall start w d, agree d w ->
  agree (def_wires start (length bits) d) (load_wires start bits w).
Proof.
  induction bits as [|b bits IH]; intros start w d H; cbn; [exact H|].
  apply IH. now apply agree_set.
Qed.
Lemma load_below bits : forall start w i, i < start ->
  nget i (load_wires start bits w) = nget i w.
Proof.
  induction bits as [|b bits IH]; intros start w i H; cbn; [reflexivity|].
  rewrite IH by lia. apply ngso. lia.
Qed.
Lemma load_get bits : forall start w k b, nth_error bits k = Some b ->
  nget (start + N.of_nat k) (load_wires start bits w) = Some b.
Proof.
  induction bits as [|x bits IH]; intros start w k b H; destruct k as [|k]; try discriminate; cbn [nth_error] in H.
  - cbn [load_wires]. rewrite load_below by lia. injection H as ->.
    replace (start + N.of_nat 0) with start by lia. apply ngss.
  - cbn [load_wires]. replace (start + N.of_nat (S k)) with (N.succ start + N.of_nat k) by lia.
    now apply IH.
Qed.

Lemma read_wires_ok w l : Forall (fun i => exists b, nget i w = Some b) l ->
  read_wires w l = Ok (map (val w) l).
Proof.
  induction 1 as [|i l [b Hi] Hl IH]; [reflexivity|]. cbn [read_wires map]. unfold wire_read.
  rewrite Hi. cbn [read bind]. rewrite IH. cbn [bind]. unfold val at 2. now rewrite Hi.
Qed.

(** * The netlist as a valuation *)
Definition ssa_all (c : bristol) : bool :=
  match ssa (gates c) (def_wires (in1_len c) (N.to_nat (in2_len c))
                        (def_wires 0 (N.to_nat (in1_len c)) PLeaf)) with
  | Some d => forallb (is_def d) (nseq (num_wire c - out_len c) (N.to_nat (out_len c)))
  | None => false
  end.

Lemma compute_sat c in1 in2 :
  ssa_all c = true -> length in1 = N.to_nat (in1_len c) -> length in2 = N.to_nat (in2_len c) ->
  exists v, Forall (gsat v) (gates c) /\
    map v (nseq 0 (N.to_nat (in1_len c))) = in1 /\
    map v (nseq (in1_len c) (N.to_nat (in2_len c))) = in2 /\
    bristol_compute c in1 in2 = Ok (map v (nseq (num_wire c - out_len c) (N.to_nat (out_len c)))).
Proof.
  unfold ssa_all. intros H L1 L2.
  destruct (ssa _ _) as [d|] eqn:E; [|discriminate].
  set (w0 := load_wires (in1_len c) in2 (load_wires 0 in1 PLeaf)) in *.
  assert (A0 : agree (def_wires (in1_len c) (N.to_nat (in2_len c))
                 (def_wires 0 (N.to_nat (in1_len c)) PLeaf)) w0).
  { unfold w0. rewrite <- L1, <- L2. apply load_agree, load_agree.
    intro i. unfold is_def. rewrite !nget_leaf. split; [discriminate|]. intros [b X]; discriminate X. }
  destruct (run_gates_sat _ _ _ _ A0 E) as (w' & R & A' & X & F).
  exists (val w'). split; [exact F|]. split; [|split].
  - apply (nth_ext _ _ (val w' 0) false).
    { unfold nseq. now rewrite !map_length, seq_length. }
    intros k Hk. rewrite map_nth. unfold nseq in *. rewrite !map_length, seq_length in Hk.
    rewrite (nth_indep _ 0 (0 + N.of_nat 0)) by (rewrite map_length, seq_length; exact Hk).
    rewrite (map_nth (fun i => 0 + N.of_nat i)), seq_nth by exact Hk.
    destruct (nth_error in1 k) as [b|] eqn:Ek.
    2:{ apply nth_error_None in Ek. lia. }
    apply nth_error_nth with (d := false) in Ek as Ek2. rewrite Ek2.
    apply (val_ext w0 w'); [exact X|]. unfold w0. rewrite load_below by lia.
    now apply load_get.
  - apply (nth_ext _ _ (val w' 0) false).
    { unfold nseq. now rewrite !map_length, seq_length. }
    intros k Hk. rewrite map_nth. unfold nseq in *. rewrite !map_length, seq_length in Hk.
    rewrite (nth_indep _ 0 (in1_len c + N.of_nat 0)) by (rewrite map_length, seq_length; exact Hk).
    rewrite (map_nth (fun i => in1_len c + N.of_nat i)), seq_nth by exact Hk.
    destruct (nth_error in2 k) as [b|] eqn:Ek.
    2:{ apply nth_error_None in Ek. lia. }
    apply nth_error_nth with (d := false) in Ek as Ek2. rewrite Ek2.
    apply (val_ext w0 w'); [exact X|]. unfold w0. now apply load_get.
  - unfold bristol_compute. rewrite L1, L2, !N2Nat.id, !N.eqb_refl. cbn [andb negb].
    fold w0. rewrite R. cbn [bind]. apply read_wires_ok.
    rewrite forallb_forall in H. apply Forall_forall. intros i Hi. apply A'. now apply H.
Qed.

(** * XOR sums: 0 is the constant one, i+1 is wire i; sorted *)
Notation form := (list N).
Definition atom (v : N -> bool) (x : N) : bool := match x with 0 => true | _ => v (N.pred x) end.
Definition ev (v : N -> bool) (f : form) : bool := fold_right (fun x acc => xorb (atom v x) acc) false f.
Fixpoint fx (a : form) : form -> form :=
  match a with
  | [] => fun b => b
  | x :: a' =>
      fix go (b : form) : form :=
        match b with
        | [] => x :: a'
        | y :: b' =>
            match N.compare x y with
            | Eq => fx a' b'
            | Lt => x :: fx a' (y :: b')
            | Gt => y :: go b'
            end
        end
  end.
Lemma ev_fx v a : forall b, ev v (fx a b) = xorb (ev v a) (ev v b).
Proof.
  induction a as [|x a IH]; intro b; [cbn [fx]; now rewrite xorb_false_l|].
  induction b as [|y b IHb].
  { cbn. now rewrite xorb_false_r. }
  cbn [fx]. destruct (N.compare_spec x y) as [->|Hl|Hg].
  - rewrite IH. cbn [ev fold_right]. fold (ev v a) (ev v b).
    destruct (atom v y), (ev v a), (ev v b); reflexivity.
  - cbn [ev fold_right]. fold (ev v (fx a (y :: b))). rewrite IH. cbn [ev fold_right].
    fold (ev v a) (ev v b). now destruct (atom v x), (atom v y), (ev v a), (ev v b).
  - change (ev v (y :: fx (x :: a) b) = xorb (ev v (x :: a)) (ev v (y :: b))).
    cbn [ev fold_right]. fold (ev v (fx (x :: a) b)). rewrite IHb.
    cbn [ev fold_right]. fold (ev v a) (ev v b).
    now destruct (atom v x), (atom v y), (ev v a), (ev v b).
Qed.
Lemma ev_wire v w : ev v [N.succ w] = v w.
Proof.
  cbn [ev fold_right]. rewrite xorb_false_r. unfold atom.
  destruct (N.succ w) eqn:E; [lia|]. rewrite <- E, N.pred_succ. reflexivity.
Qed.

(** * Truth tables over the 256 values of a byte *)
Record cut := mkCut { c_ins : list N; c_cone : list N; c_outs : list N }.

Definition tt_of (f : N -> bool) : N := N_of_bits (map (fun i => f (N.of_nat i)) (seq 0 256)).
Definition ones256 : N := N.ones 256.
Definition tv (j : nat) : N := tt_of (fun x => N.testbit x (N.of_nat j)).
Definition tvs : list N := map tv (seq 0 8).

Lemma tt_of_spec f x : x < 256 -> N.testbit (tt_of f) x = f x.
Proof.
  intro H. unfold tt_of. rewrite <- (N2Nat.id x), testbit_N_of_bits.
  rewrite (nth_indep _ false (f (N.of_nat 0))) by (rewrite map_length, seq_length; lia).
  rewrite (map_nth (fun i => f (N.of_nat i))), seq_nth by lia. f_equal. 
Qed.

Local Opaque tvs tv tt_of sbox ones256 N.testbit N_of_bits fx.

Fixpoint index_of (w : N) (l : list N) : option nat :=
  match l with
  | [] => None
  | x :: t => if w =? x then Some O else option_map S (index_of w t)
  end.
Lemma index_of_spec w l : forall j, index_of w l = Some j -> nth_error l j = Some w.
Proof.
  induction l as [|x l IH]; intros j H; [discriminate|]. cbn [index_of] in H.
  destruct (N.eqb_spec w x) as [->|].
  - injection H as <-. reflexivity.
  - destruct (index_of w l) as [k|] eqn:E; [|discriminate]. injection H as <-. cbn. auto.
Qed.

Record chk := mkChk { k_forms : ptree form; k_tts : ptree (N * N) }.

Section Checker.
Variable cone_of : ptree N.         (* cone wire -> instance *)
Variable ins_of : ptree (list N).   (* instance -> input wires *)

Definition ins (i : N) : list N := match nget i ins_of with Some l => firstn 8 l | None => [] end.

Definition tt_get (k : chk) (i w : N) : option N :=
  match nget w (k_tts k) with
  | Some (i', t) => if i =? i' then Some t else None
  | None => match index_of w (ins i) with Some j => Some (nth j tvs 0) | None => None end
  end.

Definition set_tt (k : chk) (z i t : N) : chk := mkChk (k_forms k) (nset z (i, t) (k_tts k)).
Definition set_form (k : chk) (z : N) (f : form) : chk := mkChk (nset z f (k_forms k)) (k_tts k).

Definition chk_step (k : chk) (g : gate) : option chk :=
  match g with
  | GA a b z =>
      match nget z cone_of with
      | Some i => match tt_get k i a, tt_get k i b with
                  | Some x, Some y => Some (set_tt k z i (N.land x y)) | _, _ => None end
      | None => None
      end
  | GX a b z =>
      match nget z cone_of with
      | Some i => match tt_get k i a, tt_get k i b with
                  | Some x, Some y => Some (set_tt k z i (N.lxor x y)) | _, _ => None end
      | None => match nget a (k_forms k), nget b (k_forms k) with
                | Some x, Some y => Some (set_form k z (fx x y)) | _, _ => None end
      end
  | GI a z =>
      match nget z cone_of with
      | Some i => match tt_get k i a with
                  | Some x => Some (set_tt k z i (N.lxor ones256 x)) | None => None end
      | None => match nget a (k_forms k) with
                | Some x => Some (set_form k z (fx [0] x)) | None => None end
      end
  end.
Fixpoint chk_run (gs : list gate) (k : chk) : option chk :=
  match gs with
  | [] => Some k
  | g :: t => match chk_step k g with Some k => chk_run t k | None => None end
  end.

Variable v : N -> bool.
Definition byte_in (i : N) : N := N_of_bits (map v (ins i)).
Lemma ins_length i : (length (ins i) <= 8)%nat.
Proof. unfold ins. destruct (nget i ins_of) as [l|]; [apply firstn_le_length|apply Nat.le_0_l]. Qed.
Lemma byte_in_lt i : byte_in i < 256.
Proof.
  unfold byte_in. eapply N.lt_le_trans; [apply N_of_bits_lt|]. rewrite map_length.
  change 256 with (2 ^ 8). apply N.pow_le_mono_r; [lia|]. pose proof (ins_length i). lia.
Qed.

Record kinv (k : chk) : Prop := {
  ki_f : forall w f, nget w (k_forms k) = Some f -> v w = ev v f;
  ki_t : forall w i t, nget w (k_tts k) = Some (i, t) -> v w = N.testbit t (byte_in i)
}.

Lemma tt_get_ok k i w t : kinv k -> tt_get k i w = Some t -> v w = N.testbit t (byte_in i).
Proof.
  intros K H. unfold tt_get in H. destruct (nget w (k_tts k)) as [[i' t']|] eqn:E.
  - destruct (N.eqb_spec i i') as [<-|]; [|discriminate]. injection H as <-. now apply (ki_t k K).
  - destruct (index_of w (ins i)) as [j|] eqn:Ej; [|discriminate].
    injection H as <-.
    apply index_of_spec in Ej.
    assert (Hj : (j < 8)%nat).
    { assert (X : nth_error (ins i) j <> None) by congruence. apply nth_error_Some in X.
      pose proof (ins_length i). lia. }
    Local Transparent tvs tv. unfold tvs. rewrite (nth_indep _ 0 (tv 0)) by (rewrite map_length, seq_length; exact Hj).
    rewrite (map_nth tv), seq_nth by exact Hj. cbn [Nat.add]. unfold tv.
    rewrite tt_of_spec by apply byte_in_lt. unfold byte_in. rewrite testbit_N_of_bits.
    erewrite nth_error_nth; [reflexivity|]. now rewrite nth_error_map, Ej.
Qed.
Local Opaque tvs tv.

Lemma kinv_tt k z i t : kinv k -> v z = N.testbit t (byte_in i) -> kinv (set_tt k z i t).
Proof.
  intros [F T] H. constructor; cbn [set_tt k_forms k_tts]; [exact F|].
  intros w i' t'. rewrite ngsspec. destruct (N.eqb_spec w z) as [->|]; [|apply T].
  intro X. injection X as <- <-. exact H.
Qed.
Lemma kinv_form k z f : kinv k -> v z = ev v f -> kinv (set_form k z f).
Proof.
  intros [F T] H. constructor; cbn [set_form k_forms k_tts]; [|exact T].
  intros w f'. rewrite ngsspec. destruct (N.eqb_spec w z) as [->|]; [|apply F].
  intro X. injection X as <-. exact H.
Qed.

Lemma chk_step_ok k g k' : kinv k -> gsat v g -> chk_step k g = Some k' -> kinv k'.
Proof.
  intros K G H. destruct g as [a b z|a b z|a z]; cbn [chk_step gsat] in *;
    destruct (nget z cone_of) as [i|] eqn:Ec; try discriminate.
  - destruct (tt_get k i a) as [x|] eqn:Ea; [|discriminate].
    destruct (tt_get k i b) as [y|] eqn:Eb; [|discriminate]. injection H as <-.
    apply kinv_tt; [exact K|]. rewrite G, N.land_spec.
    now rewrite <- (tt_get_ok _ _ _ _ K Ea), <- (tt_get_ok _ _ _ _ K Eb).
  - destruct (tt_get k i a) as [x|] eqn:Ea; [|discriminate].
    destruct (tt_get k i b) as [y|] eqn:Eb; [|discriminate]. injection H as <-.
    apply kinv_tt; [exact K|]. rewrite G, N.lxor_spec.
    now rewrite <- (tt_get_ok _ _ _ _ K Ea), <- (tt_get_ok _ _ _ _ K Eb).
  - destruct (nget a (k_forms k)) as [x|] eqn:Ea; [|discriminate].
    destruct (nget b (k_forms k)) as [y|] eqn:Eb; [|discriminate]. injection H as <-.
    apply kinv_form; [exact K|]. rewrite G, ev_fx.
    now rewrite <- (ki_f _ K _ _ Ea), <- (ki_f _ K _ _ Eb).
  - destruct (tt_get k i a) as [x|] eqn:Ea; [|discriminate]. injection H as <-.
    apply kinv_tt; [exact K|]. rewrite G, N.lxor_spec, <- (tt_get_ok _ _ _ _ K Ea).
    Local Transparent ones256. unfold ones256. rewrite N.ones_spec_low by (pose proof (byte_in_lt i); lia).
    now destruct (v a).
  - destruct (nget a (k_forms k)) as [x|] eqn:Ea; [|discriminate]. injection H as <-.
    apply kinv_form; [exact K|]. rewrite G, ev_fx, <- (ki_f _ K _ _ Ea). cbn. now destruct (v a).
Qed.

Lemma chk_run_ok gs : forall k k', kinv k -> Forall (gsat v) gs -> chk_run gs k = Some k' -> kinv k'.
Proof.
  induction gs as [|g gs IH]; intros k k' K F H; [injection H as <-; exact K|].
  inversion F; subst. cbn [chk_run] in H. destruct (chk_step k g) as [k1|] eqn:E; [|discriminate].
  eapply IH; [|eassumption|exact H]. eapply chk_step_ok; eassumption.
Qed.
End Checker.

(** * From annotations to facts *)
Fixpoint set_all {A} (l : list N) (a : A) (t : ptree A) : ptree A :=
  match l with [] => t | w :: r => set_all r a (nset w a t) end.
Fixpoint build_cone (i : N) (cs : list cut) (t : ptree N) : ptree N :=
  match cs with [] => t | c :: r => build_cone (N.succ i) r (set_all (c_cone c) i t) end.
Fixpoint build_ins (i : N) (cs : list cut) (t : ptree (list N)) : ptree (list N) :=
  match cs with [] => t | c :: r => build_ins (N.succ i) r (nset i (c_ins c) t) end.
Fixpoint set_atoms (l : list N) (t : ptree form) : ptree form :=
  match l with [] => t | w :: r => set_atoms r (nset w [N.succ w] t) end.

Lemma set_atoms_ok v l : forall t, (forall w f, nget w t = Some f -> v w = ev v f) ->
  forall w f, nget w (set_atoms l t) = Some f -> v w = ev v f.
Proof.
  induction l as [|x l IH]; intros t H w f; cbn [set_atoms]; [apply H|]. apply IH.
  intros w' f'. rewrite ngsspec. destruct (N.eqb_spec w' x) as [->|]; [|apply H].
  intro E. injection E as <-. now rewrite ev_wire.
Qed.

Definition sbox_col (j : nat) : N := tt_of (fun x => N.testbit (sbox x) (N.of_nat j)).
Definition sbox_cols : list N := map sbox_col (seq 0 8).

Fixpoint list_eqb {A B} (e : A -> B -> bool) (a : list A) (b : list B) : bool :=
  match a, b with
  | [], [] => true
  | x :: a', y :: b' => e x y && list_eqb e a' b'
  | _, _ => false
  end.
Lemma list_eqb_eq {A} (e : A -> A -> bool) : (forall x y, e x y = true -> x = y) ->
  forall a b, list_eqb e a b = true -> a = b.
Proof.
  intros He. induction a as [|x a IH]; intros [|y b] H; try discriminate; [reflexivity|].
  cbn in H. apply andb_true_iff in H. destruct H as [H1 H2]. f_equal; auto.
Qed.

(** the outputs of instance [i] carry the S-box truth tables *)
Definition outs_ok (tts : ptree (N * N)) (cols : list N) (i : N) (c : cut) : bool :=
  list_eqb (fun w t => match nget w tts with Some (i', t') => (i =? i') && (t =? t') | None => false end)
    (c_outs c) cols.
Fixpoint all_outs_ok (tts : ptree (N * N)) (cols : list N) (i : N) (cs : list cut) : bool :=
  match cs with
  | [] => true
  | c :: r => outs_ok tts cols i c && (length (c_ins c) =? 8)%nat && all_outs_ok tts cols (N.succ i) r
  end.

(** run the checker; the result is the table of XOR sums *)
Definition check_net (c : bristol) (cs : list cut) : option (ptree form) :=
  let forms := set_atoms (nseq 0 (N.to_nat (in1_len c + in2_len c)))
                 (set_atoms (flat_map c_outs cs) PLeaf) in
  match chk_run (build_cone 0 cs PLeaf) (build_ins 0 cs PLeaf) (gates c) (mkChk forms PLeaf) with
  | Some k => if all_outs_ok (k_tts k) sbox_cols 0 cs then Some (k_forms k) else None
  | None => None
  end.

Lemma build_ins_below cs : forall i t j, j < i -> nget j (build_ins i cs t) = nget j t.
Proof.
  induction cs as [|c cs IH]; intros i t j H; [reflexivity|]. cbn [build_ins].
  rewrite IH by lia. apply ngso. lia.
Qed.
Lemma build_ins_get cs : forall i t k c, nth_error cs k = Some c ->
  nget (i + N.of_nat k) (build_ins i cs t) = Some (c_ins c).
Proof.
  induction cs as [|x cs IH]; intros i t k c H; destruct k as [|k]; try discriminate; cbn [nth_error] in H; cbn [build_ins].
  - injection H as ->. rewrite N.add_0_r. rewrite build_ins_below by lia. apply ngss.
  - replace (i + N.of_nat (S k)) with (N.succ i + N.of_nat k) by lia. now apply IH.
Qed.

Lemma sbox_lt x : x < 256 -> sbox x < 256.
Proof.
  intro H. assert (X : forallb (fun x => sbox x <? 256) (map N.of_nat (seq 0 256)) = true)
    by (vm_compute; reflexivity).
  rewrite forallb_forall in X. apply N.ltb_lt, X, in_map_iff. exists (N.to_nat x).
  split; [lia|]. apply in_seq. lia.
Qed.

Lemma all_outs_nth tts cols cs : forall i k c, all_outs_ok tts cols i cs = true ->
  nth_error cs k = Some c ->
  outs_ok tts cols (i + N.of_nat k) c = true /\ length (c_ins c) = 8%nat.
Proof.
  induction cs as [|x cs IH]; intros i k c H E; destruct k as [|k]; try discriminate; cbn in E, H.
  - injection E as ->. apply andb_true_iff in H. destruct H as [H _]. apply andb_true_iff in H.
    destruct H as [H L]. apply Nat.eqb_eq in L. rewrite N.add_0_r. auto.
  - apply andb_true_iff in H. destruct H as [_ H].
    replace (i + N.of_nat (S k)) with (N.succ i + N.of_nat k) by lia. now apply IH.
Qed.

Lemma list_eqb_map {A B C} (e : A -> B -> bool) (f : A -> C) (g : B -> C) :
  (forall x y, e x y = true -> f x = g y) ->
  forall a b, list_eqb e a b = true -> map f a = map g b.
Proof.
  intros He. induction a as [|x a IH]; intros [|y b] H; try discriminate; [reflexivity|].
  apply andb_true_iff in H. destruct H as [H1 H2]. cbn [map]. f_equal; auto.
Qed.

Lemma byte_testbits y : y < 256 -> map (fun j => N.testbit y (N.of_nat j)) (seq 0 8) = bits_of_N 8 y.
Proof.
  intro H. apply (nth_ext _ _ (N.testbit y (N.of_nat 0)) false).
  { now rewrite map_length, seq_length, bits_of_N_length. }
  intros n Hn. rewrite map_length, seq_length in Hn.
  rewrite (map_nth (fun j => N.testbit y (N.of_nat j))), seq_nth by exact Hn.
  rewrite bits_of_N_nth. cbn [Nat.add]. destruct (Nat.ltb_spec n 8); [reflexivity|lia].
Qed.

(** the two facts the AES proofs use *)
Lemma check_net_ok c cs forms v :
  check_net c cs = Some forms -> Forall (gsat v) (gates c) ->
  (forall w f, nget w forms = Some f -> v w = ev v f) /\
  (forall k x, nth_error cs k = Some x ->
     length (c_ins x) = 8%nat /\ length (c_outs x) = 8%nat /\
     N_of_bits (map v (c_outs x)) = sbox (N_of_bits (map v (c_ins x)))).
Proof.
  unfold check_net. intros H G.
  destruct (chk_run _ _ _ _) as [k|] eqn:E; [|discriminate].
  destruct (all_outs_ok _ _ _ _) eqn:O; [|discriminate]. injection H as <-.
  apply (chk_run_ok _ _ v) in E; [|constructor; cbn [k_forms k_tts]|exact G].
  2:{ apply set_atoms_ok. apply set_atoms_ok. intros w f X. rewrite nget_leaf in X. discriminate. }
  2:{ intros w i t X. rewrite nget_leaf in X. discriminate. }
  destruct E as [F T]. split; [exact F|].
  intros j x Hx. destruct (all_outs_nth _ _ _ _ _ _ O Hx) as [Hu Hl]. rewrite N.add_0_l in Hu.
  split; [exact Hl|].
  assert (BI : byte_in (build_ins 0 cs PLeaf) v (N.of_nat j) = N_of_bits (map v (c_ins x))).
  { unfold byte_in, ins. pose proof (build_ins_get cs 0 PLeaf j x Hx) as B. rewrite N.add_0_l in B.
    rewrite B, firstn_all2 by lia. reflexivity. }
  set (y := N_of_bits (map v (c_ins x))) in *.
  assert (Hy : y < 256) by (rewrite <- BI; apply byte_in_lt).
  unfold outs_ok in Hu.
  apply (list_eqb_map _ v (fun t => N.testbit t y)) in Hu.
  2:{ intros w t X. destruct (nget w (k_tts k)) as [[i' t']|] eqn:Ew; [|discriminate].
      apply andb_true_iff in X. destruct X as [X1 X2]. apply N.eqb_eq in X1, X2. subst.
      rewrite (T _ _ _ Ew). now rewrite BI. }
  assert (C : map (fun t => N.testbit t y) sbox_cols = bits_of_N 8 (sbox y)).
  { unfold sbox_cols. rewrite map_map. rewrite <- byte_testbits by now apply sbox_lt.
    apply map_ext. intro a. unfold sbox_col. now rewrite tt_of_spec. }
  rewrite C in Hu. split.
  - apply (f_equal (@length bool)) in Hu. now rewrite map_length, bits_of_N_length in Hu.
  - rewrite Hu. apply N_of_bits_of_N_small. now apply sbox_lt.
Qed.
