(** Half gates and the two-phase backend (C24, C25). *)
From Coq Require Import List NArith Bool Arith Lia.
From Verif Require Import L_Bits L_Res L_Xor S_Circuit M_Block M_Garble.
Import ListNotations.
Local Open Scope N_scope.

Lemma lsb_xor : forall a b, getLSB (N.lxor a b) = xorb (getLSB a) (getLSB b).
Proof. intros; unfold getLSB; apply N.lxor_spec. Qed.
Lemma lsb_sel : forall b d, getLSB d = true -> getLSB (sel b d) = b.
Proof. destruct b; intros d H; [exact H | reflexivity]. Qed.

Section P.
Variables (sigma aes : N -> N).

Lemma half_gate_ok : forall delta a b (va vb : bool) idx o t0 t1, getLSB delta = true ->
  garble_gate sigma aes a (N.lxor a delta) b (N.lxor b delta) delta idx = (o, t0, t1) ->
  eval_gate sigma aes (N.lxor a (sel va delta)) (N.lxor b (sel vb delta)) t0 t1 idx
    = N.lxor o (sel (va && vb) delta).
Proof.
  intros delta a b va vb idx o t0 t1 Hd H. unfold garble_gate in H. unfold eval_gate.
  revert H. generalize (makeBlock (2 * idx) 0) (makeBlock (2 * idx + 1) 0). intros u1 u2 H.
  inversion H; subst; clear H. rewrite !lsb_xor, !lsb_sel by exact Hd.
  destruct va, vb, (getLSB a), (getLSB b); cbn [sel xorb andb]; rewrite ?N.lxor_0_r;
    repeat match goal with |- context [hg_hash sigma aes ?x ?t] => generalize (hg_hash sigma aes x t); intro end;
    xor_solve.
Qed.
End P.

Lemma recv_bits_map : forall (l : list bool) ch, recv_bits (length l) (map MBit l ++ ch) = Ok (l, ch).
Proof. induction l; intros; [reflexivity|]. cbn. rewrite IHl. reflexivity. Qed.
Lemma recv_labels_map : forall (l : list N) ch, recv_labels (length l) (map MLabel l ++ ch) = Ok (l, ch).
Proof. induction l; intros; [reflexivity|]. cbn. rewrite IHl. reflexivity. Qed.

(** labels of a list of wires: the evaluator's label is the garbler's, shifted by the value *)
Definition evl (delta : N) (g : list N) (w : list bool) : list N :=
  map2 (fun x (b : bool) => N.lxor x (sel b delta)) g w.
Arguments evl : simpl never.
Lemma evl_1 : forall delta x b, evl delta [x] [b] = [N.lxor x (sel b delta)].
Proof. reflexivity. Qed.
Lemma map2_length2 : forall {A B C} (f : A -> B -> C) l m, length l = length m -> length (map2 f l m) = length l.
Proof. induction l; destruct m; cbn; intros; try discriminate; try reflexivity. f_equal; apply IHl; lia. Qed.
Lemma map2_app2 : forall {A B C} (f : A -> B -> C) l m l' m', length l = length m ->
  map2 f (l ++ l') (m ++ m') = map2 f l m ++ map2 f l' m'.
Proof. induction l; destruct m; cbn; intros; try discriminate; try reflexivity. f_equal; apply IHl; lia. Qed.
Lemma map2_nth2 : forall {A B C} (f : A -> B -> C) l m i a b, length l = length m ->
  nth i (map2 f l m) (f a b) = f (nth i l a) (nth i m b).
Proof.
  induction l; destruct m; cbn; intros; try discriminate; destruct i; try reflexivity. apply IHl; lia.
Qed.
Lemma evl_nth : forall delta g w i, length g = length w ->
  lbl (evl delta g w) i = N.lxor (lbl g i) (sel (wire w i) delta).
Proof. intros; unfold lbl, evl, wire. apply (map2_nth2 (fun x (b : bool) => N.lxor x (sel b delta)) g w i 0 false H). Qed.
Lemma evl_length : forall delta g w, length g = length w -> length (evl delta g w) = length g.
Proof. intros; apply map2_length2; assumption. Qed.
Lemma evl_app : forall delta g w g' w', length g = length w ->
  evl delta (g ++ g') (w ++ w') = evl delta g w ++ evl delta g' w'.
Proof. intros; apply map2_app2; assumption. Qed.
Lemma evl_map : forall delta g w ws, length g = length w ->
  map (lbl (evl delta g w)) ws = evl delta (map (lbl g) ws) (map (wire w) ws).
Proof.
  intros; induction ws; [reflexivity|]. cbn [map]. rewrite IHws, evl_nth by assumption. reflexivity.
Qed.
Lemma flip_evl : forall delta g w, flip delta g w = evl delta g w.
Proof.
  induction g; destruct w; try reflexivity. unfold flip, evl in *; cbn. rewrite IHg. destruct b; cbn; rewrite ?N.lxor_0_r; reflexivity.
Qed.
Lemma open_bits : forall delta g w, getLSB delta = true -> length g = length w ->
  map2 (fun t l => xorb t (getLSB l)) (map getLSB g) (evl delta g w) = w.
Proof.
  induction g; destruct w; unfold evl; cbn; intros; try discriminate; try reflexivity.
  change (map2 (fun (x : N) (b0 : bool) => N.lxor x (sel b0 delta)) g w) with (evl delta g w). rewrite IHg, lsb_xor, lsb_sel by (assumption || lia). f_equal. destruct (getLSB a), b; reflexivity.
Qed.
Lemma open_bits' : forall delta g w, getLSB delta = true -> length g = length w ->
  map2 (fun t l => xorb t (getLSB l)) (map getLSB (evl delta g w)) g = w.
Proof.
  induction g; destruct w; unfold evl; cbn; intros; try discriminate; try reflexivity.
  change (map2 (fun (x : N) (b0 : bool) => N.lxor x (sel b0 delta)) g w) with (evl delta g w). rewrite IHg, lsb_xor, lsb_sel by (assumption || lia). f_equal. destruct (getLSB a), b; reflexivity.
Qed.
Lemma check_labels : forall delta g w, length g = length w ->
  map2 (fun l (x : bool) => if x then N.lxor l delta else l) g w = evl delta g w.
Proof. intros; apply flip_evl. Qed.

Section Two.
Variables (sigma aes : N -> N) (Hash : list N -> N) (fixk lab : nat -> N) (delta : N).
Hypothesis Hdelta : getLSB delta = true.
Notation fg_step := (fg_step sigma aes fixk lab delta).
Notation f_run := (f_run sigma aes fixk lab delta).

(** the offline phase never blocks, and only appends *)
Lemma f_step_ok : forall g e c, exists e' o gc pb,
  fe_step e c (snd (fg_step g c)) = Ok (e', []) /\
  fg_out (fst (fg_step g c)) = fg_out g ++ o /\ fe_GC e' = fe_GC e ++ gc /\ fe_pub e' = fe_pub e ++ pb /\
  fg_gid (fst (fg_step g c)) = fg_gid g + N.of_nat (length o) /\ length gc = (2 * length o)%nat.
Proof.
  intros g e c. destruct c as [b|p bits|i j|i j|i|p ws]; cbn [M_Garble.fg_step].
  1,2,4,5: exists e, [], [], []; cbn; rewrite !app_nil_r, N.add_0_r; repeat split; reflexivity.
  - destruct (garble_gate sigma aes (lbl (fg_w g) i) (N.lxor (lbl (fg_w g) i) delta) (lbl (fg_w g) j) (N.lxor (lbl (fg_w g) j) delta) delta (fg_gid g)) as [[o t0] t1].
    exists {| fe_GC := fe_GC e ++ [t0] ++ [t1]; fe_gid := fe_gid e + 1; fe_pub := fe_pub e |}, [o], [t0; t1], [].
    cbn. rewrite !app_nil_r. repeat split; reflexivity.
  - destruct p.
    1,2: exists e, [], [], []; cbn; rewrite !app_nil_r, N.add_0_r; repeat split; reflexivity.
    exists {| fe_GC := fe_GC e; fe_gid := fe_gid e; fe_pub := fe_pub e ++ map (fun i => getLSB (lbl (fg_w g) i)) ws |}, [], [],
      (map (fun i => getLSB (lbl (fg_w g) i)) ws).
    cbn [fe_step fst snd].
    rewrite <- (map_map (fun i => getLSB (lbl (fg_w g) i)) MBit).
    rewrite <- (map_length (fun i => getLSB (lbl (fg_w g) i)) ws).
    rewrite <- (app_nil_r (map MBit _)), recv_bits_map. cbn.
    rewrite !app_nil_r, N.add_0_r. repeat split; reflexivity.
Qed.

Lemma f_run_ok : forall prog g e, exists g' e' o gc pb,
  f_run g e [] prog = Ok (g', e', []) /\
  fg_out g' = fg_out g ++ o /\ fe_GC e' = fe_GC e ++ gc /\ fe_pub e' = fe_pub e ++ pb.
Proof.
  induction prog as [|c t IH]; intros g e.
  - exists g, e, [], [], []. rewrite !app_nil_r. repeat split; reflexivity.
  - destruct (f_step_ok g e c) as (e1 & o & gc & pb & H1 & H2 & H3 & H4 & H5 & H6).
    cbn [M_Garble.f_run]. destruct (fg_step g c) as [g1 m]. cbn [fst snd app] in *. rewrite H1. cbn [bind].
    destruct (IH g1 e1) as (g' & e' & o' & gc' & pb' & R1 & R2 & R3 & R4).
    exists g', e', (o ++ o'), (gc ++ gc'), (pb ++ pb').
    rewrite R1, R2, R3, R4, H2, H3, H4, !app_assoc. repeat split; reflexivity.
Qed.

(** state of the two phases after executing the same prefix of the circuit *)
Definition sync (g : fgen) (e : feva) (s : nstate) (w : list bool) : Prop :=
  ng_w s = fg_w g /\ length (fg_w g) = length w /\ ne_w s = evl delta (fg_w g) w /\
  ng_prg s = fg_prg g /\ ng_gid s = length (fg_out g) /\ ne_gid s = length (fg_out g) /\
  fg_gid g = N.of_nat (length (fg_out g)) /\ length (fe_GC e) = (2 * length (fg_out g))%nat /\
  ne_cnt s = length (fe_pub e) /\ n_ge s = [] /\ n_eg s = [].

Notation n_step := (n_step sigma aes Hash fixk lab delta).
Notation n_run := (n_run sigma aes Hash fixk lab delta).

Lemma nth_error_mid : forall {A} (l : list A) x r, nth_error ((l ++ [x]) ++ r) (length l) = Some x.
Proof. intros. rewrite <- app_assoc, nth_error_app2, Nat.sub_diag; [reflexivity | lia]. Qed.

Lemma ne_pub_ok : forall (v : list bool) (l : list N) pre post, length v = length l ->
  ne_pub (pre ++ v ++ post) (length pre) l = Ok (map2 (fun t x => xorb t (getLSB x)) v l).
Proof.
  induction v; destruct l; cbn [length]; intros; try discriminate; [reflexivity|].
  cbn [ne_pub map2]. rewrite nth_error_app2, Nat.sub_diag by lia. cbn [app nth_error read bind].
  replace (pre ++ a :: v ++ post) with ((pre ++ [a]) ++ v ++ post) by (rewrite <- app_assoc; reflexivity).
  replace (S (length pre)) with (length (pre ++ [a])) by (rewrite app_length; cbn; lia).
  rewrite IHv by congruence. reflexivity.
Qed.
Lemma shape_feed : forall c p b, shape c = shape (IFeed p b) -> exists b', c = IFeed p b' /\ length b' = length b.
Proof.
  destruct c; cbn; intros; try discriminate. inversion H. exists bits; split; [reflexivity|].
  rewrite <- (repeat_length false (length bits)), H2, repeat_length. reflexivity.
Qed.
Lemma shape_other : forall c d, shape c = shape d -> match d with IFeed _ _ => True | _ => c = d end.
Proof. destruct d; cbn; intros; try exact I; destruct c; cbn in H; try discriminate; exact H. Qed.

Lemma sync_step : forall g e s w c d e1 g2 e2 o gc pb,
  sync g e s w -> shape c = shape d -> wf_instr (length w) d = true ->
  fe_step e c (snd (fg_step g c)) = Ok (e1, []) ->
  fg_out g2 = fg_out (fst (fg_step g c)) ++ o -> fe_GC e2 = fe_GC e1 ++ gc -> fe_pub e2 = fe_pub e1 ++ pb ->
  exists s' op, n_step (fg_out g2) (fe_GC e2) (fe_pub e2) s d = Ok (s', op) /\
    Forall2 seen (spec_opened w d) op /\ sync (fst (fg_step g c)) e1 s' (spec_step w d).
Proof.
  intros g e s w c d e1 g2 e2 o gc pb (S1 & S2 & S3 & S4 & S5 & S6 & S7 & S8 & S9 & S10 & S11) Hsh Hwf He1 Ho Hg Hp.
  destruct d as [b|p bits|i j|i j|i|p ws].
  - (* IPub *) apply shape_other in Hsh; subst c. cbn in He1. inversion He1; subst e1.
    eexists _, []; split; [reflexivity|]. split; [constructor|].
    unfold sync; cbn. rewrite S1, S3, !app_length, S2, evl_app by exact S2. rewrite evl_1. cbn.
    repeat split; try assumption. f_equal. destruct b; cbn; rewrite ?N.lxor_0_r; [|reflexivity]. f_equal. xor_solve.
  - (* IFeed *) apply shape_feed in Hsh. destruct Hsh as (b' & -> & Hlen). cbn in He1. inversion He1; subst e1.
    cbn [M_Garble.n_step M_Garble.fg_step fst]. rewrite S10. cbn [app].
    assert (Hm : n_feed_msgs delta p bits (map lab (seq (ng_prg s) (length bits)))
                 = map MLabel (evl delta (map lab (seq (ng_prg s) (length bits))) bits) ++ []).
    { rewrite app_nil_r. unfold n_feed_msgs, evl. generalize (map lab (seq (ng_prg s) (length bits))).
      clear. induction bits; destruct l; cbn; try reflexivity. rewrite IHbits. destruct a; cbn; rewrite ?N.lxor_0_r; reflexivity. }
    rewrite Hm. set (L := map lab (seq (ng_prg s) (length bits))).
    assert (HL : length L = length bits) by (unfold L; rewrite map_length, seq_length; reflexivity).
    replace (recv_labels (length bits)) with (recv_labels (length (evl delta L bits)))
      by (rewrite evl_length by exact HL; rewrite HL; reflexivity).
    rewrite recv_labels_map. cbn [bind].
    eexists _, []; split; [reflexivity|]. split; [constructor|].
    unfold sync; cbn. rewrite S1, S3, !app_length, S2, evl_app by exact S2. rewrite Hlen, <- S4. fold L. rewrite HL.
    repeat split; assumption || reflexivity.
  - (* IAnd *) apply shape_other in Hsh; subst c. cbn [M_Garble.fg_step] in *.
    pose proof (fun va vb o t0 t1 => half_gate_ok sigma aes delta (lbl (fg_w g) i) (lbl (fg_w g) j) va vb (fg_gid g) o t0 t1 Hdelta) as HG.
    destruct (garble_gate sigma aes (lbl (fg_w g) i) (N.lxor (lbl (fg_w g) i) delta) (lbl (fg_w g) j) (N.lxor (lbl (fg_w g) j) delta) delta (fg_gid g)) as [[W t0] t1].
    cbn [fst snd] in *. cbn in He1. inversion He1; subst e1. cbn [fg_out fe_GC fe_pub] in *.
    cbn [M_Garble.n_step]. rewrite Ho, S5, nth_error_mid. cbn [read bind]. unfold ne_and. rewrite Hg, S6.
    assert (G0 : nth_error ((fe_GC e ++ [t0; t1]) ++ gc) (length (fg_out g) * 2) = Some t0).
    { rewrite <- app_assoc, nth_error_app2 by lia. replace (length (fg_out g) * 2 - length (fe_GC e))%nat with 0%nat by lia. reflexivity. }
    assert (G1 : nth_error ((fe_GC e ++ [t0; t1]) ++ gc) (length (fg_out g) * 2 + 1) = Some t1).
    { rewrite <- app_assoc, nth_error_app2 by lia. replace (length (fg_out g) * 2 + 1 - length (fe_GC e))%nat with 1%nat by lia. reflexivity. }
    rewrite G0, G1. cbn [read bind].
    eexists _, []; split; [reflexivity|]. split; [constructor|].
    unfold sync; cbn. rewrite S1, S3, !app_length, S2, evl_app by exact S2. rewrite evl_1. cbn [length].
    rewrite !evl_nth by exact S2. rewrite <- S7. rewrite (HG _ _ _ _ _ eq_refl).
    repeat split; try assumption; try lia.
  - (* IXor *) apply shape_other in Hsh; subst c. cbn in He1. inversion He1; subst e1.
    eexists _, []; split; [reflexivity|]. split; [constructor|].
    unfold sync; cbn. rewrite S1, S3, !app_length, S2, evl_app by exact S2. rewrite evl_1. cbn.
    rewrite !evl_nth by exact S2.
    repeat split; try assumption. f_equal. f_equal. destruct (wire w i), (wire w j); cbn; rewrite ?N.lxor_0_r; xor_solve.
  - (* INot *) apply shape_other in Hsh; subst c. cbn in He1. inversion He1; subst e1.
    eexists _, []; split; [reflexivity|]. split; [constructor|].
    unfold sync; cbn. rewrite S1, S3, !app_length, S2, evl_app by exact S2. rewrite evl_1. cbn.
    rewrite !evl_nth by exact S2.
    repeat split; try assumption. f_equal. f_equal. destruct (wire w i); cbn; rewrite ?N.lxor_0_r; xor_solve.
  - (* IReveal *) apply shape_other in Hsh; subst c.
    assert (HL : length (map (lbl (fg_w g)) ws) = length (map (wire w) ws)) by (rewrite !map_length; reflexivity).
    destruct p; cbn [M_Garble.n_step M_Garble.fg_step fst snd spec_opened spec_step] in *; rewrite S1, S3, ?S10, ?S11; cbn [app].
    + cbn in He1. inversion He1; subst e1. rewrite evl_map by exact S2.
      rewrite <- (map_map getLSB MBit), <- (app_nil_r (map MBit _)).
      replace (recv_bits (length ws)) with (recv_bits (length (map getLSB (evl delta (map (lbl (fg_w g)) ws) (map (wire w) ws)))))
        by (rewrite map_length, evl_length, map_length by exact HL; reflexivity).
      rewrite recv_bits_map. cbn [bind]. rewrite open_bits' by assumption.
      eexists _, _; split; [reflexivity|]. split.
      * constructor; [|constructor]. split; reflexivity.
      * unfold sync; cbn; repeat split; assumption.
    + cbn in He1. inversion He1; subst e1. rewrite evl_map by exact S2.
      rewrite <- (map_map getLSB MBit), <- (app_nil_r (map MBit _)).
      replace (recv_bits (length ws)) with (recv_bits (length (map getLSB (map (lbl (fg_w g)) ws))))
        by (rewrite !map_length; reflexivity).
      rewrite recv_bits_map. cbn [bind]. rewrite open_bits by assumption.
      eexists _, _; split; [reflexivity|]. split.
      * constructor; [|constructor]. split; reflexivity.
      * unfold sync; cbn; repeat split; assumption.
    + cbn [fe_step] in He1. rewrite <- (map_map (fun i => getLSB (lbl (fg_w g) i)) MBit) in He1.
      rewrite <- (map_length (fun i => getLSB (lbl (fg_w g) i)) ws), <- (app_nil_r (map MBit _)), recv_bits_map in He1.
      cbn in He1. inversion He1; subst e1; clear He1. cbn [fe_pub fe_GC] in *.
      rewrite <- (map_map (lbl (fg_w g)) getLSB) in *. rewrite evl_map by exact S2.
      rewrite Hp, S9, <- app_assoc.
      rewrite (ne_pub_ok (map getLSB (map (lbl (fg_w g)) ws))) by (rewrite evl_length, !map_length by exact HL; reflexivity).
      rewrite open_bits by assumption. cbn [bind recv as_bits as_hash]. unfold ng_reveal_check.
      rewrite check_labels by exact HL. rewrite N.eqb_refl. cbn [bind].
      eexists _, _; split; [reflexivity|]. split.
      * constructor; [|constructor]. cbn. repeat split; reflexivity.
      * unfold sync; cbn. rewrite app_length, !map_length. repeat split; assumption || reflexivity.
Qed.

Lemma spec_step_length : forall w d, length (spec_step w d) = (length w + new_wires d)%nat.
Proof. destruct d; cbn; rewrite ?app_length; cbn; lia. Qed.

Lemma sync_run : forall off on_ g e s w, sync g e s w -> map shape off = map shape on_ ->
  wf (length w) on_ = true ->
  exists g' e', f_run g e [] off = Ok (g', e', []) /\
    exists s' op, n_run (fg_out g') (fe_GC e') (fe_pub e') s on_ = Ok (s', op) /\
      Forall2 seen (snd (spec_run w on_)) op /\ sync g' e' s' (fst (spec_run w on_)).
Proof.
  induction off as [|c t IH]; intros on_ g e s w Hs Hm Hwf; destruct on_ as [|d u]; try discriminate.
  - exists g, e; split; [reflexivity|]. exists s, []. split; [reflexivity|]. split; [constructor|exact Hs].
  - cbn in Hm. inversion Hm as [[Hc Ht]]. cbn [wf] in Hwf. apply andb_prop in Hwf; destruct Hwf as [Hw1 Hw2].
    destruct (f_step_ok g e c) as (e1 & o & gc & pb & H1 & H2 & H3 & H4 & H5 & H6).
    assert (Hs1 : sync (fst (fg_step g c)) e1
              (match n_step (fg_out (fst (fg_step g c))) (fe_GC e1) (fe_pub e1) s d with Ok (s', _) => s' | _ => s end)
              (spec_step w d)).
    { destruct (sync_step g e s w c d e1 (fst (fg_step g c)) e1 [] [] [] Hs Hc Hw1 H1 (eq_sym (app_nil_r _)) (eq_sym (app_nil_r _)) (eq_sym (app_nil_r _)))
        as (s' & op & E1 & _ & E3). rewrite E1. exact E3. }
    destruct (f_run_ok t (fst (fg_step g c)) e1) as (g' & e' & o' & gc' & pb' & R1 & R2 & R3 & R4).
    destruct (sync_step g e s w c d e1 g' e' o' gc' pb' Hs Hc Hw1 H1 R2 R3 R4) as (s1 & op1 & E1 & E2 & E3).
    rewrite <- spec_step_length in Hw2.
    destruct (IH u _ _ _ _ E3 Ht Hw2) as (g'' & e'' & F1 & s'' & op2 & F2 & F3 & F4).
    rewrite R1 in F1. inversion F1; subst g'' e''; clear F1.
    exists g', e'. split.
    + cbn [M_Garble.f_run]. destruct (fg_step g c) as [g1 m]. cbn [fst snd app] in *. rewrite H1. exact R1.
    + exists s'', (op1 ++ op2). cbn [M_Garble.n_run]. rewrite E1. cbn [bind]. rewrite F2. cbn [bind].
      split; [reflexivity|]. cbn [spec_run]. destruct (spec_run (spec_step w d) u) as [w' ov]. cbn [fst snd] in *.
      split; [apply Forall2_app; assumption|exact F4].
Qed.

Theorem two_phase_ok : forall off on_, map shape off = map shape on_ -> wf 0 on_ = true ->
  exists s op, two_phase sigma aes Hash fixk lab delta off on_ = Ok (s, op) /\
    Forall2 seen (snd (spec_run [] on_)) op /\
    length (ng_w s) = length (fst (spec_run [] on_)) /\
    (forall i, lbl (ne_w s) i = N.lxor (lbl (ng_w s) i) (sel (wire (fst (spec_run [] on_)) i) delta)) /\
    n_ge s = [] /\ n_eg s = [].
Proof.
  intros off on_ Hm Hwf.
  assert (H0 : sync f_init_g f_init_e n_init []) by (unfold sync; cbn; repeat split; reflexivity).
  destruct (sync_run off on_ _ _ _ _ H0 Hm Hwf) as (g' & e' & F & s & op & R & O & S).
  exists s, op. unfold two_phase. rewrite F. cbn [bind]. split; [exact R|]. split; [exact O|].
  destruct S as (S1 & S2 & S3 & S4 & S5 & S6 & S7 & S8 & S9 & S10 & S11).
  split; [rewrite S1; exact S2|]. split; [|split; assumption]. intro i. rewrite S1, S3. apply evl_nth. exact S2.
Qed.
End Two.
