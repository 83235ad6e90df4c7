(** The hypotheses of C83 on the hashed points can be met for every circuit: with the identity in
    place of both permutations, and labels and Delta below 2^64. *)
From Coq Require Import List NArith Bool Arith Lia.
From Verif Require Import L_Bits L_Res S_Circuit S_GarbleView M_Block M_Garble M_GarbleTr P_Garble P_GarbleView P_GarbleView2.
Import ListNotations.
Local Open Scope N_scope.

Definition small (x : N) : Prop := N.shiftr x 64 = 0.
Lemma small_xor a b : small a -> small b -> small (N.lxor a b).
Proof. unfold small. intros H K. now rewrite N.shiftr_lxor, H, K. Qed.
Lemma small_sel b x : small x -> small (sel b x).
Proof. destruct b; cbn; intro H; [exact H|reflexivity]. Qed.
Lemma small_lbl w i : Forall small w -> small (lbl w i).
Proof. intro F. unfold lbl. destruct (nth_in_or_default i w 0) as [H|E]; [|now rewrite E]. now apply (proj1 (Forall_forall _ _) F). Qed.
Lemma small0 : small 0.
Proof. reflexivity. Qed.
Section S.
Variables (Hash : list N -> N) (fixk lab : nat -> N) (delta : N).
Hypothesis Hd : getLSB delta = true.
Hypothesis Sd : small delta.
Hypothesis Sf : forall k, small (fixk k).
Hypothesis Sl : forall k, small (lab k).
Notation id := (fun x : N => x).
Lemma hash0 x t : hg_hash id id x t = 0.
Proof. unfold hg_hash. apply N.lxor_nilpotent. Qed.
Lemma small_step g c : Forall small (fg_w g) -> Forall small (fg_w (fst (fg_step id id fixk lab delta g c))).
Proof.
  intro F. destruct c as [b|p bits|i j|i j|i|p ws]; cbn [fg_step fst fg_w]; try exact F; try (apply Forall_app; split; [exact F|]).
  - constructor; [|constructor]. destruct b; cbn; [apply small_xor; auto|apply Sf].
  - apply Forall_map, Forall_forall. intros k _. apply Sl.
  - unfold garble_gate. rewrite !hash0. constructor; [|constructor].
    rewrite !N.lxor_0_l, !N.lxor_0_r. apply small_xor; apply small_sel; [now apply small_sel|exact small0].
  - constructor; [|constructor]. apply small_xor; now apply small_lbl.
  - constructor; [|constructor]. apply small_xor; [now apply small_lbl|exact Sd].
Qed.
Lemma small_fin prog : forall g, Forall small (fg_w g) -> Forall small (fg_w (f_fin id fixk delta id lab g prog)).
Proof. induction prog as [|c prog IH]; intros g F; [exact F|]. apply IH, small_step, F. Qed.
Lemma evl_small g : forall w, Forall small g -> Forall small (evl delta g w).
Proof. unfold evl. intros w F. revert w. induction F as [|x g Hx F IH]; intros [|b w]; try constructor; auto. apply small_xor; [exact Hx|now apply small_sel]. Qed.

Lemma shift_up m n : N.shiftr (m * 2 ^ n) n = m.
Proof. rewrite <- N.shiftl_mul_pow2, N.shiftr_shiftl_l, N.sub_diag, N.shiftl_0_r by apply N.le_refl. reflexivity. Qed.
Lemma point_num x j : small x -> j < 2 ^ 64 -> N.shiftr (hash_point id x j) 64 = j.
Proof.
  unfold small, hash_point. intros H K. rewrite N.shiftr_lxor, H, N.lxor_0_l, shift_up. apply N.mod_small, K.
Qed.
(** the numbers of the hashes *)
Definition nums (gs : list (N * nat * nat)) : list N := flat_map (fun '(k, _, _) => [2 * k; 2 * k + 1]) gs.
Lemma nums_ge prog : forall k n, In n (nums (gates k prog)) -> 2 * k <= n < 2 * (k + N.of_nat (length prog)).
Proof.
  induction prog as [|c prog IH]; intros k n H; [destruct H|]. cbn [length]. rewrite Nat2N.inj_succ.
  destruct c; try (specialize (IH _ _ H); lia). cbn [gates nums flat_map app In] in H. destruct H as [<-|[<-|H]]; try lia.
  specialize (IH _ _ H). lia.
Qed.
Lemma nums_nodup prog : forall k, NoDup (nums (gates k prog)).
Proof.
  induction prog as [|c prog IH]; intro k; [constructor|]. destruct c; try apply IH. cbn [gates nums flat_map app].
  constructor; [|constructor; [|apply IH]].
  - intros [H|H]; [lia|]. apply nums_ge in H. lia.
  - intro H. apply nums_ge in H. lia.
Qed.
Section L.
Variable l : list N.
Hypothesis F : Forall small l.
Lemma known_nums gs : (forall n, In n (nums gs) -> n < 2 ^ 64) -> map (fun p => N.shiftr p 64) (known_points id gs l) = nums gs.
Proof.
  induction gs as [|[[k i] j] gs IH]; intro B; [reflexivity|]. cbn [known_points nums flat_map app map] in *. fold (known_points id gs l) (nums gs) in *.
  assert (B1 : 2 * k < 2 ^ 64) by (apply B; left; reflexivity). assert (B2 : 2 * k + 1 < 2 ^ 64) by (apply B; right; left; reflexivity).
  rewrite IH by (intros n Hn; apply B; right; right; exact Hn). rewrite !point_num by (exact B1 || exact B2 || apply small_lbl, F). reflexivity.
Qed.
Lemma unknown_nums gs : (forall n, In n (nums gs) -> n < 2 ^ 64) -> map (fun p => N.shiftr p 64) (unknown_points id delta gs l) = nums gs.
Proof.
  induction gs as [|[[k i] j] gs IH]; intro B; [reflexivity|]. cbn [unknown_points nums flat_map app map] in *. fold (unknown_points id delta gs l) (nums gs) in *.
  assert (B1 : 2 * k < 2 ^ 64) by (apply B; left; reflexivity). assert (B2 : 2 * k + 1 < 2 ^ 64) by (apply B; right; left; reflexivity).
  rewrite IH by (intros n Hn; apply B; right; right; exact Hn). rewrite !point_num by (exact B1 || exact B2 || (apply small_xor; [apply small_lbl, F|exact Sd])). reflexivity.
Qed.
(** at one number the evaluator's point and the other one differ by Delta *)
Lemma unknown_known gs : unknown_points id delta gs l = map (fun p => N.lxor p delta) (known_points id gs l).
Proof.
  induction gs as [|[[k i] j] gs IH]; [reflexivity|]. cbn [unknown_points known_points flat_map app map]. fold (unknown_points id delta gs l) (known_points id gs l).
  rewrite IH. unfold hash_point. f_equal; [|f_equal]; rewrite !N.lxor_assoc; f_equal; apply N.lxor_comm.
Qed.
Lemma delta_nz : delta <> 0.
Proof. intros ->. discriminate Hd. Qed.
Lemma disjoint gs : (forall n, In n (nums gs) -> n < 2 ^ 64) -> NoDup (nums gs) ->
  forall p, In p (unknown_points id delta gs l) -> ~ In p (known_points id gs l).
Proof.
  intros B ND p H K. rewrite unknown_known in H. apply in_map_iff in H. destruct H as (p' & E & H).
  assert (p = p').
  { assert (X : N.shiftr p 64 = N.shiftr p' 64) by (rewrite <- E, N.shiftr_lxor, Sd; apply N.lxor_0_r).
    rewrite <- (known_nums gs B) in ND. revert ND X H K. generalize (known_points id gs l). clear.
    intro z. induction z as [|x z IH]; intros ND X H K; [destruct H|]. cbn [map] in ND. apply NoDup_cons_iff in ND. destruct ND as [N1 N2].
    destruct H as [H|H], K as [K|K]; try subst x; [congruence| | |exact (IH N2 X H K)].
    - exfalso. apply N1. rewrite <- X. exact (in_map (fun p => N.shiftr p 64) _ _ ltac:(eassumption)).
    - exfalso. apply N1. rewrite X. exact (in_map (fun p => N.shiftr p 64) _ _ ltac:(eassumption)). }
  subst p'. apply delta_nz. apply (f_equal (fun u => N.lxor p u)) in E. rewrite <- N.lxor_assoc, N.lxor_nilpotent, N.lxor_0_l in E. exact E.
Qed.
End L.
Theorem points_fresh off on1 g e s op : map shape off = map shape on1 -> wf 0 on1 = true -> N.of_nat (length on1) < 2 ^ 63 ->
  f_run id id fixk lab delta f_init_g f_init_e [] off = Ok (g, e, []) ->
  n_run id id Hash fixk lab delta (fg_out g) (fe_GC e) (fe_pub e) n_init on1 = Ok (s, op) ->
  NoDup (unknown_points id delta (gates 0 on1) (ne_w s)) /\
  (forall p, In p (unknown_points id delta (gates 0 on1) (ne_w s)) -> ~ In p (known_points id (gates 0 on1) (ne_w s))).
Proof.
  intros M W L R1 R2. destruct (run_state id id Hash fixk lab delta Hd off on1 g e s op M W R1 R2) as [(_ & _ & Y & _) _].
  destruct (f_run_fin _ _ _ _ _ _ _ _ _ _ _ R1) as [Fin _].
  assert (F : Forall small (ne_w s)) by (rewrite Y, Fin; apply evl_small, small_fin; constructor).
  assert (B : forall n, In n (nums (gates 0 on1)) -> n < 2 ^ 64).
  { intros n H. apply nums_ge in H. change (2 ^ 64) with (2 * 2 ^ 63). lia. }
  pose proof (nums_nodup on1 0) as ND. split; [|apply disjoint; assumption].
  apply (NoDup_map_inv (fun p => N.shiftr p 64)). rewrite unknown_nums by assumption. exact ND.
Qed.
End S.
