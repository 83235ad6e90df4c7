(** The messages of the oblivious linear evaluation hide the sender's numbers: one-time pads. *)
From Coq Require Import List NArith ZArith Bool Arith Lia.
From Verif Require Import L_Bits L_Res L_Modq S_Codec S_OleView M_Utils M_Bn M_Ole P_Utils P_Bn P_Ole.
Import ListNotations.
Local Open Scope Z_scope.

(** * Every residue is the hash of some pair of blocks *)
Lemma be_val_app a b : be_val (a ++ b) = (be_val a * 256 ^ N.of_nat (length b) + be_val b)%N.
Proof.
  induction b as [|x b IH] using rev_ind; [cbn; rewrite app_nil_r; lia|].
  rewrite app_assoc, !be_val_rev, !rev_app_distr. cbn [rev app le_val fold_right].
  fold (le_val (rev b ++ rev a)). fold (le_val (rev b)). rewrite <- rev_app_distr, <- !be_val_rev, IH, app_length.
  cbn [length]. rewrite Nat.add_1_r, Nat2N.inj_succ, N.pow_succ_r'. lia.
Qed.
Lemma block_bytes l : length l = 16%nat -> Forall (fun b => (b < 256)%N) l -> bytes_of_block (le_val l) = l.
Proof. intros L F. rewrite bytes_of_block_le, <- L. now apply le_enc_val. Qed.
Lemma two_blocks t : 0 <= t < 2 ^ 256 ->
  exists b0 b1, (b0 < 2 ^ 128)%N /\ (b1 < 2 ^ 128)%N /\ BN_bin2bn (bytes_of_block b0 ++ bytes_of_block b1) = t.
Proof.
  intro T. set (l := be_enc 32 (Z.to_N t)).
  assert (L : length l = 32%nat) by apply be_enc_length.
  assert (F : Forall (fun b => (b < 256)%N) l) by apply be_enc_bytes.
  assert (S : l = firstn 16 l ++ skipn 16 l) by (symmetry; apply firstn_skipn).
  assert (F12 := F). rewrite S in F12. apply Forall_app in F12 as [F1 F2].
  assert (L1 : length (firstn 16 l) = 16%nat) by (rewrite firstn_length; lia).
  assert (L2 : length (skipn 16 l) = 16%nat) by (rewrite skipn_length; lia).
  exists (le_val (firstn 16 l)), (le_val (skipn 16 l)).
  split; [|split].
  - pose proof (le_val_lt _ F1) as B. rewrite L1 in B. exact B.
  - pose proof (le_val_lt _ F2) as B. rewrite L2 in B. exact B.
  - rewrite !block_bytes, <- S by auto. rewrite bin2bn_val. unfold l. rewrite be_val_enc, N.mod_small.
    + apply Z2N.id, T.
    + change (256 ^ N.of_nat 32)%N with (Z.to_N (2 ^ 256)). apply Z2N.inj_lt; lia.
Qed.
Lemma bn_H_at c c' p q : (forall x, In x (hash_points p) -> c' x = c x) -> bn_H c' p q = bn_H c p q.
Proof. intro H. unfold bn_H. rewrite !H by (cbn; auto). reflexivity. Qed.
Lemma choose_hash q : 0 < q <= 2 ^ 256 -> forall (l : list (N * Z)) c,
  NoDup (flat_map hash_points (map fst l)) -> Forall (fun pt => 0 <= snd pt < q) l ->
  exists c', (forall x, ~ In x (flat_map hash_points (map fst l)) -> c' x = c x) /\
             Forall (fun pt => bn_H c' (fst pt) q = snd pt) l.
Proof.
  intro Hq. induction l as [|[p t] l IH]; intros c ND F.
  - exists c. split; [auto|constructor].
  - inversion F as [|? ? F1 F2]; subst. cbn [fst snd map flat_map] in *.
    assert (ND2 : NoDup (flat_map hash_points (map fst l))).
    { cbn [hash_points app] in ND. inversion ND as [|? ? _ N2]; subst. now inversion N2. }
    destruct (IH c ND2 F2) as (c1 & E1 & G1).
    destruct (two_blocks t ltac:(lia)) as (b0 & b1 & _ & _ & Eb).
    set (c2 := fun x => if N.eqb x (N.lxor p 1) then b0 else if N.eqb x (N.lxor p 2) then b1 else c1 x).
    assert (D : forall x, In x (hash_points p) -> ~ In x (flat_map hash_points (map fst l))).
    { clear - ND. intros x Hx Hx'. cbn [hash_points app In] in *. inversion ND as [|? ? N1 N2]; subst. inversion N2 as [|? ? N3 N4]; subst.
      destruct Hx as [<-|[<-|[]]]; [apply N1; right; exact Hx'|apply N3; exact Hx']. }
    assert (N12 : N.lxor p 1 <> N.lxor p 2).
    { cbn [hash_points app] in ND. inversion ND as [|? ? N1 N2]; subst. intro E. apply N1. left. symmetry. exact E. }
    exists c2. split.
    + intros x Hx. unfold c2. rewrite in_app_iff in Hx. cbn [hash_points In] in Hx.
      destruct (N.eqb_spec x (N.lxor p 1)) as [E|_]; [exfalso; apply Hx; left; left; now symmetry|].
      destruct (N.eqb_spec x (N.lxor p 2)) as [E|_]; [exfalso; apply Hx; left; right; left; now symmetry|].
      apply E1. tauto.
    + constructor.
      * cbn [fst snd]. unfold bn_H, c2. rewrite N.eqb_refl.
        destruct (N.eqb_spec (N.lxor p 2) (N.lxor p 1)) as [E|_]; [congruence|]. rewrite N.eqb_refl, Eb.
        unfold BN_mod. apply Z.rem_small. lia.
      * apply Forall_forall. intros [p' t'] Hin. rewrite Forall_forall in G1. specialize (G1 _ Hin). cbn [fst snd] in *.
        rewrite <- G1. apply bn_H_at. intros x Hx. unfold c2.
        assert (Hxl : In x (flat_map hash_points (map fst l))).
        { apply in_flat_map. exists p'. split; [|exact Hx]. change p' with (fst (p', t')). now apply in_map. }
        destruct (N.eqb_spec x (N.lxor p 1)) as [E|_]; [exfalso; subst x; apply (D (N.lxor p 1)); [left; reflexivity|exact Hxl]|].
        destruct (N.eqb_spec x (N.lxor p 2)) as [E|_]; [exfalso; subst x; apply (D (N.lxor p 2)); [right; left; reflexivity|exact Hxl]|].
        reflexivity.
Qed.

(** * The two runs *)
Lemma strings_held Delta row : forall bits, strings (held Delta) row bits = cot_recv Delta row bits.
Proof. induction row as [|r row IH]; intros [|b bits]; cbn; auto. f_equal. apply IH. Qed.
Lemma choices_bits bl x : 0 <= x -> choices bl x = ole_bits bl x.
Proof.
  intro H. unfold choices, ole_bits. apply map_ext. intro i. unfold BN_is_bit_set.
  rewrite <- (Z2N.id x) at 1 by exact H. rewrite <- nat_N_Z, Z.testbit_of_N.
  f_equal. destruct x; [reflexivity|reflexivity|lia].
Qed.

Section TWO.
Variables (c c' : N -> N) (q : Z).
Hypothesis Hq : bound1000 q.
Notation "a == b" := (cong q a b) (at level 70).
Local Opaque bn_H recv_bn send_bn.
(** the second hash function gives the held strings the same hash and the others a shifted one *)
Definition shifted (x x' : Z) (Delta r : N) (b : bool) : Prop :=
  bn_H c' (held Delta r b) q = bn_H c (held Delta r b) q /\
  bn_H c' (withheld Delta r b) q == bn_H c (withheld Delta r b) q + (x - x').
Lemma same_messages Delta x x' : forall exp row bits o o',
  length row = length exp -> length bits = length exp ->
  Forall (fun rb => shifted x x' Delta (fst rb) (snd rb)) (combine row bits) ->
  snd (ole_send_loop c' q Delta x' (combine exp row) o') = snd (ole_send_loop c q Delta x (combine exp row) o).
Proof.
  induction exp as [|e exp IH]; intros [|r row] [|b bits] o o' L1 L2 F; try discriminate; [reflexivity|].
  cbn [combine ole_send_loop] in *. inversion F as [|? ? [F1 F2] F3]; subst. cbn [fst snd] in *.
  set (o1 := BN_mod_add o _ q). set (o1' := BN_mod_add o' _ q).
  specialize (IH row bits o1 o1' ltac:(cbn in L1; lia) ltac:(cbn in L2; lia) F3).
  destruct (ole_send_loop c q Delta x _ o1) as [u ms]. destruct (ole_send_loop c' q Delta x' _ o1') as [u' ms']. cbn [snd] in *.
  rewrite IH. f_equal. unfold BN_mod_add. apply cong_iff; [destruct Hq; lia|].
  unfold held, withheld in *. destruct b.
  - rewrite F1, F2. generalize (bn_H c r q), (bn_H c (N.lxor r Delta) q). intros. cring.
  - rewrite F1, F2. generalize (bn_H c r q), (bn_H c (N.lxor r Delta) q). intros. cring.
Qed.
Lemma same_output Delta x x' : forall exp row bits o s,
  length row = length exp -> length bits = length exp ->
  Forall (fun rb => shifted x x' Delta (fst rb) (snd rb)) (combine row bits) ->
  ole_recv_loop c' q (combine exp (combine (cot_recv Delta row bits) bits)) o s =
  ole_recv_loop c q (combine exp (combine (cot_recv Delta row bits) bits)) o s.
Proof.
  induction exp as [|e exp IH]; intros [|r row] [|b bits] o s L1 L2 F; try discriminate; [reflexivity|].
  cbn [cot_recv map2 combine ole_recv_loop] in *. fold (cot_recv Delta row bits). inversion F as [|? ? [F1 F2] F3]; subst. cbn [fst snd] in *.
  change (if b then N.lxor r Delta else r) with (held Delta r b). rewrite F1.
  destruct (recv_bn s) as [[t s']| |]; cbn [bind]; [|reflexivity|reflexivity]. apply IH; [cbn in L1; lia|cbn in L2; lia|exact F3].
Qed.
End TWO.

Section HIDE.
Variable q : Z.
Hypothesis Hq : bound1000 q.
Hypothesis Q256 : q <= 2 ^ 256.
Notation "a == b" := (cong q a b) (at level 70).
Variable bl : nat.
Variable Delta : N.
Local Opaque bn_H recv_bn send_bn.

(** the withheld strings of all rows with the shift each needs *)
Fixpoint wanted (rows : list (list N)) (in_r ins ins' : list Z) : list (N * Z) :=
  match rows, in_r, ins, ins' with
  | row :: rows, y :: in_r, x :: ins, x' :: ins' =>
      map (fun p => (p, x - x')) (strings (withheld Delta) row (choices bl y)) ++ wanted rows in_r ins ins'
  | _, _, _, _ => []
  end.
Lemma wanted_points rows : forall in_r ins ins', length in_r = length rows -> length ins = length rows -> length ins' = length rows ->
  flat_map hash_points (map fst (wanted rows in_r ins ins')) = points (withheld Delta) bl rows in_r.
Proof.
  induction rows as [|row rows IH]; intros [|y in_r] [|x ins] [|x' ins'] L1 L2 L3; try discriminate; [reflexivity|].
  cbn [wanted points]. rewrite map_app, flat_map_app, map_map. cbn [fst]. rewrite map_id, IH by (cbn in *; lia). reflexivity.
Qed.
Lemma choices_len y : length (choices bl y) = bl.
Proof. unfold choices. rewrite map_length, seq_length. reflexivity. Qed.
Lemma row_shifted c c' x x' row y : 0 <= y -> length row = bl ->
  (forall p, In p (flat_map hash_points (strings (held Delta) row (choices bl y))) -> c' p = c p) ->
  Forall (fun pd => bn_H c' (fst pd) q = (bn_H c (fst pd) q + snd pd) mod q)
         (map (fun p => (p, x - x')) (strings (withheld Delta) row (choices bl y))) ->
  Forall (fun rb => shifted c c' q x x' Delta (fst rb) (snd rb)) (combine row (ole_bits bl y)).
Proof.
  intros Hy Lr A F. rewrite <- choices_bits by exact Hy. generalize dependent (choices bl y). clear Lr. intro bits. revert bits.
  induction row as [|r row IH]; intros [|b bits] A F; cbn [combine]; try constructor.
  - cbn [fst snd]. cbn [strings map] in F. inversion F as [|? ? F1 F2]; subst. cbn [fst snd] in F1. split.
    + apply bn_H_at. intros p Hp. apply A. cbn [strings flat_map]. apply in_or_app. left. exact Hp.
    + rewrite F1. rewrite mod_cong. reflexivity.
  - apply IH.
    + intros p Hp. apply A. cbn [strings flat_map]. apply in_or_app. right. exact Hp.
    + cbn [strings map] in F. now inversion F.
Qed.
Lemma exp_len : length (ole_exp q bl) = bl.
Proof. unfold ole_exp. rewrite map_length, seq_length. reflexivity. Qed.
Lemma obits_len y : length (ole_bits bl y) = bl.
Proof. unfold ole_bits. rewrite map_length, seq_length. reflexivity. Qed.

Lemma runs_alike c c' : forall rows in_r ins ins', length in_r = length rows -> length ins = length rows -> length ins' = length rows ->
  Forall (fun r => length r = bl) rows -> Forall (fun y => 0 <= y) in_r ->
  (forall p, In p (points (held Delta) bl rows in_r) -> c' p = c p) ->
  Forall (fun pd => bn_H c' (fst pd) q = (bn_H c (fst pd) q + snd pd) mod q) (wanted rows in_r ins ins') ->
  exists os os' bytes or_, ole_send c q bl Delta rows ins = Ok (os, bytes) /\ ole_send c' q bl Delta rows ins' = Ok (os', bytes) /\
    forall rest,
    ole_recv c q bl (map2 (fun row x => cot_recv Delta row (ole_bits bl x)) rows in_r) in_r (bytes ++ rest) = Ok (or_, rest) /\
    ole_recv c' q bl (map2 (fun row x => cot_recv Delta row (ole_bits bl x)) rows in_r) in_r (bytes ++ rest) = Ok (or_, rest).
Proof.
  induction rows as [|row rows IH]; intros [|y in_r] [|x ins] [|x' ins'] L1 L2 L3 FL FY A F; try discriminate.
  - exists [], [], [], []. repeat split.
  - inversion FL as [|? ? Lr FL']; subst. inversion FY as [|? ? Hy FY']; subst. cbn [points wanted] in *.
    apply Forall_app in F as [F1 F2].
    assert (SH := row_shifted c c' x x' row y Hy Lr (fun p Hp => A p (in_or_app _ _ _ (or_introl Hp))) F1).
    destruct (IH in_r ins ins') as (os & os' & bytes & or_ & E1 & E2 & E3); [cbn in *; lia|cbn in *; lia|cbn in *; lia|exact FL'|exact FY'
      |intros p Hp; apply A, in_or_app; right; exact Hp|exact F2|].
    assert (Q0 : 0 < q) by (destruct Hq; lia).
    assert (SM := same_messages c c' q Hq Delta x x' (ole_exp q bl) row (ole_bits bl y) 0 0
       (eq_trans Lr (eq_sym exp_len)) (eq_trans (obits_len y) (eq_sym exp_len)) SH).
    assert (RO := fun rest => row_ok c q Hq Delta x (ole_exp q bl) row (ole_bits bl y) 0 0 rest
       (eq_trans Lr (eq_sym exp_len)) (eq_trans (obits_len y) (eq_sym exp_len)) ltac:(lia) ltac:(lia)).
    cbn [ole_send]. destruct (ole_send_loop c q Delta x _ 0) as [o ms]. destruct (ole_send_loop c' q Delta x' _ 0) as [o' ms'].
    cbn [snd] in SM. subst ms'.
    destruct (RO []) as (_ & bs & oR & Eb & ER & _). rewrite Eb. cbn [bind]. rewrite E1, E2. cbn [bind].
    exists (o :: os), (o' :: os'), (bs ++ bytes), (oR :: or_). split; [reflexivity|]. split; [reflexivity|]. intro rest.
    cbn [map2 ole_recv]. rewrite <- app_assoc.
    assert (SO := fun s => same_output c c' q Delta x x' (ole_exp q bl) row (ole_bits bl y) 0 s
       (eq_trans Lr (eq_sym exp_len)) (eq_trans (obits_len y) (eq_sym exp_len)) SH).
    rewrite SO.
    assert (EX : ole_recv_loop c q (combine (ole_exp q bl) (combine (cot_recv Delta row (ole_bits bl y)) (ole_bits bl y))) 0 (bs ++ bytes ++ rest)
        = Ok (oR, bytes ++ rest)).
    { destruct (RO (bytes ++ rest)) as (_ & bs2 & oR2 & Eb2 & ER2 & _ & EC2). rewrite Eb in Eb2. injection Eb2 as <-. rewrite ER2. f_equal. f_equal.
      destruct (RO []) as (_ & bs3 & oR3 & Eb3 & ER3 & R3 & EC3). rewrite Eb in Eb3. injection Eb3 as <-. rewrite ER in ER3. injection ER3 as <-.
      destruct (RO (bytes ++ rest)) as (_ & bs4 & oR4 & Eb4 & ER4 & R4 & EC4). rewrite Eb in Eb4. injection Eb4 as <-. rewrite ER2 in ER4. injection ER4 as <-.
      apply (cong_small q); [exact R4|exact R3|].
      transitivity ((o + oR2) - o); [cring|]. rewrite EC2, <- EC3. cring. }
    rewrite EX. cbn [bind]. destruct (E3 rest) as [-> ->]. split; reflexivity.
Qed.
Theorem ole_hides : forall c rows in_r ins ins', length in_r = length rows -> length ins = length rows -> length ins' = length rows ->
  Forall (fun r => length r = bl) rows -> Forall (fun y => 0 <= y) in_r ->
  NoDup (points (withheld Delta) bl rows in_r) ->
  (forall p, In p (points (withheld Delta) bl rows in_r) -> ~ In p (points (held Delta) bl rows in_r)) ->
  exists c' os os' bytes or_,
    (forall p, ~ In p (points (withheld Delta) bl rows in_r) -> c' p = c p) /\
    ole_send c q bl Delta rows ins = Ok (os, bytes) /\ ole_send c' q bl Delta rows ins' = Ok (os', bytes) /\
    ole_recv c q bl (map2 (fun row x => cot_recv Delta row (ole_bits bl x)) rows in_r) in_r bytes = Ok (or_, []) /\
    ole_recv c' q bl (map2 (fun row x => cot_recv Delta row (ole_bits bl x)) rows in_r) in_r bytes = Ok (or_, []).
Proof.
  intros c rows in_r ins ins' L1 L2 L3 FL FY ND DJ.
  set (w := map (fun pd => (fst pd, (bn_H c (fst pd) q + snd pd) mod q)) (wanted rows in_r ins ins')).
  assert (Ew : flat_map hash_points (map fst w) = points (withheld Delta) bl rows in_r).
  { unfold w. rewrite map_map. cbn [fst]. apply wanted_points; auto. }
  assert (Q0 : 0 < q) by (destruct Hq; lia).
  destruct (choose_hash q (conj Q0 Q256) w c) as (c' & A & F).
  { rewrite Ew. exact ND. }
  { unfold w. apply Forall_forall. intros pt Hin. apply in_map_iff in Hin as (x & <- & _). cbn [snd]. now apply Z.mod_pos_bound. }
  rewrite Ew in A.
  destruct (runs_alike c c' rows in_r ins ins') as (os & os' & bytes & or_ & E1 & E2 & E3); auto.
  { intros p Hp. apply A. intro H. exact (DJ p H Hp). }
  { unfold w in F. rewrite Forall_map in F. cbn [fst snd] in F. exact F. }
  exists c', os, os', bytes, or_. destruct (E3 []) as [R1 R2]. rewrite app_nil_r in R1, R2. auto.
Qed.
End HIDE.
