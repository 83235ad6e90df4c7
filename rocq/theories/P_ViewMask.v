(** What a party learns from the masks the code really draws. *)
From Coq Require Import List NArith ZArith Bool Arith Lia Ring Setoid Znumtheory.
From Verif Require Import L_Bits L_Res L_Modq S_Sched S_View M_Bn M_Ole M_E2f M_Exch P_Bn P_Ole P_E2f P_Sched P_Exch P_View P_ViewInv P_ViewE2f.
Import ListNotations.
Local Open Scope Z_scope.
Local Opaque bn_H recv_bn bn_buf BN_bn2bin u32_bytes ole_compute.

(** the values of a mask (C20) *)
Definition mask_value (q : Z) (bl : nat) (v : Z) : Prop :=
  2 ^ (Z.of_nat bl - 1) <= v < q \/ 0 <= v < 2 ^ Z.of_nat bl - q.

Lemma offline_masks ccrh q bl ra rb Delta raw s t : e2f_offline ccrh q bl ra rb Delta raw = Ok (s, t) ->
  e_b s = e2f_mask q bl (rnd_b ra) /\ e_bp s = e2f_mask q bl (rnd_bp ra) /\
  e_b t = e2f_mask q bl (rnd_b rb) /\ e_bp t = e2f_mask q bl (rnd_bp rb).
Proof.
  unfold e2f_offline. destruct (ole_compute _ _ _ _ _ _ _) as [[os or]| |]; cbn [bind]; [|discriminate|discriminate].
  intro H. injection H as <- <-. repeat split.
Qed.

Theorem offline_shares ccrh q bl ra rb Delta raw : bound1000 q -> q < 2 ^ Z.of_nat bl ->
  length raw = 5%nat -> Forall (fun r => length r = bl) raw ->
  exists s t, e2f_offline ccrh q bl ra rb Delta raw = Ok (s, t) /\
    [e_a s; e_b s; e_bp s; e_r s] = map (e2f_mask q bl) [rnd_a ra; rnd_b ra; rnd_bp ra; rnd_r ra] /\
    [e_a t; e_b t; e_bp t; e_r t] = map (e2f_mask q bl) [rnd_a rb; rnd_b rb; rnd_bp rb; rnd_r rb] /\
    (~ cong q (e_a s + e_a t) 0 -> share_ok q t s /\ share_ok q s t).
Proof.
  intros Hq B L F. destruct (offline_ok q Hq ccrh bl ra rb Delta raw B L F) as (s & t & E & T & _).
  exists s, t. split; [exact E|]. revert E. unfold e2f_offline.
  destruct (ole_compute _ _ _ _ _ _ _) as [[os or]| |]; cbn [bind]; [|discriminate|discriminate].
  intro H. injection H as E1 E2. split; [subst s; reflexivity|]. split; [subst t; reflexivity|]. intro A.
  assert (X : forall rnd, 0 <= e2f_mask q bl rnd < q) by (intro; now apply mask_range).
  assert (R : forall a b bp r out, let u := e2f_triples q (e2f_mask q bl a) (e2f_mask q bl b) (e2f_mask q bl bp) (e2f_mask q bl r) out in
    0 <= e_a u < q /\ 0 <= e_b u < q /\ 0 <= e_c u < q /\ 0 <= e_bp u < q /\ 0 <= e_cp u < q /\ 0 <= e_r u < q /\ 0 <= e_r2 u < q).
  { intros. unfold u, e2f_triples. cbn [e_a e_b e_c e_bp e_cp e_r e_r2]. pose proof (in_q q Hq). unfold BN_mod_add. auto 10. }
  split.
  - split; [rewrite <- E1; apply R|]. split; assumption.
  - split; [rewrite <- E2; apply R|]. split; [now apply share_sym|]. now rewrite Z.add_comm.
Qed.

Section Q.
Variable q : Z.
Variable bl : nat.
Hypothesis Hq : bound1000 q.
Hypothesis B1 : (1 <= bl)%nat.
Hypothesis B2 : 2 ^ (Z.of_nat bl - 1) < q < 2 ^ Z.of_nat bl.
Notation "a == b" := (cong q a b) (at level 70).

Lemma mask_in rnd : mask_value q bl (e2f_mask q bl rnd).
Proof. apply (mask_support q bl _ B1 B2). now exists rnd. Qed.
Lemma mask_range' v : mask_value q bl v -> 0 <= v < q.
Proof.
  assert (0 < 2 ^ (Z.of_nat bl - 1)) by (apply Z.pow_pos_nonneg; lia).
  assert (2 ^ Z.of_nat bl = 2 * 2 ^ (Z.of_nat bl - 1)) by (rewrite <- Z.pow_succ_r by lia; f_equal; lia).
  unfold mask_value. lia.
Qed.

Lemma talk_online al s x y i o r : talk (p_e2f_online q al s x y) i (Ok r) o ->
  exists rest, get o (if al then IO else IO_OPT) = bnb (e2f_eps q al s x y) ++ rest.
Proof.
  intro T. unfold p_e2f_online in T. apply talk_rbind_ok in T as (e & i1 & o1 & i2 & o2 & T1 & _ & -> & ->).
  apply (talk_open q) in T1 as ->. exists (get o2 (if al then IO else IO_OPT)). rewrite get_more_in, get_put_same. reflexivity.
Qed.
Lemma first_two al s x y i o r : talk (p_e2f_online q al s x y) i (Ok r) o ->
  exists ex ey rest, recv_bns 2 (get o (if al then IO else IO_OPT)) = Ok ([ex; ey], rest) /\
    0 <= ex < q /\ 0 <= ey < q /\ ex == dco al x - e_b s /\ ey == dco al y - e_bp s.
Proof.
  intro T. destruct (talk_online _ _ _ _ _ _ _ T) as [rest E]. destruct (eps_cong q Hq al s x y) as (ex & ey & EE & Rx & Ry & Cx & Cy).
  exists ex, ey, rest. split; [|auto]. rewrite E, EE. unfold bnb.
  assert (F : Forall (fun x => 0 <= x < q) [ex; ey]) by (constructor; [exact Rx|constructor; [exact Ry|constructor]]).
  destruct (recv_send_seq [ex; ey] rest (inq_fits q Hq _ F)) as (b & Eb & Rb). rewrite Eb. rewrite (abs_map q _ F) in Rb. exact Rb.
Qed.
Lemma mask_from al x e b : e == dco al x - b -> mask_value q bl b -> (dco al x - e) mod q = b.
Proof.
  intros E M. apply (cong_small q); [apply (in_q q Hq)|now apply mask_range'|]. rewrite mod_cong, E. cring.
Qed.

Theorem seen_by_bob ccrh ra rb Delta raw s t xa ya t' xb yb oa ob va vb : e2f_offline ccrh q bl ra rb Delta raw = Ok (s, t) ->
  runs_with_views (p_e2f_online q true s xa ya) (p_e2f_online q false t' xb yb) (Ok oa) (Ok ob) va vb ->
  exists ex ey rest, recv_bns 2 (on_io vb) = Ok ([ex; ey], rest) /\ 0 <= ex < q /\ 0 <= ey < q /\
    mask_value q bl ((- xa - ex) mod q) /\ mask_value q bl ((- ya - ey) mod q).
Proof.
  intros O R. apply runs_talk in R as [T _]; [|apply wp_online; exact Hq|apply wp_online; exact Hq].
  destruct (first_two _ _ _ _ _ _ _ T) as (ex & ey & rest & E & Rx & Ry & Cx & Cy).
  destruct (offline_masks _ _ _ _ _ _ _ _ _ O) as (M1 & M2 & _).
  exists ex, ey, rest. split; [exact E|]. split; [exact Rx|]. split; [exact Ry|]. rewrite M1 in Cx. rewrite M2 in Cy.
  pose proof (mask_from true xa ex _ Cx (mask_in _)) as X. pose proof (mask_from true ya ey _ Cy (mask_in _)) as Y.
  cbn [dco] in X, Y. rewrite X, Y. split; apply mask_in.
Qed.
Theorem seen_by_alice ccrh ra rb Delta raw s t s' xa ya xb yb oa ob va vb : e2f_offline ccrh q bl ra rb Delta raw = Ok (s, t) ->
  runs_with_views (p_e2f_online q true s' xa ya) (p_e2f_online q false t xb yb) (Ok oa) (Ok ob) va vb ->
  exists ex ey rest, recv_bns 2 (on_opt va) = Ok ([ex; ey], rest) /\ 0 <= ex < q /\ 0 <= ey < q /\
    mask_value q bl ((xb - ex) mod q) /\ mask_value q bl ((yb - ey) mod q).
Proof.
  intros O R. apply runs_talk in R as [_ T]; [|apply wp_online; exact Hq|apply wp_online; exact Hq].
  destruct (first_two _ _ _ _ _ _ _ T) as (ex & ey & rest & E & Rx & Ry & Cx & Cy).
  destruct (offline_masks _ _ _ _ _ _ _ _ _ O) as (_ & _ & M1 & M2).
  exists ex, ey, rest. split; [exact E|]. split; [exact Rx|]. split; [exact Ry|]. rewrite M1 in Cx. rewrite M2 in Cy.
  pose proof (mask_from false xb ex _ Cx (mask_in _)) as X. pose proof (mask_from false yb ey _ Cy (mask_in _)) as Y.
  cbn [dco] in X, Y. rewrite X, Y. split; apply mask_in.
Qed.

Theorem seen_by_both ccrh ra rb Delta raw s t xa ya xb yb oa ob va vb : e2f_offline ccrh q bl ra rb Delta raw = Ok (s, t) ->
  runs_with_views (p_e2f_online q true s xa ya) (p_e2f_online q false t xb yb) (Ok oa) (Ok ob) va vb ->
  (exists ex ey rest, recv_bns 2 (on_io vb) = Ok ([ex; ey], rest) /\ 0 <= ex < q /\ 0 <= ey < q /\
    mask_value q bl ((- xa - ex) mod q) /\ mask_value q bl ((- ya - ey) mod q)) /\
  (exists ex ey rest, recv_bns 2 (on_opt va) = Ok ([ex; ey], rest) /\ 0 <= ex < q /\ 0 <= ey < q /\
    mask_value q bl ((xb - ex) mod q) /\ mask_value q bl ((yb - ey) mod q)).
Proof. intros O R. split; [eapply seen_by_bob|eapply seen_by_alice]; eassumption. Qed.

(** the inputs that a view excludes *)
Theorem excluded_for_bob ccrh ra rb Delta raw s t xa ya xb yb oa ob va vb :
  e2f_offline ccrh q bl ra rb Delta raw = Ok (s, t) ->
  runs_with_views (p_e2f_online q true s xa ya) (p_e2f_online q false t xb yb) (Ok oa) (Ok ob) va vb ->
  exists f : Z -> Z,
    (forall v, 2 ^ Z.of_nat bl - q <= v < 2 ^ (Z.of_nat bl - 1) -> 0 <= f v < q) /\
    (forall v w, 2 ^ Z.of_nat bl - q <= v < 2 ^ (Z.of_nat bl - 1) -> 2 ^ Z.of_nat bl - q <= w < 2 ^ (Z.of_nat bl - 1) -> f v = f w -> v = w) /\
    forall v, 2 ^ Z.of_nat bl - q <= v < 2 ^ (Z.of_nat bl - 1) ->
    forall ra' rb' Delta' raw' s' t' x' y' oa' ob' va',
      e2f_offline ccrh q bl ra' rb' Delta' raw' = Ok (s', t') -> x' mod q = f v ->
      ~ runs_with_views (p_e2f_online q true s' x' y') (p_e2f_online q false t' xb yb) (Ok oa') (Ok ob') va' vb.
Proof.
  intros O R. destruct (seen_by_bob _ _ _ _ _ _ _ _ _ _ _ _ _ _ _ _ O R) as (ex & ey & rest & E & _).
  exists (fun v => (- ex - v) mod q). split; [intros; apply (in_q q Hq)|].
  assert (0 < 2 ^ (Z.of_nat bl - 1)) by (apply Z.pow_pos_nonneg; lia).
  assert (2 ^ Z.of_nat bl = 2 * 2 ^ (Z.of_nat bl - 1)) by (rewrite <- Z.pow_succ_r by lia; f_equal; lia).
  split.
  - intros v w V W H1. apply (cong_small q); [lia|lia|].
    transitivity (- ex - (- ex - v)); [cring|]. rewrite <- (mod_cong q (- ex - v)), H1, mod_cong. cring.
  - intros v V ra' rb' Delta' raw' s' t' x' y' oa' ob' va' O' X R'.
    destruct (seen_by_bob _ _ _ _ _ _ _ _ _ _ _ _ _ _ _ _ O' R') as (ex' & ey' & rest' & E' & _ & _ & M & _).
    rewrite E in E'. injection E' as <- <- <-.
    assert (Ev : (- x' - ex) mod q = v).
    { apply (cong_small q); [apply (in_q q Hq)|lia|]. rewrite mod_cong.
      transitivity (- (x' mod q) - ex); [rewrite mod_cong; reflexivity|]. rewrite X, mod_cong. cring. }
    rewrite Ev in M. unfold mask_value in M. lia.
Qed.
Theorem excluded_for_alice ccrh ra rb Delta raw s t xa ya xb yb oa ob va vb :
  e2f_offline ccrh q bl ra rb Delta raw = Ok (s, t) ->
  runs_with_views (p_e2f_online q true s xa ya) (p_e2f_online q false t xb yb) (Ok oa) (Ok ob) va vb ->
  exists f : Z -> Z,
    (forall v, 2 ^ Z.of_nat bl - q <= v < 2 ^ (Z.of_nat bl - 1) -> 0 <= f v < q) /\
    (forall v w, 2 ^ Z.of_nat bl - q <= v < 2 ^ (Z.of_nat bl - 1) -> 2 ^ Z.of_nat bl - q <= w < 2 ^ (Z.of_nat bl - 1) -> f v = f w -> v = w) /\
    forall v, 2 ^ Z.of_nat bl - q <= v < 2 ^ (Z.of_nat bl - 1) ->
    forall ra' rb' Delta' raw' s' t' x' y' oa' ob' vb',
      e2f_offline ccrh q bl ra' rb' Delta' raw' = Ok (s', t') -> x' mod q = f v ->
      ~ runs_with_views (p_e2f_online q true s' xa ya) (p_e2f_online q false t' x' y') (Ok oa') (Ok ob') va vb'.
Proof.
  intros O R. destruct (seen_by_alice _ _ _ _ _ _ _ _ _ _ _ _ _ _ _ _ O R) as (ex & ey & rest & E & _).
  exists (fun v => (ex + v) mod q). split; [intros; apply (in_q q Hq)|].
  assert (0 < 2 ^ (Z.of_nat bl - 1)) by (apply Z.pow_pos_nonneg; lia).
  assert (2 ^ Z.of_nat bl = 2 * 2 ^ (Z.of_nat bl - 1)) by (rewrite <- Z.pow_succ_r by lia; f_equal; lia).
  split.
  - intros v w V W H1. apply (cong_small q); [lia|lia|].
    transitivity (ex + v - ex); [cring|]. rewrite <- (mod_cong q (ex + v)), H1, mod_cong. cring.
  - intros v V ra' rb' Delta' raw' s' t' x' y' oa' ob' va' O' X R'.
    destruct (seen_by_alice _ _ _ _ _ _ _ _ _ _ _ _ _ _ _ _ O' R') as (ex' & ey' & rest' & E' & _ & _ & M & _).
    rewrite E in E'. injection E' as <- <- <-.
    assert (Ev : (x' - ex) mod q = v).
    { apply (cong_small q); [apply (in_q q Hq)|lia|]. rewrite mod_cong.
      transitivity (x' mod q - ex); [rewrite mod_cong; reflexivity|]. rewrite X, mod_cong. cring. }
    rewrite Ev in M. unfold mask_value in M. lia.
Qed.
End Q.

(** * A run with the prime of P-256 *)
Lemma p256_bound : bound1000 p256.
Proof.
  split; [vm_compute; reflexivity|]. apply Z.le_trans with (2 ^ 256); [vm_compute; discriminate|].
  change 256 with (2 ^ 8) at 2. rewrite <- Z.pow_mul_r by lia. apply Z.pow_le_mono_r; [lia|].
  Local Transparent bn_buf. unfold bn_buf. lia.
Qed.
Local Opaque bn_buf.
Definition rnd0 : e2f_rnd := {| rnd_a := 0; rnd_b := 0; rnd_bp := 0; rnd_r := 0 |}.
Lemma p256_run ccrh Delta raw ya yb : length raw = 5%nat -> Forall (fun r => length r = 256%nat) raw ->
  exists s t oa ob va vb, e2f_offline ccrh p256 256 rnd0 rnd0 Delta raw = Ok (s, t) /\
    runs_with_views (p_e2f_online p256 true s 0 ya) (p_e2f_online p256 false t 1 yb) (Ok oa) (Ok ob) va vb.
Proof.
  intros L F.
  destruct (offline_ok p256 p256_bound ccrh 256 rnd0 rnd0 Delta raw) as (s & t & E & (T1 & T2 & T3) & A1 & A2); [vm_compute; reflexivity|exact L|exact F|].
  pose proof (lconv_online p256 p256_bound s t 0 ya 1 yb) as K. cbv zeta in K.
  destruct (opened_cong p256 p256_bound true s 0 ya t 1 yb) as (e1 & e2 & EO & E1 & E2). cbn [negb dco] in EO, E1, E2.
  rewrite EO in K. cbn [nth] in K.
  set (w := (e2f_w p256 s e1 + e2f_w p256 t e1) mod p256) in *.
  assert (W : w = (2 ^ 256) mod p256).
  { apply (cong_small p256); [apply (in_q _ p256_bound)|apply (in_q _ p256_bound)|]. unfold w, e2f_w, BN_mod_add, BN_mod_mul. rewrite !mod_cong.
    transitivity ((e_c s + e_c t) + e1 * (e_a s + e_a t)); [cring|]. rewrite T1, E1, A1, A2.
    change (e2f_mask p256 256 (rnd_a rnd0)) with (2 ^ 255). transitivity (2 ^ 255 + 2 ^ 255); [cring|]. cring. }
  assert (I : exists i, BN_mod_inverse w p256 = Some i).
  { rewrite W. destruct (BN_mod_inverse ((2 ^ 256) mod p256) p256) as [i|] eqn:Ei; [eauto|]. exfalso. revert Ei. vm_compute. discriminate. }
  destruct I as [i Ei].
  assert (H : forall u, e2f_eta p256 u w e2 = Ok (BN_mod_sub (BN_mod_mul i (BN_mod_add (BN_mod_mul e2 (e_a u) p256) (e_cp u) p256) p256) (e_r u) p256)).
  { intro u. unfold e2f_eta. rewrite Ei. replace (w =? 0) with false; [reflexivity|]. rewrite W. vm_compute. reflexivity. }
  exists s, t. eexists _, _, _, _. split; [exact E|].
  eapply lconv_runs; [apply wp_online; exact p256_bound|apply wp_online; exact p256_bound|]. exact (K _ _ (H s) (H t)).
Qed.
Theorem p256_refuted ccrh Delta raw : length raw = 5%nat -> Forall (fun r => length r = 256%nat) raw ->
  exists ra rb s t xa ya xb yb oa ob va vb x', 0 <= x' < p256 /\
    e2f_offline ccrh p256 256 ra rb Delta raw = Ok (s, t) /\
    runs_with_views (p_e2f_online p256 true s xa ya) (p_e2f_online p256 false t xb yb) (Ok oa) (Ok ob) va vb /\
    forall ra' rb' Delta' raw' s' t' y' oa' ob' va',
      e2f_offline ccrh p256 256 ra' rb' Delta' raw' = Ok (s', t') ->
      ~ runs_with_views (p_e2f_online p256 true s' x' y') (p_e2f_online p256 false t' xb yb) (Ok oa') (Ok ob') va' vb.
Proof.
  intros L F. destruct (p256_run ccrh Delta raw 0 0 L F) as (s & t & oa & ob & va & vb & E & R).
  destruct (excluded_for_bob p256 256 p256_bound ltac:(lia) ltac:(split; vm_compute; reflexivity) _ _ _ _ _ _ _ _ _ _ _ _ _ _ _ E R) as (f & F1 & _ & F3).
  assert (G : 2 ^ Z.of_nat 256 - p256 <= 2 ^ 254 < 2 ^ (Z.of_nat 256 - 1)) by (split; [vm_compute; discriminate|vm_compute; reflexivity]).
  exists rnd0, rnd0, s, t, 0, 0, 1, 0, oa, ob, va, vb, (f (2 ^ 254)). split; [apply F1, G|]. split; [exact E|]. split; [exact R|].
  intros ra' rb' Delta' raw' s' t' y' oa' ob' va' O. eapply F3; [exact G|exact O|]. apply Z.mod_small, F1, G.
Qed.
