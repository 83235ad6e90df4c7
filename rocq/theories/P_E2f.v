(** Correctness of the point-to-field conversion, and what its masks can be. *)
From Coq Require Import List NArith ZArith Bool Arith Lia Ring Setoid Znumtheory.
From Verif Require Import L_Bits L_Res L_Modq S_Ec M_Bn M_Ole M_E2f P_Bn P_Ole.
Import ListNotations.
Local Open Scope Z_scope.
Local Opaque bn_H recv_bn send_bn bn_buf ole_compute.

Lemma congr_cong p a b : p <> 0 -> (congr p a b <-> cong p a b).
Proof. intro H. unfold congr. symmetry. now apply cong_iff. Qed.

(** the chord rule stays on the curve and determines the sum *)
Lemma chord_on_curve p a b x1 y1 x2 y2 x3 y3 : prime p -> ~ congr p x1 x2 ->
  on_curve p a b x1 y1 -> on_curve p a b x2 y2 -> chord_sum p x1 y1 x2 y2 x3 y3 ->
  on_curve p a b x3 y3.
Proof.
  intros P D C1 C2 (l & L & X & Y). assert (P0 := prime_ge_2 _ P). assert (Pn : p <> 0) by lia.
  unfold on_curve in *. rewrite congr_cong in * by auto.
  set (f := fun X => X * X * X + a * X + b - (l * (X - x1) + y1) * (l * (X - x1) + y1)).
  set (c1 := a + (- (x1 * x2) - (l*l - x1 - x2) * (x1 + x2)) + 2 * l * (l * x1 - y1)).
  set (c0 := b - (l * x1 - y1) * (l * x1 - y1) + (x1 * x2 * (l*l - x1 - x2))).
  assert (F : forall X, f X = (X - x1) * (X - x2) * (X - (l*l - x1 - x2)) + (c1 * X + c0)).
  { intro Z0. unfold f, c1, c0. ring. }
  assert (F1 : cong p (c1 * x1 + c0) 0).
  { replace (c1 * x1 + c0) with (f x1) by (rewrite F; ring). unfold f. rewrite <- C1. cring. }
  assert (F2 : cong p (c1 * x2 + c0) 0).
  { replace (c1 * x2 + c0) with (f x2) by (rewrite F; ring). unfold f. rewrite <- C2.
    rewrite L. cring. }
  assert (G : cong p (c1 * (x1 - x2)) 0).
  { replace (c1 * (x1 - x2)) with ((c1 * x1 + c0) - (c1 * x2 + c0)) by ring. rewrite F1, F2. cring. }
  destruct (cong_prime_mul p _ _ P G) as [G1|G1].
  2: { exfalso. apply D. replace x1 with (x2 + (x1 - x2)) by ring. rewrite G1. cring. }
  assert (G0 : cong p c0 0).
  { rewrite <- F1. rewrite G1. cring. }
  rewrite Y.
  transitivity ((l * (x3 - x1) + y1) * (l * (x3 - x1) + y1)); [cring|].
  assert (Fx : cong p (f x3) 0). { rewrite F, X, G1, G0. cring. }
  transitivity (x3 * x3 * x3 + a * x3 + b - f x3); [unfold f; cring|]. rewrite Fx. cring.
Qed.
Lemma cong_cancel p a b c : prime p -> ~ cong p a 0 -> cong p (a * b) (a * c) -> cong p b c.
Proof.
  intros P A H. assert (E : cong p (a * (b - c)) 0).
  { replace (a * (b - c)) with (a * b - a * c) by ring. rewrite H. cring. }
  destruct (cong_prime_mul p _ _ P E); [contradiction|].
  replace b with (c + (b - c)) by ring. rewrite H0. cring.
Qed.
Lemma chord_unique p x1 y1 x2 y2 x3 y3 x3' y3' : prime p -> ~ congr p x1 x2 ->
  chord_sum p x1 y1 x2 y2 x3 y3 -> chord_sum p x1 y1 x2 y2 x3' y3' -> congr p x3 x3' /\ congr p y3 y3'.
Proof.
  intros P D (l & L & X & Y) (l' & L' & X' & Y'). assert (P0 := prime_ge_2 _ P). assert (Pn : p <> 0) by lia.
  rewrite congr_cong in * by auto.
  assert (E : cong p l l').
  { apply (cong_cancel p (x2 - x1)); auto.
    - intro Z0. apply D. replace x1 with (x2 - (x2 - x1)) by ring. rewrite Z0. cring.
    - rewrite (Z.mul_comm _ l), (Z.mul_comm _ l'), L, L'. reflexivity. }
  assert (EX : cong p x3 x3') by (rewrite X, X', E; reflexivity).
  split; [exact EX|]. apply congr_cong; auto. rewrite Y, Y', E, EX. reflexivity.
Qed.

Definition triples_ok (q : Z) (s t : e2f) : Prop :=
  cong q (e_c s + e_c t) ((e_a s + e_a t) * (e_b s + e_b t)) /\
  cong q (e_cp s + e_cp t) ((e_a s + e_a t) * (e_bp s + e_bp t)) /\
  cong q (e_r2 s + e_r2 t) ((e_r s + e_r t) * (e_r s + e_r t)).

Section P.
Variable q : Z.
Hypothesis Hq : bound1000 q.
Notation "a == b" := (cong q a b) (at level 70).

Lemma in_q x : 0 <= x mod q < q.
Proof. destruct Hq. apply Z.mod_pos_bound. lia. Qed.

Lemma abs_map l : Forall (fun x => 0 <= x < q) l -> map Z.abs l = l.
Proof. induction 1; cbn; [reflexivity|]. f_equal; auto. now rewrite Z.abs_eq. Qed.
Lemma open_ok va vb : length vb = length va ->
  Forall (fun x => 0 <= x < q) va -> Forall (fun x => 0 <= x < q) vb ->
  e2f_open q va vb = Ok (map2 (fun v t => (v + t) mod q) va vb, map2 (fun v t => (v + t) mod q) vb va).
Proof.
  intros L Fa Fb. unfold e2f_open.
  assert (G : forall l, Forall (fun x => 0 <= x < q) l -> Forall (fun x => (Z.abs_N x < 256 ^ N.of_nat bn_buf)%N) l).
  { intros l Fl. eapply Forall_impl; [|exact Fl]. intros x Hx. now apply (bound_fits q). }
  destruct (recv_send_seq va [] (G _ Fa)) as (ba & Ea & Ra).
  destruct (recv_send_seq vb [] (G _ Fb)) as (bb & Eb & Rb).
  rewrite app_nil_r in Ra, Rb.
  rewrite Ea, Eb. cbn [bind]. rewrite <- L at 1. rewrite Rb. cbn [bind]. rewrite L, Ra. cbn [bind].
  now rewrite !abs_map by auto.
Qed.

Definition e2f_wsum (s t : e2f) (xa xb : Z) : Z := (e_a s + e_a t) * (xb - xa).

Theorem online_err s t xa ya xb yb : triples_ok q s t -> e2f_wsum s t xa xb == 0 ->
  e2f_online q s t xa ya xb yb = Err.
Proof.
  intros (T1 & T2 & T3) W. unfold e2f_online, e2f_eps.
  rewrite open_ok; [|reflexivity|repeat constructor; apply in_q|repeat constructor; apply in_q].
  cbn [bind map2 nth]. unfold e2f_w.
  rewrite open_ok; [|reflexivity|repeat constructor; apply in_q|repeat constructor; apply in_q].
  cbn [bind map2 nth]. unfold e2f_eta.
  match goal with |- context [if ?w =? 0 then _ else _] => replace (w =? 0) with true; [reflexivity|] end.
  symmetry. apply Z.eqb_eq. apply (cong_small q); [apply in_q|destruct Hq; lia|].
  unfold BN_mod_add, BN_mod_sub, BN_mod_mul. rewrite !mod_cong.
  transitivity (e2f_wsum s t xa xb); [|exact W]. unfold e2f_wsum.
  rewrite !(q_minus_cong q).
  match goal with |- ?a == ?b => transitivity ((- xa - e_b s + (xb - e_b t)) * (e_a s + e_a t) + (e_c s + e_c t)); [cring|] end.
  rewrite T1. cring.
Qed.

Theorem online_ok s t xa ya xb yb : prime q -> triples_ok q s t -> ~ e2f_wsum s t xa xb == 0 ->
  exists oa ob, e2f_online q s t xa ya xb yb = Ok (oa, ob) /\ 0 <= oa < q /\ 0 <= ob < q /\
    exists y3, chord_sum q xa ya xb yb (oa + ob) y3.
Proof.
  intros P (T1 & T2 & T3) W. unfold e2f_online, e2f_eps.
  rewrite open_ok; [|reflexivity|repeat constructor; apply in_q|repeat constructor; apply in_q].
  cbn [bind map2 nth]. unfold e2f_w.
  set (eps1 := (BN_mod_sub (q - xa) (e_b s) q + BN_mod_sub xb (e_b t) q) mod q).
  set (eps2 := (BN_mod_sub (q - ya) (e_bp s) q + BN_mod_sub yb (e_bp t) q) mod q).
  rewrite (Z.add_comm (BN_mod_sub xb (e_b t) q)), (Z.add_comm (BN_mod_sub yb (e_bp t) q)). fold eps1 eps2.
  rewrite open_ok; [|reflexivity|repeat constructor; apply in_q|repeat constructor; apply in_q].
  cbn [bind map2 nth].
  rewrite (Z.add_comm (BN_mod_add (BN_mod_mul eps1 (e_a t) q) (e_c t) q)).
  set (w := (BN_mod_add (BN_mod_mul eps1 (e_a s) q) (e_c s) q + _) mod q).
  assert (E1 : eps1 == - xa - e_b s + (xb - e_b t)).
  { unfold eps1, BN_mod_sub. rewrite !mod_cong, (q_minus_cong q xa). reflexivity. }
  assert (E2 : eps2 == - ya - e_bp s + (yb - e_bp t)).
  { unfold eps2, BN_mod_sub. rewrite !mod_cong, (q_minus_cong q ya). reflexivity. }
  clearbody eps1 eps2.
  assert (Ew : w == e2f_wsum s t xa xb).
  { unfold w, BN_mod_add, BN_mod_mul. rewrite !mod_cong.
    transitivity (eps1 * (e_a s + e_a t) + (e_c s + e_c t)); [cring|]. rewrite E1, T1. unfold e2f_wsum. cring. }
  assert (Rw : 0 <= w < q) by apply in_q. clearbody w.
  assert (Nw : w <> 0). { intro Z0. apply W. rewrite <- Ew, Z0. reflexivity. }
  unfold e2f_eta. apply Z.eqb_neq in Nw as Nw'. rewrite Nw'.
  destruct (BN_mod_inverse_ok w q) as (wi & Ei & Ri & Hi).
  { destruct Hq; lia. }
  { apply Zgcd_1_rel_prime. apply rel_prime_sym, prime_rel_prime; auto. intro Dv. apply Z.divide_pos_le in Dv; lia. }
  rewrite Ei. cbn [bind].
  assert (Hi' : w * wi == 1).
  { apply cong_iff; [destruct Hq; lia|]. rewrite Hi. symmetry. apply Z.mod_1_l. destruct Hq; lia. }
  rewrite open_ok; [|reflexivity|repeat constructor; apply in_q|repeat constructor; apply in_q].
  cbn [bind map2 nth].
  match goal with |- context [e2f_out q false t ((?a + ?b) mod q) xb] => rewrite (Z.add_comm a b) end.
  match goal with |- context [e2f_out q true s ?z xa] => set (eps3 := z) end.
  set (lam := wi * ((e_a s + e_a t) * (yb - ya))).
  assert (E3 : eps3 == lam - (e_r s + e_r t)).
  { unfold eps3, BN_mod_sub, BN_mod_mul, BN_mod_add. rewrite !mod_cong.
    transitivity (wi * (eps2 * (e_a s + e_a t) + (e_cp s + e_cp t)) - (e_r s + e_r t)); [cring|].
    rewrite E2, T2. unfold lam. cring. }
  clearbody eps3.
  exists (e2f_out q true s eps3 xa), (e2f_out q false t eps3 xb).
  split; [reflexivity|]. split; [apply in_q|]. split; [apply in_q|].
  exists (lam * (xa - (e2f_out q true s eps3 xa + e2f_out q false t eps3 xb)) - ya).
  exists lam. assert (Qn : q <> 0) by (destruct Hq; lia). rewrite !congr_cong by auto. split; [|split].
  - transitivity ((yb - ya) * (wi * e2f_wsum s t xa xb)); [unfold lam, e2f_wsum; cring|].
    rewrite <- Ew, (Z.mul_comm wi), Hi'. cring.
  - unfold e2f_out, BN_mod_add, BN_mod_sub, BN_mod_mul, BN_mod_sqr. rewrite !mod_cong.
    transitivity (2 * eps3 * (e_r s + e_r t) + (e_r2 s + e_r2 t) - xa - xb + eps3 * eps3); [cring|].
    rewrite T3, E3. cring.
  - reflexivity.
Qed.

Lemma mask_range bl rnd : q < 2 ^ Z.of_nat bl -> 0 <= e2f_mask q bl rnd < q.
Proof.
  intro B. unfold e2f_mask, BN_mod. rewrite Z.rem_mod_nonneg; [apply in_q| |destruct Hq; lia].
  unfold BN_rand0. assert (0 < 2 ^ (Z.of_nat bl - 1)).
  { apply Z.pow_pos_nonneg; [lia|]. destruct bl; [cbn in B; destruct Hq; lia|lia]. }
  pose proof (Z.mod_pos_bound rnd (2 ^ (Z.of_nat bl - 1))). lia.
Qed.

Theorem offline_ok ccrh bl ra rb Delta raw : q < 2 ^ Z.of_nat bl ->
  length raw = 5%nat -> Forall (fun r => length r = bl) raw ->
  exists s t, e2f_offline ccrh q bl ra rb Delta raw = Ok (s, t) /\ triples_ok q s t /\
    e_a s = e2f_mask q bl (rnd_a ra) /\ e_a t = e2f_mask q bl (rnd_a rb).
Proof.
  intros B L F. unfold e2f_offline.
  set (a1 := e2f_mask q bl (rnd_a ra)). set (b1 := e2f_mask q bl (rnd_b ra)).
  set (bp1 := e2f_mask q bl (rnd_bp ra)). set (r1 := e2f_mask q bl (rnd_r ra)).
  assert (X : forall rnd, 0 <= e2f_mask q bl rnd < 2 ^ Z.of_nat bl) by (intro rnd; pose proof (mask_range bl rnd B); lia).
  pose proof (X (rnd_a rb)) as A2. pose proof (X (rnd_b rb)) as B2. pose proof (X (rnd_bp rb)) as BP2. pose proof (X (rnd_r rb)) as R2.
  set (a2 := e2f_mask q bl (rnd_a rb)) in *. set (b2 := e2f_mask q bl (rnd_b rb)) in *.
  set (bp2 := e2f_mask q bl (rnd_bp rb)) in *. set (r2 := e2f_mask q bl (rnd_r rb)) in *.
  clearbody a1 b1 bp1 r1 a2 b2 bp2 r2.
  destruct (ole_correct ccrh q bl Delta [a1; b1; a1; bp1; r1] [b2; a2; bp2; a2; r2] raw Hq eq_refl L F) as (os & or_ & E & _ & _ & _ & _ & C).
  { repeat (apply Forall_cons; [assumption|]). apply Forall_nil. }
  rewrite E. cbn [bind fst snd]. eexists _, _. split; [reflexivity|].
  assert (Qn : q <> 0) by (destruct Hq; lia).
  assert (C' : forall i, (i < 5)%nat -> nth i os 0 + nth i or_ 0 == nth i [a1; b1; a1; bp1; r1] 0 * nth i [b2; a2; bp2; a2; r2] 0).
  { intros i Hi. apply cong_iff; [exact Qn|]. exact (C i Hi). }
  pose proof (C' 0%nat ltac:(lia)) as C0. pose proof (C' 1%nat ltac:(lia)) as C1. pose proof (C' 2%nat ltac:(lia)) as C2.
  pose proof (C' 3%nat ltac:(lia)) as C3. pose proof (C' 4%nat ltac:(lia)) as C4. clear C C' E.
  cbn [nth] in C0, C1, C2, C3, C4.
  unfold triples_ok, e2f_triples. cbn [e_a e_b e_c e_bp e_cp e_r e_r2].
  set (o0 := nth 0 os 0) in *. set (o1 := nth 1 os 0) in *. set (o2 := nth 2 os 0) in *. set (o3 := nth 3 os 0) in *. set (o4 := nth 4 os 0) in *.
  set (p0 := nth 0 or_ 0) in *. set (p1 := nth 1 or_ 0) in *. set (p2 := nth 2 or_ 0) in *. set (p3 := nth 3 or_ 0) in *. set (p4 := nth 4 or_ 0) in *.
  clearbody o0 o1 o2 o3 o4 p0 p1 p2 p3 p4.
  unfold BN_mod_add, BN_mod_mul, BN_mod_sqr. repeat split; auto; rewrite !mod_cong.
  - transitivity (a1 * b1 + a2 * b2 + (o0 + p0) + (o1 + p1)); [cring|]. rewrite C0, C1. cring.
  - transitivity (a1 * bp1 + a2 * bp2 + (o2 + p2) + (o3 + p3)); [cring|]. rewrite C2, C3. cring.
  - transitivity (r1 * r1 + r2 * r2 + 2 * (o4 + p4)); [cring|]. rewrite C4. cring.
Qed.
End P.

(** the whole protocol *)
Theorem e2f_correct : forall ccrh q bl ra rb Delta raw xa ya xb yb,
  prime q -> bound1000 q -> q < 2 ^ Z.of_nat bl ->
  length raw = 5%nat -> Forall (fun r => length r = bl) raw ->
  exists s t, e2f_offline ccrh q bl ra rb Delta raw = Ok (s, t) /\
    (((e_a s + e_a t) mod q = 0 \/ xa mod q = xb mod q) -> e2f_online q s t xa ya xb yb = Err) /\
    ((e_a s + e_a t) mod q <> 0 -> xa mod q <> xb mod q ->
     exists oa ob y3, e2f_online q s t xa ya xb yb = Ok (oa, ob) /\ 0 <= oa < q /\ 0 <= ob < q /\
       chord_sum q xa ya xb yb (oa + ob) y3).
Proof.
  intros ccrh q bl ra rb Delta raw xa ya xb yb P Hq B L F.
  destruct (offline_ok q Hq ccrh bl ra rb Delta raw B L F) as (s & t & E & T & _).
  assert (Qn : q <> 0) by (destruct Hq; lia).
  exists s, t. split; [exact E|]. split.
  - intro H. apply online_err; auto. unfold e2f_wsum. destruct H as [H|H].
    + apply (cong_0 q _ Qn) in H. rewrite H. cring.
    + apply (cong_iff q _ _ Qn) in H. rewrite H. cring.
  - intros Ha Hx. destruct (online_ok q Hq s t xa ya xb yb P T) as (oa & ob & Eo & Ra & Rb & y3 & Ch).
    + intro W. destruct (cong_prime_mul q _ _ P W) as [W'|W'].
      * apply Ha. now apply cong_0.
      * apply Hx. apply cong_iff; auto. replace xa with (xb - (xb - xa)) by ring. rewrite W'. cring.
    + exists oa, ob, y3. auto.
Qed.

(** ** C20: the values the masks can take *)
Theorem mask_support q bl v : (1 <= bl)%nat -> 2 ^ (Z.of_nat bl - 1) < q < 2 ^ Z.of_nat bl ->
  ((exists rnd, e2f_mask q bl rnd = v) <->
   (2 ^ (Z.of_nat bl - 1) <= v < q \/ 0 <= v < 2 ^ Z.of_nat bl - q)).
Proof.
  intros B [Q1 Q2].
  assert (E : 2 ^ Z.of_nat bl = 2 * 2 ^ (Z.of_nat bl - 1)).
  { rewrite <- Z.pow_succ_r by lia. f_equal. lia. }
  set (h := 2 ^ (Z.of_nat bl - 1)) in *.
  assert (Hh : 0 < h) by (apply Z.pow_pos_nonneg; lia).
  unfold e2f_mask, BN_rand0, BN_mod. fold h. split.
  - intros [rnd <-]. pose proof (Z.mod_pos_bound rnd h Hh).
    rewrite Z.rem_mod_nonneg by lia.
    destruct (Z_lt_le_dec (h + rnd mod h) q).
    + rewrite Z.mod_small by lia. lia.
    + right. replace (h + rnd mod h) with ((h + rnd mod h - q) + 1 * q) by ring.
      rewrite Z_mod_plus_full, Z.mod_small by lia. lia.
  - intros [H|H].
    + exists (v - h). rewrite (Z.mod_small (v - h)) by lia. rewrite Z.rem_small; lia.
    + exists (v + q - h). rewrite (Z.mod_small (v + q - h)) by lia.
      replace (h + (v + q - h)) with (v + 1 * q) by ring. rewrite Z.rem_mod_nonneg, Z_mod_plus_full, Z.mod_small; lia.
Qed.

(** field prime of NIST P-256 (NID_X9_62_prime256v1, chosen at /repo/test/handshake.cpp:11 and
    /repo/protocol/prove_prf.h:33); BN_num_bits of it is 256 *)
Definition p256 : Z := 2 ^ 256 - 2 ^ 224 + 2 ^ 192 + 2 ^ 96 - 1.
Theorem mask_support_refuted : exists q bl v, q = p256 /\ bl = 256%nat /\ 0 <= v < q /\
  forall rnd, e2f_mask q bl rnd <> v.
Proof.
  exists p256, 256%nat, (2 ^ 254). split; [reflexivity|]. split; [reflexivity|].
  split; [split; [vm_compute; discriminate|vm_compute; reflexivity]|].
  intros rnd H. assert (X : exists rnd, e2f_mask p256 256 rnd = 2 ^ 254) by eauto.
  apply mask_support in X; [|lia|split; vm_compute; reflexivity].
  destruct X as [[X _]|[_ X]]; revert X; vm_compute; [intro X; now apply X|discriminate].
Qed.
(** hence an opened x - b excludes some inputs *)
Theorem opened_excludes_inputs_refuted : exists q bl opened x, q = p256 /\ bl = 256%nat /\ 0 <= x < q /\
  forall rnd, BN_mod_sub x (e2f_mask q bl rnd) q <> opened.
Proof.
  exists p256, 256%nat, 0, (2 ^ 254). split; [reflexivity|]. split; [reflexivity|].
  split; [split; [vm_compute; discriminate|vm_compute; reflexivity]|].
  intros rnd H. 
  assert (Hq : 1 < p256) by (vm_compute; reflexivity).
  assert (C : cong p256 (2 ^ 254) (e2f_mask p256 256 rnd)).
  { unfold BN_mod_sub in H. apply cong_0 in H; [|lia]. 
    replace (2 ^ 254) with ((2 ^ 254 - e2f_mask p256 256 rnd) + e2f_mask p256 256 rnd) by ring.
    rewrite H. cring. }
  assert (S : (exists r, e2f_mask p256 256 r = e2f_mask p256 256 rnd)) by eauto.
  apply mask_support in S; [|lia|split; vm_compute; reflexivity].
  set (m := e2f_mask p256 256 rnd) in *. clearbody m.
  assert (m = 2 ^ 254).
  { symmetry. apply (cong_small p256); auto.
    - split; [vm_compute; discriminate|vm_compute; reflexivity].
    - revert S. change (2 ^ (Z.of_nat 256 - 1)) with (2 ^ 255). change (Z.of_nat 256) with 256.
      unfold p256. lia. }
  subst m. destruct S as [[X _]|[_ X]]; revert X; vm_compute; [intro X; now apply X|discriminate].
Qed.
