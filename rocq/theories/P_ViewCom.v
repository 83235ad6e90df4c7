(** What the key holder learns from the conversion of authenticated bits into commitments. *)
From Coq Require Import List NArith ZArith Bool Arith Lia Ring Setoid Znumtheory.
From Verif Require Import L_Bits L_Res L_Modq S_Sched S_View S_OleView L_Group M_Utils M_Bn M_Ole M_Ec M_Commit M_ComConv M_Exch M_ExchCc M_CheatCc.
From Verif Require Import P_Bn P_Ole P_OleHide P_Commit P_ComConv P_Sched P_Exch P_View P_ViewStep P_ExchCc.
Import ListNotations.
Local Open Scope Z_scope.

Fixpoint map3 {A B D E} (f : A -> B -> D -> E) (a : list A) (b : list B) (d : list D) : list E :=
  match a, b, d with x :: a, y :: b, z :: d => f x y z :: map3 f a b d | _, _, _ => [] end.
Lemma map3_length {A B D E} (f : A -> B -> D -> E) a : forall b d, length b = length a -> length d = length a ->
  length (map3 f a b d) = length a.
Proof. induction a; intros [|] [|] L1 L2; try discriminate; cbn; auto. Qed.

Section HIDING.
Variables (ccrh : N -> N) (hash : list N -> list N) (prg : N -> nat -> nat -> list N).
Context {C : Curve}.
Notation point := (pt (cgrp C)).
Notation q := (order (cgrp C)).
Notation "a == b" := (cong q a b) (at level 70).
Variable h : point.
Hypothesis A : annihilates C.
Hypothesis Hq : bound1000 q.
(** the generator is a multiple of h; the key holder need not know which *)
Variable k : Z.
Hypothesis Hk : @gen C = smul k h.
Variables (bs : nat) (seed bDelta : N) (aDelta : Z) (bKEYs : list N).
Let cl := ((length bKEYs + bs - 1) / bs)%nat.

(** Pb's values as the code draws them: BN_rand_range gives [0, q) *)
Definition pb_fresh (v : pb_vals) : Prop :=
  pb_ok bs bKEYs v (C := C) /\ Forall (fun x => 0 <= x < q) (pb_rnds v) /\ 0 <= pb_rnd_r v < q.

Definition ms (bits : list bool) : list Z := map (chunk_val bits bs) (seq 0 cl).
Lemma ms_len bits : length (ms bits) = cl.
Proof. unfold ms. now rewrite map_length, seq_length. Qed.
Notation chi_of := (v_chi ccrh hash prg h bs seed bDelta aDelta bKEYs).
Definition move (bits bits' : list bool) (v : pb_vals) : pb_vals :=
  let chi := chi_of bits v in
  let r' := (pb_r v + dot chi (ms bits) - dot chi (ms bits')) mod q in
  {| pb_r := r';
     pb_rnds := map3 (fun x m m' => (x + k * (m - m')) mod q) (pb_rnds v) (ms bits) (ms bits');
     pb_rnd_r := (pb_rnd_r v + k * (pb_r v - r')) mod q;
     pb_yseed := pb_yseed v; pb_buf := pb_buf v |}.

Lemma hq_pos : 0 < q.
Proof. destruct Hq. lia. Qed.
Lemma move_fresh bits bits' v : pb_fresh v -> pb_fresh (move bits bits' v).
Proof.
  intros ((R & L & Y & B) & FR & RR). pose proof hq_pos as Q. unfold pb_fresh, pb_ok, move. cbn [pb_r pb_rnds pb_rnd_r pb_yseed pb_buf].
  repeat split; try apply Z.mod_pos_bound; auto.
  - rewrite map3_length; [exact L| |]; rewrite ms_len; symmetry; exact L.
  - generalize (pb_rnds v) (ms bits) (ms bits'). induction l; intros [|] [|]; cbn; constructor; auto. now apply Z.mod_pos_bound.
Qed.
Lemma commit_move x m m' : pc_commit h ((x + k * (m - m')) mod q) m' = pc_commit h x m.
Proof.
  rewrite !commit_val, Hk, <- !smul_mul, <- !smul_add_l. apply smul_congr; [exact A|].
  apply cong_iff; [pose proof hq_pos; lia|]. rewrite mod_cong. cring.
Qed.
Lemma coms_move : forall xs l l', length l = length xs -> length l' = length xs ->
  map2 (pc_commit h) (map3 (fun x m m' => (x + k * (m - m')) mod q) xs l l') l' = map2 (pc_commit h) xs l.
Proof.
  induction xs as [|x xs IH]; intros [|m l] [|m' l'] L1 L2; try discriminate; [reflexivity|].
  cbn [map3 map2]. rewrite commit_move, IH by (cbn in *; lia). reflexivity.
Qed.
Lemma vcoms_move bits bits' v : pb_fresh v -> v_coms h bs bKEYs bits' (move bits bits' v) = v_coms h bs bKEYs bits v.
Proof.
  intros ((R & L & Y & B) & FR & RR). unfold v_coms, move. cbn [pb_rnds]. fold cl. fold (ms bits) (ms bits').
  apply coms_move; rewrite ms_len; symmetry; exact L.
Qed.
Lemma pts_move bits bits' v : pb_fresh v -> v_pts h bs bKEYs bits' (move bits bits' v) = v_pts h bs bKEYs bits v.
Proof.
  intro V. unfold v_pts. rewrite vcoms_move by exact V. f_equal. f_equal. f_equal.
  unfold move. cbn [pb_rnd_r pb_r]. apply commit_move.
Qed.
Lemma chi_move bits bits' v : pb_fresh v -> chi_of bits' (move bits bits' v) = chi_of bits v.
Proof. intro V. unfold v_chi. now rewrite pts_move. Qed.
Lemma chi_len bits v : length (chi_of bits v) = cl.
Proof. unfold v_chi, cc_chi. now rewrite map_length, seq_length. Qed.
Lemma move_back bits bits' v : pb_fresh v -> move bits' bits (move bits bits' v) = v.
Proof.
  intro V. pose proof hq_pos as Q. assert (V' := V). destruct V' as ((R & L & Y & B) & FR & RR). unfold move at 1. rewrite chi_move by exact V.
  unfold move. cbn [pb_r pb_rnds pb_rnd_r pb_yseed pb_buf].
  set (chi := chi_of bits v). clearbody chi.
  destruct v as [r rnds rnd_r ys buf]. cbn [pb_r pb_rnds pb_rnd_r pb_yseed pb_buf] in *.
  assert (Er : ((r + dot chi (ms bits) - dot chi (ms bits')) mod q + dot chi (ms bits') - dot chi (ms bits)) mod q = r).
  { apply (cong_small q); [now apply Z.mod_pos_bound|exact R|]. rewrite !mod_cong. cring. }
  f_equal.
  - exact Er.
  - assert (L1 : length (ms bits) = length rnds) by (rewrite ms_len; symmetry; exact L).
    assert (L2 : length (ms bits') = length rnds) by (rewrite ms_len; symmetry; exact L).
    clear - FR Q L1 L2. revert L1 L2. generalize (ms bits) (ms bits').
    induction rnds as [|x rnds IH]; intros [|m l] [|m' l'] L1 L2; try discriminate; [reflexivity|].
    inversion FR as [|? ? F1 F2]; subst. cbn [map3]. rewrite IH by (auto; cbn in *; lia). f_equal.
    apply (cong_small q); [now apply Z.mod_pos_bound|exact F1|]. rewrite !mod_cong. cring.
  - rewrite Er. apply (cong_small q); [now apply Z.mod_pos_bound|exact RR|]. rewrite !mod_cong. cring.
Qed.
Lemma dot_move chi : forall xs l l', length xs = length chi -> length l = length chi -> length l' = length chi ->
  dot chi (map3 (fun x m m' => (x + k * (m - m')) mod q) xs l l') == dot chi xs + k * (dot chi l - dot chi l').
Proof.
  induction chi as [|c chi IH]; intros [|x xs] [|m l] [|m' l'] L1 L2 L3; try discriminate; [cbn; cring|].
  cbn [map3 dot]. rewrite IH by (cbn in *; lia). rewrite mod_cong. cring.
Qed.
Lemma msg_y_move bits bits' v : pb_fresh v ->
  v_msg_y ccrh hash prg h bs seed bDelta aDelta bKEYs bits' (move bits bits' v) =
  v_msg_y ccrh hash prg h bs seed bDelta aDelta bKEYs bits v.
Proof.
  intro V. pose proof hq_pos as Q. unfold v_msg_y. rewrite chi_move by exact V. fold cl. fold (ms bits) (ms bits').
  apply cong_iff; [lia|]. rewrite !dot_app by (rewrite chi_len, ms_len; reflexivity). cbn [dot].
  unfold move. cbn [pb_r]. rewrite mod_cong. cring.
Qed.
Lemma rnd_y_move bits bits' v : pb_fresh v ->
  v_rnd_y ccrh hash prg h bs seed bDelta aDelta bKEYs bits' (move bits bits' v) =
  v_rnd_y ccrh hash prg h bs seed bDelta aDelta bKEYs bits v.
Proof.
  intro V. pose proof hq_pos as Q. pose proof (move_fresh bits bits' v V) as V'.
  destruct V as ((R & L & Y & B) & FR & RR). destruct V' as ((R' & L' & Y' & B') & FR' & RR').
  assert (V : pb_fresh v) by (repeat split; auto; lia).
  unfold v_rnd_y. rewrite chi_move by exact V.
  apply cong_iff; [lia|]. rewrite !dot_app by (rewrite chi_len; symmetry; assumption). cbn [dot].
  unfold move at 1 2. cbn [pb_rnds pb_rnd_r]. rewrite dot_move, !mod_cong by (rewrite ?chi_len, ?ms_len; auto). cring.
Qed.
Lemma yMAC_move Ks oa bits bits' v : pb_fresh v ->
  v_yMAC ccrh hash prg h bs seed bDelta aDelta bKEYs Ks oa bits' (move bits bits' v) =
  v_yMAC ccrh hash prg h bs seed bDelta aDelta bKEYs Ks oa bits v.
Proof. intro V. unfold v_yMAC, v_yKEY. now rewrite msg_y_move, chi_move. Qed.
Lemma ycom_move Ks oa bits bits' v : pb_fresh v ->
  v_ycom ccrh hash prg h bs seed bDelta aDelta bKEYs Ks oa bits' (move bits bits' v) =
  v_ycom ccrh hash prg h bs seed bDelta aDelta bKEYs Ks oa bits v.
Proof. intro V. unfold v_ycom. now rewrite yMAC_move. Qed.
End HIDING.

Section VIEWS.
Variables (ccrh : N -> N) (hash : list N -> list N) (prg : N -> nat -> nat -> list N).
Context {C : Curve}.
Notation point := (pt (cgrp C)).
Notation q := (order (cgrp C)).
Variable h : point.
Hypothesis A : annihilates C.
Hypothesis Hq : bound1000 q.
Hypothesis hash_len : forall m, length (hash m) = DIGEST_SIZE.
Variable k : Z.
Hypothesis Hk : @gen C = smul k h.
Variables (bs : nat) (seed bDelta : N) (aDelta : Z) (Delta : N) (row : list N) (bKEYs : list N).
Hypothesis Hbs : (1 <= bs)%nat.
Hypothesis Hsz : 2 ^ Z.of_nat bs - 1 < q.
Hypothesis HbD : (bDelta < 2 ^ 128)%N.
Hypothesis OD : N.odd bDelta = true.
Hypothesis FK : Forall (fun k => N.odd k = false) bKEYs.
Hypothesis Hs : (seed < 2 ^ 128)%N.
Hypothesis Ra : 0 <= aDelta < q.
Hypothesis Lrow : length row = BN_num_bits q.
Let cl := ((length bKEYs + bs - 1) / bs)%nat.
Notation prog_a := (fun ccrh_o sends => p_cc_send ccrh ccrh_o hash prg h q bs seed bDelta aDelta sends Delta
                      (cc_rows q sends Delta [row] aDelta) (repeat pz cl) bKEYs).
Notation prog_b := (fun ccrh_o sends v bits => p_cc_recv_flushed ccrh ccrh_o hash prg h q bs (pb_r v) (pb_rnds v) (pb_rnd_r v) (pb_yseed v) (pb_buf v)
                      sends Delta (cc_rows q (negb sends) Delta [row] (pb_r v)) (map2 (mac_of bDelta) bKEYs bits)).
Notation mv := (move ccrh hash prg h k bs seed bDelta aDelta bKEYs).

Theorem hides_send : forall ccrh_o bits bits', length bits = length bKEYs -> length bits' = length bKEYs ->
  exists F G : pb_vals -> pb_vals,
    (forall v, pb_fresh bs bKEYs v (C := C) -> pb_fresh bs bKEYs (F v) (C := C) /\ G (F v) = v) /\
    (forall v, pb_fresh bs bKEYs v (C := C) -> pb_fresh bs bKEYs (G v) (C := C) /\ F (G v) = v) /\
    forall v, pb_fresh bs bKEYs v (C := C) -> exists coms va vb vb',
      runs_with_views (prog_a ccrh_o true) (prog_b ccrh_o true v bits) (Ok (coms, true)) (Ok (coms, true)) va vb /\
      runs_with_views (prog_a ccrh_o true) (prog_b ccrh_o true (F v) bits') (Ok (coms, true)) (Ok (coms, true)) va vb'.
Proof.
  intros ccrh_o bits bits' L L'. exists (mv bits bits'), (mv bits' bits).
  split; [|split].
  - intros v V. split; [now apply move_fresh|now apply move_back].
  - intros v V. split; [now apply move_fresh|now apply move_back].
  - intros v V. destruct (keys_ok ccrh Hq bs seed bDelta aDelta row bKEYs Hbs Hsz HbD OD FK Hs Lrow) as (Ks & EK & _).
    assert (V' := move_fresh ccrh hash prg h Hq k bs seed bDelta aDelta bKEYs bits bits' v V).
    destruct (cc_runs ccrh ccrh_o hash prg h A Hq hash_len bs seed bDelta aDelta true Delta row bKEYs Hbs Hsz HbD OD FK Hs Ra Lrow
                bits v Ks L (proj1 V) EK) as (oa & rMAC & so & to & sb & (_ & _ & _ & OS & ->) & RV).
    destruct (cc_runs ccrh ccrh_o hash prg h A Hq hash_len bs seed bDelta aDelta true Delta row bKEYs Hbs Hsz HbD OD FK Hs Ra Lrow
                bits' (mv bits bits' v) Ks L' (proj1 V') EK) as (oa' & rMAC' & so' & to' & sb' & (_ & _ & _ & OS' & ->) & RV').
    rewrite OS in OS'. injection OS' as <- <-.
    rewrite vcoms_move, pts_move, ycom_move, rnd_y_move, msg_y_move, yMAC_move in RV' by auto.
    eexists _, _, sb, sb'. split; [exact RV|exact RV'].
Qed.
Theorem hides_recv : q <= 2 ^ 256 ->
  NoDup (points (withheld Delta) (BN_num_bits q) [row] [aDelta]) ->
  (forall p, In p (points (withheld Delta) (BN_num_bits q) [row] [aDelta]) -> ~ In p (points (held Delta) (BN_num_bits q) [row] [aDelta])) ->
  forall ccrh_o bits bits', length bits = length bKEYs -> length bits' = length bKEYs ->
  exists F G : pb_vals -> pb_vals,
    (forall v, pb_fresh bs bKEYs v (C := C) -> pb_fresh bs bKEYs (F v) (C := C) /\ G (F v) = v) /\
    (forall v, pb_fresh bs bKEYs v (C := C) -> pb_fresh bs bKEYs (G v) (C := C) /\ F (G v) = v) /\
    forall v, pb_fresh bs bKEYs v (C := C) -> exists ccrh_o' coms va vb vb',
      (forall p, ~ In p (points (withheld Delta) (BN_num_bits q) [row] [aDelta]) -> ccrh_o' p = ccrh_o p) /\
      runs_with_views (prog_a ccrh_o false) (prog_b ccrh_o false v bits) (Ok (coms, true)) (Ok (coms, true)) va vb /\
      runs_with_views (prog_a ccrh_o' false) (prog_b ccrh_o' false (F v) bits') (Ok (coms, true)) (Ok (coms, true)) va vb'.
Proof.
  intros Q256 ND DJ ccrh_o bits bits' L L'. exists (mv bits bits'), (mv bits' bits).
  split; [|split].
  - intros v V. split; [now apply move_fresh|now apply move_back].
  - intros v V. split; [now apply move_fresh|now apply move_back].
  - intros v V. destruct (keys_ok ccrh Hq bs seed bDelta aDelta row bKEYs Hbs Hsz HbD OD FK Hs Lrow) as (Ks & EK & _).
    assert (V' := move_fresh ccrh hash prg h Hq k bs seed bDelta aDelta bKEYs bits bits' v V).
    destruct (ole_hides q Hq Q256 (BN_num_bits q) Delta ccrh_o [row] [aDelta] [pb_r v] [pb_r (mv bits bits' v)] eq_refl eq_refl eq_refl)
      as (ccrh_o' & os & os' & bytes & or_ & AG & S1 & S2 & R1 & R2); auto.
    { constructor; [lia|constructor]. }
    destruct (cc_runs ccrh ccrh_o hash prg h A Hq hash_len bs seed bDelta aDelta false Delta row bKEYs Hbs Hsz HbD OD FK Hs Ra Lrow
                bits v Ks L (proj1 V) EK) as (oa & rMAC & so & to & sb & (_ & _ & _ & OS & OR & ->) & RV).
    destruct (cc_runs ccrh ccrh_o' hash prg h A Hq hash_len bs seed bDelta aDelta false Delta row bKEYs Hbs Hsz HbD OD FK Hs Ra Lrow
                bits' (mv bits bits' v) Ks L' (proj1 V') EK) as (oa' & rMAC' & so' & to' & sb' & (_ & _ & _ & OS' & OR' & ->) & RV').
    rewrite S1 in OS. injection OS as _ <-. rewrite S2 in OS'. injection OS' as _ <-.
    cbn [map2] in R1, R2. rewrite R1 in OR. injection OR as ->. rewrite R2 in OR'. injection OR' as <-.
    rewrite vcoms_move, pts_move, ycom_move, rnd_y_move, msg_y_move, yMAC_move in RV' by auto.
    exists ccrh_o'. eexists _, _, sb, sb'. split; [exact AG|]. split; [exact RV|exact RV'].
Qed.
End VIEWS.

Lemma inv_coprime q c : prime q -> ~ cong q c 0 -> exists i, BN_mod_inverse c q = Some i /\ cong q (c * i) 1.
Proof.
  intros Pq NZ. pose proof (prime_ge_2 _ Pq) as Q2.
  assert (G : Z.gcd c q = 1).
  { apply Zgcd_1_rel_prime, rel_prime_sym, prime_rel_prime; [exact Pq|]. intros [d D]. apply NZ. exists d. lia. }
  destruct (BN_mod_inverse_ok c q ltac:(lia) G) as (i & E & _ & M). exists i. split; [exact E|].
  apply cong_iff; [lia|]. rewrite M, Z.mod_small; lia.
Qed.
(** * All the bits, when there is one commitment *)
Section BITS.
Variables (ccrh ccrh_o : N -> N) (hash : list N -> list N) (prg : N -> nat -> nat -> list N).
Context {C : Curve}.
Notation point := (pt (cgrp C)).
Notation q := (order (cgrp C)).
Notation "a == b" := (cong q a b) (at level 70).
Variable h : point.
Hypothesis A : annihilates C.
Hypothesis Hq : bound1000 q.
Hypothesis Pq : prime q.
Hypothesis hash_len : forall m, length (hash m) = DIGEST_SIZE.
Variables (bs : nat) (seed bDelta : N) (aDelta : Z) (sends : bool) (Delta : N) (row : list N) (bKEYs : list N).
Hypothesis Hbs : (1 <= bs)%nat.
Hypothesis Hsz : 2 ^ Z.of_nat bs - 1 < q.
Hypothesis HbD : (bDelta < 2 ^ 128)%N.
Hypothesis OD : N.odd bDelta = true.
Hypothesis FK : Forall (fun k => N.odd k = false) bKEYs.
Hypothesis Hs : (seed < 2 ^ 128)%N.
Hypothesis Ra : 0 <= aDelta < q.
Hypothesis Lrow : length row = BN_num_bits q.
Hypothesis One : (1 <= length bKEYs <= bs)%nat.

Definition dec_bits (chi : list Z) (y : Z) : list bool :=
  match BN_mod_inverse (hd 0 chi) q with
  | Some i => bits_of_N (length bKEYs) (Z.to_N ((y * i) mod q))
  | None => []
  end.
Lemma dec_ok c bits x : ~ c == 0 -> x == aDelta - 1 -> length bits = length bKEYs ->
  dec_bits [c] ((dot [c] [chunk_val bits bs 0] * (aDelta - x)) mod q) = bits.
Proof.
  intros NZ X L. destruct (inv_coprime q c Pq NZ) as (i & E & I). unfold dec_bits. cbn [hd]. rewrite E.
  assert (Q0 : 0 < q) by (destruct Hq; lia).
  assert (M : chunk_val bits bs 0 = Z.of_N (N_of_bits bits)).
  { unfold chunk_val. cbn [Nat.mul skipn]. rewrite firstn_all2 by lia. reflexivity. }
  replace ((dot [c] [chunk_val bits bs 0] * (aDelta - x)) mod q * i mod q) with (chunk_val bits bs 0).
  - rewrite M, N2Z.id. now apply bits_of_N_of_bits'.
  - assert (R : 0 <= chunk_val bits bs 0 < q).
    { rewrite M. split; [lia|]. pose proof (N_of_bits_lt bits) as B. apply N2Z.inj_lt in B. rewrite N2Z.inj_pow, nat_N_Z in B.
      change (Z.of_N 2) with 2 in B. assert (2 ^ Z.of_nat (length bits) <= 2 ^ Z.of_nat bs) by (apply Z.pow_le_mono_r; lia). lia. }
    apply (cong_small q); [exact R|now apply Z.mod_pos_bound|]. rewrite !mod_cong, X. cbn [dot].
    generalize dependent (chunk_val bits bs 0). intros m _ _.
    transitivity (m * (c * i)); [rewrite I; cring|cring].
Qed.
Lemma one_chunk : ((length bKEYs + bs - 1) / bs = 1)%nat.
Proof. symmetry. apply (Nat.div_unique _ _ _ (length bKEYs - 1)); lia. Qed.
Theorem cheat_bits : exists x, 0 <= x < q /\ exists dec : list Z -> Z -> list bool, forall bits v,
  length bits = length bKEYs -> pb_ok bs bKEYs v (C := C) ->
  v_chi ccrh hash prg h bs seed bDelta aDelta bKEYs bits v <> [0] ->
  exists va vb, runs_with_views
    (p_cc_cheat ccrh ccrh_o hash prg h q x dec bs seed bDelta aDelta sends Delta (cc_rows q sends Delta [row] x) [pz] bKEYs)
    (p_cc_recv_flushed ccrh ccrh_o hash prg h q bs (pb_r v) (pb_rnds v) (pb_rnd_r v) (pb_yseed v) (pb_buf v)
       sends Delta (cc_rows q (negb sends) Delta [row] (pb_r v)) (map2 (mac_of bDelta) bKEYs bits))
    (Ok bits) (Ok (v_coms h bs bKEYs bits v, true)) va vb.
Proof.
  assert (Q0 : 0 < q) by (destruct Hq; lia).
  exists ((aDelta - 1) mod q). split; [now apply Z.mod_pos_bound|]. exists dec_bits. intros bits v L V NZ.
  destruct (cheat_runs ccrh ccrh_o hash prg h Hq hash_len bs seed bDelta aDelta sends Delta row bKEYs Hbs Hsz HbD OD FK Hs Ra Lrow
    ((aDelta - 1) mod q) dec_bits bits v (Z.mod_pos_bound _ _ Q0) L V) as (va & vb & RV).
  assert (Lc := chi_len ccrh hash prg h bs seed bDelta aDelta bKEYs bits v). rewrite one_chunk in Lc, RV. cbn [seq map repeat] in RV.
  set (chi := v_chi ccrh hash prg h bs seed bDelta aDelta bKEYs bits v) in *.
  assert (Rc : Forall (fun c => 0 <= c < q) chi).
  { unfold chi, v_chi, cc_chi. apply Forall_map, Forall_forall. intros i _. unfold BN_mod. rewrite Z.rem_mod_nonneg by (try lia; unfold BN_bin2bn; lia).
    now apply Z.mod_pos_bound. }
  clearbody chi. destruct chi as [|c [|c' chi]]; try discriminate. inversion Rc as [|? ? Rc1 _]; subst.
  rewrite dec_ok in RV; [exists va, vb; exact RV| | |exact L].
  - intro E. apply NZ. f_equal. apply (cong_small q); [exact Rc1|lia|exact E].
  - now rewrite mod_cong.
Qed.
End BITS.

(** * One commitment; the base of the test driver *)
Section BASE.
Context {C : Curve}.
Notation point := (pt (cgrp C)).
Notation q := (order (cgrp C)).
Notation "a == b" := (cong q a b) (at level 70).
Hypothesis A : annihilates C.
Theorem commitment_hides (h : point) k msg msg' : @gen C = smul k h ->
  exists F G : Z -> Z,
    (forall r, 0 <= r < q -> 0 <= F r < q /\ G (F r) = r) /\ (forall r, 0 <= r < q -> 0 <= G r < q /\ F (G r) = r) /\
    forall r, 0 <= r < q -> pc_commit h (F r) msg' = pc_commit h r msg.
Proof.
  intro Hk. assert (Q : 0 < q) by (destruct A; lia).
  exists (fun r => (r + k * (msg - msg')) mod q), (fun r => (r + k * (msg' - msg)) mod q).
  split; [|split].
  - intros r R. split; [now apply Z.mod_pos_bound|]. apply (cong_small q); [now apply Z.mod_pos_bound|exact R|]. rewrite !mod_cong. cring.
  - intros r R. split; [now apply Z.mod_pos_bound|]. apply (cong_small q); [now apply Z.mod_pos_bound|exact R|]. rewrite !mod_cong. cring.
  - intros r _. rewrite !commit_val, Hk, <- !smul_mul, <- !smul_add_l. apply smul_congr; [exact A|].
    apply cong_iff; [lia|]. rewrite mod_cong. cring.
Qed.
Lemma base_val sa sb : @cc_base C sa sb = ((sa + sb) mod q, smul ((sa + sb) mod q) gen).
Proof. unfold cc_base, BN_mod_add. f_equal. unfold EC_POINT_mul. first [reflexivity|now rewrite padd_0_r|now rewrite padd_0_l]. Qed.
Theorem base_runs sa sb : bound1000 q -> 0 <= sa < q -> 0 <= sb < q ->
  exists va vb, runs_with_views (@p_base_alice C sa) (@p_base_bob_flushed C sb)
    (Ok ((sa + sb) mod q, smul ((sa + sb) mod q) gen)) (Ok ((sa + sb) mod q, smul ((sa + sb) mod q) gen)) va vb.
Proof.
  intros Hq Ra Rb. exists (io (bn1 sb)), (io (bn1 sa)). apply lconv_runs.
  - unfold disciplined, p_base_alice. apply wp_rbind, wp_send_bn; [now apply (bound_fits q)|].
    apply wp_rbind, wp_recv_bn; [reflexivity|]. intros [b| |]; reflexivity.
  - apply io_only_flush. unfold p_base_bob. apply io_only_rbind; [apply io_recv_bn|]. intro. apply io_only_rbind; [apply io_send_bn|]. intro. exact I.
  - apply lconv_flush_end. unfold p_base_alice, p_base_bob. rewrite <- base_val.
    rewrite <- (app_nil_r (bn1 sa)). apply lconv_bn_sr; [now apply (bound_fits q)|lia|].
    rewrite <- (app_nil_r (bn1 sb)). apply lconv_bn_rs; [now apply (bound_fits q)|lia|]. apply lconv_end.
Qed.
Theorem equivocates : prime q -> exists e : Z -> Z -> Z -> Z -> Z, forall sa sb rnd msg msg', ~ sa + sb == 0 ->
  let s := fst (@cc_base C sa sb) in let h := snd (@cc_base C sa sb) in
  0 <= e s rnd msg msg' < q /\ pc_open_check h (pc_commit h rnd msg) (e s rnd msg msg') msg' = true.
Proof.
  intro Pq. assert (Q : 0 < q) by (destruct A; lia).
  exists (fun s rnd msg msg' => match BN_mod_inverse s q with Some i => (rnd + (msg - msg') * i) mod q | None => 0 end).
  intros sa sb rnd msg msg' NZ. cbv zeta. rewrite base_val. cbn [fst snd]. set (s := (sa + sb) mod q).
  assert (Ns : ~ s == 0) by (unfold s; now rewrite mod_cong).
  destruct (inv_coprime q s Pq Ns) as (i & E & I). rewrite E. split; [now apply Z.mod_pos_bound|].
  apply pc_open_iff. rewrite commit_val, <- !smul_mul, <- !smul_add_l. apply smul_congr; [exact A|].
  apply cong_iff; [lia|]. rewrite mod_cong. clearbody s. transitivity (msg' + (rnd * s + (msg - msg') * (s * i))); [|cring].
  rewrite I. cring.
Qed.
End BASE.
