(** The statements about the conversion of authenticated bits into commitments, packaged. *)
From Coq Require Import List NArith ZArith Bool Arith Lia Znumtheory.
From Verif Require Import L_Bits L_Res L_Modq S_Sched S_View S_OleView L_Group M_Utils M_Bn M_Ole M_Ec M_Commit M_ComConv M_Exch M_ExchCc M_CheatCc.
From Verif Require Import P_Ole P_ComConv P_ExchCc P_ViewCom.
Import ListNotations.
Local Open Scope Z_scope.

(** the key holder's values: batch size, seed and Deltas of its commitment, whether it is the sender
    of the OLE, the correlated OT of that OLE, its keys *)
Record pa_vals : Type := { pa_bs : nat; pa_seed : N; pa_bDelta : N; pa_aDelta : Z; pa_sends : bool; pa_Delta : N; pa_row : list N; pa_keys : list N }.
Definition pa_ok (C : Curve) (a : pa_vals) : Prop :=
  (1 <= pa_bs a)%nat /\ 2 ^ Z.of_nat (pa_bs a) - 1 < order C /\
  (pa_bDelta a < 2 ^ 128)%N /\ N.odd (pa_bDelta a) = true /\ Forall (fun k => N.odd k = false) (pa_keys a) /\
  (pa_seed a < 2 ^ 128)%N /\ 0 <= pa_aDelta a < order C /\ length (pa_row a) = BN_num_bits (order C).
Definition n_coms (a : pa_vals) : nat := ((length (pa_keys a) + pa_bs a - 1) / pa_bs a)%nat.
(** the MAC holder's values: what it draws, and the 65 bytes of its output buffer *)
Definition pb_drawn (C : Curve) (a : pa_vals) (v : pb_vals) : Prop :=
  0 <= pb_r v < order C /\ length (pb_rnds v) = n_coms a /\ Forall (fun x => 0 <= x < order C) (pb_rnds v) /\
  0 <= pb_rnd_r v < order C /\ (pb_yseed v < 2 ^ 128)%N /\ length (pb_buf v) = 65%nat.
(** the numbers the bits stand for, and the commitments to them *)
Definition numbers (a : pa_vals) (bits : list bool) : list Z := map (chunk_val bits (pa_bs a)) (seq 0 (n_coms a)).
Definition commitments {C : Curve} (h : pt C) (a : pa_vals) (bits : list bool) (v : pb_vals) : list (pt C) :=
  map2 (pc_commit h) (pb_rnds v) (numbers a bits).

Section PROPS.
Variables (ccrh : N -> N) (ccrh_o : N -> N) (hash : list N -> list N) (prg : N -> nat -> nat -> list N).
Context {C : Curve}.
Variable h : pt C.
Definition key_holder (a : pa_vals) : proc (res (list (pt C) * bool)) :=
  p_cc_send ccrh ccrh_o hash prg h (order C) (pa_bs a) (pa_seed a) (pa_bDelta a) (pa_aDelta a) (pa_sends a) (pa_Delta a)
    (cc_rows (order C) (pa_sends a) (pa_Delta a) [pa_row a] (pa_aDelta a)) (repeat pz (n_coms a)) (pa_keys a).
Definition mac_holder_unflushed (a : pa_vals) (v : pb_vals) (bits : list bool) : proc (res (list (pt C) * bool)) :=
  p_cc_recv ccrh ccrh_o hash prg h (order C) (pa_bs a) (pb_r v) (pb_rnds v) (pb_rnd_r v) (pb_yseed v) (pb_buf v) (pa_sends a) (pa_Delta a)
    (cc_rows (order C) (negb (pa_sends a)) (pa_Delta a) [pa_row a] (pb_r v)) (map2 (mac_of (pa_bDelta a)) (pa_keys a) bits).
Definition mac_holder (a : pa_vals) (v : pb_vals) (bits : list bool) : proc (res (list (pt C) * bool)) :=
  p_cc_recv_flushed ccrh ccrh_o hash prg h (order C) (pa_bs a) (pb_r v) (pb_rnds v) (pb_rnd_r v) (pb_yseed v) (pb_buf v) (pa_sends a) (pa_Delta a)
    (cc_rows (order C) (negb (pa_sends a)) (pa_Delta a) [pa_row a] (pb_r v)) (map2 (mac_of (pa_bDelta a)) (pa_keys a) bits).
(** a key holder that gives [x] to the OLE and reports [dec] of what it computes *)
Definition cheater {R} (x : Z) (dec : list Z -> Z -> R) (a : pa_vals) : proc (res R) :=
  p_cc_cheat ccrh ccrh_o hash prg h (order C) x dec (pa_bs a) (pa_seed a) (pa_bDelta a) (pa_aDelta a) (pa_sends a) (pa_Delta a)
    (cc_rows (order C) (pa_sends a) (pa_Delta a) [pa_row a] x) (repeat pz (n_coms a)) (pa_keys a).
End PROPS.

Lemma drawn_ok (C : Curve) a v : pb_drawn C a v -> pb_ok (pa_bs a) (pa_keys a) v (C := C).
Proof. intros (H1 & H2 & H3 & H4 & H5 & H6). repeat split; auto; lia. Qed.
Lemma drawn_iff (C : Curve) a v : pb_drawn C a v <-> pb_fresh (pa_bs a) (pa_keys a) v (C := C).
Proof.
  split.
  - intro H. assert (K := drawn_ok C a v H). destruct H as (H1 & H2 & H3 & H4 & H5 & H6). split; [exact K|]. split; [exact H3|exact H4].
  - intros ((H1 & H2 & H3 & H4) & H5 & H6). unfold pb_drawn. auto 10.
Qed.

Theorem completes_prop : forall ccrh ccrh_o hash prg (C : Curve) (h : pt C), annihilates C -> bound1000 (order C) ->
  (forall m, length (hash m) = DIGEST_SIZE) -> forall a, pa_ok C a -> forall v bits, pb_drawn C a v -> length bits = length (pa_keys a) ->
  always_completes (key_holder ccrh ccrh_o hash prg h a) (mac_holder ccrh ccrh_o hash prg h a v bits)
    (Ok (commitments h a bits v, true)) (Ok (commitments h a bits v, true)).
Proof.
  intros ccrh ccrh_o hash prg C h A Hq HL [bs seed bD aD se De row keys] (H1 & H2 & H3 & H4 & H5 & H6 & H7 & H8) v bits V L. apply drawn_ok in V.
  cbn [pa_bs pa_seed pa_bDelta pa_aDelta pa_sends pa_Delta pa_row pa_keys] in *.
  exact (cc_completes ccrh ccrh_o hash prg h A Hq HL bs seed bD aD se De row keys H1 H2 H3 H4 H5 H6 H7 H8 bits v L V).
Qed.
Theorem unflushed_prop : forall ccrh ccrh_o hash prg (C : Curve) (h : pt C), annihilates C -> bound1000 (order C) ->
  (forall m, length (hash m) = DIGEST_SIZE) -> forall a, pa_ok C a -> forall v bits, pb_drawn C a v -> length bits = length (pa_keys a) ->
  can_deadlock (key_holder ccrh ccrh_o hash prg h a) (mac_holder_unflushed ccrh ccrh_o hash prg h a v bits).
Proof.
  intros ccrh ccrh_o hash prg C h A Hq HL [bs seed bD aD se De row keys] (H1 & H2 & H3 & H4 & H5 & H6 & H7 & H8) v bits V L. apply drawn_ok in V.
  cbn [pa_bs pa_seed pa_bDelta pa_aDelta pa_sends pa_Delta pa_row pa_keys] in *.
  exact (cc_unflushed ccrh ccrh_o hash prg h A Hq HL bs seed bD aD se De row keys H1 H2 H3 H4 H5 H6 H7 H8 bits v L V).
Qed.
Theorem hides_sender_prop : forall ccrh ccrh_o hash prg (C : Curve) (h : pt C), annihilates C -> bound1000 (order C) ->
  (forall m, length (hash m) = DIGEST_SIZE) -> forall k, @gen C = smul k h ->
  forall a, pa_ok C a -> pa_sends a = true -> forall bits bits', length bits = length (pa_keys a) -> length bits' = length (pa_keys a) ->
  exists F G : pb_vals -> pb_vals,
    (forall v, pb_drawn C a v -> pb_drawn C a (F v) /\ G (F v) = v) /\
    (forall v, pb_drawn C a v -> pb_drawn C a (G v) /\ F (G v) = v) /\
    forall v, pb_drawn C a v -> exists coms va vb vb',
      runs_with_views (key_holder ccrh ccrh_o hash prg h a) (mac_holder ccrh ccrh_o hash prg h a v bits) (Ok (coms, true)) (Ok (coms, true)) va vb /\
      runs_with_views (key_holder ccrh ccrh_o hash prg h a) (mac_holder ccrh ccrh_o hash prg h a (F v) bits') (Ok (coms, true)) (Ok (coms, true)) va vb'.
Proof.
  intros ccrh ccrh_o hash prg C h A Hq HL k Hk a (H1 & H2 & H3 & H4 & H5 & H6 & H7 & H8) S bits bits' L L'.
  setoid_rewrite drawn_iff. destruct a as [bs seed bD aD se De row keys]. unfold key_holder, mac_holder, n_coms.
  cbn [pa_bs pa_seed pa_bDelta pa_aDelta pa_sends pa_Delta pa_row pa_keys] in *. subst se.
  exact (hides_send ccrh hash prg h A Hq HL k Hk bs seed bD aD De row keys H1 H2 H3 H4 H5 H6 H7 H8 ccrh_o bits bits' L L').
Qed.
Theorem hides_receiver_prop : forall ccrh ccrh_o hash prg (C : Curve) (h : pt C), annihilates C -> bound1000 (order C) -> order C <= 2 ^ 256 ->
  (forall m, length (hash m) = DIGEST_SIZE) -> forall k, @gen C = smul k h ->
  forall a, pa_ok C a -> pa_sends a = false ->
  let unknown := points (withheld (pa_Delta a)) (BN_num_bits (order C)) [pa_row a] [pa_aDelta a] in
  NoDup unknown -> (forall p, In p unknown -> ~ In p (points (held (pa_Delta a)) (BN_num_bits (order C)) [pa_row a] [pa_aDelta a])) ->
  forall bits bits', length bits = length (pa_keys a) -> length bits' = length (pa_keys a) ->
  exists F G : pb_vals -> pb_vals,
    (forall v, pb_drawn C a v -> pb_drawn C a (F v) /\ G (F v) = v) /\
    (forall v, pb_drawn C a v -> pb_drawn C a (G v) /\ F (G v) = v) /\
    forall v, pb_drawn C a v -> exists ccrh_o' coms va vb vb', (forall p, ~ In p unknown -> ccrh_o' p = ccrh_o p) /\
      runs_with_views (key_holder ccrh ccrh_o hash prg h a) (mac_holder ccrh ccrh_o hash prg h a v bits) (Ok (coms, true)) (Ok (coms, true)) va vb /\
      runs_with_views (key_holder ccrh ccrh_o' hash prg h a) (mac_holder ccrh ccrh_o' hash prg h a (F v) bits') (Ok (coms, true)) (Ok (coms, true)) va vb'.
Proof.
  intros ccrh ccrh_o hash prg C h A Hq Q256 HL k Hk a (H1 & H2 & H3 & H4 & H5 & H6 & H7 & H8) S unknown ND DJ bits bits' L L'.
  setoid_rewrite drawn_iff. unfold unknown in *. clear unknown. destruct a as [bs seed bD aD se De row keys]. unfold key_holder, mac_holder, n_coms.
  cbn [pa_bs pa_seed pa_bDelta pa_aDelta pa_sends pa_Delta pa_row pa_keys] in *. subst se.
  exact (hides_recv ccrh hash prg h A Hq HL k Hk bs seed bD aD De row keys H1 H2 H3 H4 H5 H6 H7 H8 Q256 ND DJ ccrh_o bits bits' L L').
Qed.
Theorem combination_prop : forall ccrh ccrh_o hash prg (C : Curve) (h : pt C), bound1000 (order C) ->
  (forall m, length (hash m) = DIGEST_SIZE) -> forall a, pa_ok C a -> exists x, 0 <= x < order C /\
  forall v bits, pb_drawn C a v -> length bits = length (pa_keys a) ->
  exists chi va vb, length chi = n_coms a /\
    runs_with_views (cheater ccrh ccrh_o hash prg h x pair a) (mac_holder ccrh ccrh_o hash prg h a v bits)
      (Ok (chi, P_Commit.dot chi (numbers a bits) mod order C)) (Ok (commitments h a bits v, true)) va vb.
Proof.
  intros ccrh ccrh_o hash prg C h Hq HL [bs seed bD aD se De row keys] (H1 & H2 & H3 & H4 & H5 & H6 & H7 & H8).
  cbn [pa_bs pa_seed pa_bDelta pa_aDelta pa_sends pa_Delta pa_row pa_keys] in *.
  assert (Q0 : 0 < order C) by (destruct Hq; lia).
  exists ((aD - 1) mod order C). split; [now apply Z.mod_pos_bound|]. intros v bits V L. apply drawn_ok in V.
  destruct (cheat_runs ccrh ccrh_o hash prg h Hq HL bs seed bD aD se De row keys H1 H2 H3 H4 H5 H6 H7 H8
    ((aD - 1) mod order C) pair bits v (Z.mod_pos_bound _ _ Q0) L V) as (va & vb & RV).
  eexists _, va, vb. split; [apply (chi_len ccrh hash prg h bs seed bD aD keys bits v)|].
  match type of RV with runs_with_views _ _ (Ok (?c, (?d * _) mod _)) _ _ _ =>
    replace ((d * (aD - (aD - 1) mod order C)) mod order C) with (d mod order C) in RV; [exact RV|];
    apply (proj1 (cong_iff (order C) d _ ltac:(lia))); rewrite mod_cong; generalize d; intro; cring end.
Qed.
Theorem all_bits_prop : forall ccrh ccrh_o hash prg (C : Curve) (h : pt C), bound1000 (order C) -> prime (order C) ->
  (forall m, length (hash m) = DIGEST_SIZE) -> (forall s, BN_bin2bn (prg s 0%nat (BN_num_bytes (order C))) mod order C <> 0) ->
  forall a, pa_ok C a -> (1 <= length (pa_keys a) <= pa_bs a)%nat ->
  exists x, 0 <= x < order C /\ exists dec : list Z -> Z -> list bool,
  forall v bits, pb_drawn C a v -> length bits = length (pa_keys a) ->
  exists va vb, runs_with_views (cheater ccrh ccrh_o hash prg h x dec a) (mac_holder ccrh ccrh_o hash prg h a v bits)
      (Ok bits) (Ok (commitments h a bits v, true)) va vb.
Proof.
  intros ccrh ccrh_o hash prg C h Hq Pq HL NZ [bs seed bD aD se De row keys] (H1 & H2 & H3 & H4 & H5 & H6 & H7 & H8) One.
  cbn [pa_bs pa_seed pa_bDelta pa_aDelta pa_sends pa_Delta pa_row pa_keys] in *.
  destruct (cheat_bits ccrh ccrh_o hash prg h Hq Pq HL bs seed bD aD se De row keys H1 H2 H3 H4 H5 H6 H7 H8 One) as (x & X & dec & H).
  exists x. split; [exact X|]. exists dec. intros v bits V L. apply drawn_ok in V.
  unfold cheater, n_coms. cbn [pa_bs pa_seed pa_bDelta pa_aDelta pa_sends pa_Delta pa_row pa_keys]. rewrite (one_chunk (C := C) bs seed bD row keys H1 H3 H6 H8 One).
  apply H; auto. unfold v_chi. rewrite (one_chunk (C := C) bs seed bD row keys H1 H3 H6 H8 One). unfold cc_chi. cbn [seq map]. intro E. injection E as E.
  match type of E with BN_mod (BN_bin2bn (prg ?s _ _)) _ = _ => apply (NZ s) end.
  unfold BN_mod in E. rewrite Z.rem_mod_nonneg in E by (unfold BN_bin2bn; destruct Hq; lia). exact E.
Qed.
