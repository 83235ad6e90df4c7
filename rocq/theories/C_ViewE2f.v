(** Properties C76 and C77: what a party learns from the online phase of the point conversion. *)
From Coq Require Import List NArith ZArith Bool Arith Lia Znumtheory.
From Verif Require Import L_Res L_Modq S_Sched S_View M_Bn M_Ole M_E2f M_Exch P_Ole P_E2f P_ViewE2f P_ViewMask.
Import ListNotations.
Local Open Scope Z_scope.
Local Opaque bn_buf.

(** ** C76: with uniform shares the messages are independent of the other party's point *)
Theorem C76_bob_view : forall q, bound1000 q -> prime q ->
  forall t xb yb xa ya xa' ya', ~ cong q xa xb -> ~ cong q xa' xb ->
  exists F G : e2f -> e2f,
    (forall s, share_ok q t s -> share_ok q t (F s) /\ G (F s) = s) /\
    (forall s, share_ok q t s -> share_ok q t (G s) /\ F (G s) = s) /\
    forall s, share_ok q t s -> exists oa va oa' va' ob vb,
      runs_with_views (p_e2f_online q true s xa ya) (p_e2f_online q false t xb yb) (Ok oa) (Ok ob) va vb /\
      runs_with_views (p_e2f_online q true (F s) xa' ya') (p_e2f_online q false t xb yb) (Ok oa') (Ok ob) va' vb.
Proof. exact bob_e2f. Qed.
Print Assumptions C76_bob_view.
Theorem C76_alice_view : forall q, bound1000 q -> prime q ->
  forall t xb yb xb' yb' xa ya, ~ cong q xa xb -> ~ cong q xa xb' ->
  exists F G : e2f -> e2f,
    (forall s, share_ok q t s -> share_ok q t (F s) /\ G (F s) = s) /\
    (forall s, share_ok q t s -> share_ok q t (G s) /\ F (G s) = s) /\
    forall s, share_ok q t s -> exists oa va ob vb ob' vb',
      runs_with_views (p_e2f_online q true t xa ya) (p_e2f_online q false s xb yb) (Ok oa) (Ok ob) va vb /\
      runs_with_views (p_e2f_online q true t xa ya) (p_e2f_online q false (F s) xb' yb') (Ok oa) (Ok ob') va vb'.
Proof. exact alice_e2f. Qed.
Print Assumptions C76_alice_view.
(** the shares that fit the party's own ones, in terms of the four masks, and the masks of the code *)
Theorem C76_share_of_masks : forall q, bound1000 q -> forall t a b bp r,
  0 <= a < q -> 0 <= b < q -> 0 <= bp < q -> 0 <= r < q -> ~ cong q (a + e_a t) 0 ->
  exists s, (share_ok q t s /\ e_a s = a /\ e_b s = b /\ e_bp s = bp /\ e_r s = r) /\
    forall s', share_ok q t s' /\ e_a s' = a /\ e_b s' = b /\ e_bp s' = bp /\ e_r s' = r -> s' = s.
Proof. exact share_of_masks. Qed.
Print Assumptions C76_share_of_masks.
Theorem C76_offline_shares : forall ccrh q bl ra rb Delta raw, bound1000 q -> q < 2 ^ Z.of_nat bl ->
  length raw = 5%nat -> Forall (fun r => length r = bl) raw ->
  exists s t, e2f_offline ccrh q bl ra rb Delta raw = Ok (s, t) /\
    [e_a s; e_b s; e_bp s; e_r s] = map (e2f_mask q bl) [rnd_a ra; rnd_b ra; rnd_bp ra; rnd_r ra] /\
    [e_a t; e_b t; e_bp t; e_r t] = map (e2f_mask q bl) [rnd_a rb; rnd_b rb; rnd_bp rb; rnd_r rb] /\
    (~ cong q (e_a s + e_a t) 0 -> share_ok q t s /\ share_ok q s t).
Proof. exact offline_shares. Qed.
Print Assumptions C76_offline_shares.
Example C76_ex : let t := {| e_a := 3; e_b := 5; e_c := 1; e_bp := 2; e_cp := 6; e_r := 4; e_r2 := 0 |} in
  bound1000 7 /\ prime 7 /\ ~ cong 7 1 3 /\ ~ cong 7 2 3 /\
  exists s, share_ok 7 t s.
Proof.
  intro t. split; [|split; [|split; [|split]]].
  - split; [lia|]. change 256 with (2 ^ 8). rewrite <- Z.pow_mul_r by lia. change 7 with (7 * 1). transitivity (2 ^ 3); [lia|].
    apply Z.pow_le_mono_r; [lia|]. Local Transparent bn_buf. unfold bn_buf. lia.
  - apply prime_intro; [lia|]. intros n Hn. apply Zgcd_1_rel_prime.
    assert (n = 1 \/ n = 2 \/ n = 3 \/ n = 4 \/ n = 5 \/ n = 6) as [-> | [-> | [-> | [-> | [-> | ->]]]]] by lia; reflexivity.
  - intros [k H]. lia.
  - intros [k H]. lia.
  - exists {| e_a := 1; e_b := 1; e_c := 2; e_bp := 6; e_cp := 5; e_r := 2; e_r2 := 1 |}. unfold share_ok, triples_ok. cbn [e_a e_b e_c e_bp e_cp e_r e_r2 t].
    split; [lia|]. split; [repeat split|intros [k H]; lia].
    + exists (-3). reflexivity.
    + exists (-3). reflexivity.
    + exists (-5). reflexivity.
Qed.

(** ** C77: with the masks the code draws, a view excludes almost half of the points *)
Theorem C77_seen : forall q bl, bound1000 q -> (1 <= bl)%nat -> 2 ^ (Z.of_nat bl - 1) < q < 2 ^ Z.of_nat bl ->
  forall ccrh ra rb Delta raw s t xa ya xb yb oa ob va vb, e2f_offline ccrh q bl ra rb Delta raw = Ok (s, t) ->
  runs_with_views (p_e2f_online q true s xa ya) (p_e2f_online q false t xb yb) (Ok oa) (Ok ob) va vb ->
  (exists ex ey rest, recv_bns 2 (on_io vb) = Ok ([ex; ey], rest) /\ 0 <= ex < q /\ 0 <= ey < q /\
    mask_value q bl ((- xa - ex) mod q) /\ mask_value q bl ((- ya - ey) mod q)) /\
  (exists ex ey rest, recv_bns 2 (on_opt va) = Ok ([ex; ey], rest) /\ 0 <= ex < q /\ 0 <= ey < q /\
    mask_value q bl ((xb - ex) mod q) /\ mask_value q bl ((yb - ey) mod q)).
Proof. exact seen_by_both. Qed.
Print Assumptions C77_seen.
Theorem C77_bob_excludes : forall q bl, bound1000 q -> (1 <= bl)%nat -> 2 ^ (Z.of_nat bl - 1) < q < 2 ^ Z.of_nat bl ->
  forall ccrh ra rb Delta raw s t xa ya xb yb oa ob va vb, e2f_offline ccrh q bl ra rb Delta raw = Ok (s, t) ->
  runs_with_views (p_e2f_online q true s xa ya) (p_e2f_online q false t xb yb) (Ok oa) (Ok ob) va vb ->
  exists f : Z -> Z,
    (forall v, 2 ^ Z.of_nat bl - q <= v < 2 ^ (Z.of_nat bl - 1) -> 0 <= f v < q) /\
    (forall v w, 2 ^ Z.of_nat bl - q <= v < 2 ^ (Z.of_nat bl - 1) -> 2 ^ Z.of_nat bl - q <= w < 2 ^ (Z.of_nat bl - 1) -> f v = f w -> v = w) /\
    forall v, 2 ^ Z.of_nat bl - q <= v < 2 ^ (Z.of_nat bl - 1) ->
    forall ra' rb' Delta' raw' s' t' x' y' oa' ob' va',
      e2f_offline ccrh q bl ra' rb' Delta' raw' = Ok (s', t') -> x' mod q = f v ->
      ~ runs_with_views (p_e2f_online q true s' x' y') (p_e2f_online q false t' xb yb) (Ok oa') (Ok ob') va' vb.
Proof. exact excluded_for_bob. Qed.
Print Assumptions C77_bob_excludes.
Theorem C77_alice_excludes : forall q bl, bound1000 q -> (1 <= bl)%nat -> 2 ^ (Z.of_nat bl - 1) < q < 2 ^ Z.of_nat bl ->
  forall ccrh ra rb Delta raw s t xa ya xb yb oa ob va vb, e2f_offline ccrh q bl ra rb Delta raw = Ok (s, t) ->
  runs_with_views (p_e2f_online q true s xa ya) (p_e2f_online q false t xb yb) (Ok oa) (Ok ob) va vb ->
  exists f : Z -> Z,
    (forall v, 2 ^ Z.of_nat bl - q <= v < 2 ^ (Z.of_nat bl - 1) -> 0 <= f v < q) /\
    (forall v w, 2 ^ Z.of_nat bl - q <= v < 2 ^ (Z.of_nat bl - 1) -> 2 ^ Z.of_nat bl - q <= w < 2 ^ (Z.of_nat bl - 1) -> f v = f w -> v = w) /\
    forall v, 2 ^ Z.of_nat bl - q <= v < 2 ^ (Z.of_nat bl - 1) ->
    forall ra' rb' Delta' raw' s' t' x' y' oa' ob' vb',
      e2f_offline ccrh q bl ra' rb' Delta' raw' = Ok (s', t') -> x' mod q = f v ->
      ~ runs_with_views (p_e2f_online q true s' xa ya) (p_e2f_online q false t' x' y') (Ok oa') (Ok ob') va vb'.
Proof. exact excluded_for_alice. Qed.
Print Assumptions C77_alice_excludes.
Theorem C77_p256_refuted : forall ccrh Delta raw, length raw = 5%nat -> Forall (fun r => length r = 256%nat) raw ->
  exists ra rb s t xa ya xb yb oa ob va vb x', 0 <= x' < p256 /\
    e2f_offline ccrh p256 256 ra rb Delta raw = Ok (s, t) /\
    runs_with_views (p_e2f_online p256 true s xa ya) (p_e2f_online p256 false t xb yb) (Ok oa) (Ok ob) va vb /\
    forall ra' rb' Delta' raw' s' t' y' oa' ob' va',
      e2f_offline ccrh p256 256 ra' rb' Delta' raw' = Ok (s', t') ->
      ~ runs_with_views (p_e2f_online p256 true s' x' y') (p_e2f_online p256 false t' xb yb) (Ok oa') (Ok ob') va' vb.
Proof. exact p256_refuted. Qed.
Print Assumptions C77_p256_refuted.
Example C77_ex : let raw := repeat (repeat 1%N 256) 5 in
  length raw = 5%nat /\ Forall (fun r => length r = 256%nat) raw /\ bound1000 p256 /\
  2 ^ (Z.of_nat 256 - 1) < p256 < 2 ^ Z.of_nat 256 /\
  exists ra rb s t oa ob va vb, e2f_offline (fun x => x) p256 256 ra rb 1 raw = Ok (s, t) /\
    runs_with_views (p_e2f_online p256 true s 0 2) (p_e2f_online p256 false t 1 3) (Ok oa) (Ok ob) va vb.
Proof.
  intro raw. assert (L : length raw = 5%nat) by reflexivity.
  assert (F : Forall (fun r => length r = 256%nat) raw) by (repeat constructor).
  split; [exact L|]. split; [exact F|]. split; [exact p256_bound|]. split; [split; vm_compute; reflexivity|].
  exists rnd0, rnd0. exact (p256_run (fun x => x) 1 raw 2 3 L F).
Qed.
