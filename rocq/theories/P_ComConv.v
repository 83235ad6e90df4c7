(** Completeness of the conversion of IT-MACed bits into Pedersen commitments. *)
From Coq Require Import List NArith ZArith Bool Arith Lia Setoid.
From Verif Require Import S_Cmp L_Bits L_Res L_Group L_Modq S_Codec M_Utils M_Bn M_Ole M_Ec M_Commit M_ComConv.
From Verif Require Import P_Utils P_Bn P_Ole P_Dh P_Commit.
Import ListNotations.
Local Open Scope Z_scope.

(** ** Wire encodings *)
Lemma recv_bn_arr s : recv_bn s = (let* (a, r) := recv_arr s in Ok (BN_bin2bn a, r))%res.
Proof.
  unfold recv_bn, recv_arr. destruct (_ <? 4)%nat; [reflexivity|]. destruct (_ <? _)%N; [reflexivity|].
  destruct (_ <? _)%nat; reflexivity.
Qed.
Lemma recv_arr_send x rest : (Z.abs_N x < 256 ^ N.of_nat bn_buf)%N ->
  exists bytes, send_bn x = Ok bytes /\ recv_arr (bytes ++ rest) = Ok (BN_bn2bin x, rest).
Proof.
  intro H. eexists; split; [now apply send_bn_ok|].
  pose proof (num_bytes_least x bn_buf H) as L. rewrite <- app_assoc. unfold recv_arr.
  rewrite (firstn_exact 4), (skipn_exact 4) by apply u32_length.
  rewrite app_length, u32_length.
  destruct (Nat.ltb_spec (4 + length (BN_bn2bin x ++ rest)) 4) as [X|_]; [lia|].
  assert (U : (N.of_nat (BN_num_bytes x) < 2 ^ 32)%N).
  { apply N.le_lt_trans with 1000%N; [|reflexivity]. unfold bn_buf in L. lia. }
  rewrite u32_round by exact U.
  destruct (N.ltb_spec (N.of_nat bn_buf) (N.of_nat (BN_num_bytes x))) as [X|_]; [lia|].
  rewrite Nat2N.id, app_length, bn2bin_length.
  destruct (Nat.ltb_spec (BN_num_bytes x + length rest) (BN_num_bytes x)) as [X|_]; [lia|].
  now rewrite firstn_exact, skipn_exact by apply bn2bin_length.
Qed.
Lemma recv_arrs_send l rest : Forall (fun x => (Z.abs_N x < 256 ^ N.of_nat bn_buf)%N) l ->
  exists bytes, send_bns l = Ok bytes /\ recv_arrs (length l) (bytes ++ rest) = Ok (map BN_bn2bin l, rest).
Proof.
  induction 1 as [|x l H _ (b & E & R)]; [exists []; now split|].
  destruct (recv_arr_send x (b ++ rest) H) as (b1 & E1 & R1).
  exists (b1 ++ b). cbn [send_bns]. rewrite E1, E. split; [reflexivity|].
  cbn [recv_arrs length map]. now rewrite <- app_assoc, R1; cbn [bind]; rewrite R.
Qed.
Lemma block_round b : (b < 2 ^ 128)%N -> block_of_bytes (bytes_of_block b) = b.
Proof.
  intro H. rewrite bytes_of_block_le, block_of_bytes_le by apply le_enc_bytes. rewrite le_val_enc.
  apply N.mod_small. exact H.
Qed.
Lemma block_len b : length (bytes_of_block b) = 16%nat.
Proof. rewrite bytes_of_block_le. apply le_enc_length. Qed.
Lemma recv_data_app n a b : length a = n -> recv_data n (a ++ b) = Ok (a, b).
Proof.
  intro L. unfold recv_data. rewrite app_length. destruct (Nat.ltb_spec (length a + length b) n); [lia|].
  now rewrite firstn_exact, skipn_exact.
Qed.
Lemma recv_data_len n s a r : recv_data n s = Ok (a, r) -> length a = n.
Proof.
  unfold recv_data. destruct (Nat.ltb_spec (length s) n); [discriminate|].
  intro X. injection X as <- _. rewrite firstn_length. lia.
Qed.
Lemma strncmp0_refl a : strncmp0 (length a) a a = Ok true.
Proof. induction a as [|x a IH]; [reflexivity|]. cbn. rewrite N.eqb_refl. cbn. now destruct (x =? 0)%N. Qed.
Lemma strncmp0_refl' n a : length a = n -> strncmp0 n a a = Ok true.
Proof. intros <-. apply strncmp0_refl. Qed.

(** ** Points *)
Section PTS.
Context {C : Curve}.
Notation point := (pt (cgrp C)).
Lemma put_oct_len buf (P : point) : length buf = 65%nat -> length (put_oct buf P) = 65%nat.
Proof.
  intro L. unfold put_oct. rewrite app_length, skipn_length, L.
  unfold point2oct. destruct (coords P) as [[x y]|]; cbn [length]; [|reflexivity].
  now rewrite app_length, !be32_len.
Qed.
Lemma put_oct_get buf (P : point) : length buf = 65%nat ->
  match oct2point (put_oct buf P) with Some Q => Q | None => pz end = P.
Proof.
  intro L. destruct (coords P) as [c|] eqn:E.
  - assert (N : P <> pz) by (intro X; apply coords_pz in X; congruence).
    unfold put_oct. rewrite oct_len, skipn_all2 by (auto; lia). now rewrite app_nil_r, oct_round.
  - apply coords_pz in E. subst P. unfold put_oct. rewrite oct_pz. cbn [length skipn app].
    destruct buf as [|x l]; [discriminate|]. cbn [skipn length] in *. unfold oct2point.
    destruct (negb _); [reflexivity|]. change (0 =? 4)%N with false. now destruct (Z.odd _).
Qed.
Lemma points_ok (Ps : list point) : forall buf rest, length buf = 65%nat ->
  recv_points (repeat pz (length Ps)) (send_points buf Ps ++ rest) = Ok (Ps, send_points buf Ps, rest).
Proof.
  induction Ps as [|P Ps IH]; intros buf rest L; [reflexivity|].
  cbn [length repeat recv_points send_points]. pose proof (put_oct_len buf P L) as L'.
  rewrite <- app_assoc, recv_data_app by auto. cbn [bind]. rewrite IH by auto. cbn [bind].
  now rewrite put_oct_get.
Qed.
End PTS.

(** ** Arithmetic *)
Section ARITH.
Variable ccrh : N -> N.
Variable q : Z.
Hypothesis Hq : bound1000 q.
Notation "a == b" := (cong q a b) (at level 70).

Lemma qpos : 0 < q.
Proof. destruct Hq. lia. Qed.
Lemma in_mod x : 0 <= x mod q < q.
Proof. apply Z.mod_pos_bound, qpos. Qed.
Lemma H_range b : 0 <= bn_H ccrh b q < q.
Proof.
  unfold bn_H, BN_mod. apply Z.rem_bound_pos; [|apply qpos]. rewrite bin2bn_val. lia.
Qed.

Local Opaque bn_H.
(** IT-MAC relation of the two parties' blocks *)
Definition mac_of (bDelta k : N) (x : bool) : N := if x then N.lxor k bDelta else k.
Lemma mac_lsb bDelta k x : N.odd bDelta = true -> N.odd k = false -> getLSB (mac_of bDelta k x) = x.
Proof.
  intros D K. unfold getLSB, mac_of. destruct x; [|exact K].
  rewrite <- N.bit0_odd, N.lxor_spec, !N.bit0_odd, D, K. reflexivity.
Qed.
Lemma mac_key bDelta k x : N.odd bDelta = true -> N.odd k = false ->
  (if getLSB (mac_of bDelta k x) then N.lxor (mac_of bDelta k x) bDelta else mac_of bDelta k x) = k.
Proof.
  intros D K. rewrite mac_lsb by auto. destruct x; [|reflexivity]. cbn. now rewrite N.lxor_assoc, N.lxor_nilpotent, N.lxor_0_r.
Qed.
Lemma convert_range bDelta aDelta k : 0 <= fst (cc_convert1 ccrh q bDelta aDelta k) < q.
Proof. apply in_mod. Qed.
Lemma mac_ok bDelta aDelta k x : N.odd bDelta = true -> N.odd k = false ->
  let (msg, aKEY) := cc_convert1 ccrh q bDelta aDelta k in
  let aMAC := cc_mac ccrh q (mac_of bDelta k x) msg in
  0 <= aMAC < q /\ aMAC == aKEY + Z.b2z x * aDelta.
Proof.
  intros D K. cbn [cc_convert1]. unfold cc_mac. rewrite mac_lsb by auto. destruct x; cbn [mac_of Z.b2z].
  - split; [apply in_mod|]. unfold BN_mod_add. generalize (bn_H ccrh k q) (bn_H ccrh (N.lxor k bDelta) q). intros u v.
    rewrite mod_cong, mod_cong. exists 1. ring.
  - split; [apply H_range|]. cring.
Qed.

Definition bitsv (bits : list bool) (a n : nat) : Z := Z.of_N (N_of_bits (firstn n (skipn a bits))).
Lemma bitsv_S bits a n x : nth_error bits a = Some x -> bitsv bits a (S n) = Z.b2z x + 2 * bitsv bits (S a) n.
Proof.
  intro E. unfold bitsv.
  assert (X : skipn a bits = x :: skipn (S a) bits).
  { revert bits E. induction a as [|a IH]; intros [|y bits] E; try discriminate; cbn in E; [injection E as ->; reflexivity|].
    cbn [skipn]. rewrite (IH bits E). reflexivity. }
  rewrite X. cbn [firstn N_of_bits]. rewrite N2Z.inj_add, N2Z.inj_mul. destruct x; reflexivity.
Qed.
Lemma exp_nth j : (j < BN_num_bits q)%nat -> nth_error (cc_exp q) j = Some (BN_mod (2 ^ Z.of_nat j) q).
Proof.
  intro H. unfold cc_exp. rewrite nth_error_map, (nth_error_nth' _ 0%nat) by (rewrite seq_length; lia).
  rewrite seq_nth by lia. reflexivity.
Qed.

Lemma batch_ok aDelta (keys macs : list Z) (bMACs : list N) (bits : list bool) base :
  length macs = length keys -> length bits = length keys -> length bMACs = length keys ->
  (forall i k m x, nth_error keys i = Some k -> nth_error macs i = Some m -> nth_error bits i = Some x ->
     m == k + Z.b2z x * aDelta) ->
  (forall i b x, nth_error bMACs i = Some b -> nth_error bits i = Some x -> getLSB b = x) ->
  forall n a ka ma xa, (a + n <= BN_num_bits q)%nat -> (base + a + n <= length keys)%nat ->
    0 <= ka < q -> 0 <= ma < q -> 0 <= xa < q -> ma == ka + xa * aDelta ->
    exists K M m, cc_batch q keys base (seq a n) ka = Ok K /\ cc_batch q macs base (seq a n) ma = Ok M /\
      cc_msg q bMACs base (seq a n) xa = Ok m /\ 0 <= K < q /\ 0 <= M < q /\ 0 <= m < q /\
      M == K + m * aDelta /\ m == xa + 2 ^ Z.of_nat a * bitsv bits (base + a) n.
Proof.
  intros L1 L2 L3 R B. induction n as [|n IH]; intros a ka ma xa Ha Hb Hk Hm Hx E.
  - exists ka, ma, xa. repeat (split; [first [reflexivity|assumption]|]).
    unfold bitsv. cbn [firstn N_of_bits Z.of_N]. cring.
  - cbn [seq cc_batch cc_msg]. rewrite exp_nth by lia. cbn [read bind].
    destruct (nth_error keys (base + a)) as [k|] eqn:Ek; [|apply nth_error_None in Ek; lia].
    destruct (nth_error macs (base + a)) as [m|] eqn:Em; [|apply nth_error_None in Em; lia].
    destruct (nth_error bits (base + a)) as [x|] eqn:Ex; [|apply nth_error_None in Ex; lia].
    destruct (nth_error bMACs (base + a)) as [b|] eqn:Eb; [|apply nth_error_None in Eb; lia].
    cbn [read bind]. rewrite (B _ _ _ Eb Ex).
    set (e := BN_mod (2 ^ Z.of_nat a) q). assert (Ee : e == 2 ^ Z.of_nat a) by apply rem_cong.
    assert (Xr : 0 <= (if x then BN_mod_add xa e q else xa) < q) by (destruct x; [apply in_mod|auto]).
    assert (Xc : (if x then BN_mod_add xa e q else xa) == xa + Z.b2z x * 2 ^ Z.of_nat a).
    { destruct x; cbn [Z.b2z]; [unfold BN_mod_add; rewrite mod_cong, Ee; cring|cring]. }
    destruct (IH (S a) (BN_mod_add ka (BN_mod_mul e k q) q) (BN_mod_add ma (BN_mod_mul e m q) q)
                (if x then BN_mod_add xa e q else xa)) as (K & M & v & A1 & A2 & A3 & A4 & A5 & A6 & A7 & A8);
      try lia; try apply in_mod; try exact Xr.
    + unfold BN_mod_add at 1 2, BN_mod_mul. rewrite !mod_cong, Xc, E, (R _ _ _ _ Ek Em Ex), Ee. cring.
    + exists K, M, v. repeat (split; [assumption|]). rewrite A8, Xc.
      replace (base + S a)%nat with (S (base + a)) by lia.
      rewrite (bitsv_S _ _ _ _ Ex). rewrite Nat2Z.inj_succ, Z.pow_succ_r by lia. cring.
Qed.

Lemma lin_cong l : forall acc, cc_lin q acc l == acc + dot (map fst l) (map snd l).
Proof.
  induction l as [|[c v] l IH]; intro acc; cbn [cc_lin map dot fst snd]; [cring|].
  rewrite IH. unfold BN_mod_add, BN_mod_mul. rewrite !mod_cong. cring.
Qed.
Lemma lin_range l : forall acc, 0 <= acc < q -> 0 <= cc_lin q acc l < q.
Proof. induction l as [|[c v] l IH]; intros acc H; cbn [cc_lin]; [exact H|]. apply IH, in_mod. Qed.
Lemma dot_cong aDelta chi : forall ks ms xs, length ks = length chi -> length ms = length chi -> length xs = length chi ->
  Forall2 (fun m kx => m == fst kx + snd kx * aDelta) ms (combine ks xs) ->
  dot chi ms == dot chi ks + dot chi xs * aDelta.
Proof.
  induction chi as [|c chi IH]; intros [|k ks] [|m ms] [|x xs] L1 L2 L3 F; try discriminate; cbn [dot]; [cring|].
  inversion F as [|? ? ? ? E F']; subst. cbn [fst snd] in E.
  rewrite (IH ks ms xs) by (auto; cbn in *; lia). rewrite E. cring.
Qed.
End ARITH.

(** ** Completeness *)
Definition chunk_val (bits : list bool) (bs i : nat) : Z := Z.of_N (N_of_bits (firstn bs (skipn (i * bs) bits))).

Section COMPLETE.
Variable ccrh : N -> N.
Variable hash : list N -> list N.
Variable prg : N -> nat -> nat -> list N.
Context {C : Curve}.
Notation point := (pt (cgrp C)).
Variable h : point.
Notation q := (order (cgrp C)).
Hypothesis A : annihilates C.
Hypothesis Hq : bound1000 q.
Hypothesis hash_len : forall m, length (hash m) = DIGEST_SIZE.
Notation "a == b" := (cong q a b) (at level 70).

Lemma mapM_ok {X Y} (f : X -> res Y) (g : X -> Y) l : (forall x, In x l -> f x = Ok (g x)) -> mapM f l = Ok (map g l).
Proof.
  induction l as [|x l IH]; intro H; [reflexivity|]. cbn. rewrite H by now left. cbn. rewrite IH; [reflexivity|].
  intros y I. apply H. now right.
Qed.
Lemma num_bits_pow : q < 2 ^ Z.of_nat (BN_num_bits q).
Proof.
  unfold BN_num_bits. rewrite N_nat_Z. assert (H := qpos q Hq).
  replace q with (Z.of_N (Z.abs_N q)) at 1 by (rewrite N2Z.inj_abs_N; lia).
  assert (S : (Z.abs_N q < 2 ^ N.size (Z.abs_N q))%N).
  { destruct (N.eq_dec (Z.abs_N q) 0) as [E|N]; [rewrite E; reflexivity|].
    rewrite N.size_log2 by auto. apply N.log2_spec. lia. }
  apply N2Z.inj_lt in S. now rewrite N2Z.inj_pow in S.
Qed.
Lemma bs_bits bs : 2 ^ Z.of_nat bs - 1 < q -> (bs <= BN_num_bits q)%nat.
Proof.
  intro H. destruct (le_lt_dec bs (BN_num_bits q)) as [L|L]; [exact L|exfalso].
  pose proof num_bits_pow as P.
  assert (2 ^ Z.of_nat (BN_num_bits q) <= 2 ^ Z.of_nat (bs - 1)) by (apply Z.pow_le_mono_r; lia).
  assert (E : 2 ^ Z.of_nat bs = 2 * 2 ^ Z.of_nat (bs - 1)).
  { rewrite <- Z.pow_succ_r by lia. f_equal. lia. }
  lia.
Qed.
Lemma mapM3 {X U V W} (f : X -> res U) (g : X -> res V) (e : X -> res W) (R : X -> U -> V -> W -> Prop) l :
  (forall x, In x l -> exists a b c, f x = Ok a /\ g x = Ok b /\ e x = Ok c /\ R x a b c) ->
  exists la lb lc, mapM f l = Ok la /\ mapM g l = Ok lb /\ mapM e l = Ok lc /\
    length la = length l /\ length lb = length l /\ length lc = length l /\
    Forall2 (fun x abc => R x (fst (fst abc)) (snd (fst abc)) (snd abc)) l (combine (combine la lb) lc).
Proof.
  induction l as [|x l IH]; intro H.
  - exists [], [], []. repeat split. constructor.
  - destruct (H x (or_introl eq_refl)) as (a & b & c & E1 & E2 & E3 & r).
    destruct IH as (la & lb & lc & F1 & F2 & F3 & L1 & L2 & L3 & F); [intros y I; apply H; now right|].
    exists (a :: la), (b :: lb), (c :: lc). cbn [mapM]. rewrite E1, E2, E3, F1, F2, F3. cbn [bind].
    repeat (split; [cbn [length]; congruence|]). constructor; auto.
Qed.

Section CHUNKS.
Variable aDelta : Z.
Variables (keys macs : list Z) (bMACs : list N) (bits : list bool).
Hypothesis L1 : length macs = length keys.
Hypothesis L2 : length bits = length keys.
Hypothesis L3 : length bMACs = length keys.
Hypothesis R : forall i k m x, nth_error keys i = Some k -> nth_error macs i = Some m -> nth_error bits i = Some x ->
     m == k + Z.b2z x * aDelta.
Hypothesis B : forall i b x, nth_error bMACs i = Some b -> nth_error bits i = Some x -> getLSB b = x.
Variable bs : nat.
Hypothesis Hbs : (1 <= bs)%nat.
Hypothesis Hsz : 2 ^ Z.of_nat bs - 1 < q.
Let n := length keys.
Let cl := ((n + bs - 1) / bs)%nat.
Lemma chunk_in i : (i < cl)%nat -> (i * bs < n)%nat.
Proof.
  unfold cl. intro H. assert (D := Nat.div_mod (n + bs - 1) bs ltac:(lia)).
  pose proof (Nat.mod_upper_bound (n + bs - 1) bs ltac:(lia)). nia.
Qed.
Lemma chunk_val_range i : 0 <= chunk_val bits bs i < q.
Proof.
  unfold chunk_val. pose proof (N_of_bits_lt (firstn bs (skipn (i * bs) bits))) as H.
  assert (L : (length (firstn bs (skipn (i * bs) bits)) <= bs)%nat) by (rewrite firstn_length; lia).
  apply N2Z.inj_lt in H. rewrite N2Z.inj_pow, nat_N_Z in H. change (Z.of_N 2) with 2 in H.
  assert (2 ^ Z.of_nat (length (firstn bs (skipn (i * bs) bits))) <= 2 ^ Z.of_nat bs) by (apply Z.pow_le_mono_r; lia).
  lia.
Qed.
Lemma chunk_val_min i : (i < cl)%nat -> bitsv bits (i * bs) (Nat.min bs (n - i * bs)) = chunk_val bits bs i.
Proof.
  intro H. unfold bitsv, chunk_val. f_equal. f_equal.
  destruct (le_lt_dec bs (n - i * bs)) as [X|X]; [now rewrite Nat.min_l by lia|].
  rewrite Nat.min_r by lia. rewrite !firstn_all2; auto; rewrite skipn_length; unfold n in *; lia.
Qed.
Lemma chunks_ok : exists Ks Ms, cc_batches q keys bs cl = Ok Ks /\ cc_batches q macs bs cl = Ok Ms /\
  cc_msgs q bMACs bs cl = Ok (map (chunk_val bits bs) (seq 0 cl)) /\
  length Ks = cl /\ length Ms = cl /\
  Forall2 (fun m kx => m == fst kx + snd kx * aDelta) Ms (combine Ks (map (chunk_val bits bs) (seq 0 cl))).
Proof.
  unfold cc_batches, cc_msgs. rewrite L1, L3. fold n.
  destruct (mapM3 (fun i => cc_batch q keys (i * bs) (cc_range n bs i) 0)
                  (fun i => cc_batch q macs (i * bs) (cc_range n bs i) 0)
                  (fun i => cc_msg q bMACs (i * bs) (cc_range n bs i) 0)
                  (fun i K M m => M == K + m * aDelta /\ m = chunk_val bits bs i) (seq 0 cl))
    as (Ks & Ms & ms & E1 & E2 & E3 & K1 & K2 & K3 & F).
  - intros i I. apply in_seq in I. assert (Hi : (i < cl)%nat) by lia. pose proof (chunk_in i Hi) as Hn.
    pose proof (bs_bits bs Hsz) as Hb. pose proof (qpos q Hq) as Q0.
    destruct (batch_ok q Hq aDelta keys macs bMACs bits (i * bs) L1 L2 L3 R B
                (Nat.min bs (n - i * bs)) 0 0 0 0) as (K & M & m & P1 & P2 & P3 & P4 & P5 & P6 & P7 & P8); try lia; try cring.
    exists K, M, m. unfold cc_range. repeat (split; [assumption|]).
    apply (cong_small q m (chunk_val bits bs i) P6 (chunk_val_range i)). rewrite P8, Nat.add_0_r, chunk_val_min by auto.
    change (2 ^ Z.of_nat 0) with 1. cring.
  - exists Ks, Ms. rewrite E1, E2, E3. rewrite seq_length in K1, K2, K3.
    assert (Em : ms = map (chunk_val bits bs) (seq 0 cl)).
    { clear E1 E2 E3. generalize dependent (seq 0 cl). intros l F.
      assert (Lab : length ms = length (combine Ks Ms)) by (rewrite combine_length; lia).
      clear K1 K2 K3. revert ms Lab l F. induction (combine Ks Ms) as [|ab c IH]; intros [|m ms] Lab l F; try discriminate;
        cbn [combine] in F; inversion F; subst; [reflexivity|]. cbn [map]. f_equal; [tauto|]. apply IH; auto. }
    subst ms. repeat (split; [first [reflexivity|assumption]|]).
    clear E1 E2 E3 K3. set (ms := map (chunk_val bits bs) (seq 0 cl)) in *.
    assert (Lm : length ms = cl) by (unfold ms; now rewrite map_length, seq_length).
    assert (Ls : length (seq 0 cl) = cl) by apply seq_length.
    clearbody ms. revert F Ls. generalize (seq 0 cl). generalize dependent cl. clear.
    revert Ms ms. induction Ks as [|K Ks IH]; intros [|M Ms] [|m ms] c H1 H2 H3 l F Hl; cbn in H1, H2, H3; try lia; [constructor|].
    destruct l as [|x l]; [cbn in Hl; lia|]. cbn [combine] in *. inversion F; subst. constructor; [tauto|].
    apply (IH Ms ms (length Ks)) with (l := l); auto; try (cbn in *; lia).
Qed.
End CHUNKS.

Lemma fits x : 0 <= x < q -> (Z.abs_N x < 256 ^ N.of_nat bn_buf)%N.
Proof. now apply bound_fits. Qed.
Lemma arr_small x : 0 <= x < q -> (bn_buf <? length (BN_bn2bin x))%nat = false.
Proof.
  intro H. rewrite bn2bin_length. apply Nat.ltb_ge. apply num_bytes_least. now apply fits.
Qed.
Lemma ole_one s Delta raw aDelta r : 0 <= aDelta < q -> 0 <= r < q ->
  length raw = 1%nat -> Forall (fun l => length l = BN_num_bits q) raw ->
  exists oa rMAC, cc_ole ccrh q s Delta raw aDelta r = Ok (oa, rMAC) /\ 0 <= oa < q /\ 0 <= rMAC < q /\
    rMAC == r * aDelta - oa.
Proof.
  intros Ha Hr Lr Fr. pose proof num_bits_pow as NB. unfold cc_ole.
  destruct s; cbn [fst snd].
  - destruct (ole_correct ccrh q (BN_num_bits q) Delta [aDelta] [r] raw Hq eq_refl Lr Fr) as (os & or_ & E & L1 & L2 & F1 & F2 & H).
    { repeat constructor; lia. }
    rewrite E. destruct os as [|a [|? ?]]; try discriminate. destruct or_ as [|b [|? ?]]; try discriminate.
    cbn [bind nth_error read]. exists a, b. inversion F1; inversion F2; subst. repeat (split; [auto|]).
    specialize (H 0%nat ltac:(cbn; lia)). cbn [nth] in H. apply cong_iff in H; [|lia].
    transitivity (a + b - a); [cring|]. rewrite H. cring.
  - destruct (ole_correct ccrh q (BN_num_bits q) Delta [r] [aDelta] raw Hq eq_refl Lr Fr) as (os & or_ & E & L1 & L2 & F1 & F2 & H).
    { repeat constructor; lia. }
    rewrite E. destruct os as [|a [|? ?]]; try discriminate. destruct or_ as [|b [|? ?]]; try discriminate.
    cbn [bind nth_error read]. exists b, a. inversion F1; inversion F2; subst. repeat (split; [auto|]).
    specialize (H 0%nat ltac:(cbn; lia)). cbn [nth] in H. apply cong_iff in H; [|lia].
    transitivity (a + b - b); [cring|]. rewrite H. cring.
Qed.

Lemma some_inj {X} (a b : X) : Some a = Some b -> a = b.
Proof. intro H. now injection H. Qed.
Section CONV.
Local Opaque bn_H cc_mac cc_convert1.
Variables (bDelta : N) (aDelta : Z) (bKEYs : list N) (bits : list bool).
Hypothesis Lb : length bits = length bKEYs.
Hypothesis D : N.odd bDelta = true.
Hypothesis K : Forall (fun k => N.odd k = false) bKEYs.
Notation bMACs := (map2 (mac_of bDelta) bKEYs bits).
Notation l := (cc_convert ccrh q bDelta aDelta bKEYs).
Lemma conv_macs_len : length bMACs = length bKEYs.
Proof. rewrite map2_length. lia. Qed.
Lemma conv_range : Forall (fun x => 0 <= x < q) (map fst l).
Proof. apply Forall_map, Forall_map, Forall_forall. intros k _. now apply convert_range. Qed.
Lemma conv_lsb i b x : nth_error bMACs i = Some b -> nth_error bits i = Some x -> getLSB b = x.
Proof.
  revert bits Lb i b x. induction K as [|k ks Hk _ IH]; intros [|y bits] Lb i b x; try discriminate.
  - now destruct i.
  - cbn [map2]. destruct i as [|i]; cbn [nth_error].
    + intros E1 E2. injection E1 as <-. injection E2 as <-. now apply mac_lsb.
    + apply IH; [now inversion K|cbn in Lb; lia].
Qed.
Lemma conv_rel i k m x : nth_error (map snd l) i = Some k ->
  nth_error (map2 (cc_mac ccrh q) bMACs (map fst l)) i = Some m -> nth_error bits i = Some x ->
  m == k + Z.b2z x * aDelta.
Proof.
  revert bits Lb i k m x. induction K as [|bk ks Hk _ IH]; intros [|y bits] Lb i k m x; try discriminate.
  - now destruct i.
  - destruct i as [|i].
    + cbn [map2 nth_error cc_convert map]. intros E1 E2 E3. apply some_inj in E1. apply some_inj in E2. apply some_inj in E3. subst k m x.
      pose proof (mac_ok ccrh q Hq bDelta aDelta bk y D Hk) as M.
      destruct (cc_convert1 ccrh q bDelta aDelta bk) as [msg aKEY]. cbn [fst snd]. apply M.
    + cbn [map2 nth_error cc_convert map]. apply IH; [now inversion K|cbn in Lb; lia].
Qed.
Lemma conv_back : map (fun b => if getLSB b then N.lxor b bDelta else b) bMACs = bKEYs.
Proof.
  revert bits Lb. induction K as [|k ks Hk _ IH]; intros [|y bits] Lb; try discriminate; [reflexivity|].
  cbn [map2 map]. rewrite mac_key by auto. f_equal. apply IH; [now inversion K|cbn in Lb; lia].
Qed.
End CONV.

Lemma map_bin l : Forall (fun x => 0 <= x < q) l -> map BN_bin2bn (map BN_bn2bin l) = l.
Proof.
  induction 1 as [|x l H _ IH]; [reflexivity|]. cbn [map]. rewrite bin2bn_bn2bin, IH, Z.abs_eq by lia. reflexivity.
Qed.
Lemma dot_app a : forall b a' b', length a = length b -> dot (a ++ a') (b ++ b') = dot a b + dot a' b'.
Proof.
  induction a as [|x a IH]; intros [|y b] a' b' L; try discriminate; cbn [dot app]; [reflexivity|].
  rewrite IH by (cbn in L; lia). ring.
Qed.

Lemma conv_len bDelta aDelta ks : length (cc_convert ccrh q bDelta aDelta ks) = length ks.
Proof. apply map_length. Qed.
Local Opaque bn_H BN_bn2bin send_bn recv_bn oct2point point2oct bytes_of_block block_of_bytes cc_convert.
Theorem cc_complete bs bDelta bKEYs bits r :
  (1 <= bs)%nat -> 2 ^ Z.of_nat bs - 1 < q ->
  (bDelta < 2 ^ 128)%N -> N.odd bDelta = true -> Forall (fun k => N.odd k = false) bKEYs ->
  length bits = length bKEYs ->
  0 <= cr_aDelta r < q -> (cr_seed r < 2 ^ 128)%N -> 0 <= cr_r r < q -> (cr_yseed r < 2 ^ 128)%N ->
  let cl := ((length bKEYs + bs - 1) / bs)%nat in
  length (cr_rnds r) = cl -> length (cr_buf r) = 65%nat ->
  length (cr_raw r) = 1%nat -> Forall (fun l => length l = BN_num_bits q) (cr_raw r) ->
  let com := map2 (pc_commit h) (cr_rnds r) (map (chunk_val bits bs) (seq 0 cl)) in
  cc_run ccrh hash prg h q bs bDelta (repeat pz cl) bKEYs (map2 (mac_of bDelta) bKEYs bits) r
    = Ok (com, true, com, true).
Proof.
  intros Hbs Hsz HbD OD FK Lb Ra Hs Rr Hys cl Lr Lbuf Lraw Fraw com.
  set (bMACs := map2 (mac_of bDelta) bKEYs bits).
  pose proof (qpos q Hq) as Q0.
  unfold cc_run. unfold cc_size_ok. rewrite (proj2 (Z.ltb_lt _ _) Hsz). cbn [negb].
  unfold cc_hash at 1. rewrite arr_small by auto. cbn [bind].
  set (dcom := hash (bytes_of_block (cr_seed r) ++ bytes_of_block bDelta ++
                     u32_bytes (N.of_nat (length (BN_bn2bin (cr_aDelta r)))) ++ BN_bn2bin (cr_aDelta r))).
  destruct (ole_one (cr_pa_sends r) (cr_Delta r) (cr_raw r) (cr_aDelta r) (cr_r r) Ra Rr Lraw Fraw)
    as (oa & rMAC & EO & Roa & RrM & CO).
  rewrite EO. cbn [bind].
  set (l := cc_convert ccrh q bDelta (cr_aDelta r) bKEYs).
  assert (Lml : length bMACs = length bKEYs) by now apply conv_macs_len.
  assert (Ll : length l = length bKEYs) by apply conv_len.
  assert (Fl : Forall (fun x => 0 <= x < q) (map fst l)) by apply conv_range.
  destruct (recv_arrs_send (map fst l) []) as (m1 & Es & Er).
  { eapply Forall_impl; [|exact Fl]. intros x Hx. now apply fits. }
  rewrite map_length, Ll in Er. rewrite app_nil_r in Er.
  unfold cc_convert_send. fold l. rewrite Es. cbn [bind].
  unfold cc_convert_recv. rewrite Lml, Er. cbn [bind]. rewrite map_bin by auto.
  assert (EH : concat (map BN_bn2bin (map fst l)) = bn_hashed (map fst l)).
  { unfold bn_hashed. symmetry. apply flat_map_concat_map. }
  rewrite EH. set (mcom := hash (bn_hashed (map fst l))).
  set (macs := map2 (cc_mac ccrh q) bMACs (map fst l)). set (keys := map snd l).
  assert (Lk : length keys = length bKEYs) by (unfold keys; now rewrite map_length).
  assert (Lm : length macs = length bKEYs) by (unfold macs; rewrite map2_length, map_length; lia).
  destruct (chunks_ok (cr_aDelta r) keys macs bMACs bits) with (bs := bs) as (Ks & Ms & EK & EM & Emsg & LK & LM & FC); auto; try congruence.
  { intros. eapply conv_rel; eauto. }
  { intros. eapply conv_lsb; eauto. }
  rewrite Lk in *. fold cl in EK, EM, Emsg, LK, LM, FC.
  set (msgs := map (chunk_val bits bs) (seq 0 cl)) in *.
  assert (Lmsgs : length msgs = cl) by (unfold msgs; now rewrite map_length, seq_length).
  unfold cc_pb_mid, cc_chunk_len. rewrite Lml.
  destruct (Nat.eqb_spec bs 0) as [X|_]; [lia|]. cbn [bind]. fold cl. rewrite Emsg, EM. cbn [bind].
  rewrite (proj2 (Nat.eqb_eq _ _) Lr). cbn [negb]. fold com.
  set (comm_r := pc_commit h (cr_rnd_r r) (cr_r r)).
  set (pts := send_points (cr_buf r) (com ++ [comm_r])).
  set (chi := cc_chi prg q (hash ((dcom ++ mcom) ++ pts)) cl).
  assert (Lchi : length chi = cl) by (unfold chi, cc_chi; now rewrite map_length, seq_length).
  assert (Lcom : length com = cl) by (unfold com; rewrite map2_length; fold msgs; lia).
  rewrite !linear_rand_ok by (auto; rewrite !app_length; cbn [length]; lia). cbn [bind].
  set (rnd_y := dot (chi ++ [1]) (cr_rnds r ++ [cr_rnd_r r]) mod q).
  set (msg_y := dot (chi ++ [1]) (msgs ++ [cr_r r]) mod q).
  assert (Rry : 0 <= rnd_y < q) by now apply Z.mod_pos_bound.
  assert (Rmy : 0 <= msg_y < q) by now apply Z.mod_pos_bound.
  set (yMAC := cc_lin q rMAC (combine chi Ms)).
  assert (Ry : 0 <= yMAC < q) by now apply lin_range.
  unfold cc_ymac_com at 1. rewrite arr_small by auto. cbn [bind].
  set (ycom := hash (bytes_of_block (cr_yseed r) ++ BN_bn2bin yMAC)).
  destruct (recv_send msg_y [] (fits _ Rmy)) as (b2 & S2 & R2).
  destruct (recv_send rnd_y b2 (fits _ Rry)) as (b1 & S1 & R1).
  rewrite app_nil_r in R2. rewrite Z.abs_eq in R1, R2 by lia.
  cbn [send_bns]. rewrite S1, S2. cbn [bind].
  (* Pa *)
  unfold cc_pa_mid, cc_chunk_len. rewrite Lk. destruct (Nat.eqb_spec bs 0) as [X|_]; [lia|]. cbn [bind]. fold cl.
  rewrite EK. cbn [bind]. rewrite repeat_length, Nat.eqb_refl. cbn [negb].
  assert (EP : recv_points (repeat pz cl ++ [EC_POINT_new]) pts = Ok (com ++ [comm_r], pts, [])).
  { pose proof (points_ok (com ++ [comm_r]) (cr_buf r) [] Lbuf) as PO. fold pts in PO. rewrite app_nil_r in PO.
    rewrite app_length, Lcom in PO. cbn [length] in PO. rewrite repeat_app in PO. exact PO. }
  rewrite EP. cbn [bind]. fold chi.
  rewrite linear_com_ok by (rewrite !app_length; cbn [length]; lia). cbn [bind].
  set (com_y := lincomb (chi ++ [1]) (com ++ [comm_r])).
  set (yKEY := cc_lin q (q - oa) (combine chi Ks)).
  (* open *)
  destruct (recv_send (cr_aDelta r) [] (fits _ Ra)) as (b3 & S3 & R3).
  rewrite app_nil_r in R3. rewrite Z.abs_eq in R3 by lia.
  unfold cc_open_send. rewrite S3. cbn [bind].
  unfold cc_open_recv. rewrite recv_data_app by apply block_len. cbn [bind].
  rewrite recv_data_app by apply block_len. cbn [bind]. rewrite !block_round by auto. rewrite R3. cbn [bind].
  unfold cc_hash. rewrite arr_small by auto. cbn [bind]. fold dcom.
  rewrite (strncmp0_refl' DIGEST_SIZE dcom) by apply hash_len. cbn [bind].
  unfold bMACs at 1 2. rewrite conv_back by auto. fold l.
  assert (EX : existsb (fun m => (bn_buf <? length (BN_bn2bin m))%nat) (map fst l) = false).
  { clear -Fl Hq. induction Fl as [|x t Hx _ IH]; [reflexivity|]. cbn [existsb]. rewrite IH, arr_small by auto. reflexivity. }
  rewrite EX. fold mcom. rewrite (strncmp0_refl' DIGEST_SIZE mcom) by apply hash_len. cbn [bind andb].
  (* end *)
  destruct (recv_send yMAC [] (fits _ Ry)) as (b4 & S4 & R4).
  rewrite app_nil_r in R4. rewrite Z.abs_eq in R4 by lia.
  unfold cc_pb_end. rewrite S4. cbn [bind].
  unfold cc_pa_end. rewrite recv_data_app by apply hash_len. cbn [bind].
  rewrite app_nil_r, R1. cbn [bind]. rewrite R2. cbn [bind].
  rewrite recv_data_app by apply block_len. cbn [bind]. rewrite R4. cbn [bind].
  rewrite block_round by auto. unfold cc_ymac_com. rewrite arr_small by auto. cbn [bind]. fold ycom.
  rewrite (proj2 (memcmp0_true DIGEST_SIZE ycom ycom (hash_len _) (hash_len _)) eq_refl). cbn [bind].
  assert (OC : pc_open_check h com_y rnd_y msg_y = true).
  { apply pc_open_iff. unfold com_y. unfold comm_r, com.
    replace (map2 (pc_commit h) (cr_rnds r) msgs ++ [pc_commit h (cr_rnd_r r) (cr_r r)])
      with (map2 (pc_commit h) (cr_rnds r ++ [cr_rnd_r r]) (msgs ++ [cr_r r])) by (rewrite map2_app by lia; reflexivity).
    rewrite lincomb_commit by (rewrite !app_length; cbn [length]; lia).
    unfold rnd_y, msg_y. now rewrite !smul_mod by exact A. }
  rewrite OC. cbn [andb].
  assert (EY : yMAC = BN_mod_add yKEY (BN_mod_mul msg_y (cr_aDelta r) q) q).
  { apply (cong_small q); [exact Ry|now apply Z.mod_pos_bound|]. unfold BN_mod_add, BN_mod_mul. rewrite !mod_cong.
    unfold yMAC, yKEY. rewrite !lin_cong. rewrite !combine_fst, !combine_snd by lia.
    unfold msg_y. rewrite mod_cong. rewrite dot_app by lia. cbn [dot].
    rewrite (dot_cong q (cr_aDelta r) chi Ks Ms msgs) by (auto; lia).
    rewrite CO. generalize (dot chi Ks) (dot chi msgs). intros u v. exists (-1). ring. }
  rewrite (proj2 (Z.eqb_eq _ _) EY). rewrite firstn_exact by exact Lcom. reflexivity.
Qed.
End COMPLETE.

(** ** What the two verdicts mean *)
Lemma strncmp0_iff n : forall a b, length a = n -> length b = n ->
  (strncmp0 n a b = Ok true <-> a = b \/ exists k, (k < n)%nat /\ nth k a 0%N = 0%N /\ firstn (S k) a = firstn (S k) b).
Proof.
  induction n as [|n IH]; intros [|x a] [|y b] La Lb; try discriminate.
  - split; auto.
  - cbn [strncmp0]. destruct (N.eqb_spec x y) as [->|NE]; cbn [negb].
    + destruct (N.eqb_spec y 0) as [->|NZ].
      * split; [|reflexivity]. intros _. right. exists 0%nat. split; [lia|]. split; reflexivity.
      * rewrite IH by (cbn in La, Lb; lia). split.
        -- intros [->|(k & Hk & Hz & E)]; [now left|right]. exists (S k). split; [lia|]. split; [exact Hz|].
           cbn [firstn] in *. now rewrite E.
        -- intros [E|(k & Hk & Hz & E)]; [left; congruence|right].
           destruct k as [|k]; [cbn in Hz; congruence|]. exists k. split; [lia|]. split; [exact Hz|].
           change (firstn (S (S k)) (y :: a)) with (y :: firstn (S k) a) in E.
           change (firstn (S (S k)) (y :: b)) with (y :: firstn (S k) b) in E. congruence.
    + split; [discriminate|]. intros [E|(k & Hk & Hz & E)]; [congruence|]. cbn [firstn] in E. congruence.
Qed.

Lemma ok_inj {X} (a b : X) : Ok a = Ok b -> a = b.
Proof. intro H. now injection H. Qed.
(** Pa's verdict is exactly its three checks *)
Theorem pa_end_iff hash (C : Curve) (h com_y : pt (cgrp C)) q yKEY aDelta s1 s2 b :
  (forall m, length (hash m) = DIGEST_SIZE) ->
  cc_pa_end hash h q com_y yKEY aDelta s1 s2 = Ok b ->
  exists ycom t1 rnd_y t2 msg_y t3 sb t4 yMAC t5,
    recv_data DIGEST_SIZE s1 = Ok (ycom, t1) /\ recv_bn t1 = Ok (rnd_y, t2) /\ recv_bn t2 = Ok (msg_y, t3) /\
    recv_data 16 s2 = Ok (sb, t4) /\ recv_bn t4 = Ok (yMAC, t5) /\
    (b = true <-> com_y = padd (smul msg_y gen) (smul rnd_y h) /\
                  ycom = hash (bytes_of_block (block_of_bytes sb) ++ BN_bn2bin yMAC) /\
                  yMAC = (yKEY + msg_y * aDelta) mod q).
Proof.
  intros HL. unfold cc_pa_end.
  destruct (recv_data DIGEST_SIZE s1) as [[ycom t1]| |] eqn:E1; cbn [bind]; try discriminate.
  destruct (recv_bn t1) as [[rnd_y t2]| |] eqn:E2; cbn [bind]; try discriminate.
  destruct (recv_bn t2) as [[msg_y t3]| |] eqn:E3; cbn [bind]; try discriminate.
  destruct (recv_data 16 s2) as [[sb t4]| |] eqn:E4; cbn [bind]; try discriminate.
  destruct (recv_bn t4) as [[yMAC t5]| |] eqn:E5; cbn [bind]; try discriminate.
  unfold cc_ymac_com. destruct (_ <? _)%nat; cbn [bind]; try discriminate.
  assert (Ly : length ycom = DIGEST_SIZE).
  { apply (recv_data_len _ _ _ _ E1). }
  rewrite memcmp0_iff by auto. cbn [bind]. intro H.
  assert (Hb : pc_open_check h com_y rnd_y msg_y &&
    (if list_eq_dec N.eq_dec ycom (hash (bytes_of_block (block_of_bytes sb) ++ BN_bn2bin yMAC)) then true else false) &&
    (yMAC =? BN_mod_add yKEY (BN_mod_mul msg_y aDelta q) q) = b).
  { exact (ok_inj _ _ H). }
  exists ycom, t1, rnd_y, t2, msg_y, t3, sb, t4, yMAC, t5. repeat (split; [first [reflexivity|assumption]|]).
  rewrite <- Hb, !andb_true_iff, pc_open_iff, Z.eqb_eq. unfold BN_mod_add, BN_mod_mul. rewrite Zplus_mod_idemp_r.
  destruct (list_eq_dec _ _ _); intuition congruence.
Qed.

Lemma strncmp0_total n : forall a b, length a = n -> length b = n -> exists r, strncmp0 n a b = Ok r.
Proof.
  induction n as [|n IH]; intros [|x a] [|y b] La Lb; try discriminate; cbn [strncmp0]; [eauto|].
  destruct (negb _); [eauto|]. destruct (x =? 0)%N; [eauto|]. apply IH; cbn in *; congruence.
Qed.
(** Pb's verdict on the opening is exactly its two checks *)
Theorem open_recv_iff ccrh hash q com msg_com bMACs s b rest :
  (forall m, length (hash m) = DIGEST_SIZE) -> length com = DIGEST_SIZE -> length msg_com = DIGEST_SIZE ->
  cc_open_recv ccrh hash q com msg_com bMACs s = Ok (b, rest) ->
  exists sb t1 db t2 aDelta,
    recv_data 16 s = Ok (sb, t1) /\ recv_data 16 t1 = Ok (db, t2) /\ recv_bn t2 = Ok (aDelta, rest) /\
    let arr := BN_bn2bin aDelta in
    let bDelta := block_of_bytes db in
    (b = true <->
     nul_equal DIGEST_SIZE (hash (bytes_of_block (block_of_bytes sb) ++ bytes_of_block bDelta ++ u32_bytes (N.of_nat (length arr)) ++ arr)) com /\
     nul_equal DIGEST_SIZE (hash (flat_map (fun m => BN_bn2bin ((bn_H ccrh m q + bn_H ccrh (N.lxor m bDelta) q + aDelta) mod q)) bMACs)) msg_com).
Proof.
  intros HL Lc Lm. unfold cc_open_recv.
  destruct (recv_data 16 s) as [[sb t1]| |] eqn:E1; cbn [bind]; try discriminate.
  destruct (recv_data 16 t1) as [[db t2]| |] eqn:E2; cbn [bind]; try discriminate.
  destruct (recv_bn t2) as [[aDelta t3]| |] eqn:E3; cbn [bind]; try discriminate.
  unfold cc_hash. destruct (_ <? _)%nat; cbn [bind]; try discriminate.
  set (h1 := hash (bytes_of_block (block_of_bytes sb) ++ _)).
  destruct (strncmp0_total DIGEST_SIZE h1 com (HL _) Lc) as [r1 R1]. rewrite R1. cbn [bind].
  destruct (existsb _ _); [discriminate|].
  match goal with |- context [strncmp0 DIGEST_SIZE ?h msg_com] => set (h2 := h) end.
  destruct (strncmp0_total DIGEST_SIZE h2 msg_com (HL _) Lm) as [r2 R2]. rewrite R2. cbn [bind].
  intro H. pose proof (ok_inj _ _ H) as H'. clear H.
  exists sb, t1, db, t2, aDelta. split; [reflexivity|]. split; [exact E2|]. split; [rewrite E3; f_equal; f_equal; exact (f_equal snd H')|].
  cbv zeta. assert (Hb : r1 && r2 = b) by exact (f_equal fst H').
  rewrite <- Hb, andb_true_iff. unfold nul_equal.
  rewrite <- (strncmp0_iff DIGEST_SIZE _ com (HL _) Lc), <- (strncmp0_iff DIGEST_SIZE _ msg_com (HL _) Lm).
  fold h1. rewrite R1.
  replace (flat_map _ bMACs) with (bn_hashed (map fst (cc_convert ccrh q (block_of_bytes db) aDelta
      (map (fun b0 => if getLSB b0 then N.lxor b0 (block_of_bytes db) else b0) bMACs)))).
  { fold h2. rewrite R2. split; intros [A B]; split; congruence. }
  unfold bn_hashed, cc_convert. rewrite !map_map, flat_map_concat_map, map_map, flat_map_concat_map. f_equal.
  apply map_ext. intro m. unfold cc_convert1. cbn [fst]. unfold BN_mod_add. f_equal. f_equal. f_equal.
  destruct (getLSB m); [rewrite N.lxor_assoc, N.lxor_nilpotent, N.lxor_0_r|]; lia.
Qed.
