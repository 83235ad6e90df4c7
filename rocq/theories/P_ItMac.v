(** Proofs about check_zero and itmac_hom_add_check. *)
From Coq Require Import List NArith Bool Arith Lia.
From Verif Require Import L_Bits L_Res L_Xor M_EmpInteger M_Utils M_Shares M_Aead M_ItMac.
From Verif Require Import S_Codec P_Utils P_Shares P_Gcm.
Import ListNotations.
Local Open Scope N_scope.

(** both parties have put the same blocks; the same number of blocks *)
Definition sync (t : czst) : Prop := cz_a t = cz_b t.
Definition bal (t : czst) : Prop := length (cz_a t) = length (cz_b t).

Lemma check_zero_eq z : forall t, check_zero t z = {| cz_a := cz_a t ++ map fst z; cz_b := cz_b t ++ map snd z |}.
Proof.
  unfold check_zero. induction z as [|w z IH]; intro t; cbn [fold_left map].
  - rewrite !app_nil_r. now destruct t.
  - rewrite IH. unfold check_zero_blocks. cbn [cz_a cz_b]. now rewrite <- !app_assoc.
Qed.

Lemma bal_check t z : bal t -> bal (check_zero t z).
Proof. unfold bal. rewrite check_zero_eq. cbn [cz_a cz_b]. rewrite !app_length, !map_length. lia. Qed.

Definition bits8 (l : list N) : list bool := flat_map (bits_of_N 8) l.
Lemma bits8_length l : length (bits8 l) = (8 * length l)%nat.
Proof. unfold bits8. rewrite (flat_map_length_const _ 8) by (intro; apply bits_of_N_length). lia. Qed.

Section D.
Variable Delta : N.
Hypothesis D0 : Delta <> 0.

(** a wire carries the bit b *)
Definition carries (w : N * N) (b : bool) : Prop := fst w = N.lxor (snd w) (dmul Delta b).

Lemma dmul_xor a b : dmul Delta (xorb a b) = N.lxor (dmul Delta a) (dmul Delta b).
Proof. destruct a, b; cbn; xor_solve. Qed.
Lemma carries_xor u v a b : carries u a -> carries v b -> carries (wxor u v) (xorb a b).
Proof.
  unfold carries, wxor. cbn [fst snd]. intros -> ->. rewrite dmul_xor. xor_solve.
Qed.
Lemma carries_delta u a : carries u a -> carries (fst u, N.lxor (snd u) Delta) (xorb a true).
Proof.
  unfold carries. cbn [fst snd]. intros ->. rewrite dmul_xor. cbn [dmul]. xor_solve.
Qed.
Lemma carries_zero w b : carries w b -> (fst w = snd w <-> b = false).
Proof.
  unfold carries. intros ->. destruct b; cbn [dmul].
  - split; [|discriminate]. intro H. exfalso. apply D0. apply (f_equal (N.lxor (snd w))) in H.
    rewrite <- N.lxor_assoc, N.lxor_nilpotent, N.lxor_0_l in H. exact H.
  - rewrite N.lxor_0_r. tauto.
Qed.
Lemma zauth_carries : forall keys bits, length keys = length bits -> Forall2 carries (zauth Delta keys bits) bits.
Proof.
  unfold zauth. induction keys as [|k keys IH]; intros [|b bits] L; try discriminate; constructor.
  - reflexivity.
  - apply IH. now injection L.
Qed.
Lemma zauth_length keys bits : length keys = length bits -> length (zauth Delta keys bits) = length bits.
Proof. intro L. unfold zauth. rewrite map2_length. lia. Qed.
Lemma zxor_carries : forall u a v b, Forall2 carries u a -> Forall2 carries v b ->
  Forall2 carries (zxor u v) (bxor a b).
Proof.
  unfold zxor, bxor. intros u a v b H. revert v b. induction H; intros v b Hv; cbn [map2]; [constructor|].
  destruct Hv; cbn [map2]; constructor; auto using carries_xor.
Qed.

Lemma sync_check t z bits : bal t -> Forall2 carries z bits ->
  (sync (check_zero t z) <-> sync t /\ Forall (fun b => b = false) bits).
Proof.
  intros B F. rewrite check_zero_eq. unfold sync. cbn [cz_a cz_b].
  assert (M : map fst z = map snd z <-> Forall (fun b => b = false) bits).
  { clear B. induction F as [|w b z bits H F IH]; cbn [map]; [split; constructor|].
    split; intro X.
    - injection X as X1 X2. constructor; [now apply (carries_zero w b)|now apply IH].
    - inversion X as [|? ? X1 X2]; subst. f_equal; [now apply (carries_zero w false)|now apply IH]. }
  split.
  - intro X. assert (Y : cz_a t = cz_b t /\ map fst z = map snd z).
    { clear - B X. unfold bal in B. destruct t as [a b]. cbn [cz_a cz_b] in *. revert b B X.
      induction a as [|x a IH]; intros [|y b] B X; try discriminate B; cbn in X; [auto|].
      injection X as -> X. destruct (IH b) as [-> ?]; auto. }
    split; [tauto|]. now apply M.
  - intros [X1 X2]. rewrite X1. f_equal. now apply M.
Qed.
Lemma bxor_zero : forall a b, length a = length b -> (Forall (fun x => x = false) (bxor a b) <-> a = b).
Proof.
  unfold bxor. induction a as [|x a IH]; intros [|y b] L; try discriminate; cbn [map2]; [split; constructor|].
  injection L as L. split; intro H.
  - inversion H as [|? ? H1 H2]; subst. f_equal; [now apply xorb_eq|]. now apply IH.
  - injection H as -> ->. constructor; [apply xorb_nilpotent|]. now apply IH.
Qed.
Lemma F2_length {X Y} (P : X -> Y -> Prop) a b : Forall2 P a b -> length a = length b.
Proof. induction 1; cbn; auto. Qed.

(** ** Homomorphic correction *)
Lemma add_delta_bits_carries : forall data pre bits, length data = length pre -> Forall2 carries pre bits ->
  Forall2 carries (add_delta_bits Delta data pre) (bxor bits data).
Proof.
  unfold add_delta_bits, bxor. intros data pre bits L F. revert data L.
  induction F as [|w b pre bits H F IH]; intros [|d data] L; try discriminate; cbn [map2]; constructor.
  - destruct d; [now apply carries_delta|]. now rewrite xorb_false_r.
  - apply IH. now injection L.
Qed.
Lemma bit_set_test blk i : (N.land (N.shiftl 1 (N.of_nat i)) blk =? N.shiftl 1 (N.of_nat i)) = N.testbit blk (N.of_nat i).
Proof.
  rewrite N.shiftl_1_l. set (k := N.of_nat i). apply eq_true_iff_eq. rewrite N.eqb_eq. split; intro H.
  - apply (f_equal (fun x => N.testbit x k)) in H. now rewrite N.land_spec, N.pow2_bits_true in H.
  - apply N.bits_inj. intro j. rewrite N.land_spec. destruct (N.eq_dec j k) as [->|J].
    + now rewrite N.pow2_bits_true, H.
    + now rewrite N.pow2_bits_false by auto.
Qed.
Lemma add_delta_blk_bits blk pre : add_delta_blk Delta blk pre = add_delta_bits Delta (bits_of_N (length pre) blk) pre.
Proof.
  unfold add_delta_blk, add_delta_bits. 
  assert (G : forall s (pre : list (N * N)), map2 (fun i w => if N.land (N.shiftl 1 (N.of_nat i)) blk =? N.shiftl 1 (N.of_nat i)
      then (fst w, N.lxor (snd w) Delta) else w) (seq s (length pre)) pre =
    map2 (fun (b : bool) w => if b then (fst w, N.lxor (snd w) Delta) else w)
      (map (fun i => N.testbit blk (N.of_nat i)) (seq s (length pre))) pre).
  { clear. intros s pre. revert s. induction pre as [|w pre IH]; intro s; [reflexivity|]. cbn [length seq map map2].
    now rewrite bit_set_test, IH. }
  cbv zeta. rewrite G. f_equal. apply (list_ext false).
  - now rewrite map_length, seq_length, bits_of_N_length.
  - intros i Hi. rewrite map_length, seq_length in Hi.
    rewrite bits_of_N_nth. destruct (Nat.ltb_spec i (length pre)); [|lia].
    rewrite (nth_indep _ false (N.testbit blk (N.of_nat 0))) by (now rewrite map_length, seq_length).
    rewrite (map_nth (fun i => N.testbit blk (N.of_nat i))). now rewrite seq_nth by assumption.
Qed.

Theorem hom_add_block_ok t rs pre rb pb blk : bal t -> Forall2 carries rs rb -> Forall2 carries pre pb ->
  length rb = 128%nat -> length pb = 128%nat ->
  exists t' pre', hom_add_block Delta t rs pre blk = Ok (t', pre') /\ bal t' /\
    Forall2 carries pre' (bxor pb (bits_of_N 128 blk)) /\
    (sync t' <-> sync t /\ rb = bxor pb (bits_of_N 128 blk)).
Proof.
  intros B Fr Fp Lr Lp. unfold hom_add_block. rewrite (F2_length _ _ _ Fr), (F2_length _ _ _ Fp), Lr, Lp.
  cbn [Nat.eqb andb negb]. eexists _, _. split; [reflexivity|]. split; [now apply bal_check|].
  rewrite add_delta_blk_bits, (F2_length _ _ _ Fp), Lp.
  assert (A : Forall2 carries (add_delta_bits Delta (bits_of_N 128 blk) pre) (bxor pb (bits_of_N 128 blk))).
  { apply add_delta_bits_carries; [|assumption]. rewrite bits_of_N_length. now rewrite (F2_length _ _ _ Fp). }
  split; [exact A|]. rewrite (sync_check t _ _ B (zxor_carries _ _ _ _ Fr A)).
  rewrite bxor_zero; [reflexivity|]. rewrite bxor_length; rewrite ?bits_of_N_length; congruence.
Qed.

Theorem hom_add_bytes_ok t rs pre rb pb share : bal t -> Forall2 carries rs rb -> Forall2 carries pre pb ->
  length rb = (8 * length share)%nat -> length pb = (8 * length share)%nat ->
  exists t' pre', hom_add_bytes Delta t rs pre (length share) share (length share) = Ok (t', pre') /\ bal t' /\
    Forall2 carries pre' (bxor pb (bits8 share)) /\
    (sync t' <-> sync t /\ rb = bxor pb (bits8 share)).
Proof.
  intros B Fr Fp Lr Lp. unfold hom_add_bytes. rewrite (F2_length _ _ _ Fr), (F2_length _ _ _ Fp), Lr, Lp.
  rewrite (Nat.mul_comm 8), Nat.eqb_refl, Nat.ltb_irrefl. cbn [andb negb]. cbv zeta.
  fold (bits8 share). rewrite firstn_all2 by (rewrite bits8_length; lia).
  eexists _, _. split; [reflexivity|]. split; [now apply bal_check|].
  assert (A : Forall2 carries (add_delta_bits Delta (bits8 share) pre) (bxor pb (bits8 share))).
  { apply add_delta_bits_carries; [|assumption]. rewrite bits8_length. rewrite (F2_length _ _ _ Fp); congruence. }
  split; [exact A|]. rewrite (sync_check t _ _ B (zxor_carries _ _ _ _ Fr A)).
  rewrite bxor_zero; [reflexivity|]. rewrite bxor_length; rewrite ?bits8_length; congruence.
Qed.

(** ** Public data *)
Variable pub : bool -> N.
Hypothesis PUB : pub true <> pub false.
Hypothesis PUBD : N.lxor (pub true) (pub false) <> Delta.

(** the prover reads the value off its block *)
Definition lsb_ok (w : N * N) (b : bool) : Prop := N.odd (fst w) = b.
Lemma zauth_lsb : N.odd Delta = true -> forall keys bits, length keys = length bits ->
  Forall (fun k => N.odd k = false) keys -> Forall2 lsb_ok (zauth Delta keys bits) bits.
Proof.
  intro OD. unfold zauth. induction keys as [|k keys IH]; intros [|b bits] L F; try discriminate; constructor.
  - unfold lsb_ok. cbn [fst]. rewrite <- !N.bit0_odd, N.lxor_spec, !N.bit0_odd. inversion F; subst.
    destruct b; cbn [dmul]; rewrite ?OD; rewrite H1; reflexivity.
  - inversion F; subst. apply IH; auto.
Qed.
Lemma pub_eq a b v k : N.lxor (pub a) (N.lxor k (dmul Delta v)) = N.lxor (N.lxor (pub b) (dmul Delta b)) k <->
  a = v /\ b = v.
Proof.
  assert (G : forall x y z, N.lxor x (N.lxor k y) = N.lxor z k <-> N.lxor x z = y).
  { intros x y z. split; intro H.
    - apply (f_equal (fun u => N.lxor (N.lxor z k) (N.lxor u y))) in H.
      transitivity (N.lxor (N.lxor z k) (N.lxor (N.lxor x (N.lxor k y)) y)); [xor_solve|]. rewrite H. xor_solve.
    - rewrite <- H. xor_solve. }
  rewrite G. split.
  - intro H. destruct a, b, v; cbn [dmul] in H; auto; exfalso; revert H; rewrite ?N.lxor_0_r.
    + rewrite <- N.lxor_assoc, N.lxor_nilpotent, N.lxor_0_l. exact D0.
    + exact PUBD.
    + intro H. apply PUB. now apply N.lxor_eq.
    + intro H. apply PUB. symmetry. apply N.lxor_eq. apply (f_equal (fun u => N.lxor u Delta)) in H.
      rewrite N.lxor_nilpotent in H. rewrite <- H. xor_solve.
    + intro H. apply PUBD. apply (f_equal (fun u => N.lxor u Delta)) in H. rewrite N.lxor_0_l in H. rewrite <- H. xor_solve.
    + rewrite N.lxor_nilpotent. intro H. now apply D0.
  - intros [-> ->]. destruct v; cbn [dmul]; xor_solve.
Qed.
Lemma sync_public : forall t in_ bits ba bb, bal t -> Forall2 carries in_ bits ->
  length ba = length bits -> length bb = length bits ->
  (sync (check_zero t (zxor (zpublic Delta pub ba bb) in_)) <-> sync t /\ ba = bits /\ bb = bits).
Proof.
  intros t in_ bits ba bb B F La Lb. rewrite check_zero_eq. unfold sync. cbn [cz_a cz_b].
  set (z := zxor (zpublic Delta pub ba bb) in_).
  assert (M : map fst z = map snd z <-> ba = bits /\ bb = bits).
  { unfold z. clear z t B. revert ba bb La Lb. induction F as [|w b in_ bits H F IH]; intros [|x ba] [|y bb] La Lb;
      try discriminate; cbn [zpublic zxor map2 map]; [tauto|].
    injection La as La. injection Lb as Lb. specialize (IH ba bb La Lb). unfold zpublic, zxor in IH.
    cbn [wxor fst snd]. unfold carries in H. rewrite H. split.
    - intro X. injection X as X1 X2. apply pub_eq in X1 as [-> ->]. apply IH in X2 as [-> ->]. auto.
    - intros [X Y]. injection X as -> ->. injection Y as -> ->. f_equal; [now apply pub_eq|now apply IH]. }
  split.
  - intro X. assert (Y : cz_a t = cz_b t /\ map fst z = map snd z).
    { clear - B X. unfold bal in B. destruct t as [a b]. cbn [cz_a cz_b] in *. revert b B X.
      induction a as [|x a IH]; intros [|y b] B X; try discriminate B; cbn in X; [auto|].
      injection X as -> X. destruct (IH b) as [-> ?]; auto. }
    tauto.
  - intros [X1 X2]. rewrite X1. f_equal. now apply M.
Qed.

Lemma map_lsb in_ bits : Forall2 lsb_ok in_ bits -> map lsb_of in_ = bits.
Proof. induction 1 as [|w b i l H F IH]; cbn; [reflexivity|]. unfold lsb_of at 1. now rewrite H, IH. Qed.

Theorem check_zero_data_ok t in_ bits sz da db len : bal t ->
  Forall2 carries in_ bits -> Forall2 lsb_ok in_ bits -> length bits = (len * sz * 8)%nat ->
  length da = (len * sz)%nat -> length db = (len * sz)%nat ->
  (firstn len (reveal_as 8 bits) <> firstn len da -> check_zero_data Delta pub t in_ sz da db len = Err) /\
  (firstn len (reveal_as 8 bits) = firstn len da -> exists t', check_zero_data Delta pub t in_ sz da db len = Ok t' /\ bal t' /\
    (sync t' <-> sync t /\ bits8 da = bits /\ bits8 db = bits)).
Proof.
  intros B F Fl L La Lb. unfold check_zero_data. rewrite (F2_length _ _ _ F), L, Nat.eqb_refl, La, Lb, Nat.eqb_refl.
  cbn [negb andb]. cbv zeta. rewrite (map_lsb _ _ Fl). fold (reveal_as 8 bits).
  destruct (bytes_eqb (firstn len (reveal_as 8 bits)) (firstn len da)) eqn:E.
  - apply bytes_eqb_spec in E. split; [intro X; now destruct X|]. intros _. eexists. split; [reflexivity|].
    split; [now apply bal_check|]. unfold int_of_array. fold (bits8 da) (bits8 db).
    rewrite !firstn_all2 by (rewrite bits8_length; lia).
    apply sync_public; auto; rewrite bits8_length; lia.
  - split; [reflexivity|]. intro X. apply bytes_eqb_spec in X. congruence.
Qed.
End D.

(** ** The digest comparison *)
Lemma bytes_of_block_inj a b : a < 2 ^ 128 -> b < 2 ^ 128 -> bytes_of_block a = bytes_of_block b -> a = b.
Proof.
  intros A B H. apply (f_equal (@rev N)) in H. rewrite !rev_bytes_of_block in H.
  apply (f_equal be_val) in H. rewrite !be_val_enc in H.
  rewrite !N.mod_small in H; assumption.
Qed.
Lemma app_len_inj {A} : forall a b c d : list A, length a = length b -> a ++ c = b ++ d -> a = b /\ c = d.
Proof.
  induction a as [|x a IH]; intros [|y b] c d L H; try discriminate L; cbn in H; [auto|].
  injection H as -> H. destruct (IH b c d) as [-> ->]; auto.
Qed.
Lemma blocks_bytes_inj : forall a b, Forall (fun x => x < 2 ^ 128) a -> Forall (fun x => x < 2 ^ 128) b ->
  flat_map bytes_of_block a = flat_map bytes_of_block b -> a = b.
Proof.
  assert (L : forall x, length (bytes_of_block x) = 16%nat).
  { intro x. rewrite <- (rev_length (bytes_of_block x)), rev_bytes_of_block. apply be_enc_length. }
  induction a as [|x a IH]; intros [|y b] Ha Hb H; [reflexivity| | |]; cbn [flat_map] in H.
  - apply (f_equal (@length N)) in H. rewrite app_length, L in H. discriminate H.
  - apply (f_equal (@length N)) in H. rewrite app_length, L in H. discriminate H.
  - inversion Ha; inversion Hb; subst.
    assert (X := app_len_inj _ _ _ _ (eq_trans (L x) (eq_sym (L y))) H).
    destruct X as [X1 X2]. apply bytes_of_block_inj in X1; [|assumption|assumption]. subst. f_equal. now apply IH.
Qed.
Theorem accept_iff hash t : Forall (fun x => x < 2 ^ 128) (cz_a t) -> Forall (fun x => x < 2 ^ 128) (cz_b t) ->
  (sync t -> cz_accept hash t = true) /\
  (cz_accept hash t = true -> sync t \/ exists x y : list N, x <> y /\ hash x = hash y).
Proof.
  intros A B. unfold cz_accept, sync. split.
  - intros ->. now apply bytes_eqb_spec.
  - intro H. apply bytes_eqb_spec in H.
    destruct (list_eq_dec N.eq_dec (flat_map bytes_of_block (cz_a t)) (flat_map bytes_of_block (cz_b t))) as [E|E].
    + left. now apply blocks_bytes_inj.
    + right. eauto.
Qed.
(** a batch of Integers *)
Theorem check_batch Delta (D0 : Delta <> 0) : forall zs bs t, bal t -> Forall2 (fun z b => Forall2 (carries Delta) z b) zs bs ->
  bal (fold_left check_zero zs t) /\
  (sync (fold_left check_zero zs t) <-> sync t /\ Forall (Forall (fun b => b = false)) bs).
Proof.
  intros zs bs t B F. revert t B. induction F as [|z b zs bs H F IH]; intros t B; cbn [fold_left].
  - split; [assumption|]. split; [split; [assumption|constructor]|tauto].
  - destruct (IH (check_zero t z) (bal_check t z B)) as [IH1 IH2]. split; [exact IH1|]. rewrite IH2.
    rewrite (sync_check Delta D0 t z b B H). split.
    + intros [[X1 X2] X3]. split; [assumption|]. now constructor.
    + intros [X1 X2]. inversion X2; subst. auto.
Qed.
(** a prover that puts other blocks than its own: matching the verifier's block on a wire
    that carries 1 amounts to knowing Delta *)
Lemma forge_delta Delta m k m' : carries Delta (m, k) true -> m' = k -> N.lxor m m' = Delta.
Proof. unfold carries. cbn [fst snd dmul]. intros -> ->. xor_solve. Qed.

(** the decision on a batch of wires, starting from the empty transcript *)
Theorem batch_accept Delta hash zs bs : Delta <> 0 -> Forall2 (fun z b => Forall2 (carries Delta) z b) zs bs ->
  Forall (Forall (fun w => fst w < 2 ^ 128 /\ snd w < 2 ^ 128)) zs ->
  (Forall (Forall (fun b => b = false)) bs -> cz_accept hash (fold_left check_zero zs cz0) = true) /\
  (cz_accept hash (fold_left check_zero zs cz0) = true ->
   Forall (Forall (fun b => b = false)) bs \/ exists x y : list N, x <> y /\ hash x = hash y).
Proof.
  intros D0 F W.
  assert (B : forall zs t, fold_left check_zero zs t = {| cz_a := cz_a t ++ map fst (concat zs); cz_b := cz_b t ++ map snd (concat zs) |}).
  { induction zs0 as [|z zs0 IH]; intro t; cbn [fold_left concat map].
    - rewrite !app_nil_r. now destruct t.
    - rewrite IH, check_zero_eq. cbn [cz_a cz_b]. now rewrite !map_app, !app_assoc. }
  assert (V : Forall (fun w => fst w < 2 ^ 128 /\ snd w < 2 ^ 128) (concat zs)).
  { clear -W. induction W; cbn [concat]; [constructor|]. apply Forall_app. auto. }
  assert (S0 : sync cz0) by reflexivity. assert (B0 : bal cz0) by reflexivity.
  destruct (check_batch Delta D0 zs bs cz0 B0 F) as [_ X].
  destruct (accept_iff hash (fold_left check_zero zs cz0)) as [A1 A2].
  - rewrite B. cbn [cz_a cz0 app]. apply Forall_map. eapply Forall_impl; [|exact V]. tauto.
  - rewrite B. cbn [cz_b cz0 app]. apply Forall_map. eapply Forall_impl; [|exact V]. tauto.
  - split.
    + intro Z. apply A1, X. auto.
    + intro Z. destruct (A2 Z) as [S|C]; [left|right; exact C]. now apply X in S.
Qed.
