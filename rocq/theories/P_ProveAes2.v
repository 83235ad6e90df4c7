(** Selective disclosure: which bytes are extracted, how long it takes, and the verdicts. *)
From Coq Require Import List NArith Bool Arith Lia.
From Verif Require Import L_Bits L_Res M_EmpInteger M_Utils M_Bristol M_Block M_Shares M_Aead M_AeadProof M_ProveAes.
From Verif Require Import S_Codec S_Aes S_Gcm S_Disclose P_Utils P_AesNet P_Shares P_Gcm P_Aead P_ItMac P_AeadProof P_ProveAes.
Import ListNotations.
Local Open Scope N_scope.

(** * Mask runs *)
Definition vb (vec : list Integer) : list N := bytes_be (concat (rev vec)).
Definition byteful (vec : list Integer) : Prop := exists k, length (concat (rev vec)) = (8 * k)%nat.
Lemma vb_snoc vec x k : byteful vec -> length x = (8 * k)%nat -> vb (vec ++ [x]) = vb vec ++ bytes_be x /\ byteful (vec ++ [x]).
Proof.
  intros [j B] L. unfold vb, byteful. rewrite rev_app_distr. cbn [rev app concat]. split.
  - apply (bytes_be_app x _ k j); assumption.
  - exists (k + j)%nat. rewrite app_length, L, B. lia.
Qed.

Section Runs.
Variable one : Integer.
Hypothesis L1 : length one = 128%nat.
Let B := bytes_be one.
Lemma B_len : length B = 16%nat.
Proof. apply bytes_be_length. exact L1. Qed.
Lemma run_len b j : (b <= j)%nat -> (j <= 16)%nat -> length (run_bits one b j) = (8 * (j - b))%nat.
Proof. intros H1 H2. unfold run_bits. rewrite firstn_length, skipn_length, L1. lia. Qed.
Lemma run_bytes b j : (b <= j)%nat -> (j <= 16)%nat -> bytes_be (run_bits one b j) = firstn (j - b) (skipn b B).
Proof.
  intros H1 H2.
  (* one = low ++ run ++ high *)
  set (low := firstn (128 - 8 * j) one). set (high := skipn (128 - 8 * b) one).
  assert (D : one = low ++ run_bits one b j ++ high).
  { unfold low, high, run_bits. rewrite L1. rewrite <- (firstn_skipn (128 - 8 * j) one) at 1. f_equal.
    rewrite <- (firstn_skipn (8 * (j - b)) (skipn (128 - 8 * j) one)) at 1. f_equal.
    rewrite skipn_skipn. f_equal. lia. }
  assert (LL : length low = (8 * (16 - j))%nat) by (unfold low; rewrite firstn_length, L1; lia).
  assert (LR : length (run_bits one b j) = (8 * (j - b))%nat) by (now apply run_len).
  assert (LHi : length high = (8 * b)%nat) by (unfold high; rewrite skipn_length, L1; lia).
  unfold B. rewrite D at 2.
  rewrite (bytes_be_app low _ (16 - j) (j - b + b)) by (rewrite ?app_length; lia).
  rewrite (bytes_be_app (run_bits one b j) high (j - b) b) by assumption.
  rewrite <- app_assoc. rewrite skipn_app, (bytes_be_length high b LHi), Nat.sub_diag, skipn_O.
  rewrite skipn_all2 by (rewrite (bytes_be_length high b LHi); lia). cbn [app].
  rewrite firstn_app, (bytes_be_length _ _ LR), Nat.sub_diag, firstn_O, app_nil_r.
  symmetry. apply firstn_all2. rewrite (bytes_be_length _ _ LR). lia.
Qed.

Definition R (j : nat) (st : option nat * list Integer) (A : list N) : Prop :=
  byteful (snd st) /\
  match fst st with
  | None => vb (snd st) = A
  | Some b => (b < j)%nat /\ vb (snd st) ++ firstn (j - b) (skipn b B) = A
  end.
Lemma skipn_nth j : (j < 16)%nat -> exists x, skipn j B = x :: skipn (S j) B.
Proof.
  intro H. destruct (skipn j B) as [|x l] eqn:X.
  - exfalso. apply (f_equal (@length _)) in X. rewrite skipn_length, B_len in X. cbn [length] in X. lia.
  - exists x. f_equal. replace (S j) with (1 + j)%nat by lia. rewrite <- skipn_skipn, X. reflexivity.
Qed.
Lemma firstn_snoc : forall n (l : list N) x t, skipn n l = x :: t -> firstn (S n) l = firstn n l ++ [x].
Proof.
  induction n as [|n IH]; intros l x t H; cbn [skipn] in H.
  - subst. reflexivity.
  - destruct l as [|y l]; [discriminate|]. cbn [firstn app]. f_equal. exact (IH l x t H).
Qed.
Lemma runs_inv : forall ms j st A, R j st A -> (j + length ms = 16)%nat ->
  R 16 (fold_left (run_step one) (combine (seq j (length ms)) ms) st) (A ++ select ms (skipn j B)).
Proof.
  induction ms as [|m ms IH]; intros j st A HR HL; cbn [length seq combine fold_left].
  - cbn [select]. rewrite app_nil_r. replace 16%nat with j by (cbn in HL; lia). exact HR.
  - cbn [length] in HL. destruct (skipn_nth j ltac:(lia)) as [x X]. rewrite X. cbn [select].
    assert (S1 : R (S j) (run_step one st (j, m)) (A ++ if m =? 0 then [] else [x])).
    { destruct st as [bg vec]. destruct HR as [BF HR]. cbn [fst snd] in BF, HR. unfold run_step. destruct (m =? 0); cbn [negb].
      - rewrite app_nil_r. destruct bg as [b|]; cbn [fst snd] in *.
        + destruct HR as [Hb HR]. unfold R. cbn [fst snd].
          destruct (vb_snoc vec (run_bits one b j) (j - b) BF (run_len b j ltac:(lia) ltac:(lia))) as [Y1 Y2].
          split; [exact Y2|]. rewrite Y1, run_bytes by lia. exact HR.
        + split; assumption.
      - destruct bg as [b|]; unfold R; cbn [fst snd].
        + destruct HR as [Hb HR]. split; [exact BF|]. split; [lia|].
          replace (S j - b)%nat with (S (j - b)) by lia.
          rewrite (firstn_snoc (j - b) (skipn b B) x (skipn (S j) B)) by (rewrite skipn_skipn; rewrite <- X; f_equal; lia).
          rewrite app_assoc, HR. reflexivity.
        + split; [exact BF|]. split; [lia|]. replace (S j - j)%nat with 1%nat by lia. rewrite X. cbn [firstn].
          now rewrite HR. }
    specialize (IH (S j) _ _ S1 ltac:(lia)). destruct (m =? 0); rewrite <- app_assoc in IH; exact IH.
Qed.
Lemma mask_runs_ok mask vec : length mask = 16%nat -> byteful vec ->
  vb (mask_runs one mask vec) = vb vec ++ select mask B /\ byteful (mask_runs one mask vec).
Proof.
  intros LM BF. unfold mask_runs.
  assert (R0 : R 0 (None, vec) (vb vec)) by (split; [exact BF|reflexivity]).
  pose proof (runs_inv mask 0 _ _ R0 ltac:(lia)) as X. rewrite LM in X. rewrite skipn_O in X.
  destruct (fold_left (run_step one) (combine (seq 0 16) mask) (None, vec)) as [bg v]. destruct X as [BF' X]. cbn [fst snd] in *.
  destruct bg as [b|].
  - destruct X as [Hb X]. destruct (vb_snoc v (run_bits one b 16) (16 - b) BF' (run_len b 16 ltac:(lia) ltac:(lia))) as [Y1 Y2].
    split; [|exact Y2]. rewrite Y1, run_bytes by lia. exact X.
  - auto.
Qed.
End Runs.

Lemma runs_all : forall infos (cs : list Integer) vec, length cs = length infos -> Forall (fun c => length c = 128%nat) cs ->
  Forall (fun x => length (ci_mask x) = 16%nat) infos -> byteful vec ->
  let v := fold_left (fun vec oc => mask_runs (snd oc) (ci_mask (fst oc)) vec) (combine infos cs) vec in
  byteful v /\ vb v = vb vec ++ concat (map2 (fun x c => select (ci_mask x) (bytes_be c)) infos cs).
Proof.
  induction infos as [|x infos IH]; intros [|c cs] vec L FC FM BF; try discriminate; cbn [combine fold_left map2 concat].
  - rewrite app_nil_r. auto.
  - inversion FC; inversion FM; subst. cbn [fst snd].
    destruct (mask_runs_ok c H1 (ci_mask x) vec H5 BF) as [Y1 Y2].
    destruct (IH cs (mask_runs c (ci_mask x) vec) ltac:(now injection L) H2 H6 Y2) as [Z1 Z2].
    split; [exact Z1|]. rewrite Z2, Y1, <- app_assoc. reflexivity.
Qed.

(** * How long the loop runs *)
Definition tgt (id : N) : N := (id + 1) mod 2 ^ 64.
Definition total (ids : list N) : N := fold_right (fun x acc => x + acc) 0 (gaps 0 ids).
Lemma tgt_lt id : tgt id < 2 ^ 64.
Proof. apply N.mod_lt. discriminate. Qed.
Lemma dist_ge i id : i <= tgt id -> i < 2 ^ 64 -> dist i id = tgt id - i.
Proof.
  intros H Hi. unfold dist. fold (tgt id). replace (tgt id + (2 ^ 64 - i)) with (tgt id - i + 1 * 2 ^ 64) by lia.
  rewrite N.mod_add by discriminate. apply N.mod_small. pose proof (tgt_lt id). lia.
Qed.
Lemma dist_wrap i id : tgt id < i -> i < 2 ^ 64 -> dist i id = tgt id + (2 ^ 64 - i).
Proof. intros H Hi. unfold dist. fold (tgt id). apply N.mod_small. lia. Qed.

Definition hd_ge (i : N) (l : list N) : Prop := match l with t :: _ => i <= t | [] => True end.
Lemma gaps_fast : forall ids i, i < 2 ^ 64 -> ids <> [] -> increasing (map tgt ids) -> hd_ge i (map tgt ids) ->
  i + fold_right (fun x acc => x + acc) 0 (gaps i ids) = last (map tgt ids) 0 + 1.
Proof.
  induction ids as [|id rest IH]; intros i Hi NE INC HD; [now elim NE|]. cbn [gaps fold_right map] in *.
  cbn [hd_ge] in HD. rewrite dist_ge by assumption. fold (tgt id). destruct rest as [|id2 rest].
  - cbn [gaps fold_right map last]. lia.
  - destruct INC as [I1 I2]. cbn [map] in I1. pose proof (tgt_lt id2).
    assert (W : (tgt id + 1) mod 2 ^ 64 = tgt id + 1) by (apply N.mod_small; lia). rewrite W.
    specialize (IH (tgt id + 1) ltac:(lia) ltac:(discriminate) I2 ltac:(cbn; lia)).
    change (last (tgt id :: map tgt (id2 :: rest)) 0) with (last (map tgt (id2 :: rest)) 0).
    set (f := fold_right _ _ _) in *. lia.
Qed.
Lemma gaps_slow : forall ids i, i < 2 ^ 64 -> ~ (increasing (map tgt ids) /\ hd_ge i (map tgt ids)) ->
  2 ^ 64 < i + fold_right (fun x acc => x + acc) 0 (gaps i ids).
Proof.
  induction ids as [|id rest IH]; intros i Hi NI; [exfalso; apply NI; split; exact I|]. cbn [gaps fold_right map hd_ge] in *.
  fold (tgt id). destruct (N.le_gt_cases i (tgt id)) as [C|C].
  - rewrite dist_ge by assumption. destruct rest as [|id2 rest].
    { exfalso. apply NI. cbn. auto. }
    pose proof (tgt_lt id) as T1. destruct (N.eq_dec (tgt id + 1) (2 ^ 64)) as [W|W].
    + cbn [gaps fold_right]. lia.
    + assert (X : (tgt id + 1) mod 2 ^ 64 = tgt id + 1) by (apply N.mod_small; lia). rewrite X.
      assert (Y : ~ (increasing (map tgt (id2 :: rest)) /\ hd_ge (tgt id + 1) (map tgt (id2 :: rest)))).
      { intros [A1 A2]. apply NI. split; [|exact C]. split; [|exact A1]. cbn [map hd_ge] in A2 |- *. lia. }
      specialize (IH (tgt id + 1) ltac:(lia) Y). set (f := fold_right _ _ _) in *. lia.
  - rewrite dist_wrap by assumption. lia.
Qed.
Theorem total_fast ids : ids <> [] -> increasing (map tgt ids) -> total ids = last (map tgt ids) 0 + 1.
Proof.
  intros NE INC. unfold total. rewrite <- (N.add_0_l (fold_right _ _ _)). apply gaps_fast; auto; [reflexivity|].
  destruct (map tgt ids); cbn; lia.
Qed.
Theorem total_slow ids : ~ increasing (map tgt ids) -> 2 ^ 64 < total ids.
Proof.
  intro NI. unfold total. rewrite <- (N.add_0_l (fold_right _ _ _)). apply gaps_slow; [reflexivity|]. tauto.
Qed.
Lemma tgt_small id : id < 2 ^ 64 - 1 -> tgt id = id + 1.
Proof. intro H. apply N.mod_small. lia. Qed.
Lemma increasing_tgt ids : Forall (fun id => id < 2 ^ 64 - 1) ids -> (increasing (map tgt ids) <-> increasing ids).
Proof.
  induction 1 as [|a l H F IH]; [tauto|]. cbn [map increasing]. rewrite IH. destruct l as [|b l]; cbn [map]; [tauto|].
  rewrite !tgt_small by (inversion F; subst; assumption). split; intros []; split; auto; lia.
Qed.

Section P.
Variable enc : bristol.
Variable ek : Integer.
Variable E : N -> N.
Hypothesis CIP : cipher_ok enc ek E.
Variable fiv : list N.
Hypothesis V1 : length fiv = 4%nat.
Hypothesis V2 : bytes_ok fiv.
Definition req (infos : list ctrinfo) : list (N * list N) := map (fun x => (ci_id x, ci_mask x)) infos.
Definition info_wf (x : ctrinfo) : Prop := length (ci_mask x) = 16%nat.

Lemma gctr_opt_ok ids n f :
  (forall k, N.of_nat k < total ids -> ids <> [] -> gctr_opt enc k ek ids (bits_of_N 128 n) = None) /\
  exists n', gctr_opt enc (N.to_nat (total ids) + f) ek ids (bits_of_N 128 n) =
    Some (Ok (map (fun id => bits_of_N 128 (E (ctr_add n (id + 1)))) ids, n')).
Proof.
  destruct ids as [|id rest].
  - split; [intros k _ X; now elim X|]. exists (bits_of_N 128 n). reflexivity.
  - destruct (loop_ok enc ek E CIP (id :: rest) 0 0 n [] f eq_refl eq_refl ltac:(discriminate)) as [A (n' & B)].
    rewrite ctr_add_0 in A, B. cbn [app] in B. split; [intros k H _; exact (A k H)|]. exists n'. exact B.
Qed.

Lemma bytes_be_block x : bytes_be (bits_of_N 128 x) = be_enc 16 x.
Proof. exact (bytes_be_bits 16 x). Qed.
Lemma counter_opt_ok p infos iv f : ap_key p = ek -> ap_fixed p = str_to_int fiv -> length iv = 8%nat -> bytes_ok iv ->
  Forall info_wf infos ->
  let sel := selected E (fiv ++ iv) (req infos) in
  (forall k, N.of_nat k < total (map ci_id infos) -> infos <> [] -> computeCounterOpt enc k p infos iv = None) /\
  exists n', computeCounterOpt enc (N.to_nat (total (map ci_id infos)) + f) p infos iv = Some (Ok (bits8 (rev sel), ap_with p n')).
Proof.
  intros K F L B W sel. unfold computeCounterOpt.
  pose proof (set_nonce_ok fiv iv V1 V2 L B) as SN. change (set_nonce (str_to_int fiv) iv) with (ap_set_nonce (str_to_int fiv) iv) in SN.
  rewrite F, SN, K. clear SN. set (j0 := j0_of (fiv ++ iv)).
  destruct (gctr_opt_ok (map ci_id infos) j0 f) as [A (n' & X)]. split.
  - intros k Hk NE. rewrite A; auto. intro Y. apply NE. now destruct infos.
  - exists n'. rewrite X. set (cs := map (fun id => bits_of_N 128 (E (ctr_add j0 (id + 1)))) (map ci_id infos)).
    destruct (runs_all infos cs []) as [BF VB].
    + unfold cs. now rewrite !map_length.
    + unfold cs. apply Forall_map, Forall_forall. intros. apply bits_of_N_length.
    + exact W.
    + now exists 0%nat.
    + set (v := fold_left _ _ _) in *. repeat f_equal. rewrite concat_opt_eq, iconcat_concat, app_nil_r.
      destruct BF as [k BF]. rewrite <- (bits8_reveal k _ BF). f_equal.
      unfold reveal_as. rewrite <- (rev_involutive (map N_of_bits _)), (bytes_be_rev_reveal _ _ BF). f_equal.
      fold (vb v). rewrite VB. change (vb []) with (@nil N). cbn [app].
      unfold sel, selected, req, cs. rewrite flat_map_concat_map, !map_map. f_equal. clear.
      induction infos as [|x l IH]; [reflexivity|]. cbn [map map2 fst snd]. rewrite IH. f_equal. unfold stream_block. now rewrite bytes_be_block.
Qed.

Lemma select_length m : forall b, (length (select m b) <= length b)%nat.
Proof.
  induction m as [|x m IH]; intros [|y b]; cbn [select length]; try lia. specialize (IH b).
  destruct (x =? 0); cbn [length]; lia.
Qed.
Lemma select_bytes m : forall b, bytes_ok b -> bytes_ok (select m b).
Proof.
  induction m as [|x m IH]; intros [|y b] H; cbn [select]; try constructor. inversion H; subst.
  destruct (x =? 0); [now apply IH|]. constructor; [assumption|now apply IH].
Qed.
Lemma selected_bytes iv rq : bytes_ok (selected E iv rq).
Proof.
  unfold selected. apply Forall_flat_map, Forall_forall. intros x _. apply select_bytes, be_enc_bytes.
Qed.

Theorem public_opt p infos iv msgs ctxts f : ap_key p = ek -> ap_fixed p = str_to_int fiv -> length iv = 8%nat -> bytes_ok iv ->
  Forall info_wf infos -> length ctxts = length msgs ->
  let sel := selected E (fiv ++ iv) (req infos) in
  let run := prove_public_msgs_opt enc (N.to_nat (total (map ci_id infos)) + f) p infos iv msgs ctxts in
  (length sel <> length msgs -> run = Some UB) /\
  (length sel = length msgs -> exists b n1, run = Some (Ok (b, ap_with p n1)) /\ (b = true <-> ctxts = map2 N.lxor msgs sel)).
Proof.
  intros K F L B W LC sel run. unfold run, prove_public_msgs_opt. rewrite LC, Nat.eqb_refl. cbn [negb]. cbv zeta.
  destruct (counter_opt_ok p infos iv f K F L B W) as [_ (n' & X)]. rewrite X. fold sel. cbn [opt_then fst snd].
  unfold reveal_buf. rewrite bits8_length, rev_length. split; intro H.
  - destruct (Nat.eqb_spec (8 * length sel) (8 * length msgs)); [lia|]. reflexivity.
  - rewrite H, Nat.eqb_refl. cbn [bind]. rewrite reveal_bits8 by (apply Forall_rev, selected_bytes).
    eexists _, n'. split; [reflexivity|]. rewrite memeq_spec. unfold c_xor_m. rewrite rev_inj. now apply xor_move.
Qed.
Lemma bxor_bits8 a b : ixor (bits8 a) (bits8 b) = bits8 (map2 N.lxor a b).
Proof. symmetry. apply bits8_xor. Qed.
Lemma map2_rev : forall a b : list N, length a = length b -> map2 N.lxor (rev a) (rev b) = rev (map2 N.lxor a b).
Proof.
  induction a as [|x a IH]; intros [|y b] H; try discriminate; [reflexivity|]. cbn [rev map2].
  rewrite map2_app by (rewrite !rev_length; now injection H). rewrite IH by now injection H. reflexivity.
Qed.
Lemma map2_comm : forall a b, map2 N.lxor a b = map2 N.lxor b a.
Proof. induction a as [|x a IH]; intros [|y b]; cbn [map2]; try reflexivity. now rewrite IH, N.lxor_comm. Qed.
Lemma map2_len : forall a b : list N, length a = length b -> length (map2 N.lxor a b) = length b.
Proof. induction a; intros [|y b] H; try discriminate; cbn; [reflexivity|]. f_equal. apply IHa. now injection H. Qed.
Lemma map2_bytes : forall a b, bytes_ok a -> bytes_ok b -> bytes_ok (map2 N.lxor a b).
Proof.
  induction a as [|x a IH]; intros [|y b] H1 H2; cbn [map2]; try constructor; inversion H1; inversion H2; subst.
  - now apply (lxor_lt _ _ 8).
  - now apply IH.
Qed.
Theorem private_opt p infos iv msgs ctxts f : ap_key p = ek -> ap_fixed p = str_to_int fiv -> length iv = 8%nat -> bytes_ok iv ->
  Forall info_wf infos -> bytes_ok msgs -> length ctxts = length msgs ->
  let sel := selected E (fiv ++ iv) (req infos) in
  let run := prove_private_msgs_opt enc (N.to_nat (total (map ci_id infos)) + f) p infos iv (str_to_int msgs) ctxts in
  (length sel <> length msgs -> run = Some UB) /\
  (length sel = length msgs -> exists b n1, run = Some (Ok (b, ap_with p n1)) /\ (b = true <-> ctxts = map2 N.lxor msgs sel)).
Proof.
  intros K F L B W BM LC sel run. unfold run, prove_private_msgs_opt. rewrite str_bits8, bits8_length, rev_length, LC, Nat.eqb_refl.
  cbn [negb]. cbv zeta. destruct (counter_opt_ok p infos iv f K F L B W) as [_ (n' & X)]. rewrite X. fold sel. cbn [opt_then fst snd].
  rewrite bits8_length, rev_length. split; intro H.
  - destruct (Nat.ltb_spec (8 * length msgs) (8 * length sel)); [reflexivity|]. unfold reveal_buf.
    assert (LX : length (ixor (bits8 (rev sel)) (bits8 (rev msgs))) = (8 * length sel)%nat).
    { unfold ixor, bxor. rewrite map2_length, !bits8_length, !rev_length. lia. }
    rewrite LX. destruct (Nat.eqb_spec (8 * length sel) (8 * length msgs)); [lia|]. reflexivity.
  - destruct (Nat.ltb_spec (8 * length msgs) (8 * length sel)); [lia|].
    rewrite bxor_bits8, map2_rev by assumption. unfold reveal_buf.
    rewrite bits8_length, rev_length, map2_len by assumption. rewrite Nat.eqb_refl. cbn [bind].
    rewrite reveal_bits8 by (apply Forall_rev, map2_bytes; [apply selected_bytes|assumption]).
    eexists _, n'. split; [reflexivity|]. rewrite memeq_spec, rev_involutive, map2_comm. split; congruence.
Qed.
Theorem opt_running p infos iv msgs ctxts k : ap_key p = ek -> ap_fixed p = str_to_int fiv -> length iv = 8%nat -> bytes_ok iv ->
  Forall info_wf infos -> length ctxts = length msgs -> ~ increasing (map (fun x => tgt (ci_id x)) infos) -> N.of_nat k <= 2 ^ 64 ->
  prove_public_msgs_opt enc k p infos iv msgs ctxts = None.
Proof.
  intros K F L B W LC NI Hk. unfold prove_public_msgs_opt. rewrite LC, Nat.eqb_refl. cbn [negb]. cbv zeta.
  destruct (counter_opt_ok p infos iv 0 K F L B W) as [A _]. rewrite A; [reflexivity| |].
  - rewrite <- (map_map ci_id tgt) in NI. pose proof (total_slow _ NI). lia.
  - intros ->. apply NI. exact I.
Qed.
End P.
