(** The two shipped netlists compute FIPS-197 key expansion and encryption. *)
From Coq Require Import List NArith Bool Arith Lia.
From Verif Require Import L_Bits L_Res L_PTree M_EmpInteger M_Utils M_Bristol S_Aes.
From Verif Require Import P_NetCheck P_Utils D_AesKs D_AesEnc D_AesCuts.
Import ListNotations.
Local Open Scope N_scope.

Notation fv := (list form).

Definition evb (v : N -> bool) (f : fv) : N := N_of_bits (map (ev v) f).
Definition atoms (ws : list N) : fv := map (fun w => [N.succ w]) ws.

Lemma ev_atoms v ws : map (ev v) (atoms ws) = map v ws.
Proof. unfold atoms. rewrite map_map. apply map_ext. intro. apply ev_wire. Qed.

Definition obind {A B} (m : option A) (f : A -> option B) : option B :=
  match m with Some a => f a | None => None end.
Notation "'do' x <- m ; k" := (obind m (fun x => k)) (at level 200, x name, m at level 100, k at level 200).

Fixpoint omap {A B} (f : A -> option B) (l : list A) : option (list B) :=
  match l with
  | [] => Some []
  | a :: t => do b <- f a; do bs <- omap f t; Some (b :: bs)
  end.

Lemma omap_rel {A B C} (f : A -> option B) (g : A -> C) (h : B -> C) :
  (forall a b, f a = Some b -> h b = g a) ->
  forall l r, omap f l = Some r -> map h r = map g l.
Proof.
  intros H. induction l as [|a l IH]; intros r E; cbn in E.
  - injection E as <-. reflexivity.
  - destruct (f a) as [b|] eqn:Ea; [|discriminate]. cbn in E.
    destruct (omap f l) as [bs|]; [|discriminate]. cbn in E. injection E as <-.
    cbn [map]. f_equal; auto.
Qed.

(** * Symbolic bytes *)
Definition len8 (f : fv) : bool := (length f =? 8)%nat.
Definition fvx (a b : fv) : option fv := if len8 a && len8 b then Some (map2 fx a b) else None.
Lemma map2_map {A B} (f : A -> A -> A) (g : B -> B -> B) (h : A -> B) :
  (forall x y, h (f x y) = g (h x) (h y)) ->
  forall a b, map h (map2 f a b) = map2 g (map h a) (map h b).
Proof. intros H. induction a as [|x a IH]; intros [|y b]; cbn; auto. now rewrite H, IH. Qed.
Lemma fvx_ok v a b c : fvx a b = Some c -> evb v c = N.lxor (evb v a) (evb v b).
Proof.
  unfold fvx, len8, evb. destruct (Nat.eqb_spec (length a) 8) as [Ha|]; [|discriminate].
  destruct (Nat.eqb_spec (length b) 8) as [Hb|]; [|discriminate]. cbn [andb]. intro E. injection E as <-.
  rewrite (map2_map fx xorb) by (intros; apply ev_fx).
  apply N_of_bits_bxor. now rewrite !map_length, Ha, Hb.
Qed.

Definition fvt (a : fv) : option fv :=
  match a with
  | [f0; f1; f2; f3; f4; f5; f6; f7] => Some [f7; fx f0 f7; f1; fx f2 f7; fx f3 f7; f4; f5; f6]
  | _ => None
  end.
Lemma xtime_bits b0 b1 b2 b3 b4 b5 b6 b7 :
  N_of_bits [b7; xorb b0 b7; b1; xorb b2 b7; xorb b3 b7; b4; b5; b6] =
  xtime (N_of_bits [b0; b1; b2; b3; b4; b5; b6; b7]).
Proof. destruct b0, b1, b2, b3, b4, b5, b6, b7; reflexivity. Qed.
Lemma fvt_ok v a c : fvt a = Some c -> evb v c = xtime (evb v a).
Proof.
  unfold fvt. intro E.
  destruct a as [|f0 [|f1 [|f2 [|f3 [|f4 [|f5 [|f6 [|f7 [|]]]]]]]]]; try discriminate.
  assert (X : c = [f7; fx f0 f7; f1; fx f2 f7; fx f3 f7; f4; f5; f6]) by congruence.
  subst c. unfold evb. cbn [map]. rewrite !ev_fx. apply xtime_bits.
Qed.

Lemma evb_lt v a : len8 a = true -> evb v a < 256.
Proof.
  unfold len8. intro H. apply Nat.eqb_eq in H. unfold evb.
  eapply N.lt_le_trans; [apply N_of_bits_lt|]. now rewrite map_length, H.
Qed.

Lemma byte_all (P : N -> bool) : forallb P (map N.of_nat (seq 0 256)) = true ->
  forall x, x < 256 -> P x = true.
Proof.
  intros H x Hx. rewrite forallb_forall in H. apply H, in_map_iff. exists (N.to_nat x).
  split; [lia|]. apply in_seq. lia.
Qed.
Lemma gmul2 x : x < 256 -> gmul 2 x = xtime x.
Proof. intro H. apply N.eqb_eq. revert x H. apply byte_all. vm_compute. reflexivity. Qed.
Lemma gmul3 x : x < 256 -> gmul 3 x = N.lxor (xtime x) x.
Proof. intro H. apply N.eqb_eq. revert x H. apply byte_all. vm_compute. reflexivity. Qed.

Definition const_fv (b : N) : fv := map (fun bit : bool => if bit then [0] else []) (bits_of_N 8 b).
Lemma const_fv_ok v b : b < 256 -> evb v (const_fv b) = b.
Proof.
  intro H. unfold evb, const_fv. rewrite map_map.
  rewrite <- (N_of_bits_of_N_small 8 b) at 2 by exact H. f_equal.
  rewrite <- map_id. apply map_ext. intros []; reflexivity.
Qed.

Fixpoint sym_xor (a b : list fv) : option (list fv) :=
  match a, b with
  | x :: a', y :: b' => do z <- fvx x y; do r <- sym_xor a' b'; Some (z :: r)
  | _, _ => Some []
  end.
Lemma sym_xor_ok v a : forall b c, sym_xor a b = Some c ->
  map (evb v) c = xor_bytes (map (evb v) a) (map (evb v) b).
Proof.
  induction a as [|x a IH]; intros [|y b] c E; cbn in E; try (injection E as <-; reflexivity).
  destruct (fvx x y) as [z|] eqn:Ez; [|discriminate]. cbn in E.
  destruct (sym_xor a b) as [r|] eqn:Er; [|discriminate]. cbn in E. injection E as <-.
  unfold xor_bytes. cbn [map combine fst snd]. f_equal; [now apply fvx_ok|]. now apply IH.
Qed.

Section Facts.
Variable t : ptree form.
Variable cs : list cut.
Variable v : N -> bool.
Hypothesis Hform : forall w f, nget w t = Some f -> v w = ev v f.
Hypothesis Hsbox : forall k x, nth_error cs k = Some x ->
  length (c_ins x) = 8%nat /\ length (c_outs x) = 8%nat /\
  N_of_bits (map v (c_outs x)) = sbox (N_of_bits (map v (c_ins x))).

Definition form_eqb : form -> form -> bool := list_eqb N.eqb.
Lemma form_eqb_eq a b : form_eqb a b = true -> a = b.
Proof. apply list_eqb_eq. intros x y H. now apply N.eqb_eq. Qed.

(** the wires [ws] carry the XOR sums [f] *)
Definition wires_are (ws : list N) (f : list form) : bool :=
  list_eqb (fun w x => match nget w t with Some y => form_eqb y x | None => false end) ws f.
Lemma wires_are_ok ws f : wires_are ws f = true -> map v ws = map (ev v) f.
Proof.
  unfold wires_are. apply list_eqb_map. intros w x H.
  destruct (nget w t) as [y|] eqn:E; [|discriminate]. apply form_eqb_eq in H. subst. now apply Hform.
Qed.

Definition sym_sbox (k : nat) (f : fv) : option fv :=
  match nth_error cs k with
  | Some c => if wires_are (c_ins c) f then Some (atoms (c_outs c)) else None
  | None => None
  end.
Lemma sym_sbox_ok k f g : sym_sbox k f = Some g -> evb v g = sbox (evb v f).
Proof.
  unfold sym_sbox. destruct (nth_error cs k) as [c|] eqn:E; [|discriminate].
  destruct (wires_are (c_ins c) f) eqn:W; [|discriminate]. intro X. injection X as <-.
  destruct (Hsbox _ _ E) as (_ & _ & S). apply wires_are_ok in W.
  unfold evb. rewrite ev_atoms, S. now rewrite W.
Qed.

Fixpoint sym_sboxes (k : nat) (l : list fv) : option (list fv) :=
  match l with
  | [] => Some []
  | f :: r => do g <- sym_sbox k f; do gs <- sym_sboxes (S k) r; Some (g :: gs)
  end.
Lemma sym_sboxes_ok l : forall k g, sym_sboxes k l = Some g ->
  map (evb v) g = map sbox (map (evb v) l).
Proof.
  induction l as [|f l IH]; intros k g E; cbn in E.
  - injection E as <-. reflexivity.
  - destruct (sym_sbox k f) as [b|] eqn:Ea; [|discriminate]. cbn in E.
    destruct (sym_sboxes (S k) l) as [bs|] eqn:Eb; [|discriminate]. cbn in E. injection E as <-.
    cbn [map]. f_equal; [now apply sym_sbox_ok in Ea|now apply IH in Eb].
Qed.

(** ** key schedule *)
Definition sym_next (ws : list (list fv)) : option (list fv) :=
  let i := length ws in
  let temp := nth (i - 1) ws [] in
  do temp <- (if (i mod 4 =? 0)%nat
              then do s <- sym_sboxes (4 * (i / 4 - 1)) (tl temp ++ firstn 1 temp);
                   if forallb (fun b => b <? 256) (rcon (i / 4))
                   then sym_xor s (map const_fv (rcon (i / 4))) else None
              else Some temp);
  sym_xor (nth (i - 4) ws []) temp.
Fixpoint sym_expand (n : nat) (ws : list (list fv)) : option (list (list fv)) :=
  match n with
  | O => Some ws
  | S k => do w <- sym_next ws; sym_expand k (ws ++ [w])
  end.
Definition evw (ws : list (list fv)) : list (list N) := map (map (evb v)) ws.
Lemma evw_nth ws i : nth i (evw ws) [] = map (evb v) (nth i ws []).
Proof. unfold evw. change [] with (map (evb v) []) at 1. apply map_nth. Qed.

Lemma sym_next_ok ws w : sym_next ws = Some w -> map (evb v) w = next_word (evw ws).
Proof.
  unfold sym_next, next_word. intro E.
  assert (L : length (evw ws) = length ws) by apply map_length. rewrite L, !evw_nth.
  destruct (length ws mod 4 =? 0)%nat.
  - destruct (sym_sboxes _ _) as [s|] eqn:Es; [|discriminate]. cbn [obind] in E.
    destruct (forallb _ _) eqn:Ef; [|discriminate].
    destruct (sym_xor s _) as [x|] eqn:Ex; [|discriminate]. cbn [obind] in E.
    rewrite (sym_xor_ok v _ _ _ E). f_equal. rewrite (sym_xor_ok v _ _ _ Ex).
    rewrite (sym_sboxes_ok _ _ _ Es). f_equal.
    + f_equal. unfold rot_word. rewrite map_app. f_equal.
      * now destruct (nth (length ws - 1) ws []).
      * now destruct (nth (length ws - 1) ws []).
    + rewrite map_map. rewrite <- (map_id (rcon _)) at 2. apply map_ext_in. intros b Hb.
      apply const_fv_ok. rewrite forallb_forall in Ef. apply N.ltb_lt. now apply Ef.
  - cbn [obind] in E. now rewrite (sym_xor_ok v _ _ _ E).
Qed.
Lemma sym_expand_ok n : forall ws r, sym_expand n ws = Some r -> evw r = expand n (evw ws).
Proof.
  induction n as [|n IH]; intros ws r E; cbn [sym_expand expand] in *.
  - injection E as <-. reflexivity.
  - destruct (sym_next ws) as [w|] eqn:Ew; [|discriminate]. cbn [obind] in E.
    rewrite (IH _ _ E). f_equal. unfold evw at 1. rewrite map_app. cbn [map].
    now rewrite (sym_next_ok _ _ Ew).
Qed.

(** ** cipher *)
Definition fnth (s : list fv) (i : nat) : fv := nth i s [].
Definition sym_shift (s : list fv) : list fv := map (fun i => fnth s (shift_src i)) (seq 0 16).
Lemma evb_nth s i : evb v (fnth s i) = nb (map (evb v) s) i.
Proof. unfold fnth, nb. change 0 with (evb v []). now rewrite map_nth. Qed.
Lemma sym_shift_ok s : map (evb v) (sym_shift s) = shift_rows (map (evb v) s).
Proof. unfold sym_shift, shift_rows. rewrite map_map. apply map_ext. intro. apply evb_nth. Qed.

Definition sym_mix_byte (s : list fv) (i : nat) : option fv :=
  let c := (4 * (i / 4))%nat in
  let r := (i mod 4)%nat in
  let at_ k := fnth s (c + (r + k) mod 4) in
  if len8 (at_ 0%nat) && len8 (at_ 1%nat) then
    do x0 <- fvt (at_ 0%nat);
    do x1 <- fvt (at_ 1%nat);
    do x1 <- fvx x1 (at_ 1%nat);
    do y <- fvx x0 x1;
    do y <- fvx y (at_ 2%nat);
    fvx y (at_ 3%nat)
  else None.
Lemma sym_mix_byte_ok s i f : sym_mix_byte s i = Some f ->
  evb v f = mix_byte (map (evb v) s) i.
Proof.
  unfold sym_mix_byte, mix_byte. intro E. rewrite <- !evb_nth.
  destruct (len8 (fnth s (4 * (i / 4) + (i mod 4 + 0) mod 4))) eqn:L0; [|discriminate].
  destruct (len8 (fnth s (4 * (i / 4) + (i mod 4 + 1) mod 4))) eqn:L1; [|discriminate].
  cbn [andb] in E.
  destruct (fvt (fnth s (4 * (i / 4) + (i mod 4 + 0) mod 4))) as [x0|] eqn:E0; [|discriminate]. cbn [obind] in E.
  destruct (fvt (fnth s (4 * (i / 4) + (i mod 4 + 1) mod 4))) as [x1|] eqn:E1; [|discriminate]. cbn [obind] in E.
  destruct (fvx x1 _) as [x2|] eqn:E2; [|discriminate]. cbn [obind] in E.
  destruct (fvx x0 x2) as [y|] eqn:E3; [|discriminate]. cbn [obind] in E.
  destruct (fvx y _) as [y2|] eqn:E4; [|discriminate]. cbn [obind] in E.
  rewrite (fvx_ok v _ _ _ E), (fvx_ok v _ _ _ E4), (fvx_ok v _ _ _ E3), (fvx_ok v _ _ _ E2).
  rewrite (fvt_ok v _ _ E0), (fvt_ok v _ _ E1).
  rewrite gmul2, gmul3 by (now apply evb_lt). reflexivity.
Qed.
Definition sym_mix (s : list fv) : option (list fv) := omap (sym_mix_byte s) (seq 0 16).
Lemma sym_mix_ok s r : sym_mix s = Some r -> map (evb v) r = mix_columns (map (evb v) s).
Proof. unfold sym_mix, mix_columns. apply omap_rel. intros a b. apply sym_mix_byte_ok. Qed.

Definition sym_rk (ws : list (list fv)) (r : nat) : list fv := concat (firstn 4 (skipn (4 * r) ws)).
Lemma sym_rk_ok ws r : map (evb v) (sym_rk ws r) = round_key (evw ws) r.
Proof.
  unfold sym_rk, round_key, evw. rewrite concat_map. now rewrite skipn_map, firstn_map.
Qed.

Definition sym_round (ws : list (list fv)) (so : option (list fv)) (r : nat) : option (list fv) :=
  do s <- so;
  do s <- sym_sboxes (16 * (r - 1)) s;
  do s <- sym_mix (sym_shift s);
  sym_xor s (sym_rk ws r).
Definition sym_cipher (ws : list (list fv)) (blk : list fv) : option (list fv) :=
  do s <- fold_left (sym_round ws) (seq 1 9) (sym_xor blk (sym_rk ws 0));
  do s <- sym_sboxes 144 s;
  sym_xor (sym_shift s) (sym_rk ws 10).

Lemma sym_round_none ws l : fold_left (sym_round ws) l None = None.
Proof. induction l; cbn; auto. Qed.
Lemma sym_rounds_ok ws l : forall s r, fold_left (sym_round ws) l (Some s) = Some r ->
  map (evb v) r = fold_left (fun s r => aes_round s (round_key (evw ws) r)) l (map (evb v) s).
Proof.
  induction l as [|i l IH]; intros s r E; cbn [fold_left] in *.
  - injection E as <-. reflexivity.
  - destruct (sym_round ws (Some s) i) as [s'|] eqn:Es.
    2:{ rewrite sym_round_none in E. discriminate. }
    rewrite (IH _ _ E). f_equal. unfold sym_round in Es. cbn [obind] in Es.
    destruct (sym_sboxes _ s) as [s1|] eqn:E1; [|discriminate]. cbn [obind] in Es.
    destruct (sym_mix _) as [s2|] eqn:E2; [|discriminate]. cbn [obind] in Es.
    unfold aes_round, add_round_key, sub_bytes.
    rewrite (sym_xor_ok v _ _ _ Es), sym_rk_ok, (sym_mix_ok _ _ E2), sym_shift_ok.
    now rewrite (sym_sboxes_ok _ _ _ E1).
Qed.
Lemma sym_cipher_ok ws blk r : sym_cipher ws blk = Some r ->
  map (evb v) r = cipher (evw ws) (map (evb v) blk).
Proof.
  unfold sym_cipher, cipher. intro E.
  destruct (sym_xor blk (sym_rk ws 0)) as [s0|] eqn:E0.
  2:{ rewrite sym_round_none in E. discriminate. }
  destruct (fold_left _ _ _) as [s|] eqn:Es; [|discriminate]. cbn [obind] in E.
  destruct (sym_sboxes 144 s) as [s1|] eqn:E1; [|discriminate]. cbn [obind] in E.
  unfold aes_last, add_round_key, sub_bytes.
  rewrite (sym_xor_ok v _ _ _ E), sym_rk_ok, sym_shift_ok, (sym_sboxes_ok _ _ _ E1).
  rewrite (sym_rounds_ok _ _ _ _ Es), (sym_xor_ok v _ _ _ E0), sym_rk_ok. reflexivity.
Qed.
End Facts.

(** * Layout of inputs and outputs *)
Lemma chunks_map {A B} (f : A -> B) n l : (n > 0)%nat -> map (map f) (chunks n l) = chunks n (map f l).
Proof.
  intro Hn. remember (length l) as k eqn:E. revert l E.
  induction k as [k IH] using lt_wf_ind; intros l E.
  destruct l as [|x l]; [reflexivity|].
  rewrite chunks_cons by (auto; congruence).
  rewrite (chunks_cons n (map f (x :: l))) by (auto; cbn; congruence).
  cbn [map]. f_equal; [now rewrite <- firstn_map|].
  rewrite (IH (length (skipn n (x :: l)))); [now rewrite <- skipn_map| |reflexivity].
  subst k. rewrite skipn_length. cbn [length]. lia.
Qed.

(** sixteen bytes, most significant first, as an Integer's wires *)
Definition in_bytes (start : N) : list fv := rev (map atoms (chunks 8 (nseq start 128))).
Lemma in_bytes_ok v start blk : Forall (fun b => b < 256) blk -> length blk = 16%nat ->
  map v (nseq start 128) = str_to_int blk -> map (evb v) (in_bytes start) = blk.
Proof.
  intros Hb Hl E. unfold in_bytes. rewrite map_rev, map_map.
  assert (X : map (fun x => evb v (atoms x)) (chunks 8 (nseq start 128)) =
              map N_of_bits (chunks 8 (map v (nseq start 128)))).
  { rewrite <- chunks_map by lia. rewrite map_map. apply map_ext. intro a. unfold evb.
    now rewrite ev_atoms. }
  rewrite X, E. unfold str_to_int, int_of_array.
  rewrite firstn_all2.
  2:{ rewrite (flat_map_length_const _ 8) by (intro; apply bits_of_N_length). rewrite rev_length. lia. }
  rewrite chunks_flat_map by (try (intro; apply bits_of_N_length); lia).
  rewrite map_map, map_rev, rev_involutive. rewrite <- (map_id blk) at 2. apply map_ext_in.
  intros b Hi. rewrite Forall_forall in Hb. apply N_of_bits_of_N_small. now apply Hb.
Qed.

(** the 44 words as laid out on 1408 wires: words in order, bytes of a word reversed,
    bits most significant first *)
Definition ks_layout (ws : list (list N)) : list bool :=
  flat_map (fun w => flat_map (be_of_N 8) (rev w)) ws.
Definition in_words (start : N) : list (list fv) :=
  map (fun ww => rev (map (fun bw => atoms (rev bw)) (chunks 8 ww))) (chunks 32 (nseq start 1408)).

Lemma chunks_flat_map_in {A B} (f : A -> list B) n l : (n > 0)%nat ->
  Forall (fun a => length (f a) = n) l -> chunks n (flat_map f l) = map f l.
Proof.
  intros Hn Hf. induction Hf as [|a l Ha Hl IH]; [reflexivity|].
  cbn [flat_map map]. rewrite chunks_app by auto. now rewrite IH.
Qed.

Lemma in_words_ok v start ws :
  Forall (fun w => length w = 4%nat /\ Forall (fun b => b < 256) w) ws -> 
  map v (nseq start 1408) = ks_layout ws -> evw v (in_words start) = ws.
Proof.
  intros Hw E. unfold evw, in_words. rewrite map_map.
  assert (X : map (fun ww => map (evb v) (rev (map (fun bw => atoms (rev bw)) (chunks 8 ww))))
                  (chunks 32 (nseq start 1408)) =
              map (fun ww => rev (map N_of_be (chunks 8 ww))) (chunks 32 (map v (nseq start 1408)))).
  { rewrite <- chunks_map by lia. rewrite map_map. apply map_ext. intro a.
    rewrite map_rev, map_map. f_equal. rewrite <- chunks_map by lia. rewrite map_map. apply map_ext.
    intro bw. unfold evb, N_of_be. now rewrite ev_atoms, map_rev. }
  rewrite X, E. unfold ks_layout.
  rewrite chunks_flat_map_in; [|lia|].
  2:{ eapply Forall_impl; [|exact Hw]. intros w [Hl _].
      rewrite (flat_map_length_const _ 8) by (intro; apply be_of_N_length). rewrite rev_length, Hl. reflexivity. }
  rewrite map_map. rewrite <- (map_id ws) at 2. apply map_ext_in. intros w Hi.
  rewrite Forall_forall in Hw. destruct (Hw w Hi) as [Hl Hb].
  rewrite chunks_flat_map by (try (intro; apply be_of_N_length); lia).
  rewrite map_map, map_rev, rev_involutive. rewrite <- (map_id w) at 2. apply map_ext_in.
  intros b Hbi. unfold N_of_be, be_of_N. rewrite rev_involutive. apply N_of_bits_of_N_small.
  rewrite Forall_forall in Hb. now apply Hb.
Qed.

(** outputs *)
Lemma out_bytes_ok v (l : list fv) : forallb len8 l = true ->
  map (ev v) (flat_map (@rev form) l) = flat_map (be_of_N 8) (map (evb v) l).
Proof.
  induction l as [|f l IH]; [reflexivity|]. cbn [forallb]. intro H. apply andb_true_iff in H.
  destruct H as [H1 H2]. cbn [flat_map map]. rewrite map_app, IH by exact H2. f_equal.
  rewrite map_rev. unfold be_of_N, evb. f_equal. symmetry. apply bits_of_N_of_bits'.
  rewrite map_length. unfold len8 in H1. now apply Nat.eqb_eq in H1.
Qed.
Lemma out_words_ok v (ws : list (list fv)) : forallb (forallb len8) ws = true ->
  map (ev v) (flat_map (fun w => flat_map (@rev form) (rev w)) ws) = ks_layout (evw v ws).
Proof.
  induction ws as [|w ws IH]; [reflexivity|]. cbn [forallb]. intro H. apply andb_true_iff in H.
  destruct H as [H1 H2]. unfold ks_layout, evw. cbn [flat_map map].
  rewrite map_app, IH by exact H2. f_equal. rewrite out_bytes_ok.
  - now rewrite map_rev.
  - rewrite forallb_forall in *. intros x Hx. apply H1. now apply in_rev.
Qed.

(** * Key schedule *)
Definition ks_check (c : bristol) (cs : list cut) : bool :=
  match check_net c cs with
  | Some t =>
      match sym_expand t cs 40 (map (fun i => firstn 4 (skipn (4 * i) (in_bytes 0))) (seq 0 4)) with
      | Some ws => forallb (forallb len8) ws &&
                   wires_are t (nseq 5953 1408) (flat_map (fun w => flat_map (@rev form) (rev w)) ws)
      | None => false
      end
  | None => false
  end.
Lemma ks_check_true : ks_check aes_ks_file ks_cuts = true.
Proof. vm_compute. reflexivity. Qed.
Lemma ks_ssa : ssa_all aes_ks_file = true.
Proof. vm_compute. reflexivity. Qed.

Lemma str_to_int_length str : length (str_to_int str) = (8 * length str)%nat.
Proof.
  unfold str_to_int, int_of_array. rewrite firstn_length, (flat_map_length_const _ 8) by (intro; apply bits_of_N_length).
  rewrite rev_length. lia.
Qed.

Lemma computeKS_gen c cs key : length key = 16%nat -> Forall (fun b => b < 256) key ->
  ssa_all c = true -> ks_check c cs = true ->
  num_wire c - out_len c = 5953 -> out_len c = 1408 -> in1_len c = 128 -> in2_len c = 0 ->
  computeKS c (str_to_int key) = Ok (ks_layout (key_expansion key)).
Proof.
  intros Hl Hb Hssa C E1 E2 E3 E4. unfold computeKS.
  destruct (compute_sat c (str_to_int key) [] Hssa) as (v & S & I1 & I2 & R).
  { rewrite str_to_int_length, Hl, E3. reflexivity. }
  { rewrite E4. reflexivity. }
  rewrite R. clear R I2. f_equal. rewrite E1, E2. rewrite E3 in I1.
  unfold ks_check in C.
  destruct (check_net c cs) as [t|] eqn:E; [|discriminate].
  destruct (check_net_ok _ _ _ _ E S) as [HF HS]. clear E S.
  match type of C with context [sym_expand ?a ?b ?c ?d] => destruct (sym_expand a b c d) as [ws|] eqn:X end; [|discriminate].
  apply andb_true_iff in C. destruct C as [C1 C2].
  apply (wires_are_ok t v HF) in C2.
  change 1408%nat with (N.to_nat 1408) in C2.
  rewrite C2, out_words_ok by exact C1. f_equal.
  rewrite (sym_expand_ok t cs v HF HS _ _ _ X). unfold key_expansion. f_equal.
  unfold evw, key_words. rewrite map_map. apply map_ext. intro i.
  rewrite <- firstn_map, <- skipn_map. do 2 f_equal. apply in_bytes_ok; auto.
Qed.
Lemma computeKS_ok key : length key = 16%nat -> Forall (fun b => b < 256) key ->
  computeKS aes_ks_file (str_to_int key) = Ok (ks_layout (key_expansion key)).
Proof.
  intros Hl Hb. apply (computeKS_gen aes_ks_file ks_cuts key Hl Hb ks_ssa ks_check_true);
  vm_compute; reflexivity.
Qed.

(** * Encryption *)
Definition enc_check (c : bristol) (cs : list cut) : bool :=
  match check_net c cs with
  | Some t =>
      match sym_cipher t cs (in_words 0) (in_bytes 1408) with
      | Some s => forallb len8 s && wires_are t (nseq 30467 128) (flat_map (@rev form) s)
      | None => false
      end
  | None => false
  end.
Lemma enc_check_true : enc_check aes_enc_file enc_cuts = true.
Proof. vm_compute. reflexivity. Qed.
Lemma enc_ssa : ssa_all aes_enc_file = true.
Proof. vm_compute. reflexivity. Qed.

Lemma rev_be_layout l : rev (flat_map (be_of_N 8) l) = str_to_int l.
Proof.
  unfold str_to_int, int_of_array.
  rewrite firstn_all2.
  2:{ rewrite (flat_map_length_const _ 8) by (intro; apply bits_of_N_length). rewrite rev_length. lia. }
  induction l as [|b l IH]; [reflexivity|]. cbn [flat_map rev].
  rewrite rev_app_distr, IH, flat_map_app. cbn [flat_map]. rewrite app_nil_r.
  unfold be_of_N. now rewrite rev_involutive.
Qed.

Lemma ks_layout_length l : Forall (fun w => length w = 4%nat /\ Forall (fun b => b < 256) w) l ->
  length (ks_layout l) = (32 * length l)%nat.
Proof.
  unfold ks_layout. induction 1 as [|w l [Hw1 _] Hl' IH]; [reflexivity|]. cbn [flat_map length].
  rewrite app_length, IH, (flat_map_length_const _ 8) by (intro; apply be_of_N_length).
  rewrite rev_length, Hw1. lia.
Qed.

Lemma computeAES_KS_gen c cs ws blk : length blk = 16%nat -> Forall (fun b => b < 256) blk ->
  length ws = 44%nat -> Forall (fun w => length w = 4%nat /\ Forall (fun b => b < 256) w) ws ->
  ssa_all c = true -> enc_check c cs = true ->
  num_wire c - out_len c = 30467 -> out_len c = 128 -> in1_len c = 1408 -> in2_len c = 128 ->
  computeAES_KS c (ks_layout ws) (str_to_int blk) = Ok (str_to_int (cipher ws blk)).
Proof.
  intros Hl Hb Hn Hw Hssa C E1 E2 E3 E4. unfold computeAES_KS.
  destruct (compute_sat c (ks_layout ws) (str_to_int blk) Hssa) as (v & S & I1 & I2 & R).
  { rewrite E3, ks_layout_length, Hn by exact Hw. reflexivity. }
  { rewrite str_to_int_length, Hl, E4. reflexivity. }
  rewrite R. clear R. cbn [bind]. f_equal. rewrite E1, E2. rewrite E3 in I1, I2. rewrite E4 in I2.
  unfold enc_check in C.
  destruct (check_net c cs) as [t|] eqn:E; [|discriminate].
  destruct (check_net_ok _ _ _ _ E S) as [HF HS]. clear E S.
  destruct (sym_cipher t cs (in_words 0) (in_bytes 1408)) as [s|] eqn:X; [|discriminate].
  apply andb_true_iff in C. destruct C as [C1 C2].
  apply (wires_are_ok t v HF) in C2.
  change 128%nat with (N.to_nat 128) in C2.
  rewrite C2, out_bytes_ok by exact C1. rewrite rev_be_layout. f_equal.
  rewrite (sym_cipher_ok t cs v HF HS _ _ _ X). f_equal.
  - apply in_words_ok; [exact Hw|exact I1].
  - apply in_bytes_ok; auto.
Qed.
Lemma computeAES_KS_ok ws blk : length blk = 16%nat -> Forall (fun b => b < 256) blk ->
  length ws = 44%nat -> Forall (fun w => length w = 4%nat /\ Forall (fun b => b < 256) w) ws ->
  computeAES_KS aes_enc_file (ks_layout ws) (str_to_int blk) = Ok (str_to_int (cipher ws blk)).
Proof.
  intros Hl Hb Hn Hw.
  apply (computeAES_KS_gen aes_enc_file enc_cuts ws blk Hl Hb Hn Hw enc_ssa enc_check_true);
  vm_compute; reflexivity.
Qed.

Lemma Forall_firstn' {A} (P : A -> Prop) n l : Forall P l -> Forall P (firstn n l).
Proof. intro H. rewrite <- (firstn_skipn n l) in H. now apply Forall_app in H. Qed.
Lemma Forall_skipn' {A} (P : A -> Prop) n l : Forall P l -> Forall P (skipn n l).
Proof. intro H. rewrite <- (firstn_skipn n l) in H. now apply Forall_app in H. Qed.

(** * Shape of the expanded key and of ciphertexts *)
Definition word_ok (w : list N) := length w = 4%nat /\ Forall (fun b => b < 256) w.

Lemma lxor_byte a b : a < 256 -> b < 256 -> N.lxor a b < 256.
Proof. intros. apply (lxor_lt a b 8); assumption. Qed.
Lemma sbox_byte b : sbox b < 256.
Proof.
  unfold sbox. generalize (ginv b); intro x. cbn [fold_right].
  generalize (affine_bit x 0), (affine_bit x 1), (affine_bit x 2), (affine_bit x 3), (affine_bit x 4), (affine_bit x 5), (affine_bit x 6), (affine_bit x 7).
  intros [] [] [] [] [] [] [] []; reflexivity.
Qed.
Lemma xor_bytes_length a b : length (xor_bytes a b) = Nat.min (length a) (length b).
Proof. unfold xor_bytes. now rewrite map_length, combine_length. Qed.
Lemma xor_bytes_bytes a : forall b, Forall (fun x => x < 256) a -> Forall (fun x => x < 256) b ->
  Forall (fun x => x < 256) (xor_bytes a b).
Proof.
  unfold xor_bytes. induction a as [|x a IH]; intros [|y b] Ha Hb; cbn [combine map]; auto.
  inversion Ha; inversion Hb; subst. constructor; [now apply lxor_byte|]. now apply IH.
Qed.
Lemma xor_word a b : word_ok a -> word_ok b -> word_ok (xor_bytes a b).
Proof.
  intros [A1 A2] [B1 B2]. split; [now rewrite xor_bytes_length, A1, B1|]. now apply xor_bytes_bytes.
Qed.
Lemma rcon_byte_lt i : rcon_byte i < 256.
Proof.
  induction i as [|i IH]; [reflexivity|]. cbn [rcon_byte]. rewrite <- gmul2 by exact IH.
  apply N.ltb_lt. revert IH. generalize (rcon_byte i). apply byte_all. vm_compute. reflexivity.
Qed.
Lemma next_word_ok ws : (4 <= length ws)%nat -> Forall word_ok ws -> word_ok (next_word ws).
Proof.
  intros Hl Hw. assert (G : forall i, (i < length ws)%nat -> word_ok (nth i ws [])).
  { intros i Hi. rewrite Forall_forall in Hw. apply Hw, nth_In, Hi. }
  unfold next_word. apply xor_word; [apply G; lia|].
  destruct (length ws mod 4 =? 0)%nat; [|apply G; lia]. apply xor_word.
  - destruct (G (length ws - 1)%nat) as [L B]; [lia|].
    destruct (nth (length ws - 1) ws []) as [|w0 [|w1 [|w2 [|w3 [|]]]]]; try discriminate.
    split; [reflexivity|]. cbn [rot_word tl firstn app map]. repeat apply Forall_cons; try apply sbox_byte. apply Forall_nil.
  - split; [reflexivity|]. unfold rcon. apply Forall_cons; [apply rcon_byte_lt|]. repeat (apply Forall_cons; [reflexivity|]). apply Forall_nil.
Qed.
Lemma expand_ok n : forall ws, (4 <= length ws)%nat -> Forall word_ok ws ->
  length (expand n ws) = (n + length ws)%nat /\ Forall word_ok (expand n ws).
Proof.
  induction n as [|n IH]; intros ws Hl Hw; cbn [expand]; [auto|].
  destruct (IH (ws ++ [next_word ws])) as [A B].
  - rewrite app_length; cbn; lia.
  - apply Forall_app. split; [exact Hw|]. constructor; [|constructor]. now apply next_word_ok.
  - split; [|exact B]. rewrite A, app_length. cbn. lia.
Qed.
Lemma key_expansion_ok key : length key = 16%nat -> Forall (fun b => b < 256) key ->
  length (key_expansion key) = 44%nat /\ Forall word_ok (key_expansion key).
Proof.
  intros Hl Hb. unfold key_expansion. apply (expand_ok 40 (key_words key)).
  - reflexivity.
  - unfold key_words. rewrite Forall_map, Forall_forall. intros i Hi. apply in_seq in Hi. split.
    + rewrite firstn_length, skipn_length. lia.
    + now apply Forall_firstn', Forall_skipn'.
Qed.

Lemma cipher_length ws blk : length ws = 44%nat -> Forall word_ok ws -> length (cipher ws blk) = 16%nat.
Proof.
  intros Hl Hw. unfold cipher, aes_last, add_round_key.
  rewrite xor_bytes_length. unfold shift_rows at 1. rewrite map_length, seq_length.
  change (round_key ws 10) with (concat (firstn 4 (skipn (4 * 10) ws))).
  assert (length (concat (firstn 4 (skipn (4 * 10) ws))) = 16%nat); [|lia].
  assert (L : length (firstn 4 (skipn (4 * 10) ws)) = 4%nat) by (rewrite firstn_length, skipn_length; lia).
  assert (W : Forall word_ok (firstn 4 (skipn (4 * 10) ws))) by (now apply Forall_firstn', Forall_skipn').
  destruct (firstn 4 (skipn (4 * 10) ws)) as [|w0 [|w1 [|w2 [|w3 [|]]]]]; try discriminate.
  inversion W as [|? ? [L0 _] W1]; inversion W1 as [|? ? [L1 _] W2]; inversion W2 as [|? ? [L2 _] W3];
  inversion W3 as [|? ? [L3 _] _]; subst. cbn [concat]. rewrite !app_length, L0, L1, L2, L3. reflexivity.
Qed.
Lemma round_key_bytes ws r : Forall word_ok ws -> Forall (fun b => b < 256) (round_key ws r).
Proof.
  intro Hw. unfold round_key. apply Forall_concat.
  eapply Forall_impl; [|apply Forall_firstn', Forall_skipn', Hw]. intros w [_ H]. exact H.
Qed.
Lemma cipher_bytes ws blk : Forall word_ok ws -> Forall (fun b => b < 256) (cipher ws blk).
Proof.
  intro Hw. unfold cipher, aes_last, add_round_key. apply xor_bytes_bytes; [|now apply round_key_bytes].
  unfold shift_rows, sub_bytes. rewrite Forall_map, Forall_forall. intros i _. unfold nb.
  match goal with |- nth ?i (map sbox ?s) 0 < _ => destruct (Nat.lt_ge_cases i (length (map sbox s))) as [H|H] end.
  - rewrite (nth_indep _ 0 (sbox 0)) by exact H. rewrite map_nth. apply sbox_byte.
  - rewrite nth_overflow by exact H. reflexivity.
Qed.
Lemma aes128_length key blk : length key = 16%nat -> Forall (fun b => b < 256) key ->
  length (aes128 key blk) = 16%nat.
Proof. intros. unfold aes128. apply cipher_length; now apply key_expansion_ok. Qed.
Lemma aes128_bytes key blk : length key = 16%nat -> Forall (fun b => b < 256) key ->
  Forall (fun b => b < 256) (aes128 key blk).
Proof. intros. unfold aes128. apply cipher_bytes; now apply key_expansion_ok. Qed.

Lemma aes_encrypt_ok key blk :
  length key = 16%nat -> Forall (fun b => b < 256) key ->
  length blk = 16%nat -> Forall (fun b => b < 256) blk ->
  (let* ks := computeKS aes_ks_file (str_to_int key) in
   computeAES_KS aes_enc_file ks (str_to_int blk))%res = Ok (str_to_int (aes128 key blk)).
Proof.
  intros K1 K2 B1 B2. rewrite computeKS_ok by assumption. cbn [bind].
  destruct (key_expansion_ok key K1 K2). apply computeAES_KS_ok; assumption.
Qed.

(** every 128-bit Integer is [str_to_int] of sixteen bytes *)
Definition int_bytes (x : Integer) : list N := rev (map N_of_bits (chunks 8 x)).
Lemma int_bytes_ok x : length x = 128%nat ->
  length (int_bytes x) = 16%nat /\ Forall (fun b => b < 256) (int_bytes x) /\ str_to_int (int_bytes x) = x.
Proof.
  intro H. unfold int_bytes.
  assert (L : Forall (fun c => length c = 8%nat) (chunks 8 x)).
  { apply (chunks_all_length 8 x 16); [lia|exact H]. }
  split; [|split].
  - rewrite rev_length, map_length. apply chunks_length; [lia|exact H].
  - rewrite Forall_forall. intros b Hb. apply in_rev, in_map_iff in Hb. destruct Hb as (c & <- & Hc).
    rewrite Forall_forall in L. specialize (L c Hc). eapply N.lt_le_trans; [apply N_of_bits_lt|].
    rewrite L. reflexivity.
  - rewrite <- rev_be_layout.
    assert (G : forall l, Forall (fun c => length c = 8%nat) l ->
       flat_map (be_of_N 8) (rev (map N_of_bits l)) = rev (concat l)).
    { induction 1 as [|c l Hc Hl IH]; [reflexivity|]. cbn [map rev concat].
      rewrite flat_map_app, IH, rev_app_distr. f_equal. cbn [flat_map]. rewrite app_nil_r.
      unfold be_of_N. f_equal. now apply bits_of_N_of_bits'. }
    rewrite G by exact L. rewrite rev_involutive. apply chunks_concat. lia.
Qed.
