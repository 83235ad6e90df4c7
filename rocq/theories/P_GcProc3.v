(** Circuits on the two-phase backend as two programs. *)
From Coq Require Import List NArith Bool Arith Lia.
From Verif Require Import L_Bits L_Res S_Circuit S_Sched M_Utils M_Block M_Garble M_Exch M_LabRec M_GcProc.
From Verif Require Import P_Garble P_GarbleFeed P_Utils P_Sched P_Exch P_ExchAead P_GcProc P_GcProc2.
From Verif Require P_GarbleOpt.
Import ListNotations.
Local Open Scope N_scope.
Local Opaque bytes_of_block block_of_bytes dig_bytes.

Lemma feed_msgs delta p : forall l bits, n_feed_msgs delta p bits l = map MLabel (flip delta l bits).
Proof. unfold n_feed_msgs, flip. induction l as [|x l IH]; intros [|b bits]; cbn; [reflexivity..|]. now rewrite IH. Qed.
Lemma flip_len delta : forall l bits, length l = length bits -> length (flip delta l bits) = length bits.
Proof. unfold flip. intros l bits H. now rewrite map2_length2. Qed.
Lemma flip_blk delta : forall l bits, delta < 2 ^ 128 -> Forall (fun x => x < 2 ^ 128) l -> Forall (fun x => x < 2 ^ 128) (flip delta l bits).
Proof.
  intros l bits D F. revert bits. unfold flip. induction F as [|x l H F IH]; intros [|b bits]; cbn; [constructor..|].
  constructor; [|apply IH]. destruct b; [apply lxor_blk; assumption|exact H].
Qed.

Section GC.
Variables (sigma aes : N -> N) (Hash : list N -> N) (fixk lab : nat -> N) (delta : N).
Hypothesis Hd : getLSB delta = true.
Hypothesis Bd : delta < 2 ^ 128.
Hypothesis Bs : forall x, sigma x < 2 ^ 128.
Hypothesis Ba : forall x, aes x < 2 ^ 128.
Hypothesis Bf : forall i, fixk i < 2 ^ 128.
Hypothesis Bl : forall i, lab i < 2 ^ 128.
Notation blk := (fun x => x < 2 ^ 128).
Notation fg_step := (fg_step sigma aes fixk lab delta).
Notation f_run := (f_run sigma aes fixk lab delta).
Notation n_step := (n_step sigma aes Hash fixk lab delta).
Notation n_run := (n_run sigma aes Hash fixk lab delta).
Notation p_fgen := (p_fgen sigma aes fixk lab delta).
Notation p_ngen_step := (p_ngen_step Hash fixk lab delta).
Notation p_neva_step := (p_neva_step sigma aes Hash fixk lab delta).
Notation p_ngen := (p_ngen Hash fixk lab delta).
Notation p_neva := (p_neva sigma aes Hash fixk lab delta).

(** * Offline *)
Lemma labs_blk a n : Forall blk (map lab (seq a n)).
Proof. apply Forall_forall. intros x H. apply in_map_iff in H. destruct H as (y & <- & _). apply Bl. Qed.
Lemma fg_blk g c : Forall blk (fg_w g) -> Forall blk (fg_w (fst (fg_step g c))).
Proof.
  intro F. destruct c as [b|p bits|i j|i j|i|p ws]; cbn [M_Garble.fg_step fst fg_w].
  - apply Forall_app; split; [exact F|]. constructor; [|constructor]. unfold gen_const. destruct b; [apply lxor_blk; [apply Bf|exact Bd]|apply Bf].
  - apply Forall_app; split; [exact F|]. apply labs_blk.
  - pose proof (P_GarbleOpt.blk_garble sigma aes delta Bd Bs Ba (lbl (fg_w g) i) (N.lxor (lbl (fg_w g) i) delta) (lbl (fg_w g) j) (N.lxor (lbl (fg_w g) j) delta) (fg_gid g) (lbl_blk _ _ F)) as X.
    destruct (garble_gate _ _ _ _ _ _ _ _) as [[o t0] t1]. cbn [fst fg_w]. apply Forall_app; split; [exact F|]. constructor; [|constructor]. apply X.
  - apply Forall_app; split; [exact F|]. constructor; [|constructor]. apply lxor_blk; apply lbl_blk; exact F.
  - apply Forall_app; split; [exact F|]. constructor; [|constructor]. apply lxor_blk; [apply lbl_blk; exact F|exact Bd].
  - exact F.
Qed.
Lemma off_conv : forall prog g e, Forall blk (fg_w g) ->
  exists g' e', f_run g e [] prog = Ok (g', e', []) /\ conv (p_fgen g prog) (p_feva e prog) (Ok g') (Ok e').
Proof.
  induction prog as [|c t IH]; intros g e F; cbn [M_Garble.f_run M_GcProc.p_fgen p_feva].
  - exists g, e. split; [reflexivity|apply conv_ret].
  - pose proof (fg_blk g c F) as F'.
    destruct (f_step_ok sigma aes fixk lab delta g e c) as (e1 & o & gc & pb & H1 & _).
    destruct (fg_step g c) as [g1 m] eqn:EG. cbn [fst snd app] in *. rewrite H1. cbn [bind].
    destruct (IH g1 e1 F') as (g' & e' & R & C). exists g', e'. split; [exact R|].
    assert (X : conv (p_sends m (Ret (Ok g1))) (p_feva_step e c) (Ok g1) (Ok e1)).
    { destruct c as [b|p bits|i j|i j|i|p ws]; cbn [M_Garble.fg_step p_feva_step fe_step] in *.
      1,2,4,5: injection EG as <- <-; injection H1 as <-; apply conv_ret.
      - pose proof (P_GarbleOpt.blk_garble sigma aes delta Bd Bs Ba (lbl (fg_w g) i) (N.lxor (lbl (fg_w g) i) delta) (lbl (fg_w g) j) (N.lxor (lbl (fg_w g) j) delta) (fg_gid g) (lbl_blk _ _ F)) as B.
        destruct (garble_gate _ _ _ _ _ _ _ _) as [[o1 t0] t1]. injection EG as <- <-. cbn [recv as_table bind fst snd] in H1. injection H1 as <-.
        eapply conv_ab; [apply solo_one; constructor|].
        eapply (solo_recv IO _ _ _ _ (msg_bytes (MTable t0 t1)) []); [symmetry; exact (app_nil_r _)|apply table_len|].
        rewrite table_round by tauto. cbn [put get on_io on_opt nobufs fst snd]. constructor.
      - injection EG as <- <-. destruct p; [injection H1 as <-; apply conv_ret..|].
        rewrite <- (map_map (fun i => getLSB (lbl (fg_w g) i)) MBit) in H1 |- *.
        set (l := map (fun i => getLSB (lbl (fg_w g) i)) ws) in *.
        assert (L : length ws = length l) by (unfold l; now rewrite map_length). rewrite L in H1 |- *.
        rewrite <- (app_nil_r (map MBit l)), recv_bits_map in H1. cbn [bind] in H1. injection H1 as <-.
        eapply conv_ab; [apply sends0|]. eapply solo_bind_ret; [|constructor].
        rewrite enc_bits. rewrite <- (app_nil_r (map bit_byte l)). apply solo_bits. }
    assert (Y : forall k : fgen -> proc (res fgen), p_sends m (k g1) = rbind (p_sends m (Ret (Ok g1))) k).
    { intro k. clear. induction m as [|x m IH]; [reflexivity|]. cbn [p_sends rbind pbind]. f_equal. exact IH. }
    rewrite (Y (fun g => p_fgen g t)). eapply conv_rbind; [exact X|exact C].
Qed.
Lemma wp_fgen : forall prog g e g' e' ch d, f_run g e ch prog = Ok (g', e', []) -> snd d = false ->
  wp (p_fgen g prog) d (fun r d' => snd d' = false /\ r = Ok g').
Proof.
  induction prog as [|c t IH]; intros g e g' e' ch d E D; cbn [M_Garble.f_run M_GcProc.p_fgen] in *.
  - injection E as <- <- _. cbn. auto.
  - destruct (fg_step g c) as [g1 m]. destruct (fe_step e c (ch ++ m)) as [[e1 ch1]| |]; cbn [bind] in E; try discriminate.
    apply wp_sends; [exact D|]. intros b _. eapply IH; [exact E|reflexivity].
Qed.
Lemma recv_bits_len : forall n ch l ch', recv_bits n ch = Ok (l, ch') -> length l = n.
Proof.
  induction n as [|n IH]; intros ch l ch' E; cbn in E.
  - now injection E as <- _.
  - destruct (recv as_bit ch) as [[b c1]| |]; cbn [bind] in E; try discriminate.
    destruct (recv_bits n c1) as [[l1 c2]| |] eqn:R; cbn [bind] in E; try discriminate. injection E as <- _. cbn. f_equal. eauto.
Qed.
Lemma wp_feva : forall prog g e g' e' ch ch' e1 d, f_run g e ch prog = Ok (g', e', ch') ->
  length (fe_GC e1) = length (fe_GC e) -> length (fe_pub e1) = length (fe_pub e) -> snd d = false ->
  wp (p_feva e1 prog) d (fun r d' => snd d' = false /\ exists e2, r = Ok e2 /\
    length (fe_GC e2) = length (fe_GC e') /\ length (fe_pub e2) = length (fe_pub e')).
Proof.
  induction prog as [|c t IH]; intros g e g' e' ch ch' e1 d E L1 L2 D; cbn [M_Garble.f_run p_feva] in *.
  - injection E as <- <- <-. cbn. eauto.
  - destruct (fg_step g c) as [g1 m]. destruct (fe_step e c (ch ++ m)) as [[e3 ch1]| |] eqn:ES; cbn [bind] in E; try discriminate.
    apply wp_rbind. eapply (wp_mono _ _ (fun r d' => snd d' = false /\ exists e2, r = Ok e2 /\
      length (fe_GC e2) = length (fe_GC e3) /\ length (fe_pub e2) = length (fe_pub e3))).
    + intros r d' (D' & e2 & -> & M1 & M2). eapply IH; eassumption.
    + destruct c as [b|p bits|i j|i j|i|p ws]; cbn [p_feva_step fe_step] in *.
      1,2,4,5: injection ES as <- <-; cbn; eauto.
      * destruct (recv as_table (ch ++ m)) as [[tb c2]| |]; cbn [bind] in ES; try discriminate. injection ES as <- <-.
        cbn [wp fget other fset]. split; [exact D|]. intros bs _. cbn [wp]. split; [exact D|]. eexists; split; [reflexivity|].
        cbn [fe_GC fe_pub]. rewrite !app_length, L1. auto.
      * destruct p; [injection ES as <- <-; cbn; eauto..|].
        destruct (recv_bits (length ws) (ch ++ m)) as [[l c2]| |] eqn:R; cbn [bind] in ES; try discriminate. injection ES as <- <-.
        apply recv_bits_len in R. apply wp_bind, wp_bits; [exact D|]. intros b d' L D'. cbn [wp]. split; [exact D'|].
        eexists; split; [reflexivity|]. cbn [fe_GC fe_pub]. rewrite !app_length. split; congruence.
Qed.

(** * Online *)
Definition ngof (s : nstate) (v : list (list bool)) : ngen := mkNG (ng_w s) (ng_gid s) (ng_prg s) v.
Definition neof (s : nstate) (v : list (list bool)) : neva := mkNE (ne_w s) (ne_gid s) (ne_cnt s) (ng_prg s) v.
Lemma ne_pub_len : forall pub l cnt b, ne_pub pub cnt l = Ok b -> length b = length l.
Proof.
  intros pub. induction l as [|x l IH]; intros cnt b E; cbn [ne_pub] in E; [now injection E as <-|].
  destruct (nth_error pub cnt); cbn [read bind] in E; try discriminate.
  destruct (ne_pub pub (S cnt) l) as [b1| |] eqn:R; cbn [bind] in E; try discriminate. injection E as <-. cbn. f_equal. eauto.
Qed.
Lemma n_step_conv out GC pub s c s' op va vb : n_step out GC pub s c = Ok (s', op) -> n_ge s = [] -> n_eg s = [] ->
  conv (p_ngen_step out (ngof s va) c) (p_neva_step GC pub (neof s vb) c)
    (Ok (ngof s' (va ++ saw true op))) (Ok (neof s' (vb ++ saw false op))) /\ n_ge s' = [] /\ n_eg s' = [].
Proof.
  intros E G1 G2. unfold ngof, neof.
  destruct c as [b|p bits|i j|i j|i|p ws]; cbn [M_Garble.n_step M_GcProc.p_ngen_step M_GcProc.p_neva_step ngs_w ngs_gid ngs_prg ngs_saw nes_w nes_gid nes_cnt nes_in nes_saw] in *.
  - injection E as <- <-. cbn. rewrite !app_nil_r. repeat split; try assumption. apply conv_ret.
  - rewrite G1 in E. cbn [app] in E. rewrite feed_msgs in E.
    set (l := map lab (seq (ng_prg s) (length bits))) in *.
    assert (L : length (flip delta l bits) = length bits) by (apply flip_len; unfold l; now rewrite map_length, seq_length).
    rewrite <- L in E at 1. rewrite <- (app_nil_r (map MLabel _)), recv_labels_map in E. cbn [bind] in E. injection E as <- <-.
    cbn [ng_w ng_gid ng_prg ne_w ne_gid ne_cnt n_ge n_eg saw map]. rewrite !app_nil_r. repeat split; try assumption.
    destruct p; [|apply conv_ret..]. rewrite feed_msgs. eapply conv_ab; [apply sends0|]. eapply solo_bind_ret; [|constructor].
    rewrite enc_labels, <- L at 1. apply solo_labels, flip_blk; [exact Bd|]. apply labs_blk.
  - destruct (nth_error out (ng_gid s)) as [o|]; cbn [read bind] in E; try discriminate.
    destruct (ne_and sigma aes GC (lbl (ne_w s) i) (lbl (ne_w s) j) (ne_gid s)) as [e| |]; cbn [bind] in E; try discriminate.
    injection E as <- <-. cbn. rewrite !app_nil_r. repeat split; try assumption. apply conv_ret.
  - injection E as <- <-. cbn. rewrite !app_nil_r. repeat split; try assumption. apply conv_ret.
  - injection E as <- <-. cbn. rewrite !app_nil_r. repeat split; try assumption. apply conv_ret.
  - destruct p.
    + rewrite G2 in E. cbn [app] in E. rewrite <- (map_map getLSB MBit) in E |- *.
      set (l := map getLSB (map (lbl (ne_w s)) ws)) in *.
      assert (L : length ws = length l) by (unfold l; now rewrite !map_length). rewrite L in E |- *.
      rewrite <- (app_nil_r (map MBit l)), recv_bits_map in E. cbn [bind] in E. injection E as <- <-.
      cbn [ng_w ng_gid ng_prg ne_w ne_gid ne_cnt n_ge n_eg saw map fst snd]. repeat split; try assumption.
      rewrite Nat.add_0_r. eapply conv_ba; [apply sends0|]. eapply solo_bind_ret; [|constructor].
      rewrite enc_bits, <- (app_nil_r (map bit_byte l)). apply solo_bits.
    + rewrite G1 in E. cbn [app] in E. rewrite <- (map_map getLSB MBit) in E |- *.
      set (l := map getLSB (map (lbl (ng_w s)) ws)) in *.
      assert (L : length ws = length l) by (unfold l; now rewrite !map_length). rewrite L in E |- *.
      rewrite <- (app_nil_r (map MBit l)), recv_bits_map in E. cbn [bind] in E. injection E as <- <-.
      cbn [ng_w ng_gid ng_prg ne_w ne_gid ne_cnt n_ge n_eg saw map fst snd]. repeat split; try assumption.
      rewrite Nat.add_0_r. eapply conv_ab; [apply sends0|]. eapply solo_bind_ret; [|constructor].
      rewrite enc_bits, <- (app_nil_r (map bit_byte l)). apply solo_bits.
    + destruct (ne_pub pub (ne_cnt s) (map (lbl (ne_w s)) ws)) as [be| |] eqn:EP; cbn [bind] in E; try discriminate.
      rewrite G2 in E. cbn [app recv as_bits as_hash bind] in E. unfold ng_reveal_check in E.
      match type of E with context [Hash ?x =? ?y] => destruct (Hash x =? y) eqn:EH end; cbn [bind] in E; try discriminate.
      apply N.eqb_eq in EH. injection E as <- <-. cbn [ng_w ng_gid ng_prg ne_w ne_gid ne_cnt n_ge n_eg saw map fst snd]. repeat split; try assumption.
      unfold local. eapply conv_ba; [cbn [rbind pbind]; apply sends0|].
      cbn [enc flat_map msg_bytes app]. rewrite app_nil_r.
      eapply (solo_recv IO _ _ _ _ (map bit_byte be) _); [reflexivity| |].
      { rewrite map_length, (ne_pub_len _ _ _ _ EP), map_length. reflexivity. }
      eapply (solo_recv IO _ _ _ _ (dig_bytes (Hash (map (lbl (ne_w s)) ws))) []); [symmetry; exact (app_nil_r _)|apply dig_len|].
      cbv zeta. rewrite bits_round, EH, same_refl. cbn [put get on_io on_opt]. constructor.
Qed.
Lemma n_run_conv out GC pub : forall prog s s' op va vb, n_run out GC pub s prog = Ok (s', op) -> n_ge s = [] -> n_eg s = [] ->
  conv (p_ngen out (ngof s va) prog) (p_neva GC pub (neof s vb) prog)
    (Ok (ngof s' (va ++ saw true op))) (Ok (neof s' (vb ++ saw false op))) /\ n_ge s' = [] /\ n_eg s' = [].
Proof.
  induction prog as [|c t IH]; intros s s' op va vb E G1 G2; cbn [M_Garble.n_run M_GcProc.p_ngen M_GcProc.p_neva] in *.
  - injection E as <- <-. cbn. rewrite !app_nil_r. repeat split; try assumption. apply conv_ret.
  - destruct (n_step out GC pub s c) as [[s1 o1]| |] eqn:E1; cbn [bind] in E; try discriminate.
    destruct (n_run out GC pub s1 t) as [[s2 o2]| |] eqn:E2; cbn [bind] in E; try discriminate. injection E as <- <-.
    destruct (n_step_conv out GC pub s c s1 o1 va vb E1 G1 G2) as (C1 & G3 & G4).
    destruct (IH _ _ _ (va ++ saw true o1) (vb ++ saw false o1) E2 G3 G4) as (C2 & G5 & G6).
    split; [|split; assumption]. unfold saw in *. rewrite !map_app, !app_assoc. eapply conv_rbind; eassumption.
Qed.
Lemma ne_pub_ok2 : forall pub pub' l l' cnt b, ne_pub pub cnt l = Ok b -> length pub' = length pub -> length l' = length l ->
  exists b', ne_pub pub' cnt l' = Ok b'.
Proof.
  intros pub pub'. induction l as [|x l IH]; intros [|x' l'] cnt b E P L; cbn in L; try discriminate; cbn [ne_pub] in *; [eauto|].
  destruct (nth_error pub cnt) eqn:N1; cbn [read bind] in E; try discriminate.
  destruct (nth_error pub' cnt) eqn:N2; cbn [read bind].
  - destruct (ne_pub pub (S cnt) l) as [r1| |] eqn:R; cbn [bind] in E; try discriminate.
    destruct (IH l' _ _ R P ltac:(lia)) as [b' ->]. cbn [bind]. eauto.
  - exfalso. apply nth_error_None in N2. assert (cnt < length pub)%nat by (apply nth_error_Some; congruence). lia.
Qed.
Lemma wp_ngen_step out GC pub s c s' op g d : n_step out GC pub s c = Ok (s', op) -> ngs_gid g = ng_gid s -> snd d = false ->
  wp (p_ngen_step out g c) d (fun r d' => snd d' = false /\
    match r with
    | Ok g' => ngs_gid g' = ng_gid s' /\ exists v, ngs_saw g' = ngs_saw g ++ v /\ map (@length bool) v = reveals [c]
    | Err => fst d' = false | UB => False end).
Proof.
  intros E F D. assert (NIL : forall x : list (list bool), exists v, x = x ++ v /\ map (@length bool) v = []) by (intro x; exists []; now rewrite app_nil_r).
  destruct c as [b|p bits|i j|i j|i|p ws]; cbn [M_Garble.n_step M_GcProc.p_ngen_step reveals flat_map app] in *.
  - injection E as <- <-. cbn. auto.
  - destruct (recv_labels _ _) as [[? ?]| |]; cbn [bind] in E; try discriminate. injection E as <- <-.
    apply wp_sends; [exact D|]. intros b _. cbn. auto.
  - destruct (nth_error out (ng_gid s)) as [o|] eqn:NO; cbn [read bind] in E; try discriminate.
    destruct (ne_and _ _ _ _ _ _); cbn [bind] in E; try discriminate. injection E as <- <-.
    rewrite F, NO. unfold local. cbn. auto.
  - injection E as <- <-. cbn. auto.
  - injection E as <- <-. cbn. auto.
  - assert (F' : ngs_gid g = ng_gid s').
    { rewrite F. destruct p.
      - destruct (recv_bits _ _) as [[? ?]| |]; cbn [bind] in E; try discriminate. now injection E as <- <-.
      - destruct (recv_bits _ _) as [[? ?]| |]; cbn [bind] in E; try discriminate. now injection E as <- <-.
      - destruct (ne_pub _ _ _); cbn [bind] in E; try discriminate.
        destruct (recv as_bits _) as [[? ?]| |]; cbn [bind] in E; try discriminate.
        destruct (recv as_hash _) as [[? ?]| |]; cbn [bind] in E; try discriminate.
        destruct (ng_reveal_check _ _ _ _ _); cbn [bind] in E; try discriminate. now injection E as <- <-. }
    assert (SE : forall (b : list bool) (d' : flags), length b = length ws -> snd d' = false ->
      snd d' = false /\ ngs_gid g = ng_gid s' /\ exists v, ngs_saw g ++ [b] = ngs_saw g ++ v /\ map (@length bool) v = [length ws]).
    { intros b d' L D'. split; [exact D'|]. split; [exact F'|]. exists [b]. cbn. now rewrite L. }
    destruct p.
    + apply wp_bind, wp_bits; [exact D|]. intros b d' L D'. cbn [wp ngs_gid ngs_saw]. apply SE; [|assumption].
      rewrite map2_length2; rewrite ?map_length; assumption.
    + apply wp_sends; [exact D|]. intros x _. cbn [wp ngs_gid ngs_saw]. apply SE; [apply repeat_length|reflexivity].
    + cbn [wp fget other fset fst snd]. split; [exact D|]. intros y L.
      split; [exact D|]. intros h _. cbv zeta. destruct (same_bytes _ _); cbn [wp ngs_gid ngs_saw]; [|auto].
      apply SE; [now rewrite map_length|exact D].
Qed.
Lemma wp_ngen out GC pub : forall prog s s' op g d, n_run out GC pub s prog = Ok (s', op) -> ngs_gid g = ng_gid s -> snd d = false ->
  wp (p_ngen out g prog) d (fun r d' => snd d' = false /\
    match r with
    | Ok g' => ngs_gid g' = ng_gid s' /\ exists v, ngs_saw g' = ngs_saw g ++ v /\ map (@length bool) v = reveals prog
    | Err => fst d' = false | UB => False end).
Proof.
  induction prog as [|c t IH]; intros s s' op g d E F D; cbn [M_Garble.n_run M_GcProc.p_ngen] in *.
  - injection E as <- <-. cbn. split; [exact D|]. split; [exact F|]. exists []. now rewrite app_nil_r.
  - destruct (n_step out GC pub s c) as [[s1 o1]| |] eqn:E1; cbn [bind] in E; try discriminate.
    destruct (n_run out GC pub s1 t) as [[s2 o2]| |] eqn:E2; cbn [bind] in E; try discriminate. injection E as <- <-.
    apply wp_rbind. eapply wp_mono; [|eapply wp_ngen_step; eassumption]. intros [g1| |] d1 [D1 H]; [|cbn; auto..].
    destruct H as (F1 & v & S1 & L1). eapply wp_mono; [|eapply IH; eassumption].
    intros [g2| |] d2 [D2 H]; (split; [exact D2|]); [|exact H..]. destruct H as (F2 & v2 & S2 & L2).
    split; [exact F2|]. exists (v ++ v2). rewrite S2, S1, map_app, L1, L2, app_assoc.
    split; [reflexivity|]. unfold reveals. cbn [flat_map]. now rewrite app_nil_r.
Qed.
Lemma wp_neva_step out GC pub GC' pub' s c s' op g d : n_step out GC pub s c = Ok (s', op) ->
  length GC' = length GC -> length pub' = length pub -> nes_gid g = ne_gid s -> nes_cnt g = ne_cnt s -> snd d = false ->
  wp (p_neva_step GC' pub' g c) d (fun r d' => snd d' = false /\
    match r with
    | Ok g' => nes_gid g' = ne_gid s' /\ nes_cnt g' = ne_cnt s' /\
        exists v, nes_saw g' = nes_saw g ++ v /\ map (@length bool) v = reveals [c]
    | _ => False end).
Proof.
  intros E LG LP F Fc D. assert (NIL : forall x : list (list bool), exists v, x = x ++ v /\ map (@length bool) v = []) by (intro x; exists []; now rewrite app_nil_r).
  destruct c as [b|p bits|i j|i j|i|p ws]; cbn [M_Garble.n_step M_GcProc.p_neva_step reveals flat_map app] in *.
  - injection E as <- <-. cbn. auto.
  - destruct (recv_labels _ _) as [[? ?]| |]; cbn [bind] in E; try discriminate. injection E as <- <-.
    destruct p; [|cbn; auto..]. apply wp_bind. unfold p_labels. cbn [wp fget other fset]. split; [exact D|]. intros. cbn. auto.
  - destruct (nth_error out (ng_gid s)) as [o|] eqn:NO; cbn [read bind] in E; try discriminate.
    unfold ne_and in *.
    destruct (nth_error GC (ne_gid s * 2)) as [x0|] eqn:N0; cbn [read bind] in E; try discriminate.
    destruct (nth_error GC (ne_gid s * 2 + 1)) as [x1|] eqn:N1; cbn [read bind] in E; try discriminate. injection E as <- <-.
    assert (P0 : (ne_gid s * 2 + 1 < length GC')%nat) by (rewrite LG; apply nth_error_Some; congruence).
    rewrite F. destruct (nth_error GC' (ne_gid s * 2)) eqn:M0; [|apply nth_error_None in M0; lia].
    destruct (nth_error GC' (ne_gid s * 2 + 1)) eqn:M1; [|apply nth_error_None in M1; lia].
    unfold local. cbn. auto.
  - injection E as <- <-. cbn. auto.
  - injection E as <- <-. cbn. auto.
  - destruct p.
    + destruct (recv_bits _ _) as [[? ?]| |]; cbn [bind] in E; try discriminate. injection E as <- <-.
      apply wp_sends; [exact D|]. intros x _. cbn. rewrite Nat.add_0_r. repeat split; try assumption.
      eexists [_]. split; [reflexivity|]. cbn. now rewrite repeat_length.
    + destruct (recv_bits _ _) as [[? ?]| |]; cbn [bind] in E; try discriminate. injection E as <- <-.
      apply wp_bind, wp_bits; [exact D|]. intros b d' L D'. cbn. rewrite Nat.add_0_r. repeat split; try assumption.
      eexists [_]. split; [reflexivity|]. cbn. rewrite map2_length2; rewrite ?map_length; congruence.
    + destruct (ne_pub pub (ne_cnt s) (map (lbl (ne_w s)) ws)) as [be| |] eqn:EP; cbn [bind] in E; try discriminate.
      destruct (recv as_bits _) as [[? ?]| |]; cbn [bind] in E; try discriminate.
      destruct (recv as_hash _) as [[? ?]| |]; cbn [bind] in E; try discriminate.
      destruct (ng_reveal_check _ _ _ _ _); cbn [bind] in E; try discriminate. injection E as <- <-.
      destruct (ne_pub_ok2 pub pub' _ (map (lbl (nes_w g)) ws) _ _ EP LP) as [b' E']; [now rewrite !map_length|].
      rewrite Fc, E'. unfold local. apply wp_rbind. cbn [wp]. apply wp_sends; [exact D|]. intros x _. cbn.
      repeat split; try assumption. eexists [_]. split; [reflexivity|]. cbn.
      now rewrite (ne_pub_len _ _ _ _ E'), map_length.
Qed.
Lemma wp_neva out GC pub GC' pub' : length GC' = length GC -> length pub' = length pub ->
  forall prog s s' op g d, n_run out GC pub s prog = Ok (s', op) ->
  nes_gid g = ne_gid s -> nes_cnt g = ne_cnt s -> snd d = false ->
  wp (p_neva GC' pub' g prog) d (fun r d' => snd d' = false /\
    match r with
    | Ok g' => nes_gid g' = ne_gid s' /\ nes_cnt g' = ne_cnt s' /\
        exists v, nes_saw g' = nes_saw g ++ v /\ map (@length bool) v = reveals prog
    | _ => False end).
Proof.
  intros LG LP. induction prog as [|c t IH]; intros s s' op g d E F Fc D; cbn [M_Garble.n_run M_GcProc.p_neva] in *.
  - injection E as <- <-. cbn. split; [exact D|]. split; [exact F|]. split; [exact Fc|]. exists []. now rewrite app_nil_r.
  - destruct (n_step out GC pub s c) as [[s1 o1]| |] eqn:E1; cbn [bind] in E; try discriminate.
    destruct (n_run out GC pub s1 t) as [[s2 o2]| |] eqn:E2; cbn [bind] in E; try discriminate. injection E as <- <-.
    apply wp_rbind. eapply wp_mono; [|eapply wp_neva_step; eassumption]. intros [g1| |] d1 [D1 H]; [|contradiction..].
    destruct H as (F1 & G1 & v & S1 & L1). eapply wp_mono; [|eapply IH; eassumption].
    intros [g2| |] d2 [D2 H]; (split; [exact D2|]); [|exact H..]. destruct H as (F2 & G2 & v2 & S2 & L2).
    split; [exact F2|]. split; [exact G2|]. exists (v ++ v2). rewrite S2, S1, map_app, L1, L2, app_assoc.
    split; [reflexivity|]. unfold reveals. cbn [flat_map]. now rewrite app_nil_r.
Qed.

(** * Both phases, then a flush *)
Theorem two_phase_completes off on_ : map shape off = map shape on_ -> wf 0 on_ = true ->
  exists s op, two_phase sigma aes Hash fixk lab delta off on_ = Ok (s, op) /\ Forall2 seen (snd (spec_run [] on_)) op /\
    always_completes (rbind (p_gen2 sigma aes Hash fixk lab delta off on_) (fun g => Flush IO (Ret (Ok g))))
                     (rbind (p_eva2 sigma aes Hash fixk lab delta off on_) (fun e => Flush IO (Ret (Ok e))))
      (Ok (ngof s (saw true op))) (Ok (neof s (saw false op))).
Proof.
  intros M W. destruct (two_phase_ok sigma aes Hash fixk lab delta Hd off on_ M W) as (s & op & T & O & _ & _ & _ & _).
  exists s, op. split; [exact T|]. split; [exact O|].
  destruct (off_conv off f_init_g f_init_e) as (g & e & F & C1); [constructor|].
  unfold two_phase in T. rewrite F in T. cbn [bind] in T.
  destruct (n_run_conv _ _ _ on_ _ _ _ [] [] T eq_refl eq_refl) as (C2 & _ & _). cbn [app] in C2.
  assert (V : conv (rbind (p_gen2 sigma aes Hash fixk lab delta off on_) (fun g => Flush IO (Ret (Ok g))))
                   (rbind (p_eva2 sigma aes Hash fixk lab delta off on_) (fun e => Flush IO (Ret (Ok e))))
      (Ok (ngof s (saw true op))) (Ok (neof s (saw false op)))).
  { unfold p_gen2, p_eva2. eapply conv_rbind; [eapply conv_rbind; [exact C1|exact C2]|]. eapply conv_ab; apply solo_one; constructor. }
  destruct V as [n V]. eapply completes; [| |exact V].
  - unfold disciplined, p_gen2. apply wp_rbind. apply wp_rbind. eapply wp_mono; [|eapply wp_fgen; [exact F|reflexivity]].
    intros r d [D ->]. eapply wp_mono; [|eapply wp_ngen; [exact T|reflexivity|exact D]].
    intros [x| |] [d1 d2] [D' H]; cbn [snd fst] in *; subst; [reflexivity|cbn; reflexivity|contradiction].
  - unfold disciplined, p_eva2. apply wp_rbind. apply wp_rbind. eapply wp_mono; [|eapply (wp_feva off _ _ _ _ _ _ f_init_e); [exact F|reflexivity..]].
    intros r d (D & e2 & -> & L1 & L2). eapply wp_mono; [|eapply wp_neva; [exact L1|exact L2|exact T|reflexivity|reflexivity|exact D]].
    intros [x| |] [d1 d2] [D' H]; cbn [snd fst] in *; subst; [reflexivity|contradiction..].
Qed.
End GC.
