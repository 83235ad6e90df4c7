(** The programs of M_GcProc against the joint execution of M_Garble: the bytes one party sends are the
    messages the other reads. *)
From Coq Require Import List NArith Bool Arith Lia.
From Verif Require Import L_Bits L_Res S_Circuit S_Sched M_Utils M_Block M_Garble M_Exch M_LabRec M_GcProc.
From Verif Require Import P_Garble P_GarbleFeed P_Utils P_Sched P_Exch P_ExchAead.
From Verif Require P_GarbleOpt.
Import ListNotations.
Local Open Scope N_scope.
Local Opaque bytes_of_block block_of_bytes.

Lemma bit_round b : byte_bit (bit_byte b) = b.
Proof. now destruct b. Qed.
Lemma bits_round l : map byte_bit (map bit_byte l) = l.
Proof. rewrite map_map. rewrite <- (map_id l) at 2. apply map_ext, bit_round. Qed.
Lemma dig_len h : length (dig_bytes h) = 32%nat.
Proof. unfold dig_bytes. now rewrite map_length, seq_length. Qed.
Lemma same_refl a : same_bytes a a = true.
Proof. unfold same_bytes. destruct (list_eq_dec N.eq_dec a a); congruence. Qed.
Lemma table_round t0 t1 : t0 < 2 ^ 128 -> t1 < 2 ^ 128 -> table_of (msg_bytes (MTable t0 t1)) = (t0, t1).
Proof.
  intros H0 H1. unfold table_of, msg_bytes. rewrite firstn_eq, skipn_eq by apply blk_len.
  now rewrite !blk_round by assumption.
Qed.
Lemma table_len t0 t1 : length (msg_bytes (MTable t0 t1)) = 32%nat.
Proof. unfold msg_bytes. now rewrite app_length, !blk_len. Qed.
Definition enc (ms : list msg) : list N := flat_map msg_bytes ms.
Lemma solo_sends {A} (k : proc A) : forall ms so si,
  solo (p_sends ms k) so si k (put so IO (get so IO ++ enc ms)) si.
Proof.
  induction ms as [|m ms IH]; intros so si; cbn [p_sends enc flat_map].
  - rewrite app_nil_r, put_get. constructor.
  - eapply solo_step; [constructor|]. specialize (IH (put so IO (get so IO ++ msg_bytes m)) si).
    rewrite put_put, get_put_same, <- app_assoc in IH. exact IH.
Qed.
(** from empty buffers *)
Lemma sends0 {A} (k : proc A) ms : solo (p_sends ms k) nobufs nobufs k (mkBufs (enc ms) []) nobufs.
Proof. exact (solo_sends k ms nobufs nobufs). Qed.
Lemma conv_ba {A B} (p : proc A) (q : proc B) a b t : solo q nobufs nobufs (Ret b) t nobufs ->
  solo p nobufs t (Ret a) nobufs nobufs -> conv p q a b.
Proof. intros H K. eapply conv_aba; [constructor|exact H|exact K]. Qed.
Lemma solo_bits : forall (l : list bool) rest so, 
  solo (p_bits (length l)) so (mkBufs (map bit_byte l ++ rest) []) (Ret l) so (mkBufs rest []).
Proof.
  induction l as [|b l IH]; intros rest so; cbn [p_bits length map app]; [constructor|].
  eapply (solo_recv IO 1 _ so _ [bit_byte b] (map bit_byte l ++ rest)); [reflexivity|reflexivity|].
  cbn [put nth]. eapply solo_bind_ret; [apply IH|]. rewrite bit_round. constructor.
Qed.
Lemma enc_bits (l : list bool) : enc (map MBit l) = map bit_byte l.
Proof. unfold enc. induction l as [|b l IH]; [reflexivity|]. cbn [map flat_map msg_bytes app]. now rewrite IH. Qed.
Lemma solo_labels (l : list N) so : Forall (fun x => x < 2 ^ 128) l ->
  solo (p_labels (length l)) so (mkBufs (flat_map bytes_of_block l) []) (Ret l) so nobufs.
Proof.
  intro F. unfold p_labels. eapply (solo_recv IO _ _ so _ (flat_map bytes_of_block l) []); [now rewrite app_nil_r| |].
  - rewrite (flat_map_length_const _ 16) by apply blk_len. lia.
  - rewrite row_bytes by exact F. constructor.
Qed.
Lemma enc_labels (l : list N) : enc (map MLabel l) = flat_map bytes_of_block l.
Proof. unfold enc. induction l as [|b l IH]; [reflexivity|]. cbn [map flat_map msg_bytes]. now rewrite IH. Qed.

Lemma reveal_same : forall l ch, og_reveal_recv l ch = oe_reveal_recv l ch.
Proof. induction l as [|x l IH]; intro ch; [reflexivity|]. cbn. now setoid_rewrite IH. Qed.
Lemma solo_reveal : forall l ch b ch' so, oe_reveal_recv l ch = Ok (b, ch') ->
  solo (p_reveal l) so (mkBufs (enc ch) []) (Ret b) so (mkBufs (enc ch') []).
Proof.
  induction l as [|x l IH]; intros ch b ch' so E; cbn [oe_reveal_recv p_reveal] in *.
  - injection E as <- <-. constructor.
  - destruct (isOne x); [|destruct (isZero x)].
    + destruct (oe_reveal_recv l ch) as [[b1 c1]| |] eqn:R; cbn [bind] in E; try discriminate. injection E as <- <-.
      eapply solo_bind_ret; [apply IH; exact R|constructor].
    + destruct (oe_reveal_recv l ch) as [[b1 c1]| |] eqn:R; cbn [bind] in E; try discriminate. injection E as <- <-.
      eapply solo_bind_ret; [apply IH; exact R|constructor].
    + destruct ch as [|m ch]; cbn [recv bind] in E; [discriminate|].
      destruct m; cbn [as_bit bind] in E; try discriminate.
      destruct (oe_reveal_recv l ch) as [[b2 c1]| |] eqn:R; cbn [bind] in E; try discriminate. injection E as <- <-.
      cbn [enc flat_map msg_bytes].
      eapply (solo_recv IO 1 _ so _ [bit_byte b0] (enc ch)); [reflexivity|reflexivity|]. cbn [put nth].
      eapply solo_bind_ret; [apply IH; exact R|]. rewrite bit_round. constructor.
Qed.
Lemma reveal_recv_len : forall l ch b ch', oe_reveal_recv l ch = Ok (b, ch') -> length b = length l.
Proof.
  induction l as [|x l IH]; intros ch b ch' E; cbn [oe_reveal_recv] in E.
  - now injection E as <- <-.
  - destruct (isOne x); [|destruct (isZero x)].
    1,2: destruct (oe_reveal_recv l ch) as [[b1 c1]| |] eqn:R; cbn [bind] in E; try discriminate; injection E as <- <-; cbn; f_equal; eauto.
    destruct ch as [|m ch]; cbn [recv bind] in E; [discriminate|].
    destruct m; cbn [as_bit bind] in E; try discriminate.
    destruct (oe_reveal_recv l ch) as [[b2 c1]| |] eqn:R; cbn [bind] in E; try discriminate. injection E as <- <-. cbn; f_equal; eauto.
Qed.
Lemma copy_len {A} (l : list (option A)) : forall n off r, copy l off n = Ok r -> length r = n.
Proof.
  intros n off. unfold copy. generalize 0%nat. induction n as [|n IH]; intros a r; cbn [seq map fold_right].
  - now injection 1 as <-.
  - destruct (match nth_error l (off + a) with Some o => o | None => None end); cbn [read bind]; [|discriminate].
    destruct (fold_right _ _ _) eqn:R; cbn [bind]; try discriminate. injection 1 as <-. cbn. f_equal. eapply IH. exact R.
Qed.

Section GC.
Variables (sigma aes : N -> N) (Hash : list N -> N) (fixk Kc : nat -> N) (rnd : nat -> bool) (lab : nat -> N) (delta : N).
Hypothesis Bd : delta < 2 ^ 128.
Hypothesis Bs : forall x, sigma x < 2 ^ 128.
Hypothesis Ba : forall x, aes x < 2 ^ 128.
Hypothesis Bf : forall i, fixk i < 2 ^ 128.
Hypothesis Bk : forall i, Kc i < 2 ^ 128.
Hypothesis Bl : forall i, lab i < 2 ^ 128.
Notation blk := (fun x => x < 2 ^ 128).
Lemma lbl_blk w i : Forall blk w -> lbl w i < 2 ^ 128.
Proof.
  intro F. unfold lbl. destruct (lt_dec i (length w)) as [L|L].
  - rewrite Forall_forall in F. apply F, nth_In, L.
  - rewrite nth_overflow by (apply Nat.nlt_ge; exact L). reflexivity.
Qed.

Notation o_step := (o_step sigma aes Hash fixk Kc rnd lab delta).
Notation o_run := (o_run sigma aes Hash fixk Kc rnd lab delta).
Notation p_gen_step := (p_gen_step sigma aes Hash fixk Kc lab delta).
Notation p_eva_step := (p_eva_step sigma aes Hash fixk Kc rnd lab delta).
Notation p_gen := (p_gen sigma aes Hash fixk Kc lab delta).
Notation p_eva := (p_eva sigma aes Hash fixk Kc rnd lab delta).
Definition gof (s : ostate) (v : list (list bool)) : gside := mkG (og_w s) (og_gid s) (og_f s) v.
Definition eof (s : ostate) (v : list (list bool)) : eside := mkE (oe_w s) (oe_gid s) (oe_f s) v.

Lemma table_blk a b gid o g m : og_and sigma aes delta a b gid = (o, g, m) -> blk a ->
  match m with [] => True | [MTable t0 t1] => t0 < 2 ^ 128 /\ t1 < 2 ^ 128 | _ => False end.
Proof.
  unfold og_and. intros E H. destruct (isZero a || isZero b); [now injection E as <- <- <-|].
  destruct (isOne a); [now injection E as <- <- <-|]. destruct (isOne b); [now injection E as <- <- <-|].
  pose proof (P_GarbleOpt.blk_garble sigma aes delta Bd Bs Ba a (N.lxor a delta) b (N.lxor b delta) gid H) as X.
  destruct (garble_gate sigma aes a (N.lxor a delta) b (N.lxor b delta) delta gid) as [[o1 t0] t1]. injection E as <- <- <-. tauto.
Qed.
Lemma o_step_conv s c s' op va vb : o_step s c = Ok (s', op) ->
  o_ge s = [] -> o_eg s = [] -> o_ge s' = [] -> o_eg s' = [] -> Forall blk (og_w s) ->
  conv (p_gen_step (gof s va) c) (p_eva_step (eof s vb) c) (Ok (gof s' (va ++ saw true op))) (Ok (eof s' (vb ++ saw false op))).
Proof.
  intros E G1 G2 G3 G4 BW. unfold gof, eof.
  destruct c as [b|p bits|i j|i j|i|p ws]; cbn [M_Garble.o_step M_GcProc.p_gen_step M_GcProc.p_eva_step gs_w gs_gid gs_f gs_saw es_w es_gid es_f es_saw] in *.
  - injection E as <- <-. cbn. rewrite !app_nil_r. apply conv_ret.
  - destruct (eva_feed Kc rnd lab delta p bits (oe_f s)) as [[[le fe] m]| |] eqn:EE; cbn [bind] in E; try discriminate.
    destruct (gen_feed Kc lab delta p bits (og_f s) (o_eg s ++ m)) as [[[lg fg] ch]| |] eqn:EG; cbn [bind] in E; try discriminate.
    injection E as <- <-. cbn [o_eg og_w og_gid og_f oe_w oe_gid oe_f saw map] in *. subst ch. rewrite !app_nil_r. rewrite G2 in EG. cbn [app] in EG.
    destruct p.
    + cbn [gen_feed eva_feed] in EG, EE. injection EE as <- <- <-. injection EG as <- <-. cbn. apply conv_ret.
    + cbn [local]. cbn [gen_feed] in EG. unfold local. cbn [rbind pbind].
      destruct (gen_take Kc (length bits) (og_f s)) as [[[a corr] fg1]| |] eqn:ET; cbn [bind] in EG; try discriminate.
      destruct corr.
      * destruct m as [|m ms]; [discriminate|]. cbn [recv] in EG. destruct m; cbn [as_bits bind] in EG; try discriminate.
        injection EG as <- <- ->. 
        assert (L : length l = length bits).
        { cbn [eva_feed] in EE. destruct (f_bs (oe_f s) <? length bits)%nat; [discriminate|].
          destruct (f_bs (oe_f s) <? f_top (oe_f s))%nat; [discriminate|].
          destruct (f_bs (oe_f s) - f_top (oe_f s) <? length bits)%nat eqn:LB.
          - destruct (copy (f_buf (oe_f s)) _ _) as [x1| |] eqn:C1; cbn [bind] in EE; try discriminate.
            destruct (copy (f_buff (oe_f s)) _ _) as [x2| |] eqn:C2; cbn [bind] in EE; try discriminate.
            destruct (copy (f_buf (eva_refill Kc rnd delta (oe_f s))) _ _) as [x3| |] eqn:C3; cbn [bind] in EE; try discriminate.
            destruct (copy (f_buff (eva_refill Kc rnd delta (oe_f s))) _ _) as [x4| |] eqn:C4; cbn [bind] in EE; try discriminate.
            apply copy_len in C2. apply copy_len in C4. apply Nat.ltb_lt in LB.
            assert (X : l = map2 xorb (x2 ++ x4) bits) by congruence. rewrite X.
            rewrite map2_length2; rewrite app_length; lia.
          - destruct (copy (f_buf (oe_f s)) _ _) as [x1| |] eqn:C1; cbn [bind] in EE; try discriminate.
            destruct (copy (f_buff (oe_f s)) _ _) as [x2| |] eqn:C2; cbn [bind] in EE; try discriminate.
            apply copy_len in C2. assert (X : l = map2 xorb x2 bits) by congruence. rewrite X.
            rewrite map2_length2; lia. }
        eapply conv_ba.
        -- cbn [p_sends]. eapply solo_one. constructor.
        -- eapply (solo_recv IO _ _ _ _ (map bit_byte l) []); [cbn; now rewrite app_nil_r|now rewrite map_length|].
           rewrite bits_round. cbn [put get on_io on_opt nobufs]. constructor.
      * injection EG as <- <- ->. cbn [p_sends]. apply conv_ret.
    + cbn [gen_feed] in EG. unfold local. cbn [rbind pbind].
      destruct (gen_take Kc (length bits) (og_f s)) as [[[a corr] fg1]| |] eqn:ET; cbn [bind] in EG; try discriminate.
      destruct corr.
      * destruct m as [|m ms]; [discriminate|]. cbn [recv] in EG. destruct m; cbn [as_bits bind] in EG; try discriminate.
        injection EG as <- <- ->. 
        assert (L : length l = length bits).
        { cbn [eva_feed] in EE. destruct (f_bs (oe_f s) <? length bits)%nat; [discriminate|].
          destruct (f_bs (oe_f s) <? f_top (oe_f s))%nat; [discriminate|].
          destruct (f_bs (oe_f s) - f_top (oe_f s) <? length bits)%nat eqn:LB.
          - destruct (copy (f_buf (oe_f s)) _ _) as [x1| |] eqn:C1; cbn [bind] in EE; try discriminate.
            destruct (copy (f_buff (oe_f s)) _ _) as [x2| |] eqn:C2; cbn [bind] in EE; try discriminate.
            destruct (copy (f_buf (eva_refill Kc rnd delta (oe_f s))) _ _) as [x3| |] eqn:C3; cbn [bind] in EE; try discriminate.
            destruct (copy (f_buff (eva_refill Kc rnd delta (oe_f s))) _ _) as [x4| |] eqn:C4; cbn [bind] in EE; try discriminate.
            apply copy_len in C2. apply copy_len in C4. apply Nat.ltb_lt in LB.
            assert (X : l = map2 xorb (x2 ++ x4) bits) by congruence. rewrite X.
            rewrite map2_length2; rewrite app_length; lia.
          - destruct (copy (f_buf (oe_f s)) _ _) as [x1| |] eqn:C1; cbn [bind] in EE; try discriminate.
            destruct (copy (f_buff (oe_f s)) _ _) as [x2| |] eqn:C2; cbn [bind] in EE; try discriminate.
            apply copy_len in C2. assert (X : l = map2 xorb x2 bits) by congruence. rewrite X.
            rewrite map2_length2; lia. }
        eapply conv_ba.
        -- cbn [p_sends]. eapply solo_one. constructor.
        -- eapply (solo_recv IO _ _ _ _ (map bit_byte l) []); [cbn; now rewrite app_nil_r|now rewrite map_length|].
           rewrite bits_round. cbn [put get on_io on_opt nobufs]. constructor.
      * injection EG as <- <- ->. cbn [p_sends]. apply conv_ret.
  - pose proof (table_blk (lbl (og_w s) i) (lbl (og_w s) j) (og_gid s)) as TB.
    destruct (og_and sigma aes delta (lbl (og_w s) i) (lbl (og_w s) j) (og_gid s)) as [[o gid] m] eqn:EA.
    specialize (TB o gid m eq_refl (lbl_blk _ _ BW)). rewrite G1 in E. cbn [app] in E. unfold oe_and in E.
    destruct (isZero (lbl (oe_w s) i) || isOne (lbl (oe_w s) i) || isZero (lbl (oe_w s) j) || isOne (lbl (oe_w s) j)).
    + cbn [bind] in E. injection E as <- <-. cbn [o_ge] in G3. subst m. cbn. rewrite !app_nil_r. apply conv_ret.
    + destruct m as [|m [|]]; try contradiction; [discriminate| |destruct m; contradiction].
      destruct m; try contradiction. cbn [recv as_table bind fst snd] in E. injection E as <- <-. cbn [saw map]. rewrite !app_nil_r.
      eapply conv_ab.
      * cbn [p_sends]. eapply solo_one. constructor.
      * eapply (solo_recv IO _ _ _ _ (msg_bytes (MTable t0 t1)) []); [now rewrite app_nil_r|apply table_len|].
        rewrite table_round by tauto. cbn [put get on_io on_opt nobufs fst snd og_w og_gid og_f oe_w oe_gid oe_f]. constructor.
  - injection E as <- <-. cbn. rewrite !app_nil_r. apply conv_ret.
  - injection E as <- <-. cbn. rewrite !app_nil_r. apply conv_ret.
  - destruct p.
    + destruct (oe_reveal_send (map (lbl (oe_w s)) ws)) as [be m] eqn:ES. rewrite G2 in E. cbn [app] in E. rewrite reveal_same in E.
      destruct (oe_reveal_recv (map (lbl (og_w s)) ws) m) as [[bg ch]| |] eqn:ER; cbn [bind] in E; try discriminate. injection E as <- <-.
      cbn [o_eg] in G4. subst ch. cbn [saw map fst snd].
      eapply conv_ba; [apply sends0|]. eapply solo_bind_ret; [eapply solo_reveal; exact ER|]. constructor.
    + destruct (og_reveal_send (map (lbl (og_w s)) ws)) as [bg m] eqn:ES. rewrite G1 in E. cbn [app] in E.
      destruct (oe_reveal_recv (map (lbl (oe_w s)) ws) m) as [[be ch]| |] eqn:ER; cbn [bind] in E; try discriminate. injection E as <- <-.
      cbn [o_ge] in G3. subst ch. cbn [saw map fst snd].
      eapply conv_ab; [apply sends0|]. eapply solo_bind_ret; [eapply solo_reveal; exact ER|]. constructor.
    + destruct (og_reveal_send (map (lbl (og_w s)) ws)) as [bg m] eqn:ES. rewrite G1, G2 in E. cbn [app snd] in *.
      destruct (oe_reveal_recv (map (lbl (oe_w s)) ws) m) as [[be ch]| |] eqn:ER; cbn [bind] in E; try discriminate.
      unfold oe_reveal_report in E. cbn [recv as_bits as_hash bind] in E. unfold og_reveal_check in E.
      match type of E with context [Hash ?x =? ?y] => destruct (Hash x =? y) eqn:EH end; cbn [bind] in E; try discriminate.
      apply N.eqb_eq in EH. injection E as <- <-. cbn [o_ge] in G3. subst ch. cbn [saw map fst snd].
      eapply conv_aba; [apply sends0| |].
      * eapply solo_bind_ret; [eapply solo_reveal; exact ER|]. apply solo_sends.
      * unfold oe_reveal_report. cbn [enc flat_map msg_bytes get put on_io on_opt nobufs app]. rewrite app_nil_r.
        eapply (solo_recv IO _ _ _ _ (map bit_byte be) _); [reflexivity| |].
        { rewrite map_length, (reveal_recv_len _ _ _ _ ER), map_length. reflexivity. }
        eapply (solo_recv IO _ _ _ _ (dig_bytes (Hash (map (lbl (oe_w s)) ws))) []); [symmetry; exact (app_nil_r _)|apply dig_len|].
        cbv zeta. rewrite bits_round, EH, same_refl. cbn [put get on_io on_opt]. constructor.
Qed.
End GC.
