(** Two sessions that BOB, or ALICE, cannot tell apart. *)
From Coq Require Import List NArith Bool Arith Lia.
From Verif Require Import L_Bits L_Res L_Xor S_Sched S_View S_Codec S_Gcm M_EmpInteger M_Utils M_Bristol M_Block M_Ole2k M_Shares M_Commit M_Aead M_Exch M_View.
From Verif Require Import P_Utils P_Gf128 P_Shares P_Ole2k P_AesNet P_Gcm P_Aead P_Sched P_Exch P_ExchAead P_ExchSess P_View P_ViewAead P_ViewPriv.
Import ListNotations.
Local Open Scope N_scope.
Local Opaque mulBlock gf_mul invBlock computeKS computeAES_KS bytes_of_block block_of_bytes key_material block_to_bool.

Lemma alike_bob_sym E fiv E' fiv' i i' : alike_bob E fiv E' fiv' i i' -> alike_bob E' fiv' E fiv i' i.
Proof.
  destruct i, i'; cbn [alike_bob]; try contradiction.
  - intros (-> & -> & -> & -> & H & P). repeat (split; [reflexivity|]). split; [now symmetry|]. intro S. symmetry. now apply P.
  - intros (-> & -> & -> & -> & -> & -> & -> & H & P). repeat (split; [reflexivity|]). split; [now symmetry|]. intro S. symmetry. now apply P.
Qed.
Lemma alike_bobs_sym E fiv E' fiv' l l' : Forall2 (alike_bob E fiv E' fiv') l l' -> Forall2 (alike_bob E' fiv' E fiv) l' l.
Proof. induction 1; constructor; auto using alike_bob_sym. Qed.

Lemma fin_gch E fiv h z0 z : forall os p, p_gc_h (fin E fiv h z0 z p os) = p_gc_h p.
Proof.
  induction os as [|o os IH]; intro p; cbn [fin]; [reflexivity|]. rewrite IH. unfold upd. now destruct (op_sec o).
Qed.
Lemma fin_hs E fiv h z0 z : forall os p k, p_mul_hs p = pows h k ->
  exists K, p_mul_hs (fin E fiv h z0 z p os) = pows h K /\ (k <= K)%nat /\ Forall (fun o => (length (op_ins E fiv o) <= K)%nat) os.
Proof.
  induction os as [|o os IH]; intros p k EQ; cbn [fin].
  - exists k. repeat split; [exact EQ|lia|constructor].
  - edestruct IH as (K & E1 & E2 & E3); [apply upd_hs|]. exists K. split; [exact E1|].
    rewrite EQ, pows_length in E2. split; [lia|]. constructor; [lia|exact E3].
Qed.

Section W.
Variable gfr : N -> N -> N.
Hypothesis GFR : gfr_ok gfr.
Variable hash : list N -> list N.
Variable E : N -> N.
Variable fiv : list N.
Variable E' : N -> N.
Variable fiv' : list N.
Variable enc : bristol.
Variable ek ek' : Integer.
Hypothesis CIP : cipher_ok enc ek E.
Hypothesis CIP' : cipher_ok enc ek' E'.
Hypothesis H0 : E 0 <> 0.
Hypothesis H0' : E' 0 <> 0.

Definition re_calls (r : N) (ins ins' : list ain) (cs : list call_rand) : list call_rand :=
  map2 (fun ii c => re_call E fiv E' fiv' (fst ii) (snd ii) r c) (combine ins ins') cs.
Definition ots (hs : list N) (cs : list call_rand) : list (list (list N)) :=
  map (fun c => rot_choose (raw0 (m_ole c)) (raw1 (m_ole c)) (firstn (length (raw0 (m_ole c))) hs)) cs.

Lemma re_calls_ok r ins ins' : blk r -> r <> 0 -> Forall2 (alike_bob E fiv E' fiv') ins ins' -> forall cs,
  Forall ain_ok ins -> Forall ain_ok ins' -> Forall2 call_ok ins cs ->
  let cs' := re_calls r ins ins' cs in let r' := re_r E E' r in let hb := gf_mul r (E 0) in
  let os := map2 with_rand ins cs in let os' := map2 with_rand ins' cs' in
  Forall2 call_ok ins' cs' /\
  ops_A gfr hash E' fiv' (invBlock r') os' = ops_A gfr hash E fiv (invBlock r) os /\
  map (fun o => out_bob (aop_spec E' fiv' o)) os' = map (fun o => out_bob (aop_spec E fiv o)) os /\
  (forall p, fin E' fiv' hb (op_z0b E' fiv') (op_zb E' fiv') p os' = fin E fiv hb (op_z0b E fiv) (op_zb E fiv) p os) /\
  (forall K, Forall (fun o => (length (op_ins E fiv o) <= K)%nat) os -> ots (pows hb K) cs' = ots (pows hb K) cs).
Proof.
  intros Br Nr AL. cbv zeta. induction AL as [|i i' ins ins' H AL IH]; intros cs F F' C.
  - inversion C; subst. cbn. repeat split; constructor.
  - inversion C as [|? c ? cs0 Hc C0]; subst. inversion F; inversion F'; subst.
    destruct (IH cs0 ltac:(assumption) ltac:(assumption) C0) as (I1 & I2 & I3 & I4 & I5). clear IH.
    destruct (re_call_ok gfr GFR hash E fiv E' fiv' enc ek ek' CIP CIP' H0 H0' i i' r c H Br Nr ltac:(assumption) ltac:(assumption) Hc)
      as (R1 & R2 & R3 & R4 & R5 & R6 & R7).
    pose proof (alike_pub E fiv E' fiv' i i' c (re_call E fiv E' fiv' i i' r c) H) as PB. cbv zeta in PB.
    destruct PB as (P1 & P2 & P3 & P4 & P5 & P6 & P7 & P8 & P9).
    unfold re_calls. cbn [combine map2 fst snd]. fold (re_calls r ins ins' cs0).
    set (c' := re_call E fiv E' fiv' i i' r c) in *.
    split; [now constructor|]. split; [|split; [|split]].
    + cbn [ops_A fold_right]. unfold ops_A in I2 |- *. now rewrite I2, R7.
    + cbn [map]. now rewrite I3, P7.
    + intro p. cbn [fin]. rewrite R2, R3, R4, P2. rewrite I4. f_equal. unfold upd.
      destruct (op_sec (with_rand i c)) eqn:Es; [reflexivity|]. now rewrite P6.
    + intros K FK. inversion FK as [|? ? Hn FK']; subst. unfold ots. cbn [map]. fold (ots (pows (gf_mul r (E 0)) K) cs0) (ots (pows (gf_mul r (E 0)) K) (re_calls r ins ins' cs0)).
      rewrite (I5 K FK'). f_equal.
      assert (L1 : length (raw0 (m_ole c)) = length (op_ins E fiv (with_rand i c))) by (rewrite ins_length; apply Hc).
      assert (L2 : length (raw0 (m_ole c')) = length (op_ins E fiv (with_rand i c))) by (rewrite <- R2, ins_length; apply R1).
      rewrite L1, L2, pows_firstn by exact Hn. exact R5.
Qed.
Lemma re_calls_inv r ins ins' : blk r -> r <> 0 -> Forall2 (alike_bob E fiv E' fiv') ins ins' -> forall cs, Forall2 call_ok ins cs ->
  map2 (fun ii c => re_call E' fiv' E fiv (fst ii) (snd ii) (re_r E E' r) c) (combine ins' ins) (re_calls r ins ins' cs) = cs.
Proof.
  intros Br Nr AL. induction AL as [|i i' ins ins' H AL IH]; intros cs C; inversion C as [|? c ? cs0 Hc C0]; subst; [reflexivity|].
  unfold re_calls in *. cbn [combine map2 fst snd].
  rewrite (re_call_inv E fiv E' fiv' enc ek ek' CIP CIP' H0 H0' i i' r c H Br Nr Hc). f_equal. now apply IH.
Qed.

Lemma re_ok ins ins' u : Forall2 (alike_bob E fiv E' fiv') ins ins' -> Forall ain_ok ins -> Forall ain_ok ins' -> arand_ok ins u ->
  let u' := re E fiv E' fiv' ins ins' u in
  arand_ok ins' u' /\ re E' fiv' E fiv ins' ins u' = u /\
  new_hb E' (ar_mh u') = new_hb E (ar_mh u) /\ new_rots E' (ar_mh u') (ar_ro u') = new_rots E (ar_mh u) (ar_ro u) /\
  new_msgs (ar_r u') (ar_ro u') = new_msgs (ar_r u) (ar_ro u).
Proof.
  intros AL F F' (U1 & U2 & U3 & U4 & U5 & U6). cbv zeta.
  assert (BE : forall x, blk (E x)) by apply (proj2 CIP). assert (BE' : forall x, blk (E' x)) by apply (proj2 CIP').
  destruct (re_r_ok E E' enc ek ek' CIP CIP' H0 H0' (ar_r u) U2 U3) as (Br' & Nr' & Hr').
  pose proof (new_hb_re E E' enc ek ek' CIP CIP' u U1) as Hb.
  assert (Bd : Forall blk [N.lxor (ar_r u) (re_r E E' (ar_r u))]) by (constructor; [now apply lxor_blk|constructor]).
  destruct (shift_ok (ar_ro u) [new_hb E (ar_mh u)] [N.lxor (ar_r u) (re_r E E' (ar_r u))] 1%nat U4 U5 eq_refl eq_refl Bd) as [S1 S2].
  pose proof (re_calls_ok (ar_r u) ins ins' U2 U3 AL (ar_calls u) F F' U6) as CO. cbv zeta in CO. destruct CO as (C1 & _).
  pose proof U4 as (R0 & R1 & F0 & F1).
  split; [|split; [|split; [exact Hb|split]]].
  - unfold arand_ok, re. cbn [ar_mh ar_r ar_ro ar_calls]. split; [|auto].
    rewrite bxor_length; rewrite ?bits_of_N_length; assumption || congruence.
  - unfold re at 1. unfold re at 1 2 3 4 5 6. cbn [ar_mh ar_r ar_ro ar_calls]. rewrite Hb.
    rewrite (re_r_inv E E' enc ek ek' CIP CIP' H0 H0' (ar_r u) U2 U3).
    rewrite (N.lxor_comm (E' 0) (E 0)), bxor_cancel by (now rewrite bits_of_N_length).
    rewrite (N.lxor_comm (re_r E E' (ar_r u)) (ar_r u)), (shift_inv _ _ _ 1%nat U4) by reflexivity.
    change (ar_r (re E fiv E' fiv' ins ins' u)) with (re_r E E' (ar_r u)).
    change (ar_calls (re E fiv E' fiv' ins ins' u)) with (re_calls (ar_r u) ins ins' (ar_calls u)). rewrite re_calls_inv by assumption. now destruct u.
  - unfold new_rots. fold (re E fiv E' fiv' ins ins' u). unfold re. cbn [ar_mh ar_ro]. rewrite Hb.
    cbn [shift raw0 raw1]. now apply shift_rots.
  - unfold new_msgs, re. cbn [ar_r ar_ro shift raw0 raw1].
    change [N.lxor (ar_r u) (re_r E E' (ar_r u))] with (map2 N.lxor [ar_r u] [re_r E E' (ar_r u)]). now apply shift_msgs.
Qed.

(** * The theorem for BOB *)
Theorem bob_view ks key key' : (forall l, length (hash l) = DIGEST_SIZE) ->
  computeKS ks key = Ok ek -> computeKS ks key' = Ok ek' ->
  length fiv = 4%nat -> bytes_ok fiv -> length fiv' = 4%nat -> bytes_ok fiv' ->
  forall ins ins', ins <> [] -> Forall2 (alike_bob E fiv E' fiv') ins ins' -> Forall ain_ok ins -> Forall ain_ok ins' ->
  forall u, arand_ok ins u -> exists pa oa sa pa' oa' sa' pb ob sb,
    runs_with_views (p_run ks enc gfr hash true key (str_to_int fiv) ins u) (p_run ks enc gfr hash false key (str_to_int fiv) ins u)
      (Ok (pa, oa)) (Ok (pb, ob)) sa sb /\
    let u' := re E fiv E' fiv' ins ins' u in
    runs_with_views (p_run ks enc gfr hash true key' (str_to_int fiv') ins' u') (p_run ks enc gfr hash false key' (str_to_int fiv') ins' u')
      (Ok (pa', oa')) (Ok (pb, ob)) sa' sb /\
    bob_ots pb u' = bob_ots pb u.
Proof.
  intros HL HK HK' V1 V2 V1' V2' ins ins' NE AL F F' u U.
  pose proof (re_ok ins ins' u AL F F' U) as RO. cbv zeta in RO. destruct RO as (U' & _ & Hb & Hr & Hm).
  set (u' := re E fiv E' fiv' ins ins' u) in *.
  pose proof U as (U1 & U2 & U3 & U4 & U5 & U6). pose proof U' as (U1' & U2' & U3' & U4' & U5' & U6').
  destruct (re_r_ok E E' enc ek ek' CIP CIP' H0 H0' (ar_r u) U2 U3) as (_ & _ & Hr').
  pose proof (re_calls_ok (ar_r u) ins ins' U2 U3 AL (ar_calls u) F F' U6) as CO. cbv zeta in CO.
  destruct CO as (_ & C2 & C3 & C4 & C5).
  change (re_calls (ar_r u) ins ins' (ar_calls u)) with (ar_calls u') in C2, C3, C4, C5.
  change (re_r E E' (ar_r u)) with (ar_r u') in C2, Hr'.
  destruct (with_rands_ok ins (ar_calls u) F U6) as [W B]. destruct (with_rands_ok ins' (ar_calls u') F' U6') as [W' B'].
  destruct (lconv_new ks enc gfr GFR ek E CIP fiv key (ar_mh u) (ar_r u) (ar_ro u) HK U1 U2 U3 U4 U5) as (_ & _ & _ & EQ & _).
  destruct (lconv_new ks enc gfr GFR ek' E' CIP' fiv' key' (ar_mh u') (ar_r u') (ar_ro u') HK' U1' U2' U3' U4' U5') as (_ & _ & _ & EQ' & _).
  assert (EA : new_A gfr (ar_mh u') (ar_r u') (ar_ro u') = new_A gfr (ar_mh u) (ar_r u) (ar_ro u)).
  { rewrite Hr, Hm, Hb, Hr', <- EQ in EQ'. unfold new_A. rewrite Hm. revert EQ'. clear.
    generalize (new_rh gfr (ar_mh u') (ar_r u') (ar_ro u')) (new_rh gfr (ar_mh u) (ar_r u) (ar_ro u)).
    generalize (nth 0 (ole_recv_out gfr (new_rots E (ar_mh u) (ar_ro u)) (new_msgs (ar_r u) (ar_ro u)) [new_hb E (ar_mh u)]) 0).
    intros x y z EQ. rewrite !(N.lxor_comm x) in EQ. apply lxor_cancel_r in EQ. now rewrite EQ. }
  assert (NE1 : exists o os, map2 with_rand ins (ar_calls u) = o :: os).
  { destruct U6 as [|i c is cs]; [now elim NE|]. now exists (with_rand i c), (map2 with_rand is cs). }
  assert (NE2 : exists o os, map2 with_rand ins' (ar_calls u') = o :: os).
  { destruct U6' as [|i c is cs]; [inversion AL; subst; now elim NE|]. now exists (with_rand i c), (map2 with_rand is cs). }
  pose proof (fun o os => session_views ks enc gfr GFR hash HL ek E CIP fiv V1 V2 key (ar_mh u) (ar_r u) (ar_ro u) o os HK U1 U2 U3 U4 U5) as SV.
  pose proof (fun o os => session_views ks enc gfr GFR hash HL ek' E' CIP' fiv' V1' V2' key' (ar_mh u') (ar_r u') (ar_ro u') o os HK' U1' U2' U3' U4' U5') as SV'.
  cbv zeta in SV, SV'. rewrite Hb, Hr', EA in SV'.
  unfold p_run. revert W B W' B' C2 C3 C4 C5.
  destruct NE1 as (o & os & EO). destruct NE2 as (o' & os' & EO'). rewrite EO, EO'. intros W B W' B' C2 C3 C4 C5.
  specialize (SV o os W B). specialize (SV' o' os' W' B'). rewrite C2, C3, C4 in SV'.
  do 9 eexists. split; [exact SV|]. cbv zeta. split; [exact SV'|].
  set (hb := gf_mul (ar_r u) (E 0)) in *.
  assert (Bb : blk hb) by (apply gf_mul_blk; first [exact U2|apply (proj2 CIP)]).
  assert (HP : p_mul_hs (fresh (new_hb E (ar_mh u)) hb) = pows hb 1) by (symmetry; exact (pows_1 hb Bb)).
  destruct (fin_hs E fiv hb (op_z0b E fiv) (op_zb E fiv) (o :: os) _ _ HP) as (K & K1 & KL & K2). clear KL.
  unfold bob_ots. rewrite fin_gch, K1. cbn [fresh p_gc_h].
  unfold new_rots in Hr. rewrite Hb in Hr. rewrite Hr. specialize (C5 K K2). unfold ots in C5. now rewrite C5.
Qed.
End W.

(** * The theorem for ALICE *)
Section A.
Variable gfr : N -> N -> N.
Hypothesis GFR : gfr_ok gfr.
Variable hash : list N -> list N.
Variable E : N -> N.
Variable fiv : list N.
Variable E' : N -> N.
Variable fiv' : list N.
Variable enc : bristol.
Variable ek ek' : Integer.
Hypothesis CIP : cipher_ok enc ek E.
Hypothesis CIP' : cipher_ok enc ek' E'.

Lemma alice_pub i i' c : alike_alice E fiv E' fiv' i i' ->
  let o := with_rand i c in let o' := with_rand i' c in
  op_iv o' = op_iv o /\ op_sec o' = op_sec o /\ op_aad o' = op_aad o /\ op_ct E' fiv' o' = op_ct E fiv o /\
  gcm_tag E' (fiv' ++ op_iv o) (op_aad o) (op_ct E fiv o) = gcm_tag E (fiv ++ op_iv o) (op_aad o) (op_ct E fiv o) /\
  op_ks E' fiv' o' = op_ks E fiv o /\
  out_alice (aop_spec E' fiv' o') = out_alice (aop_spec E fiv o) /\ in_aad i' = in_aad i /\ in_data i' = in_data i.
Proof.
  destruct i as [ma mb aad iv sec|ct t aad iv sec ra rb], i' as [ma' mb' aad' iv' sec'|ct' t' aad' iv' sec' ra' rb']; cbn [alike_alice]; try contradiction.
  - intros (-> & -> & -> & -> & EQ). cbn [with_rand op_iv op_sec op_aad op_ct aop_spec out_alice in_aad in_data].
    unfold gcm_ae in EQ. assert (E1 := f_equal fst EQ). assert (E2 := f_equal snd EQ). cbn [fst snd] in E1, E2.
    repeat (split; [reflexivity|]). split; [exact E1|]. split; [now rewrite E1 in E2|]. split.
    + unfold op_ks. cbn [op_iv op_ct op_sec]. rewrite !ctext_length. now apply ks_of_text.
    + split; [now f_equal|]. now split.
  - intros (-> & -> & -> & -> & -> & -> & -> & EQ & P). cbn [with_rand op_iv op_sec op_aad op_ct aop_spec out_alice in_aad in_data].
    repeat (split; [reflexivity|]). split; [exact EQ|]. split.
    + unfold op_ks. cbn [op_iv op_ct op_sec]. now apply ks_of_text.
    + split; [|now split]. now rewrite EQ, P.
Qed.
Lemma alice_call i i' r c : alike_alice E fiv E' fiv' i i' -> blk r -> r <> 0 -> ain_ok i -> ain_ok i' -> call_ok i c ->
  let o := with_rand i c in let o' := with_rand i' c in
  call_ok i' c /\ op_ins E' fiv' o' = op_ins E fiv o /\ op_z0a o' = op_z0a o /\ op_za o' = op_za o /\
  op_B gfr hash E' fiv' (invBlock r) (gf_mul r (E' 0)) o' = op_B gfr hash E fiv (invBlock r) (gf_mul r (E 0)) o.
Proof.
  intros AL Br Nr Ai Ai' CO o o'.
  pose proof (alice_pub i i' c AL) as PB. cbv zeta in PB. fold o o' in PB. destruct PB as (P1 & P2 & P3 & P4 & P5 & P6 & P7 & P8 & P9).
  assert (CO' : call_ok i' c) by (unfold call_ok in *; rewrite P8, P9; exact CO).
  assert (Ei : op_ins E' fiv' o' = op_ins E fiv o) by (unfold op_ins; now rewrite P3, P4).
  assert (BE : forall x, blk (E x)) by apply (proj2 CIP). assert (BE' : forall x, blk (E' x)) by apply (proj2 CIP').
  assert (OR : op_rand o = c) by apply op_rand_with. assert (OR' : op_rand o' = c) by apply op_rand_with.
  assert (EZ0 : op_z0a o' = op_z0a o) by (unfold op_z0a; now rewrite OR, OR').
  assert (EZ : op_za o' = op_za o) by (unfold op_za; now rewrite OR, OR').
  repeat (split; [assumption|]).
  destruct (with_rand_ok i c Ai CO) as [W BW]. destruct (with_rand_ok i' c Ai' CO') as [W' BW']. fold o in W, BW. fold o' in W', BW'.
  assert (Inv : forall h, blk h -> gf_mul (invBlock r) (gf_mul r h) = h).
  { intros h Bh'. rewrite (gf_mul_assoc _ _ _ (invBlock_blk r Br) Br Bh'), (gf_mul_comm _ _ (invBlock_blk r Br) Br), invBlock_ok by assumption.
    now apply gf_mul_1_l. }
  assert (Bh : blk (gf_mul r (E 0))) by (apply gf_mul_blk; auto). assert (Bh' : blk (gf_mul r (E' 0))) by (apply gf_mul_blk; auto).
  assert (TG := tag_shares enc gfr GFR ek E CIP fiv (invBlock r) _ o (invBlock_blk _ Br) Bh (Inv _ (BE 0)) W BW).
  assert (TG' := tag_shares enc gfr GFR ek' E' CIP' fiv' (invBlock r) _ o' (invBlock_blk _ Br) Bh' (Inv _ (BE' 0)) W' BW').
  destruct TG as (X1 & X2 & X3), TG' as (X1' & X2' & X3').
  assert (EOA : op_outa gfr o' = op_outa gfr o) by (unfold op_outa; now rewrite OR, OR', EZ0).
  assert (EOB : op_outb gfr E' fiv' (invBlock r) (gf_mul r (E' 0)) o' = op_outb gfr E fiv (invBlock r) (gf_mul r (E 0)) o).
  { rewrite EOA in *. rewrite P1, P3, P4, P5, <- X3 in X3'. apply blk_bytes_inj in X3'; [|now apply lxor_blk..].
    rewrite !(N.lxor_comm (op_outa gfr o)) in X3'. now apply lxor_cancel_r in X3'. }
  assert (EZB : op_zb E' fiv' o' = op_zb E fiv o) by (unfold op_zb; now rewrite EZ, P6).
  revert EOB EZB P4. unfold op_B.
  generalize (op_outb gfr E' fiv' (invBlock r) (gf_mul r (E' 0)) o') (op_outb gfr E fiv (invBlock r) (gf_mul r (E 0)) o)
    (op_zb E' fiv' o') (op_zb E fiv o) (op_ct E' fiv' o') (op_ct E fiv o).
  intros x y z z' w w' -> -> ->. unfold o, o'. clear -AL.
  destruct i as [ma mb aad iv sec|ct t aad iv sec ra rb], i' as [ma' mb' aad' iv' sec'|ct' t' aad' iv' sec' ra' rb']; cbn [alike_alice] in AL; try contradiction.
  - destruct AL as (_ & _ & _ & -> & _). reflexivity.
  - destruct AL as (_ & _ & _ & _ & -> & _ & -> & _). reflexivity.
Qed.
Lemma alice_calls r ins ins' : blk r -> r <> 0 -> Forall2 (alike_alice E fiv E' fiv') ins ins' -> forall cs,
  Forall ain_ok ins -> Forall ain_ok ins' -> Forall2 call_ok ins cs ->
  let ha := invBlock r in let os := map2 with_rand ins cs in let os' := map2 with_rand ins' cs in
  Forall2 call_ok ins' cs /\
  ops_B gfr hash E' fiv' ha (gf_mul r (E' 0)) os' = ops_B gfr hash E fiv ha (gf_mul r (E 0)) os /\
  map (fun o => out_alice (aop_spec E' fiv' o)) os' = map (fun o => out_alice (aop_spec E fiv o)) os /\
  (forall p, fin E' fiv' ha op_z0a op_za p os' = fin E fiv ha op_z0a op_za p os).
Proof.
  intros Br Nr AL. cbv zeta. induction AL as [|i i' ins ins' H AL IH]; intros cs F F' C.
  - inversion C; subst. cbn. repeat split; constructor.
  - inversion C as [|? c ? cs0 Hc C0]; subst. inversion F; inversion F'; subst.
    destruct (IH cs0 ltac:(assumption) ltac:(assumption) C0) as (I1 & I2 & I3 & I4). clear IH.
    destruct (alice_call i i' r c H Br Nr ltac:(assumption) ltac:(assumption) Hc) as (R1 & R2 & R3 & R4 & R5).
    pose proof (alice_pub i i' c H) as PB. cbv zeta in PB. destruct PB as (P1 & P2 & P3 & P4 & P5 & P6 & P7 & P8 & P9).
    cbn [map2]. split; [now constructor|]. split; [|split].
    + cbn [ops_B fold_right]. unfold ops_B in I2 |- *. now rewrite I2, R5.
    + cbn [map]. now rewrite I3, P7.
    + intro p. cbn [fin]. rewrite R2, R3, R4, P2, P6. apply I4.
Qed.
Theorem alice_view ks key key' : (forall l, length (hash l) = DIGEST_SIZE) ->
  computeKS ks key = Ok ek -> computeKS ks key' = Ok ek' ->
  length fiv = 4%nat -> bytes_ok fiv -> length fiv' = 4%nat -> bytes_ok fiv' ->
  forall ins ins', ins <> [] -> Forall2 (alike_alice E fiv E' fiv') ins ins' -> Forall ain_ok ins -> Forall ain_ok ins' ->
  forall u, arand_ok ins u -> arand_ok ins' u /\ exists pa oa sa pb ob sb pb' ob' sb',
    runs_with_views (p_run ks enc gfr hash true key (str_to_int fiv) ins u) (p_run ks enc gfr hash false key (str_to_int fiv) ins u)
      (Ok (pa, oa)) (Ok (pb, ob)) sa sb /\
    runs_with_views (p_run ks enc gfr hash true key' (str_to_int fiv') ins' u) (p_run ks enc gfr hash false key' (str_to_int fiv') ins' u)
      (Ok (pa, oa)) (Ok (pb', ob')) sa sb'.
Proof.
  intros HL HK HK' V1 V2 V1' V2' ins ins' NE AL F F' u (U1 & U2 & U3 & U4 & U5 & U6).
  pose proof (alice_calls (ar_r u) ins ins' U2 U3 AL (ar_calls u) F F' U6) as CO. cbv zeta in CO. destruct CO as (U6' & C2 & C3 & C4).
  split; [repeat (split; [assumption|]); assumption|].
  destruct (with_rands_ok ins (ar_calls u) F U6) as [W B]. destruct (with_rands_ok ins' (ar_calls u) F' U6') as [W' B'].
  assert (NE1 : exists o os, map2 with_rand ins (ar_calls u) = o :: os).
  { destruct U6 as [|i c is cs]; [now elim NE|]. now exists (with_rand i c), (map2 with_rand is cs). }
  assert (NE2 : exists o os, map2 with_rand ins' (ar_calls u) = o :: os).
  { destruct U6' as [|i c is cs]; [inversion AL; subst; now elim NE|]. now exists (with_rand i c), (map2 with_rand is cs). }
  pose proof (fun o os => session_views ks enc gfr GFR hash HL ek E CIP fiv V1 V2 key (ar_mh u) (ar_r u) (ar_ro u) o os HK U1 U2 U3 U4 U5) as SV.
  pose proof (fun o os => session_views ks enc gfr GFR hash HL ek' E' CIP' fiv' V1' V2' key' (ar_mh u) (ar_r u) (ar_ro u) o os HK' U1 U2 U3 U4 U5) as SV'.
  cbv zeta in SV, SV'.
  unfold p_run. revert W B W' B' C2 C3 C4.
  destruct NE1 as (o & os & EO). destruct NE2 as (o' & os' & EO'). rewrite EO, EO'. intros W B W' B' C2 C3 C4.
  specialize (SV o os W B). specialize (SV' o' os' W' B'). rewrite C2, C3, C4 in SV'.
  do 9 eexists. split; [exact SV|exact SV'].
Qed.
End A.
