(** The messages of an AEAD session, as functions of the parties' data. *)
From Coq Require Import List NArith Bool Arith Lia.
From Verif Require Import L_Bits L_Res L_Xor S_Sched S_View S_Codec S_Gcm M_EmpInteger M_Utils M_Bristol M_Block M_Ole2k M_Shares M_Commit M_Aead M_Exch.
From Verif Require Import P_Utils P_Gf128 P_Shares P_Ole2k P_AesNet P_Gcm P_Aead P_Sched P_Exch P_ExchAead P_ExchSess P_View.
Import ListNotations.
Local Open Scope N_scope.
Local Opaque mulBlock gf_mul invBlock computeKS computeAES_KS bytes_of_block block_of_bytes key_material.

Ltac tk := repeat match goal with
  | H : talk (Ret _) _ _ _ |- _ => let E1 := fresh "TE" in let E2 := fresh "TI" in let E3 := fresh "TO" in
      apply talk_ret in H as (E1 & E2 & E3); try subst
  | H : talk (Send _ _ _) _ _ _ |- _ => let E1 := fresh "TS" in apply talk_send in H as (? & E1 & H)
  | H : talk (Flush _ _) _ _ _ |- _ => apply talk_flush in H
  | H : talk (Recv _ _ _) _ _ _ |- _ => let E1 := fresh "TR" in let E2 := fresh "TL" in apply talk_recv in H as (? & ? & E2 & E1 & H)
  end.
Lemma bufs_eta b : b = mkBufs (on_io b) (on_opt b).
Proof. now destruct b. Qed.

Lemma lconv_swap {A B} n x (f : list N -> list N) (k : list N -> A) (l : list N -> B) :
  length x = n -> length (f x) = n ->
  lconv (Send IO x (Recv IO n (fun c => Ret (k c)))) (Recv IO n (fun x => Send IO (f x) (Ret (l x)))) (k (f x)) (l x)
    (mkBufs x []) (mkBufs (f x) []).
Proof.
  intros L1 L2. destruct (lconv_of_conv _ _ _ _ (conv_swap n x f k l L1 L2)) as (s & t & T1 & T2 & C). tk. subst.
  cbn in *. rewrite !app_nil_r in *. 
  assert (E := f_equal on_io TR). cbn in E. subst. exact C.
Qed.
Lemma lconv_from_bob {A B} n x (k : list N -> A) (b : B) : length x = n ->
  lconv (Recv IO n (fun x => Ret (k x))) (Send IO x (Ret b)) (k x) b nobufs (mkBufs x []).
Proof.
  intros L. destruct (lconv_of_conv _ _ _ _ (conv_from_bob n x k b L)) as (s & t & T1 & T2 & C). tk. subst.
  cbn in *. rewrite !app_nil_r in *. exact C.
Qed.
Lemma lconv_tags {A B} (x y : list N) n (k : list N -> A) (l : list N -> B) : length x = n -> length y = n ->
  lconv (Send IO_OPT x (Flush IO_OPT (Recv IO n (fun o => Ret (k o)))))
       (Send IO y (Flush IO (Recv IO_OPT n (fun o => Ret (l o))))) (k y) (l x) (mkBufs [] x) (mkBufs y []).
Proof.
  intros L1 L2. destruct (lconv_of_conv _ _ _ _ (conv_tags x y n k l L1 L2)) as (s & t & T1 & T2 & C). tk. subst.
  cbn in *. rewrite !app_nil_r in *. exact C.
Qed.
Lemma lconv_commit {A B} (x1 x2 x3 y1 y2 y3 : list N) n1 n2 n3 (k : list N -> list N -> list N -> A) (l : list N -> list N -> list N -> B) :
  length x1 = n1 -> length x2 = n2 -> length x3 = n3 -> length y1 = n1 -> length y2 = n2 -> length y3 = n3 ->
  lconv (Send IO x1 (Flush IO (Recv IO_OPT n1 (fun c => Send IO x2 (Send IO x3 (Flush IO (Recv IO_OPT n2 (fun o => Recv IO_OPT n3 (fun r => Ret (k c o r))))))))))
       (Send IO_OPT y1 (Flush IO_OPT (Recv IO n1 (fun c => Send IO_OPT y2 (Send IO_OPT y3 (Flush IO_OPT (Recv IO n2 (fun o => Recv IO n3 (fun r => Ret (l c o r))))))))))
       (k y1 y2 y3) (l x1 x2 x3) (mkBufs (x1 ++ x2 ++ x3) []) (mkBufs [] (y1 ++ y2 ++ y3)).
Proof.
  intros X1 X2 X3 Y1 Y2 Y3.
  destruct (lconv_of_conv _ _ _ _ (conv_commit x1 x2 x3 y1 y2 y3 n1 n2 n3 k l X1 X2 X3 Y1 Y2 Y3)) as (s & t & T1 & T2 & C). tk. 
  subst. cbn in *. rewrite !app_nil_r in *. exact C.
Qed.
Lemma talk_send_blocks c : forall l i a o, talk (p_send_blocks c l) i a o ->
  i = nobufs /\ o = put nobufs c (flat_map bytes_of_block l).
Proof.
  induction l as [|x l IH]; intros i a o T; cbn [p_send_blocks flat_map] in *; tk.
  - subst. split; [reflexivity|]. now destruct c.
  - apply IH in T as [-> ->]. subst. split; [reflexivity|]. now rewrite get_put_same, put_put.
Qed.

Section G.
Variable ks enc : bristol.
Variable gfr : N -> N -> N.
Hypothesis GFR : gfr_ok gfr.
Variable hash : list N -> list N.
Hypothesis HL : forall l, length (hash l) = DIGEST_SIZE.

Lemma lconv_ole2k r insA insB n : length insA = n -> length insB = n -> Forall blk insA -> ole_rand_ok r n -> ole_blk r ->
  lconv (p_ole2k_send gfr r insA) (p_ole2k_recv gfr r insB)
    (fst (ole_run gfr (raw0 r) (raw1 r) insA insB)) (snd (ole_run gfr (raw0 r) (raw1 r) insA insB))
    (mkBufs (flat_map bytes_of_block (concat (ole_send_msgs (raw0 r) (raw1 r) insA))) []) nobufs.
Proof.
  intros LA LB F R B. destruct (lconv_of_conv _ _ _ _ (conv_ole2k gfr r insA insB n LA LB F R B)) as (s & t & T1 & T2 & C).
  clear T2. unfold p_ole2k_send in T1. apply talk_bind in T1 as (u & i1 & o1 & i2 & o2 & T1 & T2 & E1 & E2).
  apply talk_send_blocks in T1 as [-> ->]. apply talk_ret in T2 as (_ & -> & ->). rewrite more_nil in E1, E2. subst. exact C.
Qed.

(** ALICE's OLE inputs, the messages, and the two outputs *)
Definition sh_x (ha : N) (ins : list N) : list N := map2 gf_mul ins (pows ha (length ins)).
Definition sh_msgs (ha : N) (ins : list N) (r : ole_rand) : list (list N) := ole_send_msgs (raw0 r) (raw1 r) (sh_x ha ins).
Definition sh_rots (hb : N) (n : nat) (r : ole_rand) : list (list N) := rot_choose (raw0 r) (raw1 r) (pows hb n).
Definition sh_oa (r : ole_rand) : N := xor_all (ole_send_out gfr (raw0 r)).
Definition sh_ob (hb : N) (n : nat) (rots msgs : list (list N)) : N := xor_all (ole_recv_out gfr rots msgs (pows hb n)).
Definition wire_rows (msgs : list (list N)) : list N := flat_map bytes_of_block (concat msgs).

Lemma sh_x_ok ha k ins : blk ha -> Forall blk ins -> (length ins <= k)%nat -> ghash_in_alice (pows ha k) ins = sh_x ha ins.
Proof.
  intros B F L. unfold ghash_in_alice, sh_x. rewrite map2_mulBlock by (auto using pows_blk).
  rewrite <- (pows_firstn ha k (length ins) L). generalize (pows ha k). clear. 
  induction ins as [|x ins IH]; intros [|y l]; cbn; try reflexivity. f_equal. apply IH.
Qed.
Lemma sh_x_length ha ins : length (sh_x ha ins) = length ins.
Proof. unfold sh_x. rewrite map2_length, pows_length. lia. Qed.
Lemma sh_x_blk ha ins : blk ha -> Forall blk (sh_x ha ins).
Proof. intro B. unfold sh_x. apply map2_gf_blk. now apply pows_blk. Qed.
Lemma lconv_ghash a b ha hb ka kb ins r : blk ha -> blk hb -> Forall blk ins -> p_mul_hs a = pows ha (S ka) -> p_mul_hs b = pows hb (S kb) ->
  ole_rand_ok r (length ins) -> ole_blk r ->
  let oa := sh_oa r in let ob := sh_ob hb (length ins) (sh_rots hb (length ins) r) (sh_msgs ha ins r) in
  lconv (p_ghash gfr true a ins r) (p_ghash gfr false b ins r)
    (Ok (set_hs a (pows ha (Nat.max (S ka) (length ins))), oa)) (Ok (set_hs b (pows hb (Nat.max (S kb) (length ins))), ob))
    (mkBufs (wire_rows (sh_msgs ha ins r)) []) nobufs /\ blk oa /\ blk ob /\
  N.lxor oa ob = ghash_spec (gf_mul ha hb) (rev ins).
Proof.
  intros Ba Bb Fi Ea Eb R B oa ob.
  destruct (obv_ghash_ok gfr GFR a b ha hb ka kb ins r Ba Bb Fi Ea Eb R) as (oa' & ob' & Eo & Es).
  assert (Hs : Forall blk (hs_upto (p_mul_hs a) (length ins))).
  { rewrite Ea, hs_upto_ok by exact Ba. now apply pows_blk. }
  destruct (conv_ghash gfr GFR a b ins r _ _ oa' ob' Eo Fi Hs R B) as (_ & B1 & B2).
  pose proof (sh_x_ok ha (Nat.max (S ka) (length ins)) ins Ba Fi ltac:(lia)) as EX.
  assert (EY : ghash_in_bob (pows hb (Nat.max (S kb) (length ins))) (length ins) = pows hb (length ins)).
  { unfold ghash_in_bob. apply pows_firstn. lia. }
  pose proof (lconv_ole2k r (sh_x ha ins) (pows hb (length ins)) (length ins) (sh_x_length _ _) (pows_length _ _) (sh_x_blk ha ins Ba) R B) as C.
  unfold obv_ghash in Eo. unfold p_ghash. rewrite Ea, Eb in *.
  change (pows ha (S ka)) with (gf_pow ha 1 :: map (fun i => gf_pow ha (S i)) (seq 1 ka)) in Eo at 1.
  change (pows hb (S kb)) with (gf_pow hb 1 :: map (fun i => gf_pow hb (S i)) (seq 1 kb)) in Eo at 1. cbv iota in Eo.
  rewrite !hs_upto_ok, EX, EY in Eo by assumption.
  unfold ole_run in Eo, C. cbn [fst snd] in C. fold (sh_msgs ha ins r) (sh_rots hb (length ins) r) in Eo, C. 
  assert (oa' = oa) as -> by (unfold oa, sh_oa; congruence).
  assert (ob' = ob) as -> by (unfold ob, sh_ob; congruence). clear Eo.
  split; [|auto].
  change (pows ha (S ka)) with (gf_pow ha 1 :: map (fun i => gf_pow ha (S i)) (seq 1 ka)) at 1.
  change (pows hb (S kb)) with (gf_pow hb 1 :: map (fun i => gf_pow hb (S i)) (seq 1 kb)) at 1. cbv iota.
  rewrite !hs_upto_ok, EX, EY by assumption.
  rewrite <- (more_nil (mkBufs _ _)), <- (more_nil nobufs). eapply lconv_bind; [exact C|]. cbv beta. apply lconv_ret.
Qed.

Variable ek : Integer.
Variable E : N -> N.
Hypothesis CIP : cipher_ok enc ek E.
Variable fiv : list N.
Hypothesis V1 : length fiv = 4%nat.
Hypothesis V2 : Forall (fun b => b < 256) fiv.

(** * One call *)
Definition op_iv (o : aop) : list N := match o with OpEnc _ _ _ iv _ _ => iv | OpDec _ _ _ iv _ _ _ _ => iv end.
Definition op_sec (o : aop) : bool := match o with OpEnc _ _ _ _ sec _ => sec | OpDec _ _ _ _ sec _ _ _ => sec end.
Definition op_aad (o : aop) : list N := match o with OpEnc _ _ aad _ _ _ => aad | OpDec _ _ aad _ _ _ _ _ => aad end.
Definition op_rand (o : aop) : call_rand := match o with OpEnc _ _ _ _ _ r => r | OpDec _ _ _ _ _ r _ _ => r end.
(** the ciphertext, given or computed *)
Definition op_ct (o : aop) : list N := match o with OpEnc ma _ _ iv _ _ => gcm_ctext E (fiv ++ iv) ma | OpDec c _ _ _ _ _ _ _ => c end.
Definition op_ks (o : aop) : list N := call_ks E fiv (mk_call (op_iv o) (length (op_ct o)) (op_sec o)).
Definition op_ins (o : aop) : list N := tag_blocks (op_aad o) (op_ct o).
(** the shares of z0 and z *)
Definition op_z0a (o : aop) : N := N_of_bits (m_z0 (op_rand o)).
Definition op_z0b (o : aop) : N := N.lxor (op_z0a o) (E (j0_of (fiv ++ op_iv o))).
Definition op_za (o : aop) : list N := bytes_be (m_z (op_rand o)).
Definition op_zb (o : aop) : list N := xor_arr (op_za o) (op_ks o).
(** the tag shares *)
Definition op_outa (o : aop) : N := N.lxor (sh_oa (m_ole (op_rand o))) (op_z0a o).
Definition op_outb (ha hb : N) (o : aop) : N :=
  let n := length (op_ins o) in
  N.lxor (sh_ob hb n (sh_rots hb n (m_ole (op_rand o))) (sh_msgs ha (op_ins o) (m_ole (op_rand o)))) (op_z0b o).
(** what ALICE and BOB send *)
Definition op_A (ha : N) (o : aop) : bufs :=
  let rows := wire_rows (sh_msgs ha (op_ins o) (m_ole (op_rand o))) in
  match o with
  | OpEnc ma _ _ _ sec _ => mkBufs ((if sec then xor_arr ma (op_za o) else []) ++ rows) (bytes_of_block (op_outa o))
  | OpDec _ _ _ _ _ _ ra _ => mkBufs (rows ++ dec_msg1 hash (op_outa o) ra ++ bytes_of_block (op_outa o) ++ ra) []
  end.
Definition op_B (ha hb : N) (o : aop) : bufs :=
  match o with
  | OpEnc _ _ _ _ sec _ => mkBufs ((if sec then op_ct o else []) ++ bytes_of_block (op_outb ha hb o)) []
  | OpDec _ _ _ _ sec _ _ rb =>
      mkBufs (if sec then op_zb o else []) (dec_msg1 hash (op_outb ha hb o) rb ++ bytes_of_block (op_outb ha hb o) ++ rb)
  end.
(** the fields after the call *)
Definition upd (p : party) (hs : list N) (z0 : N) (sec : bool) (z ks : list N) : party :=
  let p := push_z0 (set_hs p hs) z0 in if sec then push_gc_z p (rev z) else push_open p (rev ks).

Lemma op_len o : length (op_ks o) = length (op_ct o).
Proof. unfold op_ks. rewrite call_ks_length. reflexivity. Qed.
Lemma op_facts o : aop_wf o -> bytes_ok (op_ct o) /\ bytes_ok (op_aad o) /\ length (op_iv o) = 8%nat /\ bytes_ok (op_iv o) /\
  length (m_z0 (op_rand o)) = 128%nat /\ length (m_z (op_rand o)) = (8 * length (op_ct o))%nat /\
  Forall blk (op_ins o) /\ ole_rand_ok (m_ole (op_rand o)) (length (op_ins o)).
Proof.
  intro W. unfold op_ins.
  destruct o as [ma mb aad iv sec r|c t aad iv sec r ra rb]; cbn [aop_wf op_ct op_aad op_iv op_rand op_ins] in *.
  - destruct W as (H1 & H2 & H3 & H4 & (H5 & H6 & H7) & H8).
    assert (Lc : length (gcm_ctext E (fiv ++ iv) ma) = length ma) by apply ctext_length.
    assert (Bc : bytes_ok (gcm_ctext E (fiv ++ iv) ma)) by now apply ctext_bytes.
    rewrite tag_blocks_length, Lc. unfold nblocks in *. rewrite Lc.
    repeat (split; [assumption|]). split; [now apply tag_blocks_blk|exact H7].
  - destruct W as (H1 & H2 & H3 & H4 & (H5 & H6 & H7)). rewrite tag_blocks_length.
    repeat (split; [assumption|]). split; [now apply tag_blocks_blk|exact H7].
Qed.
Lemma op_blk o : aop_blk o -> ole_blk (m_ole (op_rand o)).
Proof. destruct o; cbn; [auto|intros (H & _); exact H]. Qed.

Lemma z0_ok o : aop_wf o -> blk (op_z0a o) /\ blk (op_z0b o).
Proof.
  intro W. destruct (op_facts o W) as (_ & _ & _ & _ & L & _).
  assert (B : blk (op_z0a o)). { unfold op_z0a, blk. pose proof (N_of_bits_lt (m_z0 (op_rand o))) as X. now rewrite L in X. }
  split; [exact B|]. unfold op_z0b. apply lxor_blk; [exact B|]. apply (proj2 CIP).
Qed.
Lemma own_ops g p o : gok ek fiv g -> aop_wf o -> exists g' Z, gok ek fiv g' /\ length Z = (8 * length (op_ct o))%nat /\ bytes_be Z = op_ks o /\
  own_material enc true g p (op_iv o) (N.of_nat (length (op_ct o))) (op_rand o) = Ok (g', push_z0 p (op_z0a o), op_z0a o, Z) /\
  (forall q, own_material enc false g q (op_iv o) (N.of_nat (length (op_ct o))) (op_rand o) = Ok (g', push_z0 q (op_z0b o), op_z0b o, Z)) /\
  own_z true Z (op_rand o) = Ok (op_za o) /\ own_z false Z (op_rand o) = Ok (op_zb o).
Proof.
  intros [G1 G2] W. destruct (op_facts o W) as (_ & _ & L8 & B8 & R0 & Rz & _).
  destruct (key_material_ok enc ek E (proj1 CIP) g fiv (op_iv o) (length (op_ct o)) G1 G2 V1 V2 L8 B8) as (Z & n1 & EZ & LZ & BZ).
  exists {| g_key := g_key g; g_nonce := n1; g_fixed := g_fixed g |}, Z. split; [now split|]. split; [exact LZ|]. split; [exact BZ|].
  unfold own_material, own_z. rewrite EZ. cbn [bind]. rewrite integer_to_block_ok by exact R0. cbn [bind].
  rewrite integer_to_block_ok by (rewrite bxor_length; rewrite ?bits_of_N_length; congruence). cbn [bind].
  rewrite N_of_bits_bxor by (rewrite bits_of_N_length; congruence). rewrite N_of_bits_of_N_small by apply (proj2 CIP).
  split; [reflexivity|]. split; [reflexivity|].
  rewrite (integer_to_chars_ok _ _ Rz). rewrite (integer_to_chars_ok _ (length (op_ct o))) by (rewrite bxor_length; congruence).
  split; [reflexivity|]. rewrite (bytes_be_bxor _ _ _ Rz LZ). unfold op_zb, op_za, xor_arr, op_ks. now rewrite BZ.
Qed.

Definition fresh (h m : N) : party := {| p_gc_h := h; p_mul_hs := [m]; p_gc_z0 := []; p_gc_z := []; p_open_z := [] |}.
Lemma tag_shares ha hb o : blk ha -> blk hb -> gf_mul ha hb = E 0 -> aop_wf o -> aop_blk o ->
  blk (op_outa o) /\ blk (op_outb ha hb o) /\
  rev (bytes_of_block (N.lxor (op_outa o) (op_outb ha hb o))) = gcm_tag E (fiv ++ op_iv o) (op_aad o) (op_ct o).
Proof.
  intros Ba Bb Hh W BK.
  destruct (op_facts o W) as (Bc & Bd & L8 & B8 & R0 & Rz & Fi & Ro). destruct (z0_ok o W) as [Bza Bzb].
  assert (Ea : p_mul_hs (fresh 0 (gf_pow ha 1)) = pows ha 1) by reflexivity.
  assert (Eb : p_mul_hs (fresh 0 (gf_pow hb 1)) = pows hb 1) by reflexivity.
  destruct (lconv_ghash _ _ ha hb 0 0 (op_ins o) (m_ole (op_rand o)) Ba Bb Fi Ea Eb Ro (op_blk o BK)) as (_ & Boa & Bob & Es).
  assert (X1 : blk (op_outa o)) by now apply lxor_blk. assert (X2 : blk (op_outb ha hb o)) by now apply lxor_blk.
  split; [exact X1|split; [exact X2|]].
  unfold gcm_tag. rewrite <- Hh, <- tag_from_ghash by assumption. fold (op_ins o). rewrite <- Es.
  match goal with |- rev (bytes_of_block ?x) = rev (bytes_of_block ?y) => assert (EX : x = y); [|now rewrite EX] end.
  unfold op_outa, op_outb, op_z0b. cbv zeta. generalize (op_z0a o) (sh_oa (m_ole (op_rand o))) (E (j0_of (fiv ++ op_iv o))).
  match goal with |- context [sh_ob ?x ?y ?z ?w] => generalize (sh_ob x y z w) end. clear. intros. xor_solve.
Qed.
Lemma lconv_out {X} (f : X -> pout) (p q : proc (res (gcst * party * X))) g h a b x y s t :
  lconv p q (Ok (g, a, x)) (Ok (h, b, y)) s t ->
  lconv (rbind p (fun '(g, p, o) => Ret (Ok (g, p, f o)))) (rbind q (fun '(g, p, o) => Ret (Ok (g, p, f o))))
    (Ok (g, a, f x)) (Ok (h, b, f y)) s t.
Proof.
  intro H. rewrite <- (more_nil s), <- (more_nil t). eapply lconv_rbind; [exact H|]. cbv beta iota. apply lconv_ret.
Qed.
Lemma lconv_op ha hb ka kb g a b o : blk ha -> blk hb -> gf_mul ha hb = E 0 -> gok ek fiv g -> aop_wf o -> aop_blk o ->
  p_mul_hs a = pows ha (S ka) -> p_mul_hs b = pows hb (S kb) ->
  let n := length (op_ins o) in
  blk (op_outa o) /\ blk (op_outb ha hb o) /\
  rev (bytes_of_block (N.lxor (op_outa o) (op_outb ha hb o))) = gcm_tag E (fiv ++ op_iv o) (op_aad o) (op_ct o) /\
  exists g', gok ek fiv g' /\
  lconv (p_op enc gfr hash true g a o) (p_op enc gfr hash false g b o)
    (Ok (g', upd a (pows ha (Nat.max (S ka) n)) (op_z0a o) (op_sec o) (op_za o) (op_ks o), out_alice (aop_spec E fiv o)))
    (Ok (g', upd b (pows hb (Nat.max (S kb) n)) (op_z0b o) (op_sec o) (op_zb o) (op_ks o), out_bob (aop_spec E fiv o)))
    (op_A ha o) (op_B ha hb o).
Proof.
  intros Ba Bb Hh G W BK Ea Eb n.
  destruct (op_facts o W) as (Bc & Bd & L8 & B8 & R0 & Rz & Fi & Ro). destruct (z0_ok o W) as [Bza Bzb].
  destruct (tag_shares ha hb o Ba Bb Hh W BK) as (X1 & X2 & TAG).
  split; [exact X1|split; [exact X2|split; [exact TAG|]]].
  destruct (own_ops g a o G W) as (g' & Z & G' & LZ & BZ & Oa & Ob & Za & Zb). specialize (Ob b).
  exists g'. split; [exact G'|].
  assert (GH : forall a' b', p_mul_hs a' = p_mul_hs a -> p_mul_hs b' = p_mul_hs b -> _) by
   (intros a' b' Ea' Eb'; exact (proj1 (lconv_ghash a' b' ha hb ka kb (op_ins o) (m_ole (op_rand o)) Ba Bb Fi (eq_trans Ea' Ea) (eq_trans Eb' Eb) Ro (op_blk o BK)))).
  assert (RV : reveal_as 8 Z = rev (op_ks o)).
  { unfold reveal_as. rewrite <- BZ, <- (bytes_be_rev_reveal _ _ LZ), rev_involutive. reflexivity. }
  assert (LA : length (op_za o) = length (op_ct o)) by (unfold op_za; now apply bytes_be_length).
  assert (LB : length (op_zb o) = length (op_ct o)) by (unfold op_zb, xor_arr; rewrite map2_length, op_len; lia).
  destruct o as [ma mb aad iv sec r|c t aad iv sec r ra rb]; cbn [p_op].
  - cbn [aop_wf] in W. destruct W as (_ & _ & _ & _ & _ & PUB).
    assert (Lc : length (op_ct (OpEnc ma mb aad iv sec r)) = length ma) by apply ctext_length.
    cbn [op_iv op_rand] in Oa, Ob, Za, Zb. rewrite Lc in Oa, Ob, LA, LB.
    refine (lconv_out PEnc _ _ g' g' _ _ (gcm_ae E (fiv ++ iv) ma aad) (gcm_ae E (fiv ++ iv) ma aad) _ _ _). unfold p_encrypt, local. rewrite Oa, Ob. apply lconv_local. cbv beta iota zeta.
    set (o := OpEnc ma mb aad iv sec r) in *.
    (* the tail *)
    assert (TAIL : forall a' b', p_mul_hs a' = p_mul_hs a -> p_mul_hs b' = p_mul_hs b ->
      lconv (rbind (p_ghash gfr true a' (tag_blocks aad (op_ct o)) (m_ole r)) (fun '(p, out) =>
             let out := N.lxor out (op_z0a o) in
             Send IO_OPT (bytes_of_block out) (Flush IO_OPT (Recv IO 16 (fun o' =>
               Ret (Ok (g', p, (op_ct o, rev (bytes_of_block (N.lxor out (block_of_bytes o')))))))))))
          (rbind (p_ghash gfr false b' (tag_blocks aad (op_ct o)) (m_ole r)) (fun '(p, out) =>
             let out := N.lxor out (op_z0b o) in
             Send IO (bytes_of_block out) (Flush IO (Recv IO_OPT 16 (fun o' =>
               Ret (Ok (g', p, (op_ct o, rev (bytes_of_block (N.lxor out (block_of_bytes o')))))))))))
          (Ok (g', set_hs a' (pows ha (Nat.max (S ka) n)), (op_ct o, gcm_tag E (fiv ++ iv) aad (op_ct o))))
          (Ok (g', set_hs b' (pows hb (Nat.max (S kb) n)), (op_ct o, gcm_tag E (fiv ++ iv) aad (op_ct o))))
          (more_in (mkBufs (wire_rows (sh_msgs ha (op_ins o) (m_ole r))) []) (mkBufs [] (bytes_of_block (op_outa o))))
          (more_in nobufs (mkBufs (bytes_of_block (op_outb ha hb o)) []))).
    { intros a' b' E1 E2. eapply lconv_rbind; [exact (GH a' b' E1 E2)|]. cbv beta iota zeta.
      change (gcm_tag E (fiv ++ op_iv o) (op_aad o) (op_ct o)) with (gcm_tag E (fiv ++ iv) aad (op_ct o)) in TAG. rewrite <- TAG.
      pose proof (lconv_tags (bytes_of_block (op_outa o)) (bytes_of_block (op_outb ha hb o)) 16
        (fun o' => Ok (g', set_hs a' (pows ha (Nat.max (S ka) n)), (op_ct o, rev (bytes_of_block (N.lxor (op_outa o) (block_of_bytes o'))))))
        (fun o' => Ok (g', set_hs b' (pows hb (Nat.max (S kb) n)), (op_ct o, rev (bytes_of_block (N.lxor (op_outb ha hb o) (block_of_bytes o')))))) (blk_len _) (blk_len _)) as CT.
      cbv beta in CT. rewrite !blk_round in CT by assumption. rewrite (N.lxor_comm (op_outb ha hb o)) in CT. exact CT. }
    destruct sec; cbn [negb].
    + rewrite Za, Zb.
      assert (EC : xor_arr (xor_arr ma (op_za o)) (op_zb o) = op_ct o).
      { unfold op_zb. rewrite xor_arr_assoc. 
        replace (xor_arr (op_za o) (xor_arr (op_za o) (op_ks o))) with (op_ks o).
        - unfold op_ks. rewrite Lc. apply ctext_xor.
        - assert (L : length (op_za o) = length (op_ks o)) by (rewrite op_len; congruence). revert L. clear.
          generalize (op_za o) (op_ks o). induction l as [|x l IH]; intros [|y m] L; try discriminate L; [reflexivity|].
          cbn in *. f_equal; [xor_solve|]. apply IH. congruence. }
      unfold op_A, op_B. fold o. cbn [op_rand o].
      replace (mkBufs (xor_arr ma (op_za o) ++ wire_rows (sh_msgs ha (op_ins o) (m_ole r))) (bytes_of_block (op_outa o)))
        with (more_in (mkBufs (xor_arr ma (op_za o)) []) (more_in (mkBufs (wire_rows (sh_msgs ha (op_ins o) (m_ole r))) []) (mkBufs [] (bytes_of_block (op_outa o)))))
        by (unfold more_in; cbn; now rewrite app_nil_r).
      replace (mkBufs (op_ct o ++ bytes_of_block (op_outb ha hb o)) [])
        with (more_in (mkBufs (op_ct o) []) (more_in nobufs (mkBufs (bytes_of_block (op_outb ha hb o)) []))) by reflexivity.
      eapply lconv_rbind.
      * apply lconv_local. cbv beta zeta.
        pose proof (lconv_swap (length ma) (xor_arr ma (op_za o)) (fun x => xor_arr x (op_zb o))
          (fun c => Ok (push_gc_z (push_z0 a (op_z0a o)) (rev (op_za o)), c))
          (fun x => Ok (push_gc_z (push_z0 b (op_z0b o)) (rev (op_zb o)), xor_arr x (op_zb o)))) as SW.
        cbv beta in SW. rewrite EC in SW. apply SW; [|congruence]. unfold xor_arr. rewrite map2_length. lia.
      * cbv beta iota. apply TAIL; reflexivity.
    + assert (EC : xor_arr ma (rev (reveal_as 8 Z)) = op_ct o).
      { rewrite RV, rev_involutive. unfold op_ks. rewrite Lc. apply ctext_xor. }
      rewrite (PUB eq_refl).
      unfold op_A, op_B. fold o. cbn [op_rand o app].
      replace (mkBufs (wire_rows (sh_msgs ha (op_ins o) (m_ole r))) (bytes_of_block (op_outa o)))
        with (more_in (mkBufs (wire_rows (sh_msgs ha (op_ins o) (m_ole r))) []) (mkBufs [] (bytes_of_block (op_outa o))))
        by (unfold more_in; cbn; now rewrite app_nil_r).
      change (mkBufs (bytes_of_block (op_outb ha hb o)) [])
        with (more_in nobufs (mkBufs (bytes_of_block (op_outb ha hb o)) [])).
      apply (lconv_local (A := party * list N) (B := party * list N)). cbv beta iota. rewrite EC, RV. apply TAIL; reflexivity.
  - destruct BK as (_ & La & Lb). cbn [op_ct] in LA, LB. cbn [op_iv op_rand op_ct] in Oa, Ob, Za, Zb.
    refine (lconv_out PDec _ _ g' g' _ _
      (Some (gcm_ctext E (fiv ++ iv) c), if list_eq_dec N.eq_dec t (gcm_tag E (fiv ++ iv) aad c) then true else false)
      (if sec then None else Some (gcm_ctext E (fiv ++ iv) c), if list_eq_dec N.eq_dec t (gcm_tag E (fiv ++ iv) aad c) then true else false) _ _ _).
    unfold p_decrypt, local. rewrite Oa, Ob. apply lconv_local. cbv beta iota zeta.
    set (o := OpDec c t aad iv sec r ra rb) in *.
    assert (TAIL : forall a' b' m1 m2, p_mul_hs a' = p_mul_hs a -> p_mul_hs b' = p_mul_hs b ->
     lconv (rbind (p_ghash gfr true a' (tag_blocks aad c) (m_ole r)) (fun '(p, out) =>
             let out := N.lxor out (op_z0a o) in
             Send IO (dec_msg1 hash out ra) (Flush IO (Recv IO_OPT DIGEST_SIZE (fun com =>
             Send IO (bytes_of_block out) (Send IO ra (Flush IO (
             Recv IO_OPT 16 (fun o => Recv IO_OPT rand_length (fun rn =>
               Ret (Ok (g', p, (m1, dec_verdict hash t out com (block_of_bytes o, rn))))))))))))))
          (rbind (p_ghash gfr false b' (tag_blocks aad c) (m_ole r)) (fun '(p, out) =>
             let out := N.lxor out (op_z0b o) in
             Send IO_OPT (dec_msg1 hash out rb) (Flush IO_OPT (Recv IO DIGEST_SIZE (fun com =>
             Send IO_OPT (bytes_of_block out) (Send IO_OPT rb (Flush IO_OPT (
             Recv IO 16 (fun o => Recv IO rand_length (fun rn =>
               Ret (Ok (g', p, (m2, dec_verdict hash t out com (block_of_bytes o, rn)))))))))))))) 
          (Ok (g', set_hs a' (pows ha (Nat.max (S ka) n)), (m1 : option (list N), if list_eq_dec N.eq_dec t (gcm_tag E (fiv ++ iv) aad c) then true else false)))
          (Ok (g', set_hs b' (pows hb (Nat.max (S kb) n)), (m2 : option (list N), if list_eq_dec N.eq_dec t (gcm_tag E (fiv ++ iv) aad c) then true else false)))
          (more_in (mkBufs (wire_rows (sh_msgs ha (op_ins o) (m_ole r))) []) (mkBufs (dec_msg1 hash (op_outa o) ra ++ bytes_of_block (op_outa o) ++ ra) []))
          (more_in nobufs (mkBufs [] (dec_msg1 hash (op_outb ha hb o) rb ++ bytes_of_block (op_outb ha hb o) ++ rb)))).
    { intros a' b' m1 m2 E1 E2. eapply lconv_rbind; [exact (GH a' b' E1 E2)|]. cbv beta iota zeta.
      pose proof (lconv_commit (dec_msg1 hash (op_outa o) ra) (bytes_of_block (op_outa o)) ra
        (dec_msg1 hash (op_outb ha hb o) rb) (bytes_of_block (op_outb ha hb o)) rb DIGEST_SIZE 16 rand_length
        (fun com o' rn => Ok (g', set_hs a' (pows ha (Nat.max (S ka) n)), (m1, dec_verdict hash t (op_outa o) com (block_of_bytes o', rn))))
        (fun com o' rn => Ok (g', set_hs b' (pows hb (Nat.max (S kb) n)), (m2, dec_verdict hash t (op_outb ha hb o) com (block_of_bytes o', rn))))
        (HL _) (blk_len _) La (HL _) (blk_len _) Lb) as CT.
      cbv beta in CT. rewrite !blk_round in CT by assumption.
      change (op_outb ha hb o, rb) with (dec_msg2 (op_outb ha hb o) rb) in CT. change (op_outa o, ra) with (dec_msg2 (op_outa o) ra) in CT.
      rewrite !verdict_honest, (N.lxor_comm (op_outb ha hb o)) in CT. change (gcm_tag E (fiv ++ op_iv o) (op_aad o) (op_ct o)) with (gcm_tag E (fiv ++ iv) aad c) in TAG. rewrite TAG in CT. exact CT. }
    unfold op_A, op_B. fold o. cbn [op_rand o op_ct].
    replace (mkBufs (wire_rows (sh_msgs ha (op_ins o) (m_ole r)) ++ dec_msg1 hash (op_outa o) ra ++ bytes_of_block (op_outa o) ++ ra) [])
      with (more_in (mkBufs (wire_rows (sh_msgs ha (op_ins o) (m_ole r))) []) (mkBufs (dec_msg1 hash (op_outa o) ra ++ bytes_of_block (op_outa o) ++ ra) []))
      by reflexivity.
    destruct sec; cbn [negb].
    + rewrite Za, Zb.
      assert (EM : xor_arr (xor_arr (op_zb o) (op_za o)) c = gcm_ctext E (fiv ++ iv) c).
      { rewrite xor_arr_comm. unfold op_zb. rewrite (xor_arr_comm (xor_arr _ _)). 
        replace (xor_arr (op_za o) (xor_arr (op_za o) (op_ks o))) with (op_ks o).
        - unfold op_ks. apply ctext_xor.
        - assert (L : length (op_za o) = length (op_ks o)) by (rewrite op_len; exact LA). revert L. clear.
          generalize (op_za o) (op_ks o). induction l as [|x l IH]; intros [|y m] L; try discriminate L; [reflexivity|].
          cbn in *. f_equal; [xor_solve|]. apply IH. congruence. }
      replace (mkBufs (op_zb o) (dec_msg1 hash (op_outb ha hb o) rb ++ bytes_of_block (op_outb ha hb o) ++ rb))
        with (more_in (mkBufs (op_zb o) []) (more_in nobufs (mkBufs [] (dec_msg1 hash (op_outb ha hb o) rb ++ bytes_of_block (op_outb ha hb o) ++ rb))))
        by (unfold more_in; cbn; now rewrite app_nil_r).
      rewrite <- (nil_more (more_in (mkBufs (wire_rows _) []) _)).
      eapply lconv_rbind.
      * apply lconv_local. cbv beta zeta.
        pose proof (lconv_from_bob (length c) (op_zb o)
          (fun x => Ok (push_gc_z (push_z0 a (op_z0a o)) (rev (op_za o)), Some (xor_arr (xor_arr x (op_za o)) c)))
          (Ok (push_gc_z (push_z0 b (op_z0b o)) (rev (op_zb o)), None : option (list N))) LB) as SW.
        cbv beta in SW. rewrite EM in SW. exact SW.
      * cbv beta iota. apply TAIL; reflexivity.
    + assert (EC : xor_arr c (rev (reveal_as 8 Z)) = gcm_ctext E (fiv ++ iv) c).
      { rewrite RV, rev_involutive. unfold op_ks. apply ctext_xor. }
      change (mkBufs [] (dec_msg1 hash (op_outb ha hb o) rb ++ bytes_of_block (op_outb ha hb o) ++ rb))
        with (more_in nobufs (mkBufs [] (dec_msg1 hash (op_outb ha hb o) rb ++ bytes_of_block (op_outb ha hb o) ++ rb))).
      apply (lconv_local (A := party * option (list N)) (B := party * option (list N))). cbv beta iota. rewrite EC, RV. apply TAIL; reflexivity.
Qed.

(** * The constructor *)
Definition new_ha (mh : list bool) : N := N_of_bits mh.
Definition new_hb (mh : list bool) : N := N.lxor (N_of_bits mh) (E 0).
Definition new_msgs (r : N) (ro : ole_rand) : list (list N) := ole_send_msgs (raw0 ro) (raw1 ro) [r].
Definition new_rots (mh : list bool) (ro : ole_rand) : list (list N) := rot_choose (raw0 ro) (raw1 ro) [new_hb mh].
Definition new_rh (mh : list bool) (r : N) (ro : ole_rand) : N := N.lxor (nth 0 (ole_send_out gfr (raw0 ro)) 0) (gf_mul r (new_ha mh)).
Definition new_A (mh : list bool) (r : N) (ro : ole_rand) : bufs :=
  mkBufs (wire_rows (new_msgs r ro) ++ bytes_of_block (new_rh mh r ro)) [].
Lemma lconv_new key mh r ro : computeKS ks key = Ok ek -> length mh = 128%nat -> blk r -> r <> 0 -> ole_rand_ok ro 1 -> ole_blk ro ->
  blk (new_ha mh) /\ blk (new_hb mh) /\ blk (new_rh mh r ro) /\
  N.lxor (nth 0 (ole_recv_out gfr (new_rots mh ro) (new_msgs r ro) [new_hb mh]) 0) (new_rh mh r ro) = gf_mul r (E 0) /\
  exists g, gok ek fiv g /\
  lconv (p_new ks enc gfr true key (str_to_int fiv) mh r ro) (p_new ks enc gfr false key (str_to_int fiv) mh r ro)
    (Ok (g, fresh (new_ha mh) (invBlock r))) (Ok (g, fresh (new_hb mh) (gf_mul r (E 0)))) (new_A mh r ro) nobufs.
Proof.
  intros HK Hm Hr Hr0 R B.
  assert (Ba : blk (new_ha mh)). { unfold new_ha, blk. pose proof (N_of_bits_lt mh) as X. now rewrite Hm in X. }
  assert (Bb : blk (new_hb mh)) by (apply lxor_blk; [exact Ba|apply (proj2 CIP)]).
  pose proof (send_out_blk gfr GFR (raw0 ro) (proj1 B)) as BO.
  assert (BR : blk (new_rh mh r ro)).
  { unfold new_rh. apply lxor_blk; [|now apply gf_mul_blk]. destruct (ole_send_out gfr (raw0 ro)); [reflexivity|]. now inversion BO. }
  pose proof R as (R0 & R1 & F0 & F1).
  pose proof (ole_run_ok gfr (proj1 GFR) (proj1 (proj2 GFR)) [r] [new_hb mh] (raw0 ro) (raw1 ro) eq_refl R0 R1 F0 F1
    (Forall_cons (P := fun y => y < 2 ^ 128) _ Bb (Forall_nil _))) as O.
  pose proof (lconv_ole2k ro [r] [new_hb mh] 1 eq_refl eq_refl (Forall_cons r Hr (Forall_nil _)) R B) as C.
  unfold ole_run in O, C. cbn [fst snd] in C. fold (new_msgs r ro) (new_rots mh ro) in O, C.
  assert (EQ : N.lxor (nth 0 (ole_recv_out gfr (new_rots mh ro) (new_msgs r ro) [new_hb mh]) 0) (new_rh mh r ro) = gf_mul r (E 0)).
  { unfold new_rh. revert O. generalize (ole_recv_out gfr (new_rots mh ro) (new_msgs r ro) [new_hb mh]) (ole_send_out gfr (raw0 ro)).
    intros ob oa (LA & LB & EQ). destruct oa as [|oa [|]]; try discriminate LA. destruct ob as [|ob [|]]; try discriminate LB.
    cbn [map2] in EQ. apply (f_equal (fun l => nth 0 l 0)) in EQ. cbn [nth] in EQ |- *. rewrite (proj2 (proj2 GFR)) in EQ by assumption.
    replace (E 0) with (N.lxor (new_ha mh) (new_hb mh)) by (unfold new_hb, new_ha; xor_solve).
    rewrite gf_mul_add_r, <- EQ. xor_solve. }
  split; [exact Ba|split; [exact Bb|split; [exact BR|split; [exact EQ|]]]].
  exists {| g_key := ek; g_nonce := []; g_fixed := str_to_int fiv |}. split; [now split|].
  unfold p_new, local. rewrite HK. cbn [bind]. unfold computeH.
  change (int_of 128 0) with (bits_of_N 128 0). rewrite (proj1 CIP 0). cbn [bind].
  rewrite integer_to_block_ok by exact Hm. cbn [bind].
  rewrite integer_to_block_ok by (rewrite bxor_length; rewrite ?bits_of_N_length; congruence). cbn [bind].
  rewrite N_of_bits_bxor by (rewrite bits_of_N_length; congruence). rewrite N_of_bits_of_N_small by apply (proj2 CIP).
  fold (new_ha mh) (new_hb mh). apply lconv_local. cbv beta iota zeta. change (N.lxor (new_ha mh) (E 0)) with (new_hb mh).
  unfold new_A. change (mkBufs (wire_rows (new_msgs r ro) ++ bytes_of_block (new_rh mh r ro)) [])
    with (more_in (mkBufs (wire_rows (new_msgs r ro)) []) (mkBufs (bytes_of_block (new_rh mh r ro)) [])).
  rewrite <- (nil_more nobufs). eapply lconv_bind; [exact C|]. cbv beta.
  rewrite (mulBlock_gf r (new_ha mh)) by assumption. fold (new_rh mh r ro).
  assert (CV : conv (Send IO (bytes_of_block (new_rh mh r ro)) (Ret (Ok ({| g_key := ek; g_nonce := []; g_fixed := str_to_int fiv |}, fresh (new_ha mh) (invBlock r)))))
    (Recv IO 16 (fun m => Ret (Ok ({| g_key := ek; g_nonce := []; g_fixed := str_to_int fiv |},
       fresh (new_hb mh) (N.lxor (nth 0 (ole_recv_out gfr (new_rots mh ro) (new_msgs r ro) [new_hb mh]) 0) (block_of_bytes m))))))
    (Ok ({| g_key := ek; g_nonce := []; g_fixed := str_to_int fiv |}, fresh (new_ha mh) (invBlock r)))
    (Ok ({| g_key := ek; g_nonce := []; g_fixed := str_to_int fiv |}, fresh (new_hb mh) (gf_mul r (E 0))))).
  { eapply conv_ab; [apply solo_one; constructor|]. cbn [get nobufs on_io put app on_opt].
    eapply (solo_recv IO 16 _ _ _ (bytes_of_block (new_rh mh r ro)) []); [cbn; now rewrite app_nil_r|apply blk_len|].
    rewrite blk_round by exact BR. rewrite EQ. constructor. }
  destruct (lconv_of_conv _ _ _ _ CV) as (s & t & T1 & T2 & C'). clear T2. tk. subst. cbn in C'. rewrite app_nil_r in C'. exact C'.
Qed.

(** * A session *)
Fixpoint fin (h : N) (z0 : aop -> N) (z : aop -> list N) (p : party) (os : list aop) : party :=
  match os with
  | [] => p
  | o :: os => fin h z0 z (upd p (pows h (Nat.max (length (p_mul_hs p)) (length (op_ins o)))) (z0 o) (op_sec o) (z o) (op_ks o)) os
  end.
Definition ops_A (ha : N) (os : list aop) : bufs := fold_right (fun o b => more_in (op_A ha o) b) nobufs os.
Definition ops_B (ha hb : N) (os : list aop) : bufs := fold_right (fun o b => more_in (op_B ha hb o) b) nobufs os.
Lemma upd_hs p hs z0 sec z k : p_mul_hs (upd p hs z0 sec z k) = hs.
Proof. unfold upd. now destruct sec. Qed.
Lemma lconv_ops ha hb : blk ha -> blk hb -> gf_mul ha hb = E 0 -> forall os ka kb g a b, gok ek fiv g -> Forall aop_wf os -> Forall aop_blk os ->
  p_mul_hs a = pows ha (S ka) -> p_mul_hs b = pows hb (S kb) ->
  lconv (p_ops_st enc gfr hash true g a os) (p_ops_st enc gfr hash false g b os)
    (Ok (fin ha op_z0a op_za a os, map (fun o => out_alice (aop_spec E fiv o)) os))
    (Ok (fin hb op_z0b op_zb b os, map (fun o => out_bob (aop_spec E fiv o)) os)) (ops_A ha os) (ops_B ha hb os).
Proof.
  intros Ba Bb Hh. induction os as [|o os IH]; intros ka kb g a b G F B Ea Eb; cbn [p_ops_st fin map ops_A ops_B fold_right].
  - apply lconv_ret.
  - inversion F; inversion B; subst.
    destruct (lconv_op ha hb ka kb g a b o Ba Bb Hh G ltac:(assumption) ltac:(assumption) Ea Eb) as (_ & _ & _ & g' & G' & C).
    eapply lconv_rbind; [exact C|]. cbv beta iota.
    rewrite Ea, Eb, !pows_length.
    assert (X : forall k, exists k', Nat.max (S k) (length (op_ins o)) = S k') by (intro k; exists (Nat.max (S k) (length (op_ins o)) - 1)%nat; lia).
    destruct (X ka) as [ka' Ka]. destruct (X kb) as [kb' Kb]. rewrite Ka, Kb in *.
    rewrite <- (more_nil (fold_right (fun o b => more_in (op_A ha o) b) _ _)), <- (more_nil (fold_right (fun o b => more_in (op_B ha hb o) b) _ _)).
    eapply lconv_rbind; [eapply IH; try assumption; apply upd_hs|]. cbv beta iota. apply lconv_ret.
Qed.
Lemma wp_ops_st alice : forall os g p, Forall aop_wf os -> gok ek fiv g -> p_mul_hs p <> [] -> 
  wp (p_ops_st enc gfr hash alice g p os) (false, false) clean.
Proof.
  induction os as [|o os IH]; intros g p F G NN; cbn [p_ops_st].
  - reflexivity.
  - inversion F; subst. apply wp_rbind. eapply wp_mono; [|eapply wp_op; try eassumption; reflexivity].
    intros x d [-> (g1 & p1 & y & -> & G1 & N1)]. apply wp_rbind. eapply wp_mono; [|apply IH; eassumption].
    intros [[p2 xs]| |] d ->; reflexivity.
Qed.
Lemma wp_session_st alice key mh r ro o os : computeKS ks key = Ok ek -> length mh = 128%nat -> Forall aop_wf (o :: os) ->
  disciplined (p_session_st ks enc gfr hash alice key (str_to_int fiv) mh r ro (o :: os)).
Proof.
  intros K L F. unfold disciplined, p_session_st. apply wp_rbind. eapply wp_mono; [|eapply wp_new; eassumption].
  intros x d [D (g & p & -> & G & N)]. inversion F; subst. cbn [p_ops_st]. apply wp_rbind. eapply wp_mono; [|eapply wp_op; eassumption].
  intros x d' [-> (g1 & p1 & y & -> & G1 & N1)]. apply wp_rbind. eapply wp_mono; [|apply wp_ops_st; eassumption].
  intros [[p2 xs]| |] d' ->; reflexivity.
Qed.
Theorem session_views key mh r ro o os : computeKS ks key = Ok ek -> length mh = 128%nat -> blk r -> r <> 0 ->
  ole_rand_ok ro 1 -> ole_blk ro -> Forall aop_wf (o :: os) -> Forall aop_blk (o :: os) ->
  let ha := invBlock r in let hb := gf_mul r (E 0) in
  runs_with_views (p_session_st ks enc gfr hash true key (str_to_int fiv) mh r ro (o :: os))
                  (p_session_st ks enc gfr hash false key (str_to_int fiv) mh r ro (o :: os))
    (Ok (fin ha op_z0a op_za (fresh (new_ha mh) ha) (o :: os), map (fun o => out_alice (aop_spec E fiv o)) (o :: os)))
    (Ok (fin hb op_z0b op_zb (fresh (new_hb mh) hb) (o :: os), map (fun o => out_bob (aop_spec E fiv o)) (o :: os)))
    (ops_B ha hb (o :: os)) (more_in (new_A mh r ro) (ops_A ha (o :: os))).
Proof.
  intros HK Hm Hr Hr0 R B W F ha hb.
  assert (BH : blk (E 0)) by apply (proj2 CIP).
  assert (Ba : blk ha) by now apply invBlock_blk. assert (Bb : blk hb) by now apply gf_mul_blk.
  assert (Hh : gf_mul ha hb = E 0).
  { unfold hb. rewrite (gf_mul_assoc ha r (E 0) Ba Hr BH), (gf_mul_comm ha r Ba Hr). unfold ha.
    rewrite invBlock_ok by assumption. now apply gf_mul_1_l. }
  destruct (lconv_new key mh r ro HK Hm Hr Hr0 R B) as (_ & _ & _ & _ & g & G & C).
  apply lconv_runs; try (now apply wp_session_st).
  unfold p_session_st. rewrite <- (nil_more (ops_B ha hb (o :: os))).
  eapply lconv_rbind; [exact C|]. cbv beta iota.
  apply (lconv_ops ha hb Ba Bb Hh (o :: os) 0 0); try assumption; cbn [fresh p_mul_hs]; symmetry; now apply pows_1.
Qed.
End G.
