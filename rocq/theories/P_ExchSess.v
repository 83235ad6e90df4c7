(** A whole AEAD session under any schedule; and a constructor with no call after it. *)
From Coq Require Import List NArith Bool Arith Lia.
From Verif Require Import L_Bits L_Res L_Xor S_Sched S_Codec S_Gcm M_EmpInteger M_Utils M_Bristol M_Block M_Ole2k M_Shares M_Commit M_Aead M_Exch.
From Verif Require Import P_Utils P_Gf128 P_Shares P_Ole2k P_AesNet P_Gcm P_Aead P_Sched P_Exch P_ExchAead P_ExchDh.
From Verif Require Import S_Aes D_AesKs D_AesEnc P_AeadInst.
Import ListNotations.
Local Open Scope N_scope.
Local Opaque mulBlock gf_mul invBlock computeKS computeAES_KS bytes_of_block block_of_bytes encrypt decrypt key_material.

(** what each party has when a call is over *)
Definition out_alice (o : aout) : pout :=
  match o with OutEnc a _ => PEnc a | OutDec (m, v) _ => PDec (Some m, v) end.
Definition out_bob (o : aout) : pout :=
  match o with OutEnc _ b => PEnc b | OutDec _ b => PDec b end.
(** the OT messages are blocks and the commitment strings have their length *)
Definition aop_blk (o : aop) : Prop :=
  match o with
  | OpEnc _ _ _ _ _ r => ole_blk (m_ole r)
  | OpDec _ _ _ _ _ r ra rb => ole_blk (m_ole r) /\ length ra = rand_length /\ length rb = rand_length
  end.

(** * Flags *)
Lemma wp_send_blocks c : forall l d (Q : unit -> flags -> Prop), (forall d', fget d' (other c) = fget d (other c) -> Q tt d') ->
  wp (p_send_blocks c l) d Q.
Proof.
  induction l as [|x l IH]; intros d Q H; cbn [p_send_blocks wp].
  - now apply H.
  - apply IH. intros d' E. apply H. rewrite E. now destruct d, c.
Qed.
Lemma wp_recv_rows c : forall n d (Q : list (list N) -> flags -> Prop), fget d (other c) = false ->
  (forall l d', length l = n -> fget d' (other c) = false -> Q l d') -> wp (p_recv_rows c n) d Q.
Proof.
  induction n as [|n IH]; intros d Q D H; cbn [p_recv_rows wp].
  - now apply H.
  - split; [exact D|]. intros bs _. apply wp_bind. apply IH; [now destruct d, c|]. intros l d' L D'. cbn [wp].
    apply H; [cbn; now f_equal|exact D'].
Qed.

Section G.
Variable ks enc : bristol.
Variable gfr : N -> N -> N.
Hypothesis GFR : gfr_ok gfr.
Variable hash : list N -> list N.
Hypothesis HL : forall l, length (hash l) = DIGEST_SIZE.
Variable ek : Integer.
Variable E : N -> N.
Hypothesis CIP : cipher_ok enc ek E.
Variable fiv : list N.
Hypothesis V1 : length fiv = 4%nat.
Hypothesis V2 : Forall (fun b => b < 256) fiv.

Lemma wp_ghash alice p ins r d (Q : res (party * N) -> flags -> Prop) : p_mul_hs p <> [] -> snd d = false ->
  (forall p' o d', p_mul_hs p' <> [] -> snd d' = false -> Q (Ok (p', o)) d') -> wp (p_ghash gfr alice p ins r) d Q.
Proof.
  intros NN D H. unfold p_ghash. destruct (p_mul_hs p) as [|h t] eqn:Eh; [congruence|].
  assert (X : hs_upto (h :: t) (length ins) <> []).
  { unfold hs_upto. generalize (nth 0 (h :: t) 0). intro h0. 
    generalize (S (length ins) - length (h :: t))%nat || generalize (length ins - length (h :: t))%nat.
    intro f. assert (Y : forall f l, l <> [] -> extend_hs f h0 l <> []).
    { induction f0 as [|f0 IH]; intros l Hl; cbn [extend_hs]; [exact Hl|]. apply IH. now destruct l. }
    apply Y. discriminate. }
  apply wp_bind. destruct alice.
  - unfold p_ole2k_send. apply wp_bind, wp_send_blocks. intros d' E'. cbn [wp]. apply H; [exact X|].
    cbn in E'. congruence.
  - unfold p_ole2k_recv. apply wp_bind, wp_recv_rows; [exact D|]. intros l d' _ E'. cbn [wp]. apply H; [exact X|exact E'].
Qed.

Definition gok (g : gcst) : Prop := g_key g = ek /\ g_fixed g = str_to_int fiv.
Lemma own_ok alice g p iv len r : gok g -> length iv = 8%nat -> bytes_ok iv -> length (m_z0 r) = 128%nat ->
  exists g' z0 Z, own_material enc alice g p iv (N.of_nat len) r = Ok (g', push_z0 p z0, z0, Z) /\ gok g' /\ length Z = (8 * len)%nat.
Proof.
  intros [G1 G2] L8 B8 R. destruct (key_material_ok enc ek E (proj1 CIP) g fiv iv len G1 G2 V1 V2 L8 B8) as (Z & n1 & EZ & LZ & _).
  destruct (share_material enc g p p iv _ r _ _ _ EZ (bits_of_N_length _ _) R) as (z0a & z0b & _ & _ & _ & _ & Oa & Ob).
  destruct alice; [rewrite Oa|rewrite Ob]; do 3 eexists; (split; [reflexivity|]); (split; [split; assumption|exact LZ]).
Qed.
Lemma ownz_ok alice Z r len : length Z = (8 * len)%nat -> length (m_z r) = (8 * len)%nat -> exists z, own_z alice Z r = Ok z.
Proof.
  intros LZ Rz. destruct (itc_share _ _ _ Rz LZ) as (za & zb & Ea & Eb & _). unfold own_z.
  destruct alice; [rewrite Ea|rewrite Eb]; eauto.
Qed.

Definition after_op {X} (r : res (gcst * party * X)) (d : flags) : Prop :=
  d = (false, false) /\ exists g p x, r = Ok (g, p, x) /\ gok g /\ p_mul_hs p <> [].

Lemma wp_encrypt alice g p len msg aad iv sec r d : gok g -> p_mul_hs p <> [] -> snd d = false ->
  length iv = 8%nat -> bytes_ok iv -> length (m_z0 r) = 128%nat -> length (m_z r) = (8 * len)%nat ->
  wp (p_encrypt enc gfr alice g p len msg aad iv sec r) d after_op.
Proof.
  intros G NN D L8 B8 R0 Rz. unfold p_encrypt, local.
  destruct (own_ok alice g p iv len r G L8 B8 R0) as (g' & z0 & Z & EO & G' & LZ). rewrite EO.
  apply wp_rbind. cbn [wp]. apply wp_rbind.
  assert (TAIL : forall p1 c d, p_mul_hs p1 <> [] -> snd d = false ->
    wp (rbind (p_ghash gfr alice p1 (tag_blocks aad c) (m_ole r)) (fun '(p, out) =>
          let out := N.lxor out z0 in
          let (mine, theirs) := if alice then (IO_OPT, IO) else (IO, IO_OPT) in
          Send mine (bytes_of_block out) (Flush mine (
          Recv theirs 16 (fun o =>
          Ret (Ok (g', p, (c, rev (bytes_of_block (N.lxor out (block_of_bytes o)))))))))))
      d after_op).
  { intros p1 c d1 N1 D1. apply wp_rbind, wp_ghash; [exact N1|exact D1|]. intros p2 o d2 N2 D2. cbv zeta.
    destruct d2 as [d2 d3]. cbn in D2. subst d3.
    destruct alice; cbn [wp fset fget other fst snd]; (split; [reflexivity|]); intros bs _;
      (split; [reflexivity|]); do 3 eexists; (split; [reflexivity|]); now split. }
  destruct sec; cbn [negb].
  - destruct (ownz_ok alice Z r len LZ Rz) as [z EZ]. rewrite EZ. apply wp_rbind. cbn [wp].
    destruct d as [d0 d1]. cbn in D. subst d1.
    destruct alice; cbn [wp fset fget other fst snd]; (split; [reflexivity|]); intros bs _; apply TAIL; try exact NN; reflexivity.
  - cbn [wp]. apply TAIL; [exact NN|exact D].
Qed.
Lemma wp_decrypt alice g p c t aad iv sec r rnd d : gok g -> p_mul_hs p <> [] -> snd d = false ->
  length iv = 8%nat -> bytes_ok iv -> length (m_z0 r) = 128%nat -> length (m_z r) = (8 * length c)%nat ->
  wp (p_decrypt enc gfr hash alice g p c t aad iv sec r rnd) d after_op.
Proof.
  intros G NN D L8 B8 R0 Rz. unfold p_decrypt, local.
  destruct (own_ok alice g p iv (length c) r G L8 B8 R0) as (g' & z0 & Z & EO & G' & LZ). rewrite EO.
  apply wp_rbind. cbn [wp]. apply wp_rbind.
  assert (TAIL : forall p1 (msg : option (list N)) d, p_mul_hs p1 <> [] -> snd d = false ->
    wp (rbind (p_ghash gfr alice p1 (tag_blocks aad c) (m_ole r)) (fun '(p, out) =>
          let out := N.lxor out z0 in
          let (mine, theirs) := if alice then (IO, IO_OPT) else (IO_OPT, IO) in
          Send mine (dec_msg1 hash out rnd) (Flush mine (
          Recv theirs DIGEST_SIZE (fun com =>
          Send mine (bytes_of_block out) (Send mine rnd (Flush mine (
          Recv theirs 16 (fun o => Recv theirs rand_length (fun rn =>
          Ret (Ok (g', p, (msg, dec_verdict hash t out com (block_of_bytes o, rn)))))))))))))) d after_op).
  { intros p1 msg d1 N1 D1. apply wp_rbind, wp_ghash; [exact N1|exact D1|]. intros p2 o d2 N2 D2. cbv zeta.
    destruct d2 as [d2 d3]. cbn in D2. subst d3.
    destruct alice; cbn [wp fset fget other fst snd].
    - split; [reflexivity|]. intros c1 _. split; [reflexivity|]. intros c2 _. split; [reflexivity|]. intros c3 _.
      split; [reflexivity|]. do 3 eexists; (split; [reflexivity|]); now split.
    - split; [reflexivity|]. intros c1 _. split; [reflexivity|]. intros c2 _. split; [reflexivity|]. intros c3 _.
      split; [reflexivity|]. do 3 eexists; (split; [reflexivity|]); now split. }
  destruct sec; cbn [negb].
  - destruct (ownz_ok alice Z r (length c) LZ Rz) as [z EZ]. rewrite EZ. apply wp_rbind. cbn [wp].
    destruct d as [d0 d1]. cbn in D. subst d1.
    destruct alice; cbn [wp fset fget other fst snd].
    + split; [reflexivity|]. intros bs _. apply TAIL; [exact NN|reflexivity].
    + apply TAIL; [exact NN|reflexivity].
  - cbn [wp]. apply TAIL; [exact NN|exact D].
Qed.
Lemma wp_op alice g p o d : aop_wf o -> gok g -> p_mul_hs p <> [] -> snd d = false ->
  wp (p_op enc gfr hash alice g p o) d after_op.
Proof.
  intros W G NN D.
  assert (K : forall X (f : X -> pout) (c : proc (res (gcst * party * X))), wp c d after_op ->
    wp (rbind c (fun '(g, p, o) => Ret (Ok (g, p, f o)))) d after_op).
  { intros X f c H. apply wp_rbind. eapply wp_mono; [|exact H]. intros x d' [D' (g1 & p1 & y & -> & G1 & N1)]. cbn [wp].
    split; [exact D'|]. do 3 eexists. split; [reflexivity|]. now split. }
  destruct o as [ma mb aad iv sec r|c t aad iv sec r ra rb]; cbn [aop_wf] in W; cbn [p_op]; apply K.
  - destruct W as (_ & _ & H3 & H4 & (H5 & H6 & _) & _). apply wp_encrypt; assumption.
  - destruct W as (_ & _ & H3 & H4 & (H5 & H6 & _)). apply wp_decrypt; assumption.
Qed.
Lemma wp_ops alice : forall os g p, Forall aop_wf os -> gok g -> p_mul_hs p <> [] -> 
  wp (p_ops enc gfr hash alice g p os) (false, false) clean.
Proof.
  induction os as [|o os IH]; intros g p F G NN; cbn [p_ops].
  - reflexivity.
  - inversion F; subst. apply wp_rbind. eapply wp_mono; [|apply wp_op; try eassumption; reflexivity].
    intros x d [-> (g1 & p1 & y & -> & G1 & N1)]. apply wp_rbind. eapply wp_mono; [|apply IH; eassumption].
    intros [xs| |] d ->; reflexivity.
Qed.
Lemma wp_ops_1 alice : forall o os g p d, Forall aop_wf (o :: os) -> gok g -> p_mul_hs p <> [] -> snd d = false ->
  wp (p_ops enc gfr hash alice g p (o :: os)) d clean.
Proof.
  intros o os g p d F G N D. cbn [p_ops].
  inversion F; subst. apply wp_rbind. eapply wp_mono; [|apply wp_op; eassumption].
  intros x d' [-> (g1 & p1 & y & -> & G1 & N1)]. apply wp_rbind. eapply wp_mono; [|apply wp_ops; eassumption].
  intros [xs| |] d' ->; reflexivity.
Qed.
Lemma wp_new alice key mh r ro : computeKS ks key = Ok ek -> length mh = 128%nat ->
  wp (p_new ks enc gfr alice key (str_to_int fiv) mh r ro) (false, false)
    (fun x d => snd d = false /\ exists g p, x = Ok (g, p) /\ gok g /\ p_mul_hs p <> []).
Proof.
  intros K L. unfold p_new, local. rewrite K. cbn [bind]. unfold computeH.
  change (int_of 128 0) with (bits_of_N 128 0). rewrite (proj1 CIP 0). cbn [bind].
  destruct (itb_share mh _ L (bits_of_N_length 128 (E 0))) as (ha & hb & Ea & Eb & _).
  destruct alice; [rewrite Ea|rewrite Eb]; cbn [bind]; apply wp_rbind; cbn [wp]; apply wp_bind.
  - apply wp_bind, wp_send_blocks. intros d' E'. cbn in E'. cbn [wp fset fst snd].
    split; [exact E'|]. do 2 eexists. split; [reflexivity|]. split; [now split|discriminate].
  - apply wp_bind, wp_recv_rows; [reflexivity|]. intros l d' _ E'. cbn [wp]. split; [exact E'|]. intros bs _.
    split; [destruct d'; exact E'|]. do 2 eexists. split; [reflexivity|]. split; [now split|discriminate].
Qed.
Lemma wp_session alice key mh r ro o os : computeKS ks key = Ok ek -> length mh = 128%nat -> Forall aop_wf (o :: os) ->
  disciplined (p_session ks enc gfr hash alice key (str_to_int fiv) mh r ro (o :: os)).
Proof.
  intros K L F. unfold disciplined, p_session. apply wp_rbind. eapply wp_mono; [|apply wp_new; eassumption].
  intros x d [D (g & p & -> & G & N)]. apply wp_ops_1; assumption.
Qed.

(** * The run *)
Lemma conv_op hist s o : aead_inv ek E fiv hist s -> aop_wf o -> aop_blk o ->
  exists s', aead_inv ek E fiv (hist ++ [aop_call o]) s' /\
  conv (p_op enc gfr hash true (st_gc s) (st_a s) o) (p_op enc gfr hash false (st_gc s) (st_b s) o)
    (Ok (st_gc s', st_a s', out_alice (aop_spec E fiv o))) (Ok (st_gc s', st_b s', out_bob (aop_spec E fiv o))).
Proof.
  intros I W B.
  destruct (i_hs _ _ _ _ _ I) as (ha & hb & ka & kb & Bha & Bhb & Hh & Eha & Ehb).
  assert (Hs : forall n, Forall blk (hs_upto (p_mul_hs (st_a s)) n)).
  { intro n. rewrite Eha, hs_upto_ok by exact Bha. now apply pows_blk. }
  destruct o as [ma mb aad iv sec r|c t aad iv sec r ra rb]; cbn [aop_wf aop_blk] in W, B; cbn [p_op aop_spec aop_call].
  - destruct W as (H1 & H2 & H3 & H4 & H5 & H6).
    destruct (encrypt_ok enc gfr GFR ek E CIP fiv V1 V2 hist s ma mb aad iv sec r I H1 H2 H3 H4 H5 H6) as (s1 & EQ & I1).
    exists s1. split; [exact I1|].
    destruct (key_material_ok enc ek E (proj1 CIP) (st_gc s) fiv iv (length ma) (i_key _ _ _ _ _ I) (i_fixed _ _ _ _ _ I) V1 V2 H3 H4)
      as (Z & n1 & EZ & LZ & _). destruct H5 as (R0 & Rz & Ro).
    assert (Bc : bytes_ok (gcm_ctext E (fiv ++ iv) ma)) by (apply ctext_bytes; assumption).
    assert (Lc : length (gcm_ctext E (fiv ++ iv) ma) = length ma) by apply ctext_length.
    eapply conv_rbind.
    + eapply (conv_encrypt enc gfr GFR s ma mb aad iv sec r s1 _ _ _ _ _ EQ EZ (bits_of_N_length _ _) LZ R0 Rz).
      * apply tag_blocks_blk; assumption.
      * apply Hs.
      * cbn [gcm_ae fst]. rewrite tag_blocks_length. unfold nblocks in *. rewrite Lc. exact Ro.
      * exact B.
    + apply conv_ret.
  - destruct W as (H1 & H2 & H3 & H4 & H5). destruct B as (B & La & Lb).
    destruct (decrypt_ok enc gfr GFR ek E CIP fiv V1 V2 hash hist s c t aad iv sec r ra rb I H1 H2 H3 H4 H5) as (s1 & EQ & I1).
    exists s1. split; [exact I1|].
    destruct (key_material_ok enc ek E (proj1 CIP) (st_gc s) fiv iv (length c) (i_key _ _ _ _ _ I) (i_fixed _ _ _ _ _ I) V1 V2 H3 H4)
      as (Z & n1 & EZ & LZ & _). destruct H5 as (R0 & Rz & Ro).
    eapply conv_rbind.
    + eapply (conv_decrypt enc gfr GFR hash HL s c t aad iv sec r ra rb s1 _ _ _ _ _ _ _ EQ EZ (bits_of_N_length _ _) LZ R0 Rz La Lb).
      * apply tag_blocks_blk; assumption.
      * apply Hs.
      * rewrite tag_blocks_length. exact Ro.
      * exact B.
    + apply conv_ret.
Qed.
Lemma conv_ops : forall os hist s, aead_inv ek E fiv hist s -> Forall aop_wf os -> Forall aop_blk os ->
  conv (p_ops enc gfr hash true (st_gc s) (st_a s) os) (p_ops enc gfr hash false (st_gc s) (st_b s) os)
    (Ok (map (fun o => out_alice (aop_spec E fiv o)) os)) (Ok (map (fun o => out_bob (aop_spec E fiv o)) os)).
Proof.
  induction os as [|o os IH]; intros hist s I F B; cbn [p_ops map].
  - apply conv_ret.
  - inversion F; inversion B; subst. destruct (conv_op hist s o I ltac:(assumption) ltac:(assumption)) as (s' & I' & C).
    eapply conv_rbind; [exact C|]. cbv beta iota. eapply conv_rbind; [eapply IH; eassumption|]. apply conv_ret.
Qed.
Lemma conv_new key mh r ro : computeKS ks key = Ok ek -> length mh = 128%nat -> blk r -> r <> 0 -> ole_rand_ok ro 1 -> ole_blk ro ->
  exists s, aead_inv ek E fiv [] s /\
  conv (p_new ks enc gfr true key (str_to_int fiv) mh r ro) (p_new ks enc gfr false key (str_to_int fiv) mh r ro)
    (Ok (st_gc s, st_a s)) (Ok (st_gc s, st_b s)).
Proof.
  intros HK Hm Hr Hr0 R B.
  destruct (aead_new_ok ks enc gfr GFR ek E CIP fiv key mh r ro HK Hm Hr Hr0 R) as (s & ES & I). exists s. split; [exact I|].
  unfold aead_new in ES. unfold p_new, local. rewrite HK in *. cbn [bind] in *. unfold computeH in *.
  change (int_of 128 0) with (bits_of_N 128 0) in *. rewrite (proj1 CIP 0) in *. cbn [bind] in *.
  destruct (itb_share mh _ Hm (bits_of_N_length 128 (E 0))) as (ha & hb & Ea & Eb & Ex & Ba & Bb & _). rewrite Ea, Eb in *. cbn [bind] in *.
  pose proof (conv_ole2k gfr ro [r] [hb] 1 eq_refl eq_refl (Forall_cons r Hr (Forall_nil _)) R B) as C.
  pose proof (send_out_blk gfr GFR (raw0 ro) (proj1 B)) as BO.
  destruct (ole_run gfr (raw0 ro) (raw1 ro) [r] [hb]) as [oa ob] eqn:EO. cbn [fst snd] in C.
  assert (Eoa : oa = ole_send_out gfr (raw0 ro)) by (unfold ole_run in EO; congruence).
  assert (BR : blk (N.lxor (nth 0 oa 0) (mulBlock r ha))).
  { apply lxor_blk; [|rewrite mulBlock_gf by assumption; now apply gf_mul_blk].
    rewrite Eoa. destruct (ole_send_out gfr (raw0 ro)); [reflexivity|]. now inversion BO. }
  destruct oa as [|oa1 [|]]; [discriminate ES| |discriminate ES]. destruct ob as [|ob1 [|]]; [discriminate ES| |discriminate ES].
  assert (Es := f_equal (fun x => match x with Ok s => (st_gc s, st_a s) | _ => (st_gc s, st_a s) end) ES).
  assert (Es' := f_equal (fun x => match x with Ok s => (st_gc s, st_b s) | _ => (st_gc s, st_b s) end) ES).
  cbn in Es, Es'. rewrite <- Es, <- Es'. clear ES Es Es'.
  eapply conv_rbind; [apply conv_ret|]. cbv beta iota zeta.
  eapply conv_bind; [exact C|]. cbv beta zeta.
  eapply conv_ab; [apply solo_one; constructor|]. cbn [get nobufs on_io put app on_opt].
  eapply (solo_recv IO 16 _ _ _ (bytes_of_block (N.lxor oa1 (mulBlock r ha))) []); [cbn; now rewrite app_nil_r|apply blk_len|].
  cbn [nth] in BR. rewrite blk_round by exact BR. constructor.
Qed.

(** ** Any non-empty sequence of calls, under any schedule *)
Theorem session_completes key mh r ro o os : computeKS ks key = Ok ek -> length mh = 128%nat -> blk r -> r <> 0 ->
  ole_rand_ok ro 1 -> ole_blk ro -> Forall aop_wf (o :: os) -> Forall aop_blk (o :: os) ->
  always_completes (p_session ks enc gfr hash true key (str_to_int fiv) mh r ro (o :: os))
                   (p_session ks enc gfr hash false key (str_to_int fiv) mh r ro (o :: os))
    (Ok (map (fun o => out_alice (aop_spec E fiv o)) (o :: os)))
    (Ok (map (fun o => out_bob (aop_spec E fiv o)) (o :: os))).
Proof.
  intros HK Hm Hr Hr0 R B W F.
  destruct (conv_new key mh r ro HK Hm Hr Hr0 R B) as (s & I & C).
  assert (S : conv (p_session ks enc gfr hash true key (str_to_int fiv) mh r ro (o :: os))
                   (p_session ks enc gfr hash false key (str_to_int fiv) mh r ro (o :: os))
    (Ok (map (fun o => out_alice (aop_spec E fiv o)) (o :: os)))
    (Ok (map (fun o => out_bob (aop_spec E fiv o)) (o :: os)))).
  { unfold p_session. eapply conv_rbind; [exact C|]. cbv beta iota. eapply conv_ops; eassumption. }
  destruct S as [n S]. eapply completes; [| |exact S]; apply wp_session; assumption.
Qed.

(** * The constructor with nothing after it *)
Theorem new_alone key mh r ro : computeKS ks key = Ok ek -> length mh = 128%nat -> 
  can_deadlock (p_new ks enc gfr true key (str_to_int fiv) mh r ro) (p_new ks enc gfr false key (str_to_int fiv) mh r ro).
Proof.
  intros K L. unfold p_new, local. rewrite K. cbn [bind]. unfold computeH.
  change (int_of 128 0) with (bits_of_N 128 0). rewrite (proj1 CIP 0). cbn [bind].
  destruct (itb_share mh _ L (bits_of_N_length 128 (E 0))) as (ha & hb & Ea & Eb & _). rewrite Ea, Eb. cbn [bind].
  cbn [rbind pbind]. unfold p_ole2k_recv. cbn [p_recv_rows length pbind].
  eapply (proj1 (unflushed_deadlock _ IO _ _ _ _)).
  Unshelve.
  - unfold p_ole2k_send. apply only_sends_bind; [|intros; exact I]. apply only_sends_bind; [|intros; exact I].
    generalize (concat (ole_send_msgs (raw0 ro) (raw1 ro) [r])). intro l. induction l; cbn; auto.
  - discriminate.
Qed.
End G.

(** * On the shipped AES circuits *)
Local Opaque aes_ks_file aes_enc_file aesE EK str_to_int.
Theorem session_completes_files gfr hash : gfr_ok gfr -> (forall l, length (hash l) = DIGEST_SIZE) ->
  forall key fiv mh r ro o os, length key = 16%nat -> Forall (fun b => b < 256) key ->
  length fiv = 4%nat -> Forall (fun b => b < 256) fiv -> length mh = 128%nat -> blk r -> r <> 0 ->
  ole_rand_ok ro 1 -> ole_blk ro -> Forall aop_wf (o :: os) -> Forall aop_blk (o :: os) ->
  always_completes (p_session aes_ks_file aes_enc_file gfr hash true (str_to_int key) (str_to_int fiv) mh r ro (o :: os))
                   (p_session aes_ks_file aes_enc_file gfr hash false (str_to_int key) (str_to_int fiv) mh r ro (o :: os))
    (Ok (map (fun o => out_alice (aop_spec (aesE key) fiv o)) (o :: os)))
    (Ok (map (fun o => out_bob (aop_spec (aesE key) fiv o)) (o :: os))).
Proof.
  intros GFR HL key fiv mh r ro o os K1 K2 V1 V2 HM HR HR0 R B W F.
  exact (session_completes aes_ks_file aes_enc_file gfr GFR hash HL (EK key) (aesE key) (files_cipher_ok key K1 K2) fiv V1 V2
    (str_to_int key) mh r ro o os (files_ks key K1 K2) HM HR HR0 R B W F).
Qed.
Theorem new_alone_files gfr key fiv mh r ro : length key = 16%nat -> Forall (fun b => b < 256) key -> length mh = 128%nat ->
  can_deadlock (p_new aes_ks_file aes_enc_file gfr true (str_to_int key) (str_to_int fiv) mh r ro)
               (p_new aes_ks_file aes_enc_file gfr false (str_to_int key) (str_to_int fiv) mh r ro).
Proof.
  intros K1 K2 HM.
  exact (new_alone aes_ks_file aes_enc_file gfr (EK key) (aesE key) (files_cipher_ok key K1 K2) fiv
    (str_to_int key) mh r ro (files_ks key K1 K2) HM).
Qed.
