(** The AEAD programs that work on wire labels, run together under any schedule. *)
From Coq Require Import List NArith ZArith Bool Arith Lia.
From Verif Require Import L_Bits L_Res L_Xor S_Sched S_Codec S_Aes S_Gcm.
From Verif Require S_Netlist S_Lower.
From Verif Require Import M_EmpInteger M_Utils M_Bristol M_Block M_Ole2k M_Shares M_Commit M_Aead M_Exch M_View M_LabRec.
From Verif Require Import D_AesKs D_AesEnc P_Utils P_Gf128 P_Shares P_Ole2k P_AesNet P_Gcm P_Aead P_AeadInst P_Sched P_Exch P_ExchAead P_ExchSess.
From Verif Require Import P_Sha256Opt P_Handshake P_Session2 P_SymGcm.
Import ListNotations.
Local Open Scope N_scope.
Local Opaque mulBlock gf_mul invBlock computeKS computeAES_KS bytes_of_block block_of_bytes key_material
  aes_ks_file aes_enc_file aesE EK str_to_int gcm_ctext.

(** * Programs that send and receive the same and return related results *)
Inductive peq {A B} (R : A -> B -> Prop) : proc A -> proc B -> Prop :=
| peq_ret a b : R a b -> peq R (Ret a) (Ret b)
| peq_send c bs p q : peq R p q -> peq R (Send c bs p) (Send c bs q)
| peq_flush c p q : peq R p q -> peq R (Flush c p) (Flush c q)
| peq_recv c n k k' : (forall bs, peq R (k bs) (k' bs)) -> peq R (Recv c n k) (Recv c n k').
Lemma peq_refl {A} (p : proc A) : peq eq p p.
Proof. induction p; constructor; auto. Qed.
Lemma peq_bind {A B C D} (R : A -> B -> Prop) (S : C -> D -> Prop) p q f g : peq R p q ->
  (forall a b, R a b -> peq S (f a) (g b)) -> peq S (pbind p f) (pbind q g).
Proof. intros E H. induction E; cbn [pbind]; [auto|constructor; auto..]. Qed.
Definition rl {A B} (R : A -> B -> Prop) (x : res A) (y : res B) : Prop :=
  match x, y with Ok a, Ok b => R a b | Err, Err => True | UB, UB => True | _, _ => False end.
Lemma peq_rbind {A B C D} (R : A -> B -> Prop) (S : C -> D -> Prop) p q f g : peq (rl R) p q ->
  (forall a b, R a b -> peq (rl S) (f a) (g b)) -> peq (rl S) (rbind p f) (rbind q g).
Proof.
  intros E H. eapply peq_bind; [exact E|]. intros [a| |] [b| |] K; cbn [rl] in K; try contradiction; [auto|constructor; exact I..].
Qed.
Lemma rbind_ok {A B} (a : A) (f : A -> proc (res B)) : rbind (Ret (Ok a)) f = f a.
Proof. reflexivity. Qed.
Lemma peq_mono {A B} (R S : A -> B -> Prop) p q : (forall a b, R a b -> S a b) -> peq R p q -> peq S p q.
Proof. intros H E. induction E; constructor; auto. Qed.
Lemma peq_rrefl {A} (p : proc (res A)) : peq (rl eq) p p.
Proof. apply (peq_mono eq); [|apply peq_refl]. intros [x| |] ? <-; cbn; auto. Qed.
Lemma peq_astep {A B} (R : A -> B -> Prop) p q p' so si so' si' : peq R p q -> astep p so si p' so' si' ->
  exists q', astep q so si q' so' si' /\ peq R p' q'.
Proof. intros E S. destruct S; inversion E; subst; eexists; (split; [constructor|]); auto. Qed.
Lemma peq_steps {A A' B B'} (R : A -> A' -> Prop) (S : B -> B' -> Prop) n : forall p p1 q q1 s t a b, peq R p p1 -> peq S q q1 ->
  abs_steps n (mkA p q s t) (final a b) -> exists a' b', R a a' /\ S b b' /\ abs_steps n (mkA p1 q1 s t) (final a' b').
Proof.
  induction n as [|n IH]; intros p p1 q q1 s t a b E1 E2 H.
  - inversion H; subst. inversion E1; inversion E2; subst. eexists _, _. split; [eassumption|]. split; [eassumption|]. constructor.
  - inversion H as [|m x y z S1 S2]; subst. inversion S1; subst.
    + destruct (peq_astep _ _ _ _ _ _ _ _ E1 ltac:(eassumption)) as (p2 & K & E).
      destruct (IH _ _ _ _ _ _ _ _ E E2 S2) as (a' & b' & Ha & Hb & H'). exists a', b'. split; [exact Ha|]. split; [exact Hb|].
      econstructor; [constructor; exact K|exact H'].
    + destruct (peq_astep _ _ _ _ _ _ _ _ E2 ltac:(eassumption)) as (p2 & K & E).
      destruct (IH _ _ _ _ _ _ _ _ E1 E S2) as (a' & b' & Ha & Hb & H'). exists a', b'. split; [exact Ha|]. split; [exact Hb|].
      econstructor; [apply AbsB; exact K|exact H'].
Qed.
Lemma conv_peq {A A' B B'} (R : A -> A' -> Prop) (S : B -> B' -> Prop) p p1 q q1 a b : peq R p p1 -> peq S q q1 -> conv p q a b ->
  exists a' b', R a a' /\ S b b' /\ conv p1 q1 a' b'.
Proof. intros E1 E2 [n H]. destruct (peq_steps R S n _ _ _ _ _ _ _ _ E1 E2 H) as (a' & b' & Ha & Hb & H'). exists a', b'. repeat split; try assumption. exists n. exact H'. Qed.
Lemma wp_peq {A B} (R : A -> B -> Prop) p q : peq R p q -> forall d Q, wp p d Q -> wp q d (fun b d => exists a, R a b /\ Q a d).
Proof. induction 1; cbn [wp]; intros d Q W; eauto. destruct W as [W1 W2]. split; [exact W1|]. intros; auto. Qed.

(** * The programs on labels and those of M_Exch *)
Definition in_iv (i : ain) : list N := match i with InEnc _ _ _ iv _ => iv | InDec _ _ _ iv _ _ _ => iv end.
Definition in_len (i : ain) : nat := match i with InEnc ma _ _ _ _ => length ma | InDec c _ _ _ _ _ _ => length c end.
(** results without the garbled members *)
Definition sameP (x : gcst * party) (y : party) : Prop := snd x = y.
Definition same {X} (x : gcst * party * X) (y : party * X) : Prop := snd (fst x) = fst y /\ snd x = snd y.
(** the party's share bits, from the mask and the value *)
Definition half (alice : bool) (m v : list bool) : list bool := if alice then m else bxor m v.
Section G.
Variable ks enc : bristol.
Variable gfr : N -> N -> N.
Variable hash : list N -> list N.

Lemma new_peq alice key iv mh r ro ek H : computeKS ks key = Ok ek -> computeH enc ek = Ok H ->
  peq (rl sameP) (p_new ks enc gfr alice key iv mh r ro) (l_new gfr alice (half alice mh H) r ro).
Proof.
  intros K1 K2. unfold p_new, l_new, local. rewrite K1. cbn [bind]. rewrite K2. cbn [bind]. unfold half.
  destruct (integer_to_block _) as [h| |]; cbn [bind]; [|constructor; exact I..].
  unfold rbind. cbn [pbind].
  destruct alice; (eapply peq_bind; [apply peq_refl|]); intros o ? <-.
  - constructor. constructor. reflexivity.
  - constructor. intro bs. constructor. reflexivity.
Qed.
Lemma enc_peq alice g p len msg aad iv sec r w Zz Z n1 : key_material enc g iv (N.of_nat len) = Ok (Zz, Z, n1) ->
  w_z0 w = half alice (m_z0 r) Zz -> w_z w = half alice (m_z r) Z -> (sec = false -> w_open w = Z) ->
  peq (rl same) (p_encrypt enc gfr alice g p len msg aad iv sec r) (l_encrypt gfr alice p len msg aad sec w (m_ole r)).
Proof.
  intros K H0 Hz Ho. unfold p_encrypt, l_encrypt, own_material, local. rewrite K. cbn [bind]. rewrite H0. unfold half at 1.
  destruct (integer_to_block _) as [z0| |]; cbn [bind]; [|constructor; exact I..].
  rewrite !rbind_ok. cbv beta iota zeta. eapply (peq_rbind eq).
  - destruct sec; cbn [negb].
    + unfold own_z. rewrite Hz. apply peq_rrefl.
    + rewrite Ho by reflexivity. apply peq_rrefl.
  - intros [p1 c] ? <-. eapply (peq_rbind eq); [apply peq_rrefl|]. intros [p2 o] ? <-. 
    destruct alice; constructor; constructor; constructor; intro bs; constructor; split; reflexivity.
Qed.
Lemma dec_peq alice g p c t aad iv sec r rnd w Zz Z n1 : key_material enc g iv (N.of_nat (length c)) = Ok (Zz, Z, n1) ->
  w_z0 w = half alice (m_z0 r) Zz -> w_z w = half alice (m_z r) Z -> (sec = false -> w_open w = Z) ->
  peq (rl same) (p_decrypt enc gfr hash alice g p c t aad iv sec r rnd) (l_decrypt gfr hash alice p c t aad sec rnd w (m_ole r)).
Proof.
  intros K H0 Hz Ho. unfold p_decrypt, l_decrypt, own_material, local. rewrite K. cbn [bind]. rewrite H0. unfold half at 1.
  destruct (integer_to_block _) as [z0| |]; cbn [bind]; [|constructor; exact I..].
  rewrite !rbind_ok. cbv beta iota zeta. eapply (peq_rbind eq).
  - destruct sec; cbn [negb].
    + unfold own_z. rewrite Hz. apply peq_rrefl.
    + rewrite Ho by reflexivity. apply peq_rrefl.
  - intros [p1 m] ? <-. eapply (peq_rbind eq); [apply peq_rrefl|]. intros [p2 o] ? <-. 
    destruct alice; constructor; constructor; constructor; intro bs; do 3 constructor; constructor; intro b2; constructor; intro b3;
      constructor; split; reflexivity.
Qed.
Lemma op_peq alice g p i r w Zz Z n1 : key_material enc g (in_iv i) (N.of_nat (in_len i)) = Ok (Zz, Z, n1) ->
  w_z0 w = half alice (m_z0 r) Zz -> w_z w = half alice (m_z r) Z -> (in_sec i = false -> w_open w = Z) ->
  peq (rl same) (p_op enc gfr hash alice g p (with_rand i r)) (l_op gfr hash alice p i w (m_ole r)).
Proof.
  intros K H0 Hz Ho.
  destruct i as [ma mb aad iv sec|c t aad iv sec ra rb]; cbn [in_iv in_len in_sec with_rand p_op l_op] in *.
  - eapply peq_rbind; [eapply enc_peq; eassumption|]. intros [[g1 p1] o] [p2 o2] [E1 E2]. cbn [fst snd] in E1, E2. subst. constructor. split; reflexivity.
  - eapply peq_rbind; [eapply dec_peq; eassumption|]. intros [[g1 p1] o] [p2 o2] [E1 E2]. cbn [fst snd] in E1, E2. subst. constructor. split; reflexivity.
Qed.
End G.

(** * Calls on the two objects *)
Definition no_rand : call_rand := {| m_z0 := []; m_z := []; m_ole := {| raw0 := []; raw1 := [] |} |}.
Section K.
Variable gfr : N -> N -> N.
Hypothesis GFR : gfr_ok gfr.
Variable hash : list N -> list N.
Hypothesis HL : forall l, length (hash l) = DIGEST_SIZE.
Variables kc ksv fc fs : list N.
Hypothesis KC : key_ok kc.
Hypothesis KS : key_ok ksv.
Hypothesis IC : iv_ok fc.
Hypothesis IS : iv_ok fs.

Definition okey (o : lcall) : list N := if lc_srv o then ksv else kc.
Definition ofiv (o : lcall) : list N := if lc_srv o then fs else fc.
(** the arguments of a call and the OT strings are well formed *)
Definition lcall_wf (o : lcall) : Prop :=
  match lc_in o with
  | InEnc ma mb aad iv sec => bytes_ok ma /\ bytes_ok aad /\ length iv = 8%nat /\ bytes_ok iv /\ (sec = false -> mb = ma) /\
      ole_rand_ok (lc_ole o) (nblocks aad ma) /\ ole_blk (lc_ole o)
  | InDec c t aad iv sec ra rb => bytes_ok c /\ bytes_ok aad /\ length iv = 8%nat /\ bytes_ok iv /\
      ole_rand_ok (lc_ole o) (nblocks aad c) /\ ole_blk (lc_ole o) /\ length ra = rand_length /\ length rb = rand_length
  end.
(** what the two parties have for a call: shares of E(J0) and of the key stream, or the key stream *)
Definition fits (o : lcall) (wa wb : own) : Prop :=
  let i := lc_in o in
  let Z := str_to_int (gcm_ctext (aesE (okey o)) (ofiv o ++ in_iv i) (repeat 0 (in_len i))) in
  length (w_z0 wa) = 128%nat /\ length (w_z wa) = (8 * in_len i)%nat /\
  w_z0 wb = bxor (w_z0 wa) (bits_of_N 128 (aesE (okey o) (j0_of (ofiv o ++ in_iv i)))) /\
  w_z wb = bxor (w_z wa) Z /\ (in_sec i = false -> w_open wa = Z /\ w_open wb = Z).
Definition lspec (o : lcall) : aout := aop_spec (aesE (okey o)) (ofiv o) (with_rand (lc_in o) no_rand).
Definition rnd_of (o : lcall) (wa : own) : call_rand := {| m_z0 := w_z0 wa; m_z := w_z wa; m_ole := lc_ole o |}.

Lemma spec_rand E f i r : aop_spec E f (with_rand i r) = aop_spec E f (with_rand i no_rand).
Proof. destruct i; reflexivity. Qed.
Lemma rnd_wf o wa wb : lcall_wf o -> fits o wa wb -> aop_wf (with_rand (lc_in o) (rnd_of o wa)) /\ aop_blk (with_rand (lc_in o) (rnd_of o wa)).
Proof.
  unfold lcall_wf, fits. intros W (L0 & Lz & _). destruct (lc_in o); cbn [with_rand aop_wf aop_blk in_len] in *;
    unfold rand_ok; cbn [m_z0 m_z m_ole rnd_of]; intuition.
Qed.
Lemma okey_ok o : key_ok (okey o).
Proof. unfold okey. destruct (lc_srv o); assumption. Qed.
Lemma ofiv_ok o : iv_ok (ofiv o).
Proof. unfold ofiv. destruct (lc_srv o); assumption. Qed.
Lemma wf_iv o : lcall_wf o -> length (in_iv (lc_in o)) = 8%nat /\ bytes_ok (in_iv (lc_in o)).
Proof. unfold lcall_wf. destruct (lc_in o); cbn [in_iv]; intuition. Qed.
Lemma lop_peq alice g p o wa wb : lcall_wf o -> fits o wa wb -> g_key g = EK (okey o) -> g_fixed g = str_to_int (ofiv o) ->
  peq (rl same) (p_op aes_enc_file gfr hash alice g p (with_rand (lc_in o) (rnd_of o wa)))
    (l_op gfr hash alice p (lc_in o) (if alice then wa else wb) (lc_ole o)).
Proof.
  intros W (_ & _ & F0 & Fz & Fo) G1 G2. destruct (wf_iv o W) as [L8 B8].
  destruct (material_files (okey o) (ofiv o) g (in_iv (lc_in o)) (in_len (lc_in o)) (okey_ok o) (ofiv_ok o) L8 B8 G1 G2) as (n1 & E).
  change (lc_ole o) with (m_ole (rnd_of o wa)).
  eapply op_peq; [exact E|destruct alice; [reflexivity|exact F0]|destruct alice; [reflexivity|exact Fz]|].
  intro S. destruct (Fo S). destruct alice; assumption.
Qed.
Lemma conv_lop hist s o wa wb : aead_inv (EK (okey o)) (aesE (okey o)) (ofiv o) hist s -> lcall_wf o -> fits o wa wb ->
  exists s', aead_inv (EK (okey o)) (aesE (okey o)) (ofiv o) (hist ++ [aop_call (with_rand (lc_in o) (rnd_of o wa))]) s' /\
  conv (l_op gfr hash true (st_a s) (lc_in o) wa (lc_ole o)) (l_op gfr hash false (st_b s) (lc_in o) wb (lc_ole o))
    (Ok (st_a s', out_alice (lspec o))) (Ok (st_b s', out_bob (lspec o))).
Proof.
  intros I W F. destruct (rnd_wf o wa wb W F) as [W1 B1]. destruct (okey_ok o) as [K1 K2]. destruct (ofiv_ok o) as [V1 V2].
  destruct (conv_op aes_enc_file gfr GFR hash HL (EK (okey o)) (aesE (okey o)) (files_cipher_ok _ K1 K2) (ofiv o) V1 V2 hist s _ I W1 B1)
    as (s' & I' & C). exists s'. split; [exact I'|].
  destruct (conv_peq _ _ _ _ _ _ _ _ (lop_peq true _ _ o wa wb W F (i_key _ _ _ _ _ I) (i_fixed _ _ _ _ _ I))
    (lop_peq false _ _ o wa wb W F (i_key _ _ _ _ _ I) (i_fixed _ _ _ _ _ I)) C) as (x & y & Hx & Hy & C').
  rewrite spec_rand in Hx, Hy. fold (lspec o) in Hx, Hy.
  destruct x as [[pa xa]| |]; cbn [rl same fst snd] in Hx; try contradiction. destruct y as [[pb xb]| |]; cbn [rl same fst snd] in Hy; try contradiction.
  destruct Hx as [E1 E2]. destruct Hy as [E3 E4]. cbn [fst snd] in E1, E2, E3, E4. rewrite <- E1, <- E2, <- E3, <- E4 in C'. exact C'.
Qed.
Lemma conv_lcalls : forall l wa wb hc hs c s, aead_inv (EK kc) (aesE kc) fc hc c -> aead_inv (EK ksv) (aesE ksv) fs hs s ->
  Forall lcall_wf l -> Forall2 (fun o w => fits o (fst w) (snd w)) l (combine wa wb) -> length wa = length l -> length wb = length l ->
  conv (l_calls gfr hash true (st_a c) (st_a s) (combine l wa)) (l_calls gfr hash false (st_b c) (st_b s) (combine l wb))
    (Ok (map (fun o => out_alice (lspec o)) l)) (Ok (map (fun o => out_bob (lspec o)) l)).
Proof.
  induction l as [|o l IH]; intros wa wb hc hs c s Ic Is W F La Lb.
  - apply conv_ret.
  - destruct wa as [|a wa]; [discriminate|]. destruct wb as [|b wb]; [discriminate|].
    inversion W as [|? ? Wo Wl]; subst. inversion F as [|? ? ? ? Fo Fl]; subst. cbn [fst snd] in Fo. cbn [length] in La, Lb.
    cbn [combine l_calls map].
    destruct (lc_srv o) eqn:Es.
    + destruct (conv_lop hs s o a b) as (s' & I' & C); [unfold okey, ofiv; rewrite Es; exact Is|assumption|assumption|].
      unfold okey, ofiv in I'. rewrite Es in I'.
      eapply conv_rbind; [exact C|]. cbv beta iota. eapply conv_rbind; [eapply IH; try eassumption; lia|]. apply conv_ret.
    + destruct (conv_lop hc c o a b) as (s' & I' & C); [unfold okey, ofiv; rewrite Es; exact Ic|assumption|assumption|].
      unfold okey, ofiv in I'. rewrite Es in I'.
      eapply conv_rbind; [exact C|]. cbv beta iota. eapply conv_rbind; [eapply IH; try eassumption; lia|]. apply conv_ret.
Qed.
(** flush discipline *)
Definition pick (alice : bool) (w : own * own) : own := if alice then fst w else snd w.
Lemma wp_lop alice p o wa wb d : lcall_wf o -> fits o wa wb -> p_mul_hs p <> [] -> snd d = false ->
  wp (l_op gfr hash alice p (lc_in o) (if alice then wa else wb) (lc_ole o)) d
    (fun r d => d = (false, false) /\ exists p x, r = Ok (p, x) /\ p_mul_hs p <> []).
Proof.
  intros W F NN D. destruct (rnd_wf o wa wb W F) as [W1 B1]. destruct (okey_ok o) as [K1 K2]. destruct (ofiv_ok o) as [V1 V2].
  set (g := {| g_key := EK (okey o); g_nonce := []; g_fixed := str_to_int (ofiv o) |}).
  pose proof (wp_op aes_enc_file gfr hash (EK (okey o)) (aesE (okey o)) (files_cipher_ok _ K1 K2) (ofiv o) V1 V2 alice g p _ d W1
    (conj eq_refl eq_refl) NN D) as X.
  eapply wp_mono; [|eapply wp_peq; [apply (lop_peq alice g p o wa wb W F eq_refl eq_refl)|exact X]].
  intros r d' (x & R & (-> & g1 & p1 & y & -> & _ & N1)). split; [reflexivity|].
  destruct r as [[p2 y2]| |]; cbn [rl same fst snd] in R; try contradiction. destruct R as [R1 R2]. cbn [fst snd] in R1, R2. subst p2 y2. exists p1, y. split; [reflexivity|exact N1].
Qed.
Lemma wp_lcalls alice : forall l ws c s d, Forall lcall_wf l -> Forall2 (fun o w => fits o (fst w) (snd w)) l ws ->
  p_mul_hs c <> [] -> p_mul_hs s <> [] -> snd d = false -> (l = [] -> d = (false, false)) ->
  wp (l_calls gfr hash alice c s (combine l (map (pick alice) ws))) d clean.
Proof.
  induction l as [|o l IH]; intros ws c s d W F Nc Ns D D0.
  - cbn. now apply D0.
  - inversion W as [|? ? Wo Wl]; subst. inversion F as [|? w ? ws' Fo Fl]; subst. cbn [map combine l_calls].
    apply wp_rbind. eapply wp_mono; [|apply (wp_lop alice _ o (fst w) (snd w)); try eassumption; destruct (lc_srv o); assumption].
    intros r d' (-> & p & x & -> & Np). apply wp_rbind. eapply wp_mono; [|apply IH; try assumption; try reflexivity; destruct (lc_srv o); assumption].
    intros [xs| |] d2 ->; reflexivity.
Qed.
Lemma wp_lnew alice key fiv mh r ro d : key_ok key -> iv_ok fiv -> length mh = 128%nat -> snd d = false ->
  wp (l_new gfr alice (half alice mh (bits_of_N 128 (aesE key 0))) r ro) d
    (fun r d => snd d = false /\ exists p, r = Ok p /\ p_mul_hs p <> []).
Proof.
  intros [K1 K2] [V1 V2] L D. unfold l_new, local.
  destruct (itb_share mh _ L (bits_of_N_length 128 (aesE key 0))) as (ha & hb & Ea & Eb & _). unfold half.
  destruct alice; [rewrite Ea|rewrite Eb]; rewrite rbind_ok; cbv beta iota zeta; apply wp_bind.
  - apply wp_bind, wp_send_blocks. intros d' E'. cbn in E'. cbn [wp fset fst snd].
    split; [congruence|]. eexists. split; [reflexivity|discriminate].
  - apply wp_bind, wp_recv_rows; [exact D|]. intros l d' _ E'. cbn [wp]. split; [exact E'|]. intros bs _.
    split; [destruct d'; exact E'|]. eexists. split; [reflexivity|discriminate].
Qed.
Lemma conv_lnew key fiv mh r ro : key_ok key -> iv_ok fiv -> length mh = 128%nat -> blk r -> r <> 0 -> ole_rand_ok ro 1 -> ole_blk ro ->
  exists s, aead_inv (EK key) (aesE key) fiv [] s /\
  conv (l_new gfr true mh r ro) (l_new gfr false (bxor mh (bits_of_N 128 (aesE key 0))) r ro) (Ok (st_a s)) (Ok (st_b s)).
Proof.
  intros [K1 K2] [V1 V2] L R R0 RO B.
  destruct (conv_new aes_ks_file aes_enc_file gfr GFR (EK key) (aesE key) (files_cipher_ok _ K1 K2) fiv (str_to_int key) mh r ro
    (files_ks key K1 K2) L R R0 RO B) as (s & I & C). exists s. split; [exact I|].
  assert (H : computeH aes_enc_file (EK key) = Ok (bits_of_N 128 (aesE key 0))).
  { unfold computeH, int_of. exact (proj1 (files_cipher_ok key K1 K2) 0). }
  destruct (conv_peq _ _ _ _ _ _ _ _ (new_peq aes_ks_file aes_enc_file gfr true _ _ mh r ro _ _ (files_ks key K1 K2) H)
    (new_peq aes_ks_file aes_enc_file gfr false _ _ mh r ro _ _ (files_ks key K1 K2) H) C) as (x & y & Hx & Hy & C').
  destruct x as [pa| |]; cbn [rl] in Hx; try contradiction. destruct y as [pb| |]; cbn [rl] in Hy; try contradiction.
  unfold sameP in Hx, Hy. cbn [snd] in Hx, Hy. rewrite <- Hx, <- Hy in C'. exact C'.
Qed.
End K.
