(** What the record programs on labels send, and when two sessions look the same to a party. *)
From Coq Require Import List NArith ZArith Bool Arith Lia.
From Verif Require Import L_Bits L_Res L_Xor S_Sched S_View S_Codec S_Aes S_Gcm.
From Verif Require S_Netlist S_Lower P_AesNet.
From Verif Require Import M_EmpInteger M_Utils M_Bristol M_Block M_Ole2k M_Shares M_Commit M_Aead M_Exch M_View M_Sym M_LabRec M_LabView.
From Verif Require Import D_AesKs D_AesEnc P_Utils P_Gf128 P_Shares P_Ole2k P_Gcm P_Aead P_AeadInst P_Sched P_Exch P_ExchAead P_ExchSess.
From Verif Require Import P_Sha256Opt P_Handshake P_Session2 P_Sym P_SymGcm P_View P_ViewAead P_ViewPriv P_ViewBob P_LabRec P_LabSess.
Import ListNotations.
Local Open Scope N_scope.
Local Opaque mulBlock gf_mul invBlock computeKS computeAES_KS bytes_of_block block_of_bytes key_material block_to_bool
  aes_ks_file aes_enc_file aesE EK str_to_int gcm_ctext.

(** * Programs that talk alike are seen alike *)
Lemma logged_peq {A B} (R : A -> B -> Prop) : forall p q, P_LabRec.peq R p q -> forall l,
  P_LabRec.peq (fun x y => R (fst x) (fst y) /\ snd x = snd y) (logged p l) (logged q l).
Proof. induction 1; intro l; cbn [logged]; constructor; auto. Qed.
Lemma lconv_peq {A A' B B'} (R : A -> A' -> Prop) (S : B -> B' -> Prop) p p1 q q1 a b a' b' s t :
  P_LabRec.peq R p p1 -> P_LabRec.peq S q q1 -> (forall x, R a x -> x = a') -> (forall x, S b x -> x = b') ->
  lconv p q a b s t -> lconv p1 q1 a' b' s t.
Proof.
  intros E1 E2 Ha Hb C la lb.
  destruct (conv_peq _ _ _ _ _ _ _ _ (logged_peq R _ _ E1 la) (logged_peq S _ _ E2 lb) (C la lb)) as ([x x2] & [y y2] & (Hx & Ex) & (Hy & Ey) & K).
  cbn [fst snd] in Hx, Ex, Hy, Ey. subst x2 y2. rewrite (Ha _ Hx), (Hb _ Hy) in K. exact K.
Qed.

(** * The calls on the two objects *)
Section K.
Variable gfr : N -> N -> N.
Hypothesis GFR : gfr_ok gfr.
Variable hash : list N -> list N.
Hypothesis HL : forall l, length (hash l) = DIGEST_SIZE.
Variables kc ksv fc fs : list N.
Hypothesis KC : key_ok kc.
Hypothesis KS : key_ok ksv.
Hypothesis IC : iv_ok fc.
Hypothesis IS : iv_ok fs.
Notation okey := (okey kc ksv).
Notation ofiv := (ofiv fc fs).
Notation fits := (fits kc ksv fc fs).
Notation lspec := (lspec kc ksv fc fs).
Definition oE (o : lcall) : N -> N := aesE (okey o).
Definition wr (o : lcall) (w : own) : aop := with_rand (lc_in o) (rnd_of o w).

Lemma cip o : cipher_ok aes_enc_file (EK (okey o)) (oE o).
Proof. destruct (okey_ok kc ksv KC KS o) as [K1 K2]. exact (files_cipher_ok _ K1 K2). Qed.
Lemma lconv_lop ha hb ka kb a b o wa wb : blk ha -> blk hb -> gf_mul ha hb = oE o 0 -> lcall_wf o -> fits o wa wb ->
  p_mul_hs a = pows ha (S ka) -> p_mul_hs b = pows hb (S kb) ->
  let x := wr o wa in let n := length (op_ins (oE o) (ofiv o) x) in
  lconv (l_op gfr hash true a (lc_in o) wa (lc_ole o)) (l_op gfr hash false b (lc_in o) wb (lc_ole o))
    (Ok (upd a (pows ha (Nat.max (S ka) n)) (op_z0a x) (op_sec x) (op_za x) (op_ks (oE o) (ofiv o) x), out_alice (lspec o)))
    (Ok (upd b (pows hb (Nat.max (S kb) n)) (op_z0b (oE o) (ofiv o) x) (op_sec x) (op_zb (oE o) (ofiv o) x) (op_ks (oE o) (ofiv o) x), out_bob (lspec o)))
    (op_A gfr hash (oE o) (ofiv o) ha x) (op_B gfr hash (oE o) (ofiv o) ha hb x).
Proof.
  intros Ba Bb Hh W F Ea Eb x n. destruct (rnd_wf kc ksv fc fs o wa wb W F) as [W1 B1].
  destruct (ofiv_ok fc fs IC IS o) as [V1 V2].
  set (g := {| g_key := EK (okey o); g_nonce := []; g_fixed := str_to_int (ofiv o) |}).
  destruct (lconv_op aes_enc_file gfr GFR hash HL (EK (okey o)) (oE o) (cip o) (ofiv o) V1 V2 ha hb ka kb g a b (wr o wa) Ba Bb Hh
    (conj eq_refl eq_refl) W1 B1 Ea Eb) as (_ & _ & _ & g' & _ & C).
  eapply lconv_peq; [apply (lop_peq gfr hash kc ksv fc fs KC KS IC IS true g a o wa wb W F eq_refl eq_refl)|
    apply (lop_peq gfr hash kc ksv fc fs KC KS IC IS false g b o wa wb W F eq_refl eq_refl)| | |exact C].
  - intros [[p y]| |] H; cbn [rl] in H; try contradiction. destruct H as [H1 H2]. cbn [fst snd] in H1, H2. subst p y.
    unfold wr. now rewrite spec_rand.
  - intros [[p y]| |] H; cbn [rl] in H; try contradiction. destruct H as [H1 H2]. cbn [fst snd] in H1, H2. subst p y.
    unfold wr. now rewrite spec_rand.
Qed.
Lemma lconv_lnew key fiv mh r ro : key_ok key -> iv_ok fiv -> length mh = 128%nat -> blk r -> r <> 0 -> ole_rand_ok ro 1 -> ole_blk ro ->
  lconv (l_new gfr true mh r ro) (l_new gfr false (bxor mh (bits_of_N 128 (aesE key 0))) r ro)
    (Ok (fresh (new_ha mh) (invBlock r))) (Ok (fresh (new_hb (aesE key) mh) (gf_mul r (aesE key 0)))) (new_A gfr mh r ro) nobufs.
Proof.
  intros [K1 K2] [V1 V2] L R R0 RO B.
  destruct (lconv_new aes_ks_file aes_enc_file gfr GFR (EK key) (aesE key) (files_cipher_ok _ K1 K2) fiv (str_to_int key) mh r ro
    (files_ks key K1 K2) L R R0 RO B) as (_ & _ & _ & _ & g & _ & C).
  assert (H : computeH aes_enc_file (EK key) = Ok (bits_of_N 128 (aesE key 0))).
  { unfold computeH, int_of. exact (proj1 (files_cipher_ok key K1 K2) 0). }
  eapply lconv_peq; [apply (new_peq aes_ks_file aes_enc_file gfr true (str_to_int key) (str_to_int fiv) mh r ro _ _ (files_ks key K1 K2) H)|
    apply (new_peq aes_ks_file aes_enc_file gfr false (str_to_int key) (str_to_int fiv) mh r ro _ _ (files_ks key K1 K2) H)| | |exact C].
  - intros [p| |] E; cbn [rl] in E; try contradiction. unfold sameP in E. cbn [snd] in E. now rewrite E.
  - intros [p| |] E; cbn [rl] in E; try contradiction. unfold sameP in E. cbn [snd] in E. now rewrite E.
Qed.

(** the objects after the calls *)
Definition step2 (h : N) (z0 : N) (z : list N) (o : lcall) (x : aop) (cs : party * party) : party * party :=
  let p := if lc_srv o then snd cs else fst cs in
  let p := upd p (pows h (Nat.max (length (p_mul_hs p)) (length (op_ins (oE o) (ofiv o) x)))) z0 (op_sec x) z (op_ks (oE o) (ofiv o) x) in
  if lc_srv o then (fst cs, p) else (p, snd cs).
Definition hsel (hc hs : N) (o : lcall) : N := if lc_srv o then hs else hc.
Fixpoint fin_a (hc hs : N) (cs : party * party) (l : list (lcall * own)) : party * party :=
  match l with
  | [] => cs
  | (o, w) :: l => fin_a hc hs (step2 (hsel hc hs o) (op_z0a (wr o w)) (op_za (wr o w)) o (wr o w) cs) l
  end.
Fixpoint fin_b (hc hs : N) (cs : party * party) (l : list (lcall * own)) : party * party :=
  match l with
  | [] => cs
  | (o, w) :: l => fin_b hc hs (step2 (hsel hc hs o) (op_z0b (oE o) (ofiv o) (wr o w)) (op_zb (oE o) (ofiv o) (wr o w)) o (wr o w) cs) l
  end.
(** what ALICE and BOB send in the calls *)
Definition calls_A (ac asv : N) (l : list (lcall * own)) : bufs :=
  fold_right (fun x b => more_in (op_A gfr hash (oE (fst x)) (ofiv (fst x)) (hsel ac asv (fst x)) (wr (fst x) (snd x))) b) nobufs l.
Definition calls_B (ac asv bc bsv : N) (l : list (lcall * own)) : bufs :=
  fold_right (fun x b => more_in (op_B gfr hash (oE (fst x)) (ofiv (fst x)) (hsel ac asv (fst x)) (hsel bc bsv (fst x)) (wr (fst x) (snd x))) b) nobufs l.

Lemma max_S k n : exists k', Nat.max (S k) n = S k'.
Proof. exists (Nat.max (S k) n - 1)%nat. lia. Qed.
Lemma lconv_lcalls ac asv bc bsv : blk ac -> blk asv -> blk bc -> blk bsv -> gf_mul ac bc = aesE kc 0 -> gf_mul asv bsv = aesE ksv 0 ->
  forall l wa wb ka kb ja jb ca sa cb sb, Forall lcall_wf l -> Forall2 (fun o w => fits o (fst w) (snd w)) l (combine wa wb) ->
  length wa = length l -> length wb = length l ->
  p_mul_hs ca = pows ac (S ka) -> p_mul_hs cb = pows bc (S kb) -> p_mul_hs sa = pows asv (S ja) -> p_mul_hs sb = pows bsv (S jb) ->
  lconv (l_calls_st gfr hash true ca sa (combine l wa)) (l_calls_st gfr hash false cb sb (combine l wb))
    (Ok (fin_a ac asv (ca, sa) (combine l wa), map (fun o => out_alice (lspec o)) l))
    (Ok (fin_b bc bsv (cb, sb) (combine l wa), map (fun o => out_bob (lspec o)) l))
    (calls_A ac asv (combine l wa)) (calls_B ac asv bc bsv (combine l wa)).
Proof.
  intros Ba1 Ba2 Bb1 Bb2 H1 H2. induction l as [|o l IH]; intros wa wb ka kb ja jb ca sa cb sb W F La Lb Ec Eb Es Et.
  - apply lconv_ret.
  - destruct wa as [|a wa]; [discriminate|]. destruct wb as [|b wb]; [discriminate|].
    inversion W as [|? ? Wo Wl]; subst. inversion F as [|? ? ? ? Fo Fl]; subst. cbn [fst snd] in Fo. cbn [length] in La, Lb.
    cbn [combine l_calls_st map fin_a fin_b calls_A calls_B fold_right fst snd]. fold (calls_A ac asv (combine l wa)) (calls_B ac asv bc bsv (combine l wa)).
    set (n := length (op_ins (oE o) (ofiv o) (wr o a))).
    rewrite <- (more_nil (calls_A ac asv (combine l wa))), <- (more_nil (calls_B ac asv bc bsv (combine l wa))).
    unfold step2, hsel. cbn [fst snd]. destruct (lc_srv o) eqn:SV.
    + assert (Hh : gf_mul asv bsv = oE o 0) by (unfold oE, okey, P_LabRec.okey; rewrite SV; exact H2).
      pose proof (lconv_lop asv bsv ja jb sa sb o a b Ba2 Bb2 Hh Wo Fo Es Et) as C. cbv zeta in C. fold n in C.
      destruct (max_S ja n) as [ja' Ja]. destruct (max_S jb n) as [jb' Jb]. rewrite Ja, Jb in C.
      rewrite Es, Et, !pows_length. fold n. rewrite Ja, Jb.
      eapply lconv_rbind; [exact C|]. cbv beta iota. eapply lconv_rbind; [eapply (IH wa wb ka kb ja' jb'); try assumption; try lia; apply upd_hs|].
      cbv beta iota. destruct (fin_a _ _ _ _), (fin_b _ _ _ _). apply lconv_ret.
    + assert (Hh : gf_mul ac bc = oE o 0) by (unfold oE, okey, P_LabRec.okey; rewrite SV; exact H1).
      pose proof (lconv_lop ac bc ka kb ca cb o a b Ba1 Bb1 Hh Wo Fo Ec Eb) as C. cbv zeta in C. fold n in C.
      destruct (max_S ka n) as [ka' Ja]. destruct (max_S kb n) as [kb' Jb]. rewrite Ja, Jb in C.
      rewrite Ec, Eb, !pows_length. fold n. rewrite Ja, Jb.
      eapply lconv_rbind; [exact C|]. cbv beta iota. eapply lconv_rbind; [eapply (IH wa wb ka' kb' ja jb); try assumption; try lia; apply upd_hs|].
      cbv beta iota. destruct (fin_a _ _ _ _), (fin_b _ _ _ _). apply lconv_ret.
Qed.
Lemma wp_lcalls_st alice : forall l ws c s d, Forall lcall_wf l -> Forall2 (fun o w => fits o (fst w) (snd w)) l ws ->
  p_mul_hs c <> [] -> p_mul_hs s <> [] -> snd d = false -> (l = [] -> d = (false, false)) ->
  wp (l_calls_st gfr hash alice c s (combine l (map (pick alice) ws))) d clean.
Proof.
  induction l as [|o l IH]; intros ws c s d W F Nc Ns D D0.
  - cbn. now apply D0.
  - inversion W as [|? ? Wo Wl]; subst. inversion F as [|? w ? ws' Fo Fl]; subst. cbn [map combine l_calls_st].
    apply wp_rbind. eapply wp_mono; [|apply (wp_lop gfr hash kc ksv fc fs KC KS IC IS alice _ o (fst w) (snd w)); try eassumption; destruct (lc_srv o); assumption].
    intros r d' (-> & p & x & -> & Np). apply wp_rbind. eapply wp_mono; [|apply IH; try assumption; try reflexivity; destruct (lc_srv o); assumption].
    intros [[[c1 s1] xs]| |] d2 ->; reflexivity.
Qed.
End K.
