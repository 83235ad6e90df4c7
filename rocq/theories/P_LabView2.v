(** Two runs of the record programs on labels that BOB, or ALICE, cannot tell apart. *)
From Coq Require Import List NArith ZArith Bool Arith Lia.
From Verif Require Import L_Bits L_Res L_Xor S_Sched S_View S_Codec S_Aes S_Gcm S_Sha256.
From Verif Require S_Netlist S_Lower P_AesNet.
From Verif Require Import M_EmpInteger M_Utils M_Bristol M_Block M_Ole2k M_Shares M_Commit M_Aead M_Exch M_View M_Sym M_LabRec M_LabView.
From Verif Require Import D_AesKs D_AesEnc P_Utils P_Gf128 P_Shares P_Ole2k P_Gcm P_Aead P_AeadInst P_Sched P_Exch P_ExchAead P_ExchSess.
From Verif Require Import P_Sha256Opt P_Handshake P_Session2 P_Sym P_SymTls P_SymGcm P_Labels P_View P_ViewAead P_ViewPriv P_ViewBob P_LabRec P_LabSess P_LabView.
Import ListNotations.
Local Open Scope N_scope.
Local Opaque mulBlock gf_mul invBlock computeKS computeAES_KS bytes_of_block block_of_bytes key_material block_to_bool
  aes_ks_file aes_enc_file aesE EK str_to_int gcm_ctext.

(** * Bits *)
Lemma bxor_change : forall a a' x x', length a = length x -> length a' = length x' -> length a = length a' ->
  bxor a' x' = bxor a x -> a' = bxor a (bxor x x').
Proof.
  intros a a' x x' L1 L2 L3 H. rewrite <- bxor_assoc, <- H. symmetry. apply bxor_cancel. exact L2.
Qed.
Lemma bits_be_xor : forall a b, length a = length b -> bxor (bits_of_bytes a) (bits_of_bytes b) = bits_of_bytes (xor_arr a b).
Proof.
  unfold bits_of_bytes, xor_arr. induction a as [|x a IH]; intros [|y b] L; try discriminate; [reflexivity|].
  cbn [flat_map map2]. unfold bxor. rewrite map2_app by (unfold bits_of_byte, be_of_N; now rewrite !rev_length, !bits_of_N_length).
  f_equal; [|apply IH; cbn in L; congruence]. unfold bits_of_byte, be_of_N. rewrite bits_of_N_lxor. unfold bxor.
  generalize (bits_of_N_length 8 x) (bits_of_N_length 8 y). generalize (bits_of_N 8 x) (bits_of_N 8 y). clear. intros a b La Lb.
  assert (E : length a = length b) by congruence. clear -E. revert b E.
  induction a as [|x a IH]; intros [|y b] E; try discriminate; [reflexivity|]. cbn [rev map2]. rewrite map2_app by (rewrite !rev_length; cbn in E; congruence).
  rewrite IH by (cbn in E; congruence). reflexivity.
Qed.
Lemma str_ibits l : str_to_int l = ibits l.
Proof. rewrite <- (rev_involutive (str_to_int l)), str_to_int_bits. reflexivity. Qed.
Lemma ibits_xor a b : length a = length b -> bxor (str_to_int a) (str_to_int b) = ibits (xor_arr a b).
Proof.
  intro L. rewrite !str_ibits. unfold ibits.
  change (flat_map (fun b => rev (bits_of_N 8 b))) with bits_of_bytes. rewrite <- (bits_be_xor a b L).
  assert (E : length (bits_of_bytes a) = length (bits_of_bytes b)).
  { unfold bits_of_bytes. rewrite !(flat_map_length_const _ 8) by (intro; unfold bits_of_byte, be_of_N; now rewrite rev_length, bits_of_N_length). congruence. }
  revert E. generalize (bits_of_bytes a) (bits_of_bytes b). clear. unfold bxor.
  induction l as [|x a IH]; intros [|y b] E; try discriminate; [reflexivity|]. cbn [rev map2]. rewrite map2_app by (rewrite !rev_length; cbn in E; congruence).
  rewrite IH by (cbn in E; congruence). reflexivity.
Qed.

(** * The random values *)
Definition rrand_ok (cs : list (bool * ain)) (v : rrand) : Prop :=
  blk (rr_c v) /\ rr_c v <> 0 /\ ole_rand_ok (rr_oc v) 1 /\ ole_blk (rr_oc v) /\
  blk (rr_s v) /\ rr_s v <> 0 /\ ole_rand_ok (rr_os v) 1 /\ ole_blk (rr_os v) /\
  Forall2 (fun c o => ole_rand_ok o (nblocks (in_aad (snd c)) (in_data (snd c))) /\ ole_blk o) cs (rr_calls v).
Lemma wf_of o : lcall_wf o <-> ain_ok (lc_in o) /\ ole_rand_ok (lc_ole o) (nblocks (in_aad (lc_in o)) (in_data (lc_in o))) /\ ole_blk (lc_ole o).
Proof. unfold lcall_wf. destruct (lc_in o); cbn [ain_ok in_aad in_data]; intuition. Qed.
Lemma lcalls_wf : forall cs os, Forall (fun c => ain_ok (snd c)) cs ->
  Forall2 (fun c o => ole_rand_ok o (nblocks (in_aad (snd c)) (in_data (snd c))) /\ ole_blk o) cs os ->
  Forall lcall_wf (lcalls cs os) /\ length (lcalls cs os) = length cs.
Proof.
  intros cs os A F. induction F as [|c o cs os H F IH]; [split; [constructor|reflexivity]|]. inversion A; subst.
  destruct (IH ltac:(assumption)) as [I1 I2]. unfold lcalls in *. cbn [map2 length]. split; [constructor; [|exact I1]|now f_equal].
  apply wf_of. cbn [lc_in lc_ole]. auto.
Qed.

Section V.
Variable gfr : N -> N -> N.
Hypothesis GFR : gfr_ok gfr.
Variable hash : list N -> list N.
Hypothesis HL : forall l, length (hash l) = DIGEST_SIZE.

(** * The messages of a session *)
Section L.
Variables kc ksv fc fs : list N.
Hypothesis KC : key_ok kc.
Hypothesis KS : key_ok ksv.
Hypothesis IC : iv_ok fc.
Hypothesis IS : iv_ok fs.
Definition opd_of (l : list lcall) : list (list bool) :=
  flat_map (fun c => if ga_sec c then [] else [str_to_int (gc_ks (aesE kc) (aesE ksv) fc fs c)]) (map gcall_of l).
Theorem labels_views s A B hc hs wl oa ob cs v :
  Forall (splits s A B) (hc :: hs :: wl) ->
  let l := lcalls cs (rr_calls v) in
  map (ev s) (hc :: hs :: wl) = bits_of_N 128 (aesE kc 0) :: bits_of_N 128 (aesE ksv 0) :: flat_map (gc_sh (aesE kc) (aesE ksv) fc fs) (map gcall_of l) ->
  let opd := opd_of l in
  skipn (length oa - length opd) oa = opd -> skipn (length ob - length opd) ob = opd ->
  cs <> [] -> Forall (fun c => ain_ok (snd c)) cs -> rrand_ok cs v ->
  let ac := invBlock (rr_c v) in let asv := invBlock (rr_s v) in
  let bc := gf_mul (rr_c v) (aesE kc 0) in let bsv := gf_mul (rr_s v) (aesE ksv 0) in
  let mc := low_bits A hc in let msv := low_bits A hs in
  let wa := owns A l wl opd in let wb := owns B l wl opd in
  length mc = 128%nat /\ length msv = 128%nat /\ low_bits B hc = bxor mc (bits_of_N 128 (aesE kc 0)) /\ low_bits B hs = bxor msv (bits_of_N 128 (aesE ksv 0)) /\
  Forall lcall_wf l /\ Forall2 (fun o w => fits kc ksv fc fs o (fst w) (snd w)) l (combine wa wb) /\ length wa = length l /\ length wb = length l /\
  runs_with_views (l_run gfr hash true A oa (hc :: hs :: wl) cs v) (l_run gfr hash false B ob (hc :: hs :: wl) cs v)
    (Ok (fin_a kc ksv fc fs ac asv (fresh (new_ha mc) ac, fresh (new_ha msv) asv) (combine l wa), map (fun o => out_alice (lspec kc ksv fc fs o)) l))
    (Ok (fin_b kc ksv fc fs bc bsv (fresh (new_hb (aesE kc) mc) bc, fresh (new_hb (aesE ksv) msv) bsv) (combine l wa), map (fun o => out_bob (lspec kc ksv fc fs o)) l))
    (calls_B gfr hash kc ksv fc fs ac asv bc bsv (combine l wa))
    (more_in (new_A gfr mc (rr_c v) (rr_oc v)) (more_in (new_A gfr msv (rr_s v) (rr_os v)) (calls_A gfr hash kc ksv fc fs ac asv (combine l wa)))).
Proof.
  intros AB l V opd Ha Hb NE AI (Rc & Rc0 & ROc & BOc & Rs & Rs0 & ROs & BOs & FO) ac asv bc bsv mc msv wa wb.
  destruct (lcalls_wf cs (rr_calls v) AI FO) as [W LL]. fold l in W, LL.
  assert (NEl : l <> []) by (destruct l; [destruct cs; [now elim NE|discriminate LL]|discriminate]).
  cbn [map] in V. injection V as V1 V2 V3. apply Forall_cons_iff in AB as [ABc AB]. apply Forall_cons_iff in AB as [ABs AB]. unfold splits in ABc, ABs.
  assert (PC : length opd = public_calls l) by apply public_count.
  rewrite PC in Ha, Hb. unfold l_run. fold l. rewrite Ha, Hb.
  destruct (owns_fit kc ksv fc fs s A B l wl AB V3) as (F & LA & LB). fold (opd_of l) in F, LA, LB. fold opd in F, LA, LB. fold wa wb in F, LA, LB.
  fold wa wb. clearbody wa wb.
  assert (Lc : length mc = 128%nat).
  { unfold mc, low_bits. rewrite map_length. apply (f_equal (@length bool)) in V1. unfold ev in V1. rewrite map_length, bits_of_N_length in V1. exact V1. }
  assert (Ls : length msv = 128%nat).
  { unfold msv, low_bits. rewrite map_length. apply (f_equal (@length bool)) in V2. unfold ev in V2. rewrite map_length, bits_of_N_length in V2. exact V2. }
  rewrite V1 in ABc. rewrite V2 in ABs. fold mc in ABc. fold msv in ABs.
  split; [exact Lc|]. split; [exact Ls|]. split; [exact ABc|]. split; [exact ABs|]. split; [exact W|]. split; [exact F|]. split; [exact LA|]. split; [exact LB|].
  rewrite ABc, ABs. fold mc msv. clearbody mc msv. clear ABc ABs V1 V2 V3 AB Ha Hb.
  assert (Ba : blk ac) by now apply invBlock_blk. assert (Bas : blk asv) by now apply invBlock_blk.
  assert (BEc : forall z, blk (aesE kc z)) by (intro; apply (proj2 (files_cipher_ok kc (proj1 KC) (proj2 KC)))).
  assert (BEs : forall z, blk (aesE ksv z)) by (intro; apply (proj2 (files_cipher_ok ksv (proj1 KS) (proj2 KS)))).
  assert (Bb : blk bc) by (apply gf_mul_blk; auto). assert (Bbs : blk bsv) by (apply gf_mul_blk; auto).
  assert (Hh : forall r h, blk r -> r <> 0 -> blk h -> gf_mul (invBlock r) (gf_mul r h) = h).
  { intros r h Br Nr Bh. rewrite (gf_mul_assoc _ _ _ (invBlock_blk r Br) Br Bh), (gf_mul_comm _ _ (invBlock_blk r Br) Br), invBlock_ok by assumption.
    now apply gf_mul_1_l. }
  pose proof (lconv_lnew gfr GFR kc fc mc (rr_c v) (rr_oc v) KC IC Lc Rc Rc0 ROc BOc) as C1.
  pose proof (lconv_lnew gfr GFR ksv fs msv (rr_s v) (rr_os v) KS IS Ls Rs Rs0 ROs BOs) as C2.
  pose proof (lconv_lcalls gfr GFR hash HL kc ksv fc fs KC KS IC IS ac asv bc bsv Ba Bas Bb Bbs (Hh _ _ Rc Rc0 (BEc 0)) (Hh _ _ Rs Rs0 (BEs 0))
    l wa wb 0 0 0 0 (fresh (new_ha mc) ac) (fresh (new_ha msv) asv) (fresh (new_hb (aesE kc) mc) bc) (fresh (new_hb (aesE ksv) msv) bsv) W F LA LB
    (eq_sym (pows_1 ac Ba)) (eq_sym (pows_1 bc Bb)) (eq_sym (pows_1 asv Bas)) (eq_sym (pows_1 bsv Bbs))) as C3.
  assert (D : forall alice, disciplined (rbind (l_new gfr alice (half alice mc (bits_of_N 128 (aesE kc 0))) (rr_c v) (rr_oc v)) (fun c =>
      rbind (l_new gfr alice (half alice msv (bits_of_N 128 (aesE ksv 0))) (rr_s v) (rr_os v)) (fun s =>
        l_calls_st gfr hash alice c s (combine l (map (pick alice) (combine wa wb))))))).
  { intro alice. unfold disciplined. apply wp_rbind. eapply wp_mono; [|apply (wp_lnew gfr alice kc fc); try assumption; reflexivity].
    intros x d (D1 & p & -> & N1). apply wp_rbind. eapply wp_mono; [|apply (wp_lnew gfr alice ksv fs); assumption].
    intros x d2 (D2 & p2 & -> & N2). apply (wp_lcalls_st gfr hash kc ksv fc fs); try assumption. intro. contradiction. }
  apply lconv_runs.
  - pose proof (D true) as X. rewrite pick_true in X by congruence. exact X.
  - pose proof (D false) as X. rewrite pick_false in X by congruence. exact X.
  - rewrite <- (nil_more (calls_B _ _ _ _ _ _ _ _ _ _ _)). eapply lconv_rbind; [exact C1|].
    rewrite <- (nil_more (calls_B _ _ _ _ _ _ _ _ _ _ _)). eapply lconv_rbind; [exact C2|]. exact C3.
Qed.
End L.
End V.
