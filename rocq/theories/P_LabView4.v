(** The records of two sessions on labels compared, for BOB and for ALICE. *)
From Coq Require Import List NArith ZArith Bool Arith Lia.
From Verif Require Import L_Bits L_Res L_Xor S_Sched S_View S_Codec S_Aes S_Gcm S_Sha256.
From Verif Require S_Netlist S_Lower P_AesNet.
From Verif Require Import M_EmpInteger M_Utils M_Bristol M_Block M_Ole2k M_Shares M_Commit M_Aead M_Exch M_View M_Sym M_LabRec M_LabView.
From Verif Require Import D_AesKs D_AesEnc P_Utils P_Gf128 P_Shares P_Ole2k P_Gcm P_Aead P_AeadInst P_Sched P_Exch P_ExchAead P_ExchSess.
From Verif Require Import P_Sha256Opt P_Handshake P_Session2 P_Sym P_SymTls P_SymGcm P_Labels P_View P_ViewAead P_ViewPriv P_ViewBob P_LabRec P_LabSess P_LabView P_LabView2 P_LabView3.
Import ListNotations.
Local Open Scope N_scope.
Local Opaque mulBlock gf_mul invBlock computeKS computeAES_KS bytes_of_block block_of_bytes key_material block_to_bool
  aes_ks_file aes_enc_file aesE EK str_to_int gcm_ctext re_r.

(** the request to the circuit that a call makes, from the arguments alone *)
Definition gcall_in (c : bool * ain) : gcall := gcall_of {| lc_srv := fst c; lc_in := snd c; lc_ole := {| raw0 := []; raw1 := [] |} |}.
Lemma gcalls_in : forall cs os, length os = length cs -> map gcall_of (lcalls cs os) = map gcall_in cs.
Proof.
  unfold lcalls. induction cs as [|c cs IH]; intros [|o os] L; try discriminate; [reflexivity|]. cbn [map2 map]. rewrite IH by (cbn in L; congruence). reflexivity.
Qed.
Lemma lab_ots_calls c s : forall cs os, map2 (fun (x : bool * ain) o => rot_choose (raw0 o) (raw1 o) (firstn (length (raw0 o)) (p_mul_hs (if fst x then s else c)))) cs os =
  map (fun l => rot_choose (raw0 (lc_ole l)) (raw1 (lc_ole l)) (firstn (length (raw0 (lc_ole l))) (p_mul_hs (if lc_srv l then s else c)))) (lcalls cs os).
Proof. unfold lcalls. induction cs as [|x cs IH]; intros [|o os]; try reflexivity. cbn [map2 map]. now rewrite IH. Qed.
Lemma owns_same B : forall l l' ws op, map (fun o => in_sec (lc_in o)) l' = map (fun o => in_sec (lc_in o)) l -> owns B l' ws op = owns B l ws op.
Proof.
  induction l as [|o l IH]; intros [|o' l'] ws op H; try discriminate; [reflexivity|]. cbn [map] in H. injection H as H1 H2.
  cbn [owns]. destruct ws as [|z0 [|z ws]]; try reflexivity. rewrite H1. destruct (in_sec (lc_in o)); [now rewrite (IH l')|].
  destruct op; [reflexivity|]. now rewrite (IH l').
Qed.

(** ** BOB's objects at the end *)
Section F.
Variables kc ksv fc fs : list N.
Lemma fin_b_keeps hc hs : forall l p, p_gc_h (fst (fin_b kc ksv fc fs hc hs p l)) = p_gc_h (fst p) /\ p_gc_h (snd (fin_b kc ksv fc fs hc hs p l)) = p_gc_h (snd p).
Proof.
  induction l as [|[o w] l IH]; intro p; cbn [fin_b]; [auto|].
  match goal with |- context [fin_b _ _ _ _ _ _ ?q l] => destruct (IH q) as [I1 I2] end. rewrite I1, I2. unfold step2.
  destruct (lc_srv o); cbn [fst snd]; unfold upd; destruct (op_sec _); split; reflexivity.
Qed.
Lemma fin_b_pows hc hs : forall l p k j, p_mul_hs (fst p) = pows hc k -> p_mul_hs (snd p) = pows hs j ->
  exists K J, p_mul_hs (fst (fin_b kc ksv fc fs hc hs p l)) = pows hc K /\ p_mul_hs (snd (fin_b kc ksv fc fs hc hs p l)) = pows hs J /\
  (k <= K)%nat /\ (j <= J)%nat /\
  Forall (fun x => (nblocks (in_aad (lc_in (fst x))) (in_data (lc_in (fst x))) <= if lc_srv (fst x) then J else K)%nat) l.
Proof.
  induction l as [|[o w] l IH]; intros p k j H1 H2; cbn [fin_b]; [exists k, j; auto 6|].
  assert (Ln : length (op_ins (oE kc ksv o) (ofiv fc fs o) (wr o w)) = nblocks (in_aad (lc_in o)) (in_data (lc_in o))) by apply ins_length.
  destruct (lc_srv o) eqn:SV; unfold step2, hsel; rewrite SV; cbv zeta; rewrite Ln, ?H1, ?H2, !pows_length.
  - match goal with |- context [fin_b _ _ _ _ _ _ ?q l] => edestruct (IH q) as (K & J & E1 & E2 & E3 & E4 & E5); [exact H1|apply upd_hs|] end. exists K, J. split; [exact E1|]. split; [exact E2|].
    split; [exact E3|]. split; [lia|]. constructor; [|exact E5]. cbn [fst]. rewrite SV. lia.
  - match goal with |- context [fin_b _ _ _ _ _ _ ?q l] => edestruct (IH q) as (K & J & E1 & E2 & E3 & E4 & E5); [apply upd_hs|exact H2|] end. exists K, J. split; [exact E1|]. split; [exact E2|].
    split; [lia|]. split; [lia|]. constructor; [|exact E5]. cbn [fst]. rewrite SV. lia.
Qed.
End F.

Section B.
Variable gfr : N -> N -> N.
Hypothesis GFR : gfr_ok gfr.
Variable hash : list N -> list N.
Hypothesis HL : forall l, length (hash l) = DIGEST_SIZE.

(** ** One constructor *)
Lemma new_re key key' mh mh' r ro : key_ok key -> key_ok key' -> let E := aesE key in let E' := aesE key' in
  E 0 <> 0 -> E' 0 <> 0 -> length mh = 128%nat -> length mh' = 128%nat -> bxor mh' (bits_of_N 128 (E' 0)) = bxor mh (bits_of_N 128 (E 0)) ->
  blk r -> r <> 0 -> ole_rand_ok ro 1 -> ole_blk ro ->
  let b := N_of_bits (bxor mh (bits_of_N 128 (E 0))) in let r' := re_r E E' r in let ro' := shift ro [b] [N.lxor r r'] in
  b = new_hb E mh /\ new_hb E' mh' = b /\ blk r' /\ r' <> 0 /\ gf_mul r' (E' 0) = gf_mul r (E 0) /\ ole_rand_ok ro' 1 /\ ole_blk ro' /\
  re_r E' E r' = r /\ shift ro' [b] [N.lxor r' r] = ro /\
  rot_choose (raw0 ro') (raw1 ro') [b] = rot_choose (raw0 ro) (raw1 ro) [b] /\ new_A gfr mh' r' ro' = new_A gfr mh r ro.
Proof.
  intros [K1 K2] [K1' K2'] E E' N0 N0' L L' EQm Br Nr RO BO b r' ro'.
  pose proof (files_cipher_ok key K1 K2) as CIP. pose proof (files_cipher_ok key' K1' K2') as CIP'. fold E in CIP. fold E' in CIP'.
  assert (Eb : b = new_hb E mh).
  { unfold b, new_hb. rewrite N_of_bits_bxor by (now rewrite bits_of_N_length). rewrite N_of_bits_of_N_small by apply (proj2 CIP). reflexivity. }
  assert (Em : mh' = bxor mh (bits_of_N 128 (N.lxor (E 0) (E' 0)))).
  { rewrite bits_of_N_lxor. apply bxor_change; rewrite ?bits_of_N_length; congruence. }
  set (u := {| ar_mh := mh; ar_r := r; ar_ro := ro; ar_calls := [] |}).
  assert (U : arand_ok [] u) by (unfold arand_ok, u; cbn [ar_mh ar_r ar_ro ar_calls]; auto 10).
  pose proof (re_ok gfr GFR hash E [] E' [] aes_enc_file _ _ CIP CIP' N0 N0' [] [] u (Forall2_nil _) (Forall_nil _) (Forall_nil _) U) as R. cbv zeta in R.
  unfold re, arand_ok, u in R. cbn [ar_mh ar_r ar_ro ar_calls] in R. fold r' in R. rewrite <- Em, <- Eb in R. fold ro' in R.
  destruct R as ((_ & R2 & R3 & R4 & R5 & _) & _ & R7 & R8 & R9).
  destruct (re_r_ok E E' aes_enc_file _ _ CIP CIP' N0 N0' r Br Nr) as (_ & _ & Hr'). fold r' in Hr'.
  split; [exact Eb|]. split; [exact R7|]. split; [exact R2|]. split; [exact R3|]. split; [exact Hr'|]. split; [exact R4|]. split; [exact R5|].
  split; [exact (re_r_inv E E' aes_enc_file _ _ CIP CIP' N0 N0' r Br Nr)|].
  split; [unfold ro'; rewrite (N.lxor_comm r' r); now apply (shift_inv _ _ _ 1%nat)|].
  split; [unfold new_rots in R8; rewrite R7, <- Eb in R8; exact R8|].
  destruct (lconv_new aes_ks_file aes_enc_file gfr GFR (EK key) E CIP [] (str_to_int key) mh r ro (files_ks key K1 K2) L Br Nr RO BO) as (_ & _ & _ & Q & _).
  destruct (lconv_new aes_ks_file aes_enc_file gfr GFR (EK key') E' CIP' [] (str_to_int key') mh' r' ro' (files_ks key' K1' K2') L' R2 R3 R4 R5) as (_ & _ & _ & Q' & _).
  rewrite R8, R9, R7, Hr', Eb, <- Q in Q'. unfold new_A. rewrite R9. revert Q'. clear.
  generalize (new_rh gfr mh' r' ro') (new_rh gfr mh r ro) (nth 0 (ole_recv_out gfr (new_rots E mh ro) (new_msgs r ro) [new_hb E mh]) 0).
  intros x y z Q. rewrite !(N.lxor_comm z) in Q. apply lxor_cancel_r in Q. now rewrite Q.
Qed.

(** ** The session *)
Variables kc ksv fc fs kc' ksv' fc' fs' : list N.
Hypothesis KC : key_ok kc.
Hypothesis KS : key_ok ksv.
Hypothesis IC : iv_ok fc.
Hypothesis IS : iv_ok fs.
Hypothesis KC' : key_ok kc'.
Hypothesis KS' : key_ok ksv'.
Hypothesis IC' : iv_ok fc'.
Hypothesis IS' : iv_ok fs'.
Notation E := (kE kc ksv).
Notation F := (kf fc fs).
Notation E' := (kE kc' ksv').
Notation F' := (kf fc' fs').
Let CIP s : cipher_ok aes_enc_file (EK (if s : bool then ksv else kc)) (E s).
Proof. unfold kE. destruct s; apply files_cipher_ok; first [apply KC|apply KS]. Qed.
Let CIP' s : cipher_ok aes_enc_file (EK (if s : bool then ksv' else kc')) (E' s).
Proof. unfold kE. destruct s; apply files_cipher_ok; first [apply KC'|apply KS']. Qed.

Lemma ks_in c : gc_ks (aesE kc) (aesE ksv) fc fs (gcall_in c) = gcm_ctext (E (fst c)) (F (fst c) ++ in_iv (snd c)) (repeat 0 (in_len (snd c))).
Proof. unfold gc_ks, gcall_in, gcall_of, kE, kf. cbn [ga_srv ga_iv ga_len lc_srv lc_in]. destruct (fst c); reflexivity. Qed.
Lemma ks_in' c : gc_ks (aesE kc') (aesE ksv') fc' fs' (gcall_in c) = gcm_ctext (E' (fst c)) (F' (fst c) ++ in_iv (snd c)) (repeat 0 (in_len (snd c))).
Proof. unfold gc_ks, gcall_in, gcall_of, kE, kf. cbn [ga_srv ga_iv ga_len lc_srv lc_in]. destruct (fst c); reflexivity. Qed.
Definition dummy (i : ain) : call_rand := {| m_z0 := []; m_z := []; m_ole := {| raw0 := []; raw1 := [] |} |}.
Lemma bob_req c c' : same_bob kc ksv fc fs kc' ksv' fc' fs' c c' -> gcall_in c' = gcall_in c /\
  (ga_sec (gcall_in c) = false -> gc_ks (aesE kc') (aesE ksv') fc' fs' (gcall_in c') = gc_ks (aesE kc) (aesE ksv) fc fs (gcall_in c)).
Proof.
  intros [Es AL]. rewrite ks_in', ks_in, Es.
  pose proof (alike_pub _ _ _ _ _ _ (dummy (snd c)) (dummy (snd c)) AL) as P. cbv zeta in P. destruct P as (P1 & P2 & _ & _ & _ & P6 & _ & _ & P9).
  rewrite !op_iv_in in P1. rewrite !op_sec_in in P2. rewrite !op_ks_in, op_sec_in in P6.
  assert (Ll : in_len (snd c') = in_len (snd c)) by (rewrite !in_len_data; exact P9).
  split.
  - unfold gcall_in, gcall_of. cbn [lc_srv lc_in]. rewrite Es, P1, P2, Ll.
    destruct (snd c), (snd c'); cbn [alike_bob] in AL; try contradiction; reflexivity.
  - exact P6.
Qed.
Lemma alice_req c c' : same_alice kc ksv fc fs kc' ksv' fc' fs' c c' -> gcall_in c' = gcall_in c /\
  gc_ks (aesE kc') (aesE ksv') fc' fs' (gcall_in c') = gc_ks (aesE kc) (aesE ksv) fc fs (gcall_in c).
Proof.
  intros [Es AL]. rewrite ks_in', ks_in, Es.
  pose proof (alice_pub _ _ _ _ _ _ (dummy (snd c)) AL) as P. cbv zeta in P. destruct P as (P1 & P2 & _ & _ & _ & P6 & _ & _ & P9).
  rewrite !op_iv_in in P1. rewrite !op_sec_in in P2. rewrite !op_ks_in in P6.
  assert (Ll : in_len (snd c') = in_len (snd c)) by (rewrite !in_len_data; now rewrite P9).
  split.
  - unfold gcall_in, gcall_of. cbn [lc_srv lc_in]. rewrite Es, P1, P2, Ll.
    destruct (snd c), (snd c'); cbn [alike_alice] in AL; try contradiction; reflexivity.
  - exact P6.
Qed.
Lemma same_reqs (R : bool * ain -> bool * ain -> Prop) : (forall c c', R c c' -> gcall_in c' = gcall_in c /\
  (ga_sec (gcall_in c) = false -> gc_ks (aesE kc') (aesE ksv') fc' fs' (gcall_in c') = gc_ks (aesE kc) (aesE ksv) fc fs (gcall_in c))) ->
  forall cs cs', Forall2 R cs cs' -> map gcall_in cs' = map gcall_in cs /\
  flat_map (fun c => if ga_sec c then [] else [str_to_int (gc_ks (aesE kc') (aesE ksv') fc' fs' c)]) (map gcall_in cs') =
  flat_map (fun c => if ga_sec c then [] else [str_to_int (gc_ks (aesE kc) (aesE ksv) fc fs c)]) (map gcall_in cs).
Proof.
  intros HR cs cs' G. induction G as [|c c' cs cs' H G [I1 I2]]; [split; reflexivity|]. destruct (HR _ _ H) as [H1 H2].
  cbn [map flat_map]. split; [now rewrite H1, I1|]. rewrite I2. f_equal. rewrite H1 in H2 |- *. destruct (ga_sec (gcall_in c)); [reflexivity|].
  now rewrite (H2 eq_refl).
Qed.

(** ** The random values of the second session *)
Hypothesis H0 : forall s, E s 0 <> 0.
Hypothesis H0' : forall s, E' s 0 <> 0.
Lemma re_ole_inv i i' s r o : alike_bob (E s) (F s) (E' s) (F' s) i i' -> ain_ok i -> ain_ok i' -> blk r -> r <> 0 ->
  ole_rand_ok o (nblocks (in_aad i) (in_data i)) -> ole_blk o ->
  let o' := re_ole (E s) (F s) (E' s) (F' s) i i' r o in
  ole_rand_ok o' (nblocks (in_aad i') (in_data i')) /\ ole_blk o' /\ re_ole (E' s) (F' s) (E s) (F s) i' i (re_r (E s) (E' s) r) o' = o.
Proof.
  intros AL A A' Br Nr RO BO o'.
  set (c := {| m_z0 := repeat false 128; m_z := repeat false (8 * length (in_data i)); m_ole := o |}).
  assert (CO : call_ok i c) by (split; [repeat split; try apply repeat_length; apply RO|exact BO]).
  pose proof (re_call_ok gfr GFR hash (E s) (F s) (E' s) (F' s) aes_enc_file _ _ (CIP s) (CIP' s) (H0 s) (H0' s) i i' r c AL Br Nr A A' CO) as R.
  cbv zeta in R. destruct R as ([(_ & _ & R1) R2] & _).
  split; [exact R1|]. split; [exact R2|].
  pose proof (re_call_inv (E s) (F s) (E' s) (F' s) aes_enc_file _ _ (CIP s) (CIP' s) (H0 s) (H0' s) i i' r c AL Br Nr CO) as I.
  apply (f_equal m_ole) in I. rewrite re_ole_ok in I. exact I.
Qed.
Notation alikes := (Forall2 (same_bob kc ksv fc fs kc' ksv' fc' fs')).
Notation re1 := (re_v kc ksv fc fs kc' ksv' fc' fs').
Notation re2 := (re_v kc' ksv' fc' fs' kc ksv fc fs).
Lemma re_calls_v v0 v1 : blk v0 -> v0 <> 0 -> blk v1 -> v1 <> 0 -> let r (s : bool) := if s then v1 else v0 in
  forall cs cs' os, alikes cs cs' -> Forall (fun c => ain_ok (snd c)) cs -> Forall (fun c => ain_ok (snd c)) cs' ->
  Forall2 (fun c o => ole_rand_ok o (nblocks (in_aad (snd c)) (in_data (snd c))) /\ ole_blk o) cs os ->
  let os' := map2 (fun cc o => let s := fst (fst cc) in re_ole (E s) (F s) (E' s) (F' s) (snd (fst cc)) (snd (snd cc)) (r s) o) (combine cs cs') os in
  Forall2 (fun c o => ole_rand_ok o (nblocks (in_aad (snd c)) (in_data (snd c))) /\ ole_blk o) cs' os' /\
  map2 (fun cc o => let s := fst (fst cc) in re_ole (E' s) (F' s) (E s) (F s) (snd (fst cc)) (snd (snd cc)) (re_r (E s) (E' s) (r s)) o) (combine cs' cs) os' = os /\
  Forall2 (pair_ok kc ksv fc fs kc' ksv' fc' fs' v0 v1) (lcalls cs os) (lcalls cs' os').
Proof.
  intros B0 N0 B1 N1 r cs cs' os AL. revert os. induction AL as [|c c' cs cs' H AL IH]; intros os A A' O.
  - inversion O; subst. cbn [combine map2 lcalls]. split; [constructor|]. split; [reflexivity|constructor].
  - inversion O as [|? o ? os0 [Ho Hb] O0]; subst. inversion A as [|? ? Ac Al]; inversion A' as [|? ? Ac' Al']; subst.
    specialize (IH os0 Al Al' O0). cbv zeta in IH. destruct IH as (I1 & I2 & I3).
    assert (Bs : blk (r (fst c)) /\ r (fst c) <> 0) by (unfold r; destruct (fst c); auto). destruct Bs as [Br Nr].
    destruct H as [Hs H]. destruct (re_ole_inv (snd c) (snd c') (fst c) (r (fst c)) o H Ac Ac' Br Nr Ho Hb) as (X1 & X2 & X3).
    cbn [combine map2 fst snd]. cbv zeta. rewrite Hs. split; [constructor; [split; [exact X1|exact X2]|exact I1]|].
    split; [rewrite X3; f_equal; exact I2|]. unfold lcalls in *. cbn [map2]. constructor; [|exact I3].
    unfold pair_ok. cbn [lc_srv lc_in lc_ole]. split; [exact Hs|]. split; [exact H|reflexivity].
Qed.
Lemma Forall2_len {X Y} (R : X -> Y -> Prop) l l' : Forall2 R l l' -> length l' = length l.
Proof. induction 1; cbn; congruence. Qed.

(** the random values of the two sessions are paired *)
Lemma re_v_ok bc bs cs cs' v : alikes cs cs' -> Forall (fun c => ain_ok (snd c)) cs -> Forall (fun c => ain_ok (snd c)) cs' -> rrand_ok cs v ->
  let v' := re1 bc bs cs cs' v in rrand_ok cs' v' /\ re2 bc bs cs' cs v' = v.
Proof.
  intros AL AI AI' (Rc & Rc0 & ROc & BOc & Rs & Rs0 & ROs & BOs & FO). cbv zeta.
  pose proof (re_calls_v _ _ Rc Rc0 Rs Rs0 cs cs' (rr_calls v) AL AI AI' FO) as RV. cbv zeta in RV. destruct RV as (FO' & INV & _).
  assert (X : forall s r o b, blk r -> r <> 0 -> ole_rand_ok o 1 -> ole_blk o -> let r' := re_r (E s) (E' s) r in let o' := shift o [b] [N.lxor r r'] in
    blk r' /\ r' <> 0 /\ ole_rand_ok o' 1 /\ ole_blk o' /\ re_r (E' s) (E s) r' = r /\ shift o' [b] [N.lxor r' r] = o).
  { intros s r o b Br Nr RO BO r' o'. destruct (re_r_ok (E s) (E' s) aes_enc_file _ _ (CIP s) (CIP' s) (H0 s) (H0' s) r Br Nr) as (Br' & Nr' & _). fold r' in Br', Nr'.
    assert (Bd : Forall blk [N.lxor r r']) by (constructor; [now apply lxor_blk|constructor]).
    destruct (shift_ok o [b] [N.lxor r r'] 1%nat RO BO eq_refl eq_refl Bd) as [S1 S2].
    repeat (split; [assumption|]). split; [exact (re_r_inv (E s) (E' s) aes_enc_file _ _ (CIP s) (CIP' s) (H0 s) (H0' s) r Br Nr)|].
    unfold o'. rewrite (N.lxor_comm r' r). now apply (shift_inv _ _ _ 1%nat). }
  pose proof (X false (rr_c v) (rr_oc v) bc Rc Rc0 ROc BOc) as X1. pose proof (X true (rr_s v) (rr_os v) bs Rs Rs0 ROs BOs) as X2. clear X.
  cbv zeta in X1, X2. destruct X1 as (C1 & C2 & C3 & C4 & C5 & C6), X2 as (D1 & D2 & D3 & D4 & D5 & D6).
  split; [unfold rrand_ok, re_v; cbn [rr_c rr_oc rr_s rr_os rr_calls]; auto 12|].
  unfold re_v. cbv zeta. cbn [rr_c rr_oc rr_s rr_os rr_calls]. rewrite C5, C6, D5, D6.
  match goal with |- context [map2 ?f (combine cs' cs) ?o] => assert (Q : map2 f (combine cs' cs) o = rr_calls v) end.
  { refine (eq_trans _ INV). apply map2_ext_in. intros [[a1 i1] [a2 i2]] o _ _. cbn [fst snd]. destruct a1; reflexivity. }
  rewrite Q. now destruct v.
Qed.
(** ** What BOB sees *)
Theorem records_bob s A B hc hs wl oa ob s' A' oa' ob' cs cs' v :
  Forall (splits s A B) (hc :: hs :: wl) -> Forall (splits s' A' B) (hc :: hs :: wl) ->
  map (ev s) (hc :: hs :: wl) = bits_of_N 128 (aesE kc 0) :: bits_of_N 128 (aesE ksv 0) :: flat_map (gc_sh (aesE kc) (aesE ksv) fc fs) (map gcall_in cs) ->
  map (ev s') (hc :: hs :: wl) = bits_of_N 128 (aesE kc' 0) :: bits_of_N 128 (aesE ksv' 0) :: flat_map (gc_sh (aesE kc') (aesE ksv') fc' fs') (map gcall_in cs) ->
  let opd := flat_map (fun c => if ga_sec c then [] else [str_to_int (gc_ks (aesE kc) (aesE ksv) fc fs c)]) (map gcall_in cs) in
  skipn (length oa - length opd) oa = opd -> skipn (length ob - length opd) ob = opd ->
  skipn (length oa' - length opd) oa' = opd -> skipn (length ob' - length opd) ob' = opd ->
  cs <> [] -> Forall (fun c => ain_ok (snd c)) cs -> Forall (fun c => ain_ok (snd c)) cs' -> alikes cs cs' -> rrand_ok cs v ->
  let bc := N_of_bits (low_bits B hc) in let bs := N_of_bits (low_bits B hs) in
  let v' := re1 bc bs cs cs' v in
  exists xa sa xa' sa' c t out sb,
    runs_with_views (l_run gfr hash true A oa (hc :: hs :: wl) cs v) (l_run gfr hash false B ob (hc :: hs :: wl) cs v) (Ok xa) (Ok (c, t, out)) sa sb /\
    runs_with_views (l_run gfr hash true A' oa' (hc :: hs :: wl) cs' v') (l_run gfr hash false B ob' (hc :: hs :: wl) cs' v') (Ok xa') (Ok (c, t, out)) sa' sb /\
    lab_ots c t cs' v' = lab_ots c t cs v.
Proof.
  intros SP SP' V V' opd Oa Ob Oa' Ob' NE AI AI' AL RK bc bs v'.
  pose proof RK as (Rc & Rc0 & ROc & BOc & Rs & Rs0 & ROs & BOs & FO).
  destruct (same_reqs _ bob_req cs cs' AL) as [GQ OQ].
  pose proof (Forall2_len _ _ _ AL) as Lcs. pose proof (Forall2_len _ _ _ FO) as Los.
  pose proof (re_calls_v _ _ Rc Rc0 Rs Rs0 cs cs' (rr_calls v) AL AI AI' FO) as RV. cbv zeta in RV.
  set (os' := map2 _ _ (rr_calls v)) in RV.
  assert (Ec : rr_calls v' = os') by reflexivity.
  destruct RV as (FO' & INV & PO).
  pose proof (Forall2_len _ _ _ FO') as Los'.
  rewrite <- (gcalls_in cs (rr_calls v) Los) in V.
  rewrite <- GQ, <- (gcalls_in cs' os' Los') in V'.
  rewrite <- (gcalls_in cs (rr_calls v) Los) in OQ. rewrite <- (gcalls_in cs' os' Los') in OQ.
  unfold opd in *. clear opd. rewrite <- (gcalls_in cs (rr_calls v) Los) in Oa, Ob, Oa', Ob'.
  fold (opd_of kc ksv fc fs (lcalls cs (rr_calls v))) in OQ, Oa, Ob, Oa', Ob'.
  fold (opd_of kc' ksv' fc' fs' (lcalls cs' os')) in OQ. rewrite <- OQ in Oa', Ob'.
  pose proof (labels_views gfr GFR hash HL kc ksv fc fs KC KS IC IS s A B hc hs wl oa ob cs v SP V Oa Ob NE AI RK) as LV. cbv zeta in LV.
  destruct LV as (L1 & L2 & L3 & L4 & L5 & L6 & L7 & L8 & L9).
  (* the constructors *)
  assert (Mx : low_bits B hc = bxor (low_bits A' hc) (bits_of_N 128 (aesE kc' 0)) /\ length (low_bits A' hc) = 128%nat /\
    low_bits B hs = bxor (low_bits A' hs) (bits_of_N 128 (aesE ksv' 0)) /\ length (low_bits A' hs) = 128%nat).
  { cbn [map] in V'. injection V' as V1 V2 _. apply Forall_cons_iff in SP' as [S1 SP']. apply Forall_cons_iff in SP' as [S2 _]. unfold splits in S1, S2.
    rewrite V1 in S1. rewrite V2 in S2. split; [exact S1|]. split; [|split; [exact S2|]].
    - unfold low_bits. rewrite map_length. apply (f_equal (@length bool)) in V1. unfold ev in V1. rewrite map_length, bits_of_N_length in V1. exact V1.
    - unfold low_bits. rewrite map_length. apply (f_equal (@length bool)) in V2. unfold ev in V2. rewrite map_length, bits_of_N_length in V2. exact V2. }
  destruct Mx as (M1 & M2 & M3 & M4).
  pose proof (new_re kc kc' (low_bits A hc) (low_bits A' hc) (rr_c v) (rr_oc v) KC KC' (H0 false) (H0' false) L1 M2 (eq_trans (eq_sym M1) L3) Rc Rc0 ROc BOc) as X1.
  pose proof (new_re ksv ksv' (low_bits A hs) (low_bits A' hs) (rr_s v) (rr_os v) KS KS' (H0 true) (H0' true) L2 M4 (eq_trans (eq_sym M3) L4) Rs Rs0 ROs BOs) as X2.
  cbv zeta in X1, X2. rewrite <- L3 in X1. rewrite <- L4 in X2. fold bc in X1. fold bs in X2.
  change (shift (rr_oc v) [bc] [N.lxor (rr_c v) (re_r (aesE kc) (aesE kc') (rr_c v))]) with (rr_oc v') in X1.
  change (shift (rr_os v) [bs] [N.lxor (rr_s v) (re_r (aesE ksv) (aesE ksv') (rr_s v))]) with (rr_os v') in X2.
  change (re_r (aesE kc) (aesE kc') (rr_c v)) with (rr_c v') in X1. change (re_r (aesE ksv) (aesE ksv') (rr_s v)) with (rr_s v') in X2.
  destruct X1 as (C1 & C2 & C3 & C4 & C5 & C6 & C7 & C8 & C9 & C10 & C11). destruct X2 as (D1 & D2 & D3 & D4 & D5 & D6 & D7 & D8 & D9 & D10 & D11).
  assert (RK' : rrand_ok cs' v') by (unfold rrand_ok; rewrite Ec; auto 12).
  assert (NE' : cs' <> []) by (intro Z; subst cs'; destruct cs; [now apply NE|discriminate Lcs]).
  pose proof (labels_views gfr GFR hash HL kc' ksv' fc' fs' KC' KS' IC' IS' s' A' B hc hs wl oa' ob' cs' v' SP') as LV'. rewrite Ec in LV'. cbv zeta in LV'.
  specialize (LV' V' Oa' Ob' NE' AI' RK'). destruct LV' as (_ & _ & _ & _ & L5' & L6' & L7' & L8' & L9').
  set (l := lcalls cs (rr_calls v)) in *. set (l' := lcalls cs' os') in *.
  assert (OW : owns B l' wl (opd_of kc' ksv' fc' fs' l') = owns B l wl (opd_of kc ksv fc fs l)).
  { rewrite OQ. apply owns_same. pose proof (gcalls_in cs (rr_calls v) Los) as G1. pose proof (gcalls_in cs' os' Los') as G2. fold l in G1. fold l' in G2.
    rewrite GQ, <- G1 in G2. apply (f_equal (map ga_sec)) in G2. rewrite !map_map in G2. exact G2. }
  rewrite OW in L6'.
  pose proof (bob_calls gfr GFR hash kc ksv fc fs kc' ksv' fc' fs' KC KS KC' KS' H0 H0' (rr_c v) (rr_s v) Rc Rc0 Rs Rs0 l l' _ _ _ PO L5 L5' L6 L6' L7 L8 L7')
    as (B1 & B2 & B3 & B4).
  rewrite C2, C5, D2, D5, B2, B3, C11, D11 in L9'. rewrite C1, D1 in L9'. 
  change (re_r (kE kc ksv false) (kE kc' ksv' false) (rr_c v)) with (rr_c v') in B1. change (re_r (kE kc ksv true) (kE kc' ksv' true) (rr_s v)) with (rr_s v') in B1.
  rewrite B1 in L9'.
  set (fb := fin_b _ _ _ _ _ _ _ _) in L9, L9'.
  pose proof (fin_b_keeps kc ksv fc fs (gf_mul (rr_c v) (aesE kc 0)) (gf_mul (rr_s v) (aesE ksv 0)) (combine l (owns A l wl (opd_of kc ksv fc fs l)))
    (fresh (new_hb (aesE kc) (low_bits A hc)) (gf_mul (rr_c v) (aesE kc 0)), fresh (new_hb (aesE ksv) (low_bits A hs)) (gf_mul (rr_s v) (aesE ksv 0)))) as [G1 G2].
  assert (BEc : blk (gf_mul (rr_c v) (aesE kc 0))) by (apply gf_mul_blk; first [exact Rc|apply (proj2 (CIP false))]).
  assert (BEs : blk (gf_mul (rr_s v) (aesE ksv 0))) by (apply gf_mul_blk; first [exact Rs|apply (proj2 (CIP true))]).
  destruct (fin_b_pows kc ksv fc fs (gf_mul (rr_c v) (aesE kc 0)) (gf_mul (rr_s v) (aesE ksv 0)) (combine l (owns A l wl (opd_of kc ksv fc fs l)))
    (fresh (new_hb (aesE kc) (low_bits A hc)) (gf_mul (rr_c v) (aesE kc 0)), fresh (new_hb (aesE ksv) (low_bits A hs)) (gf_mul (rr_s v) (aesE ksv 0)))
    1%nat 1%nat (eq_sym (pows_1 _ BEc)) (eq_sym (pows_1 _ BEs))) as (K & J & P1 & P2 & _ & _ & P3).
  fold fb in G1, G2, P1, P2. cbn [fst snd fresh p_gc_h] in G1, G2. clearbody fb. destruct fb as [c t]. cbn [fst snd] in G1, G2, P1, P2.
  do 8 eexists. split; [exact L9|]. split; [exact L9'|].
  unfold lab_ots. rewrite Ec, G1, G2, <- C1, <- D1, C10, D10, !lab_ots_calls. fold l l'. do 2 f_equal.
  assert (P4 : Forall (fun o => (nblocks (in_aad (lc_in o)) (in_data (lc_in o)) <= if lc_srv o then J else K)%nat) l).
  { revert P3. generalize L7. generalize (owns A l wl (opd_of kc ksv fc fs l)). clear. induction l as [|o l IH]; intros [|w ws] L F; try discriminate; [constructor|].
    inversion F; subst. constructor; [assumption|]. apply (IH ws); [cbn in L; congruence|assumption]. }
  assert (P5 : Forall2 (fun o o' => lc_srv o' = lc_srv o) l l').
  { clear -PO. induction PO as [|o o' m m' Po PO IH]; constructor; [apply Po|exact IH]. }
  revert P1 P2 P4 P5 B4. clear. intros P1 P2 P4 P5 B4. induction B4 as [|o o' l l' H B4 IH]; [reflexivity|].
  inversion P4 as [|? ? Hn P4']; inversion P5 as [|? ? ? ? Hs P5']; subst. cbn [map]. rewrite IH by assumption. f_equal.
  cbv zeta in H. destruct H as (N1 & N2 & R). rewrite N1, N2, Hs. unfold sh_rots in R.
  destruct (lc_srv o); [rewrite P2|rewrite P1]; rewrite pows_firstn by exact Hn; exact R.
Qed.

(** ** What ALICE sees *)
Definition pair_al (o o' : lcall) : Prop := lc_srv o' = lc_srv o /\ lc_ole o' = lc_ole o /\
  alike_alice (E (lc_srv o)) (F (lc_srv o)) (E' (lc_srv o)) (F' (lc_srv o)) (lc_in o) (lc_in o').
Lemma alice_lcalls rc rs : blk rc -> rc <> 0 -> blk rs -> rs <> 0 -> forall l l' wa wb, Forall2 pair_al l l' -> Forall lcall_wf l -> Forall lcall_wf l' ->
  Forall2 (fun o w => fits kc ksv fc fs o (fst w) (snd w)) l (combine wa wb) -> length wa = length l -> length wb = length l ->
  calls_B gfr hash kc' ksv' fc' fs' (invBlock rc) (invBlock rs) (gf_mul rc (aesE kc' 0)) (gf_mul rs (aesE ksv' 0)) (combine l' wa) =
    calls_B gfr hash kc ksv fc fs (invBlock rc) (invBlock rs) (gf_mul rc (aesE kc 0)) (gf_mul rs (aesE ksv 0)) (combine l wa) /\
  map (fun o => out_alice (lspec kc' ksv' fc' fs' o)) l' = map (fun o => out_alice (lspec kc ksv fc fs o)) l /\
  (forall p, fin_a kc' ksv' fc' fs' (invBlock rc) (invBlock rs) p (combine l' wa) = fin_a kc ksv fc fs (invBlock rc) (invBlock rs) p (combine l wa)).
Proof.
  intros Brc Nrc Brs Nrs l l' wa wb P. revert wa wb. induction P as [|o o' l l' Po P IH]; intros wa wb W W' Ff La Lb.
  - destruct wa; [|discriminate]. cbn [combine calls_B fold_right map fin_a]. split; [reflexivity|]. split; [reflexivity|]. intros; reflexivity.
  - destruct wa as [|a wa]; [discriminate|]. destruct wb as [|b wb]; [discriminate|].
    inversion W as [|? ? Wo Wl]; inversion W' as [|? ? Wo' Wl']; subst. inversion Ff as [|? ? ? ? Fo Fl]; subst.
    cbn [fst snd] in Fo. cbn [length] in La, Lb.
    destruct (IH wa wb Wl Wl' Fl ltac:(lia) ltac:(lia)) as (I1 & I2 & I3). clear IH.
    destruct Po as (Es & Eo & AL).
    assert (K1 : oE kc' ksv' o' = E' (lc_srv o)) by (unfold oE, okey, kE; now rewrite Es).
    assert (K2 : ofiv fc' fs' o' = F' (lc_srv o)) by (unfold ofiv, kf; now rewrite Es).
    assert (K3 : oE kc ksv o = E (lc_srv o)) by reflexivity. assert (K4 : ofiv fc fs o = F (lc_srv o)) by reflexivity.
    set (r := if lc_srv o then rs else rc). assert (Br : blk r /\ r <> 0) by (unfold r; destruct (lc_srv o); auto). destruct Br as [Br Nr].
    assert (Er : rnd_of o' a = rnd_of o a) by (unfold rnd_of; now rewrite Eo).
    destruct (proj1 (wf_of o) Wo) as [A1 _]. destruct (proj1 (wf_of o') Wo') as [A2 _].
    pose proof (fit_call kc ksv fc fs o a b Wo Fo) as CO.
    pose proof (alice_call gfr GFR hash (E (lc_srv o)) (F (lc_srv o)) (E' (lc_srv o)) (F' (lc_srv o)) aes_enc_file _ _ (CIP _) (CIP' _)
      (lc_in o) (lc_in o') r (rnd_of o a) AL Br Nr A1 A2 CO) as X. cbv zeta in X. destruct X as (_ & X2 & X3 & X4 & X5).
    pose proof (alice_pub _ _ _ _ _ _ (rnd_of o a) AL) as Y. cbv zeta in Y. destruct Y as (_ & Y2 & _ & _ & _ & Y6 & Y7 & _ & _).
    assert (Wr : with_rand (lc_in o') (rnd_of o a) = wr o' a) by (unfold wr; now rewrite Er).
    fold (wr o a) in *. rewrite Wr in *.
    cbn [combine calls_B fold_right fst snd map fin_a].
    fold (calls_B gfr hash kc' ksv' fc' fs' (invBlock rc) (invBlock rs) (gf_mul rc (aesE kc' 0)) (gf_mul rs (aesE ksv' 0)) (combine l' wa)).
    fold (calls_B gfr hash kc ksv fc fs (invBlock rc) (invBlock rs) (gf_mul rc (aesE kc 0)) (gf_mul rs (aesE ksv 0)) (combine l wa)).
    split; [|split].
    + rewrite I1. f_equal. rewrite K1, K2, K3, K4. unfold hsel. rewrite Es.
      pose proof (bsel (fun s : bool => invBlock (if s then rs else rc)) (lc_srv o)) as S1.
      pose proof (bsel (fun s : bool => gf_mul (if s then rs else rc) (E' s 0)) (lc_srv o)) as S2.
      pose proof (bsel (fun s : bool => gf_mul (if s then rs else rc) (E s 0)) (lc_srv o)) as S3.
      cbv beta iota in S1, S2, S3. fold r in S1, S2, S3. unfold kE at 1 2 in S2. unfold kE at 1 2 in S3. rewrite S1, S2, S3. exact X5.
    + rewrite I2. f_equal. unfold lspec. rewrite <- (spec_rand _ _ (lc_in o') (rnd_of o' a)), <- (spec_rand _ _ (lc_in o) (rnd_of o a)).
      fold (oE kc' ksv' o') (oE kc ksv o) (wr o' a) (wr o a). rewrite K1, K2, K3, K4. exact Y7.
    + intro p. rewrite I3. f_equal. unfold step2, hsel. rewrite K1, K2, K3, K4, Es, X2, X3, X4, Y2, Y6. reflexivity.
Qed.
Theorem records_alice s A B hc hs wl oa ob s' B' oa' ob' cs cs' v :
  Forall (splits s A B) (hc :: hs :: wl) -> Forall (splits s' A B') (hc :: hs :: wl) ->
  map (ev s) (hc :: hs :: wl) = bits_of_N 128 (aesE kc 0) :: bits_of_N 128 (aesE ksv 0) :: flat_map (gc_sh (aesE kc) (aesE ksv) fc fs) (map gcall_in cs) ->
  map (ev s') (hc :: hs :: wl) = bits_of_N 128 (aesE kc' 0) :: bits_of_N 128 (aesE ksv' 0) :: flat_map (gc_sh (aesE kc') (aesE ksv') fc' fs') (map gcall_in cs) ->
  let opd := flat_map (fun c => if ga_sec c then [] else [str_to_int (gc_ks (aesE kc) (aesE ksv) fc fs c)]) (map gcall_in cs) in
  skipn (length oa - length opd) oa = opd -> skipn (length ob - length opd) ob = opd ->
  skipn (length oa' - length opd) oa' = opd -> skipn (length ob' - length opd) ob' = opd ->
  cs <> [] -> Forall (fun c => ain_ok (snd c)) cs -> Forall (fun c => ain_ok (snd c)) cs' ->
  Forall2 (same_alice kc ksv fc fs kc' ksv' fc' fs') cs cs' -> rrand_ok cs v ->
  rrand_ok cs' v /\
  exists c t out sa xb sb xb' sb',
    runs_with_views (l_run gfr hash true A oa (hc :: hs :: wl) cs v) (l_run gfr hash false B ob (hc :: hs :: wl) cs v) (Ok (c, t, out)) (Ok xb) sa sb /\
    runs_with_views (l_run gfr hash true A oa' (hc :: hs :: wl) cs' v) (l_run gfr hash false B' ob' (hc :: hs :: wl) cs' v) (Ok (c, t, out)) (Ok xb') sa sb'.
Proof.
  intros SP SP' V V' opd Oa Ob Oa' Ob' NE AI AI' AL RK.
  pose proof RK as (Rc & Rc0 & ROc & BOc & Rs & Rs0 & ROs & BOs & FO).
  destruct (same_reqs _ (fun c c' H => conj (proj1 (alice_req c c' H)) (fun _ => proj2 (alice_req c c' H))) cs cs' AL) as [GQ OQ].
  pose proof (Forall2_len _ _ _ AL) as Lcs. pose proof (Forall2_len _ _ _ FO) as Los.
  assert (FO' : Forall2 (fun c o => ole_rand_ok o (nblocks (in_aad (snd c)) (in_data (snd c))) /\ ole_blk o) cs' (rr_calls v) /\
    Forall2 pair_al (lcalls cs (rr_calls v)) (lcalls cs' (rr_calls v))).
  { revert AL FO. generalize (rr_calls v). clear. intros os AL. revert os. induction AL as [|c c' cs cs' [Hs H] AL IH]; intros os O; inversion O as [|? o ? os0 Ho O0]; subst.
    - split; constructor.
    - destruct (IH os0 O0) as [I1 I2]. pose proof (alice_pub _ _ _ _ _ _ (dummy (snd c)) H) as Y. cbv zeta in Y. destruct Y as (_ & _ & _ & _ & _ & _ & _ & Y8 & Y9).
      split; [constructor; [rewrite Y8, Y9; exact Ho|exact I1]|]. unfold lcalls in *. cbn [map2]. constructor; [|exact I2].
      unfold pair_al. cbn [lc_srv lc_in lc_ole]. auto. }
  destruct FO' as [FO' PO]. assert (RK' : rrand_ok cs' v) by (unfold rrand_ok; auto 12).
  split; [exact RK'|].
  assert (Los' : length (rr_calls v) = length cs') by congruence.
  rewrite <- (gcalls_in cs (rr_calls v) Los) in V.
  rewrite <- GQ, <- (gcalls_in cs' (rr_calls v) Los') in V'.
  rewrite <- (gcalls_in cs (rr_calls v) Los) in OQ. rewrite <- (gcalls_in cs' (rr_calls v) Los') in OQ.
  unfold opd in *. clear opd. rewrite <- (gcalls_in cs (rr_calls v) Los) in Oa, Ob, Oa', Ob'.
  fold (opd_of kc ksv fc fs (lcalls cs (rr_calls v))) in OQ, Oa, Ob, Oa', Ob'.
  fold (opd_of kc' ksv' fc' fs' (lcalls cs' (rr_calls v))) in OQ. rewrite <- OQ in Oa', Ob'.
  assert (NE' : cs' <> []) by (intro Z; subst cs'; destruct cs; [now apply NE|discriminate Lcs]).
  pose proof (labels_views gfr GFR hash HL kc ksv fc fs KC KS IC IS s A B hc hs wl oa ob cs v SP V Oa Ob NE AI RK) as LV. cbv zeta in LV.
  pose proof (labels_views gfr GFR hash HL kc' ksv' fc' fs' KC' KS' IC' IS' s' A B' hc hs wl oa' ob' cs' v SP' V' Oa' Ob' NE' AI' RK') as LV'. cbv zeta in LV'.
  destruct LV as (_ & _ & _ & _ & L5 & L6 & L7 & L8 & L9). destruct LV' as (_ & _ & _ & _ & L5' & L6' & L7' & L8' & L9').
  set (l := lcalls cs (rr_calls v)) in *. set (l' := lcalls cs' (rr_calls v)) in *.
  assert (OW : owns A l' wl (opd_of kc' ksv' fc' fs' l') = owns A l wl (opd_of kc ksv fc fs l)).
  { rewrite OQ. apply owns_same. pose proof (gcalls_in cs (rr_calls v) Los) as G1. pose proof (gcalls_in cs' (rr_calls v) Los') as G2. fold l in G1. fold l' in G2.
    rewrite GQ, <- G1 in G2. apply (f_equal (map ga_sec)) in G2. rewrite !map_map in G2. exact G2. }
  rewrite OW in L9'.
  destruct (alice_lcalls (rr_c v) (rr_s v) Rc Rc0 Rs Rs0 l l' _ _ PO L5 L5' L6 L7 L8) as (B1 & B2 & B3).
  rewrite B1, B2, B3 in L9'. set (fa := fin_a _ _ _ _ _ _ _ _) in L9, L9'. clearbody fa. destruct fa as [c t].
  do 8 eexists. split; [exact L9|exact L9'].
Qed.
End B.
