(** Two runs of the record programs on labels that BOB, or ALICE, cannot tell apart. *)
From Coq Require Import List NArith ZArith Bool Arith Lia.
From Verif Require Import L_Bits L_Res L_Xor S_Sched S_View S_Codec S_Aes S_Gcm S_Sha256.
From Verif Require S_Netlist S_Lower P_AesNet.
From Verif Require Import M_EmpInteger M_Utils M_Bristol M_Block M_Ole2k M_Shares M_Commit M_Aead M_Exch M_View M_Sym M_LabRec M_LabView.
From Verif Require Import D_AesKs D_AesEnc P_Utils P_Gf128 P_Shares P_Ole2k P_Gcm P_Aead P_AeadInst P_Sched P_Exch P_ExchAead P_ExchSess.
From Verif Require Import P_Sha256Opt P_Handshake P_Session2 P_Sym P_SymTls P_SymGcm P_Labels P_View P_ViewAead P_ViewPriv P_ViewBob P_LabRec P_LabSess P_LabView P_LabView2.
Import ListNotations.
Local Open Scope N_scope.
Local Opaque mulBlock gf_mul invBlock computeKS computeAES_KS bytes_of_block block_of_bytes key_material block_to_bool
  aes_ks_file aes_enc_file aesE EK str_to_int gcm_ctext re_r.

Lemma op_iv_in i c : op_iv (with_rand i c) = in_iv i.
Proof. now destruct i. Qed.
Lemma op_sec_in i c : op_sec (with_rand i c) = in_sec i.
Proof. now destruct i. Qed.
Lemma in_len_data i : in_len i = length (in_data i).
Proof. now destruct i. Qed.
Lemma op_ks_in E f i c : op_ks E f (with_rand i c) = gcm_ctext E (f ++ in_iv i) (repeat 0 (in_len i)).
Proof. unfold op_ks. rewrite ks_zeros, ct_length, op_iv_in, in_len_data. reflexivity. Qed.

Lemma bsel {T} (f : bool -> T) (s : bool) : (if s then f true else f false) = f s.
Proof. now destruct s. Qed.

(** re-randomised OT strings *)
Definition re_ole (E : N -> N) (fiv : list N) (E' : N -> N) (fiv' : list N) (i i' : ain) (r : N) (o : ole_rand) : ole_rand :=
  m_ole (re_call E fiv E' fiv' i i' r {| m_z0 := repeat false 128; m_z := repeat false (8 * length (in_data i)); m_ole := o |}).
Lemma re_ole_ok E fiv E' fiv' i i' r c : m_ole (re_call E fiv E' fiv' i i' r c) = re_ole E fiv E' fiv' i i' r (m_ole c).
Proof. destruct i, i'; reflexivity. Qed.

(** the cipher and the fixed part of the nonce of an object *)
Definition kE (kc ksv : list N) (s : bool) := aesE (if s then ksv else kc).
Definition kf (fc fs : list N) (s : bool) := if s then fs else fc.
(** calls on the same object that look the same to a party *)
Section D.
Variables kc ksv fc fs kc' ksv' fc' fs' : list N.
Notation kE' := (kE kc' ksv').
Notation kf' := (kf fc' fs').
Notation kE := (kE kc ksv).
Notation kf := (kf fc fs).
Definition same_bob (c c' : bool * ain) : Prop :=
  fst c' = fst c /\ alike_bob (kE (fst c)) (kf (fst c)) (kE' (fst c)) (kf' (fst c)) (snd c) (snd c').
Definition same_alice (c c' : bool * ain) : Prop :=
  fst c' = fst c /\ alike_alice (kE (fst c)) (kf (fst c)) (kE' (fst c)) (kf' (fst c)) (snd c) (snd c').
(** the random values of the second session *)
Definition re_v (bc bs : N) (cs cs' : list (bool * ain)) (v : rrand) : rrand :=
  let r' := re_r (kE false) (kE' false) (rr_c v) in let s' := re_r (kE true) (kE' true) (rr_s v) in
  {| rr_c := r'; rr_oc := shift (rr_oc v) [bc] [N.lxor (rr_c v) r'];
     rr_s := s'; rr_os := shift (rr_os v) [bs] [N.lxor (rr_s v) s'];
     rr_calls := map2 (fun cc o => let s := fst (fst cc) in
       re_ole (kE s) (kf s) (kE' s) (kf' s) (snd (fst cc)) (snd (snd cc)) (if s then rr_s v else rr_c v) o) (combine cs cs') (rr_calls v) |}.
End D.

Section B.
Variable gfr : N -> N -> N.
Hypothesis GFR : gfr_ok gfr.
Variable hash : list N -> list N.
Variables kc ksv fc fs kc' ksv' fc' fs' : list N.
Hypothesis KC : key_ok kc.
Hypothesis KS : key_ok ksv.
Hypothesis KC' : key_ok kc'.
Hypothesis KS' : key_ok ksv'.
Notation E := (kE kc ksv).
Notation F := (kf fc fs).
Notation E' := (kE kc' ksv').
Notation F' := (kf fc' fs').
Hypothesis H0 : forall s, E s 0 <> 0.
Hypothesis H0' : forall s, E' s 0 <> 0.
Notation fit := (fits kc ksv fc fs).
Notation fit' := (fits kc' ksv' fc' fs').
Let CIP s : cipher_ok aes_enc_file (EK (if s : bool then ksv else kc)) (E s).
Proof. unfold kE. destruct s; apply files_cipher_ok; first [apply KC|apply KS]. Qed.
Let CIP' s : cipher_ok aes_enc_file (EK (if s : bool then ksv' else kc')) (E' s).
Proof. unfold kE. destruct s; apply files_cipher_ok; first [apply KC'|apply KS']. Qed.

(** * One call *)
Lemma fit_call o wa wb : lcall_wf o -> fit o wa wb -> call_ok (lc_in o) (rnd_of o wa).
Proof.
  intros W (L0 & Lz & _). apply wf_of in W as (_ & W1 & W2). split; [|exact W2]. split; [exact L0|]. split; [|exact W1].
  rewrite <- in_len_data. exact Lz.
Qed.
Lemma rnd_re o o' wa wa' wb r : lc_srv o' = lc_srv o ->
  alike_bob (E (lc_srv o)) (F (lc_srv o)) (E' (lc_srv o)) (F' (lc_srv o)) (lc_in o) (lc_in o') ->
  lc_ole o' = re_ole (E (lc_srv o)) (F (lc_srv o)) (E' (lc_srv o)) (F' (lc_srv o)) (lc_in o) (lc_in o') r (lc_ole o) ->
  fit o wa wb -> fit' o' wa' wb ->
  rnd_of o' wa' = re_call (E (lc_srv o)) (F (lc_srv o)) (E' (lc_srv o)) (F' (lc_srv o)) (lc_in o) (lc_in o') r (rnd_of o wa).
Proof.
  intros Es AL Eo (L0 & Lz & F0 & Fz & _) (L0' & Lz' & F0' & Fz' & _).
  pose proof (alike_pub _ _ _ _ _ _ (rnd_of o wa) (rnd_of o wa) AL) as PB. cbv zeta in PB. destruct PB as (P1 & _ & _ & _ & _ & _ & _ & _ & P9).
  rewrite !op_iv_in in P1.
  assert (Lsame : in_len (lc_in o') = in_len (lc_in o)) by (rewrite !in_len_data; exact P9).
  assert (K1 : aesE (okey kc ksv o) = E (lc_srv o)) by reflexivity. assert (K2 : ofiv fc fs o = F (lc_srv o)) by reflexivity.
  assert (K3 : aesE (okey kc' ksv' o') = E' (lc_srv o)) by (unfold okey, kE; now rewrite Es).
  assert (K4 : ofiv fc' fs' o' = F' (lc_srv o)) by (unfold ofiv, kf; now rewrite Es).
  rewrite K1, K2 in F0, Fz. rewrite K3, K4, P1 in F0', Fz'. rewrite Lsame in Fz', Lz'.
  set (e := E (lc_srv o)) in *. set (e' := E' (lc_srv o)) in *. set (f := F (lc_srv o)) in *. set (f' := F' (lc_srv o)) in *.
  clearbody e e' f f'.
  unfold rnd_of at 1. 
  assert (R0 : w_z0 wa' = m_z0 (re_call e f e' f' (lc_in o) (lc_in o') r (rnd_of o wa))).
  { unfold re_call. cbn [m_z0 rnd_of]. rewrite !op_iv_in, P1, bits_of_N_lxor.
    apply bxor_change; rewrite ?bits_of_N_length; congruence. }
  assert (Rz : w_z wa' = m_z (re_call e f e' f' (lc_in o) (lc_in o') r (rnd_of o wa))).
  { unfold re_call. cbn [m_z rnd_of]. rewrite !op_ks_in, P1, Lsame.
    assert (LL : forall x y z, length (gcm_ctext x (y ++ z) (repeat 0 (in_len (lc_in o)))) = in_len (lc_in o)) by (intros; now rewrite ctext_length, repeat_length).
    rewrite <- ibits_xor by now rewrite !LL.
    apply bxor_change; rewrite ?P_AesNet.str_to_int_length, ?LL; congruence. }
  rewrite R0, Rz, Eo. change (lc_ole o) with (m_ole (rnd_of o wa)). rewrite <- re_ole_ok.
  destruct (re_call e f e' f' (lc_in o) (lc_in o') r (rnd_of o wa)). reflexivity.
Qed.

(** * The calls *)
Variables (rc rs : N).
Hypothesis Brc : blk rc.
Hypothesis Nrc : rc <> 0.
Hypothesis Brs : blk rs.
Hypothesis Nrs : rs <> 0.
Let rr (s : bool) := if s then rs else rc.
Let rr' (s : bool) := re_r (E s) (E' s) (rr s).
Definition pair_ok (o o' : lcall) : Prop := lc_srv o' = lc_srv o /\
  alike_bob (E (lc_srv o)) (F (lc_srv o)) (E' (lc_srv o)) (F' (lc_srv o)) (lc_in o) (lc_in o') /\
  lc_ole o' = re_ole (E (lc_srv o)) (F (lc_srv o)) (E' (lc_srv o)) (F' (lc_srv o)) (lc_in o) (lc_in o') (rr (lc_srv o)) (lc_ole o).
Lemma rr_blk s : blk (rr s) /\ rr s <> 0.
Proof. unfold rr. destruct s; auto. Qed.

Lemma bob_call o o' wa wa' wb : pair_ok o o' -> lcall_wf o -> lcall_wf o' -> fit o wa wb -> fit' o' wa' wb ->
  let s := lc_srv o in let x := wr o wa in let x' := wr o' wa' in let hb := gf_mul (rr s) (E s 0) in let n := length (op_ins (E s) (F s) x) in
  length (op_ins (E' s) (F' s) x') = n /\ op_sec x' = op_sec x /\
  op_z0b (E' s) (F' s) x' = op_z0b (E s) (F s) x /\ op_zb (E' s) (F' s) x' = op_zb (E s) (F s) x /\
  (op_sec x = false -> op_ks (E' s) (F' s) x' = op_ks (E s) (F s) x) /\
  sh_rots hb n (lc_ole o') = sh_rots hb n (lc_ole o) /\
  op_A gfr hash (E' s) (F' s) (invBlock (rr' s)) x' = op_A gfr hash (E s) (F s) (invBlock (rr s)) x /\
  out_bob (lspec kc' ksv' fc' fs' o') = out_bob (lspec kc ksv fc fs o).
Proof.
  intros (Es & AL & Eo) W W' Ft Ft' s x x' hb n. destruct (rr_blk s) as [Br Nr].
  pose proof (rnd_re o o' wa wa' wb _ Es AL Eo Ft Ft') as RR. fold s in RR, AL.
  pose proof (fit_call o wa wb W Ft) as CO.
  destruct (proj1 (wf_of o) W) as [A1 _]. destruct (proj1 (wf_of o') W') as [A2 _].
  pose proof (re_call_ok gfr GFR hash (E s) (F s) (E' s) (F' s) aes_enc_file _ _ (CIP s) (CIP' s) (H0 s) (H0' s) (lc_in o) (lc_in o') (rr s) (rnd_of o wa)
    AL Br Nr A1 A2 CO) as R. cbv zeta in R. rewrite <- RR in R.
  destruct R as (_ & R2 & R3 & R4 & R5 & _ & R7).
  pose proof (alike_pub (E s) (F s) (E' s) (F' s) (lc_in o) (lc_in o') (rnd_of o wa) (rnd_of o' wa') AL) as PB. cbv zeta in PB.
  destruct PB as (_ & P2 & _ & _ & _ & P6 & P7 & _ & _).
  repeat (split; [assumption|]). 
  unfold lspec. rewrite <- (spec_rand _ _ (lc_in o') (rnd_of o' wa')), <- (spec_rand _ _ (lc_in o) (rnd_of o wa)).
  assert (K3 : aesE (okey kc' ksv' o') = E' s) by (unfold okey, kE, s; now rewrite Es).
  assert (K4 : ofiv fc' fs' o' = F' s) by (unfold ofiv, kf, s; now rewrite Es). rewrite K3, K4. exact P7.
Qed.
Lemma bob_calls : forall l l' wa wa' wb, Forall2 pair_ok l l' -> Forall lcall_wf l -> Forall lcall_wf l' ->
  Forall2 (fun o w => fit o (fst w) (snd w)) l (combine wa wb) -> Forall2 (fun o w => fit' o (fst w) (snd w)) l' (combine wa' wb) ->
  length wa = length l -> length wb = length l -> length wa' = length l' ->
  calls_A gfr hash kc' ksv' fc' fs' (invBlock (rr' false)) (invBlock (rr' true)) (combine l' wa') =
    calls_A gfr hash kc ksv fc fs (invBlock (rr false)) (invBlock (rr true)) (combine l wa) /\
  map (fun o => out_bob (lspec kc' ksv' fc' fs' o)) l' = map (fun o => out_bob (lspec kc ksv fc fs o)) l /\
  (forall hc hs cs, fin_b kc' ksv' fc' fs' hc hs cs (combine l' wa') = fin_b kc ksv fc fs hc hs cs (combine l wa)) /\
  Forall2 (fun o o' => let s := lc_srv o in let n := nblocks (in_aad (lc_in o)) (in_data (lc_in o)) in
     length (raw0 (lc_ole o)) = n /\ length (raw0 (lc_ole o')) = n /\
     sh_rots (gf_mul (rr s) (E s 0)) n (lc_ole o') = sh_rots (gf_mul (rr s) (E s 0)) n (lc_ole o)) l l'.
Proof.
  intros l l' wa wa' wb P. revert wa wa' wb. induction P as [|o o' l l' Po P IH]; intros wa wa' wb W W' Ff Ff' La Lb La'.
  - destruct wa; [|discriminate]. destruct wa'; [|discriminate]. cbn [combine calls_A fold_right map fin_b]. split; [reflexivity|]. split; [reflexivity|]. split; [intros; reflexivity|constructor].
  - destruct wa as [|a wa]; [discriminate|]. destruct wb as [|b wb]; [discriminate|]. destruct wa' as [|a' wa']; [discriminate|].
    inversion W as [|? ? Wo Wl]; inversion W' as [|? ? Wo' Wl']; subst. inversion Ff as [|? ? ? ? Fo Fl]; inversion Ff' as [|? ? ? ? Fo' Fl']; subst.
    cbn [fst snd] in Fo, Fo'. cbn [length] in La, Lb, La'.
    destruct (IH wa wa' wb Wl Wl' Fl Fl' ltac:(lia) ltac:(lia) ltac:(lia)) as (I1 & I2 & I3 & I4). clear IH.
    pose proof (bob_call o o' a a' b Po Wo Wo' Fo Fo') as B. cbv zeta in B. destruct B as (B1 & B2 & B3 & B4 & B5 & B6 & B7 & B8).
    destruct Po as (Es & AL & Eo).
    assert (K1 : oE kc' ksv' o' = E' (lc_srv o)) by (unfold oE, okey, kE; now rewrite Es).
    assert (K2 : ofiv fc' fs' o' = F' (lc_srv o)) by (unfold ofiv, kf; now rewrite Es).
    assert (K3 : oE kc ksv o = E (lc_srv o)) by reflexivity. assert (K4 : ofiv fc fs o = F (lc_srv o)) by reflexivity.
    cbn [combine calls_A fold_right fst snd map fin_b].
    fold (calls_A gfr hash kc' ksv' fc' fs' (invBlock (rr' false)) (invBlock (rr' true)) (combine l' wa')).
    fold (calls_A gfr hash kc ksv fc fs (invBlock (rr false)) (invBlock (rr true)) (combine l wa)).
    split; [|split; [|split]].
    + rewrite I1. f_equal. rewrite K1, K2, K3, K4. unfold hsel. rewrite Es.
      pose proof (bsel (fun s => invBlock (rr' s)) (lc_srv o)) as S1. pose proof (bsel (fun s => invBlock (rr s)) (lc_srv o)) as S2.
      cbv beta in S1, S2. rewrite S1, S2. exact B7.
    + now rewrite I2, B8.
    + intros hc hs cs. rewrite I3. f_equal. unfold step2, hsel. rewrite K1, K2, K3, K4, Es, B1, B2, B3, B4.
      destruct (op_sec (wr o a)) eqn:Se; [reflexivity|]. now rewrite B5.
    + constructor; [|exact I4]. cbv zeta.
      assert (Ln : length (op_ins (E (lc_srv o)) (F (lc_srv o)) (wr o a)) = nblocks (in_aad (lc_in o)) (in_data (lc_in o))) by apply ins_length.
      apply wf_of in Wo as (_ & (R0 & _) & _). apply wf_of in Wo' as (_ & (R0' & _) & _).
      assert (Ln' : length (op_ins (E' (lc_srv o)) (F' (lc_srv o)) (wr o' a')) = nblocks (in_aad (lc_in o')) (in_data (lc_in o'))) by apply ins_length.
      split; [exact R0|]. split; [rewrite R0', <- Ln', B1; exact Ln|]. rewrite <- Ln. exact B6.
Qed.
End B.
