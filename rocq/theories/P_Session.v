(** Proofs about the record phase and PostRecord. *)
From Coq Require Import List NArith ZArith Bool Arith Lia.
From Verif Require Import L_Bits L_Res L_Xor M_EmpInteger M_Utils M_Bristol M_Block M_Shares M_Aead M_ItMac M_AeadProof M_Handshake M_Session.
From Verif Require Import S_Codec S_Aes S_Gcm S_Tls P_Gf128 P_Utils P_AesNet P_Shares P_Gcm P_Aead P_ItMac P_AeadProof P_AeadProof2.
Import ListNotations.
Local Open Scope N_scope.
Local Opaque computeKS computeAES_KS key_expansion cipher aes128 str_to_int ks_layout
  gf_mul mulBlock encrypt decrypt decrypt_shares aead_new gctr step1_hs handshake_check prove_aead prove_aead_last.

(** * Record phase: the two objects do not interfere *)
Definition on_c (o : rcall) : list aop :=
  match o with
  | FinEnc ma mb aad iv r => [OpEnc ma mb aad iv false r]
  | RecEnc ma mb aad iv r => [OpEnc ma mb aad iv true r]
  | _ => []
  end.
Definition on_s (o : rcall) : list aop :=
  match o with
  | FinDec c t aad iv r ra rb => [OpDec c t aad iv false r ra rb]
  | RecDec c t aad iv r ra rb => [OpDec c t aad iv true r ra rb]
  | _ => []
  end.
Definition rcall_wf (o : rcall) : Prop := Forall aop_wf (on_c o ++ on_s o).

Section R.
Variable enc : bristol.
Variable gfr : N -> N -> N.
Variable hash : list N -> list N.
Hypothesis GFR : gfr_ok gfr.
Variable ekc eks : Integer.
Variable Ec Es : N -> N.
Hypothesis CIPc : cipher_ok enc ekc Ec.
Hypothesis CIPs : cipher_ok enc eks Es.
Variable fivc fivs : list N.
Hypothesis Vc1 : length fivc = 4%nat.
Hypothesis Vc2 : bytes_ok fivc.
Hypothesis Vs1 : length fivs = 4%nat.
Hypothesis Vs2 : bytes_ok fivs.
Definition rcall_spec (o : rcall) : aout :=
  match o with
  | FinEnc ma mb aad iv r => aop_spec Ec fivc (OpEnc ma mb aad iv false r)
  | RecEnc ma mb aad iv r => aop_spec Ec fivc (OpEnc ma mb aad iv true r)
  | FinDec c t aad iv r ra rb => aop_spec Es fivs (OpDec c t aad iv false r ra rb)
  | RecDec c t aad iv r ra rb => aop_spec Es fivs (OpDec c t aad iv true r ra rb)
  end.
Lemma aop1 ek E fiv : cipher_ok enc ek E -> length fiv = 4%nat -> bytes_ok fiv -> forall o hist s, aead_inv ek E fiv hist s -> aop_wf o ->
  exists s', aop_run enc gfr hash s o = Ok (s', aop_spec E fiv o) /\ aead_inv ek E fiv (hist ++ [aop_call o]) s'.
Proof.
  intros CIP V1 V2 o hist s I W.
  destruct (aops_ok enc gfr GFR ek E CIP fiv V1 V2 hash [o] hist s I) as (s' & X & I'); [now constructor|].
  exists s'. split; [|exact I']. cbn [aops_run] in X. destruct (aop_run enc gfr hash s o) as [[s1 x]| |]; cbn [bind] in X; try discriminate X.
  cbn [map] in X. injection X as -> ->. reflexivity.
Qed.
Theorem rcalls_ok : forall os hc hs c s, aead_inv ekc Ec fivc hc c -> aead_inv eks Es fivs hs s -> Forall rcall_wf os ->
  exists c' s', rcalls_run enc gfr hash (c, s) os = Ok (c', s', map rcall_spec os) /\
    aead_inv ekc Ec fivc (hc ++ map aop_call (flat_map on_c os)) c' /\ aead_inv eks Es fivs (hs ++ map aop_call (flat_map on_s os)) s'.
Proof.
  induction os as [|o os IH]; intros hc hs c s Ic Is F.
  - exists c, s. cbn [flat_map map]. rewrite !app_nil_r. auto.
  - inversion F as [|? ? Ho Hos]; subst. cbn [rcalls_run map flat_map].
    assert (X : exists c1 s1, rcall_run enc gfr hash (c, s) o = Ok (c1, s1, rcall_spec o) /\
      aead_inv ekc Ec fivc (hc ++ map aop_call (on_c o)) c1 /\ aead_inv eks Es fivs (hs ++ map aop_call (on_s o)) s1).
    { unfold rcall_wf in Ho. destruct o; cbn [on_c on_s app] in Ho; apply Forall_inv in Ho;
        cbn [rcall_run on_c on_s map rcall_spec]; rewrite !app_nil_r;
        unfold encrypt_client_finished_msg, decrypt_server_finished_msg, record_encrypt, record_decrypt.
      - destruct (aop1 ekc Ec fivc CIPc Vc1 Vc2 _ _ _ Ic Ho) as (c1 & X & I). rewrite X. cbn [bind]. exists c1, s. auto.
      - destruct (aop1 eks Es fivs CIPs Vs1 Vs2 _ _ _ Is Ho) as (s1 & X & I). rewrite X. cbn [bind]. exists c, s1. auto.
      - destruct (aop1 ekc Ec fivc CIPc Vc1 Vc2 _ _ _ Ic Ho) as (c1 & X & I). rewrite X. cbn [bind]. exists c1, s. auto.
      - destruct (aop1 eks Es fivs CIPs Vs1 Vs2 _ _ _ Is Ho) as (s1 & X & I). rewrite X. cbn [bind]. exists c, s1. auto. }
    destruct X as (c1 & s1 & EQ & I1 & I2). rewrite EQ. cbn [bind].
    destruct (IH _ _ _ _ I1 I2 Hos) as (c' & s' & E' & Jc & Js). rewrite E'. cbn [bind]. exists c', s'. split; [reflexivity|].
    rewrite <- app_assoc in Jc, Js. rewrite !map_app. auto.
Qed.
End R.

(** * Proof phase *)
Definition to_pcall (sec : bool) (r : rrec) : pcall :=
  {| pc_iv := rr_iv r; pc_ctxt := rr_ctxt r; pc_sec := sec; pc_kz0 := rr_kz0 r; pc_kz := rr_kz r |}.
(** the checked calls on the two objects *)
Fixpoint pops_c (os : list pop) : list pcall :=
  match os with [] => [] | PClient r :: os => to_pcall true r :: pops_c os | _ :: os => pops_c os end.
Fixpoint pops_s (os : list pop) : list pcall :=
  match os with [] => [] | PServer r :: os => to_pcall true r :: pops_s os | _ :: os => pops_s os end.
Definition pop_wf (o : pop) : Prop :=
  match o with
  | PClient r | PServer r => pcall_wf (to_pcall true r)
  | PLast r => length (rr_iv r) = 8%nat /\ bytes_ok (rr_iv r) /\ bytes_ok (rr_ctxt r)
  end.

Section P.
Variable ks enc : bristol.
Variable ekc eks : Integer.
Variable Ec Es : N -> N.
Hypothesis CIPc : cipher_ok enc ekc Ec.
Hypothesis CIPs : cipher_ok enc eks Es.
Variable fivc fivs : list N.
Hypothesis Vc1 : length fivc = 4%nat.
Hypothesis Vc2 : bytes_ok fivc.
Hypothesis Vs1 : length fivs = 4%nat.
Hypothesis Vs2 : bytes_ok fivs.
Variable Delta : N.
Hypothesis D0 : Delta <> 0.
Hypothesis DO : N.odd Delta = true.
Variable pub : bool -> N.
Hypothesis PUB : pub true <> pub false.
Hypothesis PUBD : N.lxor (pub true) (pub false) <> Delta.

(** (z0, msg) of a record under a key *)
Definition rec_out (E : N -> N) (fiv : list N) (r : rrec) : Integer * Integer :=
  (bits_of_N 128 (E (j0_of (fiv ++ rr_iv r))), str_to_int (gcm_ctext E (fiv ++ rr_iv r) (rr_ctxt r))).
Definition pop_out (o : pop) : Integer * Integer :=
  match o with PClient r => rec_out Ec fivc r | PServer r | PLast r => rec_out Es fivs r end.
Definition keyed (p : prd) : Prop :=
  pf_key (pr_pc p) = ekc /\ pf_fixed (pr_pc p) = str_to_int fivc /\
  pf_key (pr_ps p) = eks /\ pf_fixed (pr_ps p) = str_to_int fivs /\ bal (pr_t p).
(** the recorded queues of the two objects match the calls to come *)
Definition fits (p : prd) K0c Kzc K0s Kzs cs ss : Prop :=
  queues_fit Delta (pr_zc p) K0c Kzc cs /\ queues_fit Delta (pr_zs p) K0s Kzs ss.
Definition good (p : prd) K0c Kzc K0s Kzs cs ss : Prop :=
  sync (pr_t p) /\ shares_good Ec fivc (pr_zc p) K0c Kzc cs /\ shares_good Es fivs (pr_zs p) K0s Kzs ss.
(** members that the record proofs leave alone *)
Definition frame (p p' : prd) : Prop :=
  pr_hs p' = pr_hs p /\ pr_cz0 p' = pr_cz0 p /\ pr_sz0 p' = pr_sz0 p /\
  pf_H (pr_pc p') = pf_H (pr_pc p) /\ pf_H (pr_ps p') = pf_H (pr_ps p).
Lemma frame_trans a b c : frame a b -> frame b c -> frame a c.
Proof. unfold frame. intuition congruence. Qed.

Lemma prove_c_step p r sec cs ss K0c Kzc K0s Kzs : keyed p -> pcall_wf (to_pcall sec r) ->
  fits p K0c Kzc K0s Kzs (to_pcall sec r :: cs) ss ->
  (prove_c enc Delta pub p r sec = Err /\ ~ good p K0c Kzc K0s Kzs (to_pcall sec r :: cs) ss) \/
  exists p' K0' Kz', prove_c enc Delta pub p r sec = Ok (p', pcall_out Ec fivc (to_pcall sec r)) /\ keyed p' /\ frame p p' /\
    fits p' K0' Kz' K0s Kzs cs ss /\
    (good p' K0' Kz' K0s Kzs cs ss <-> good p K0c Kzc K0s Kzs (to_pcall sec r :: cs) ss).
Proof.
  intros (A1 & A2 & A3 & A4 & A5) W [Qc Qs]. unfold prove_c, good.
  destruct (prove_step enc ekc Ec CIPc fivc Vc1 Vc2 Delta D0 DO pub PUB PUBD (pr_pc p) (pr_t p) (pr_zc p) K0c Kzc (to_pcall sec r) cs A1 A2 A5 W Qc)
    as [[X N]|(n1 & t' & za' & K0' & Kz' & X & B & Q & HH & S)]; cbn [to_pcall pc_ctxt pc_iv pc_sec pc_kz0 pc_kz] in X; rewrite X; cbn [bind].
  - left. split; [reflexivity|]. tauto.
  - right. eexists _, K0', Kz'. split; [now destruct (pcall_out Ec fivc (to_pcall sec r))|].
    split; [repeat split; assumption|]. split; [repeat split|]. split; [split; assumption|]. cbn. tauto.
Qed.
Lemma prove_s_step p r sec cs ss K0c Kzc K0s Kzs : keyed p -> pcall_wf (to_pcall sec r) ->
  fits p K0c Kzc K0s Kzs cs (to_pcall sec r :: ss) ->
  (prove_s enc Delta pub p r sec = Err /\ ~ good p K0c Kzc K0s Kzs cs (to_pcall sec r :: ss)) \/
  exists p' K0' Kz', prove_s enc Delta pub p r sec = Ok (p', pcall_out Es fivs (to_pcall sec r)) /\ keyed p' /\ frame p p' /\
    fits p' K0c Kzc K0' Kz' cs ss /\
    (good p' K0c Kzc K0' Kz' cs ss <-> good p K0c Kzc K0s Kzs cs (to_pcall sec r :: ss)).
Proof.
  intros (A1 & A2 & A3 & A4 & A5) W [Qc Qs]. unfold prove_s, good.
  destruct (prove_step enc eks Es CIPs fivs Vs1 Vs2 Delta D0 DO pub PUB PUBD (pr_ps p) (pr_t p) (pr_zs p) K0s Kzs (to_pcall sec r) ss A3 A4 A5 W Qs)
    as [[X N]|(n1 & t' & za' & K0' & Kz' & X & B & Q & HH & S)]; cbn [to_pcall pc_ctxt pc_iv pc_sec pc_kz0 pc_kz] in X; rewrite X; cbn [bind].
  - left. split; [reflexivity|]. tauto.
  - right. eexists _, K0', Kz'. split; [now destruct (pcall_out Es fivs (to_pcall sec r))|].
    split; [repeat split; assumption|]. split; [repeat split|]. split; [split; assumption|]. cbn. tauto.
Qed.
Lemma fit_nil za K0 Kz E fiv : queues_fit Delta za K0 Kz [] -> queues_empty za /\ shares_good E fiv za K0 Kz [].
Proof.
  intros (Q1 & Q2 & Q3 & Q4 & Q5 & Q6 & Q7 & Q8 & Q9 & Q10 & Q11 & Q12 & Q13).
  cbn [filter length] in *. apply length_zero_iff_nil in Q3, Q4, Q5, Q8, Q9, Q10, Q11. subst K0.
  inversion Q7; subst. inversion Q1 as [Z0E|]. inversion Q6 as [ZE|].
  split; [unfold queues_empty; auto 10|]. unfold shares_good. rewrite Q5, Q8, Q10, Q11. cbn. repeat split; constructor.
Qed.

Theorem pops_iff : forall os p K0c Kzc K0s Kzs, keyed p -> Forall pop_wf os -> fits p K0c Kzc K0s Kzs (pops_c os) (pops_s os) ->
  (pops_run enc Delta pub p os = Err /\ ~ good p K0c Kzc K0s Kzs (pops_c os) (pops_s os)) \/
  exists p', pops_run enc Delta pub p os = Ok (p', map pop_out os) /\ frame p p' /\
    queues_empty (pr_zc p') /\ queues_empty (pr_zs p') /\
    (sync (pr_t p') <-> good p K0c Kzc K0s Kzs (pops_c os) (pops_s os)).
Proof.
  induction os as [|o os IH]; intros p K0c Kzc K0s Kzs HK W Q.
  - right. exists p. cbn [pops_run map]. split; [reflexivity|]. split; [repeat split|]. destruct Q as [Qc Qs].
    destruct (fit_nil _ _ _ Ec fivc Qc). destruct (fit_nil _ _ _ Es fivs Qs).
    split; [assumption|]. split; [assumption|]. unfold good. cbn [pops_c pops_s]. tauto.
  - assert (Wo := Forall_inv W). assert (Wos := Forall_inv_tail W). cbn [pops_run].
    destruct o as [r|r|r]; cbn [pop_wf] in Wo; cbn [pops_c pops_s] in Q |- *.
    + cbn [pop_run]. destruct (prove_c_step p r true (pops_c os) (pops_s os) K0c Kzc K0s Kzs HK Wo Q) as [[X N]|(p1 & K0' & Kz' & X & HK1 & F1 & Q1 & G1)].
      * left. rewrite X. split; [reflexivity|exact N].
      * rewrite X. cbn [bind pcall_out to_pcall pc_sec snd fst read].
        destruct (IH p1 K0' Kz' K0s Kzs HK1 Wos Q1) as [[Y N]|(p' & Y & F2 & E1 & E2 & S)]; rewrite Y; cbn [bind].
        -- left. split; [reflexivity|]. intro G. apply N, G1, G.
        -- right. exists p'. split; [reflexivity|]. split; [eapply frame_trans; eassumption|]. split; [exact E1|]. split; [exact E2|].
           rewrite S. exact G1.
    + cbn [pop_run]. destruct (prove_s_step p r true (pops_c os) (pops_s os) K0c Kzc K0s Kzs HK Wo Q) as [[X N]|(p1 & K0' & Kz' & X & HK1 & F1 & Q1 & G1)].
      * left. rewrite X. split; [reflexivity|exact N].
      * rewrite X. cbn [bind pcall_out to_pcall pc_sec snd fst read].
        destruct (IH p1 K0c Kzc K0' Kz' HK1 Wos Q1) as [[Y N]|(p' & Y & F2 & E1 & E2 & S)]; rewrite Y; cbn [bind].
        -- left. split; [reflexivity|]. intro G. apply N, G1, G.
        -- right. exists p'. split; [reflexivity|]. split; [eapply frame_trans; eassumption|]. split; [exact E1|]. split; [exact E2|].
           rewrite S. exact G1.
    + cbn [pop_run]. destruct Wo as (W1 & W2 & W3). destruct HK as (A1 & A2 & A3 & A4 & A5).
      assert (X : exists n1, prove_aead_last enc (pr_ps p) (rr_ctxt r) (rr_iv r) =
        Ok (with_nonce (pr_ps p) n1, fst (rec_out Es fivs r), snd (rec_out Es fivs r))).
      { Local Transparent prove_aead_last. unfold prove_aead_last. Local Opaque prove_aead_last.
        destruct (pf_material_ok enc eks Es CIPs fivs Vs1 Vs2 (pr_ps p) (rr_iv r) (length (rr_ctxt r)) true A3 A4 W1 W2) as (n1 & X).
        rewrite X. cbn [bind]. exists n1. rewrite unmask_ok. reflexivity. }
      destruct X as (n1 & X). rewrite X. cbn [bind].
      set (p1 := {| pr_hs := _; pr_t := _; pr_pc := _; pr_zc := _; pr_ps := _; pr_zs := _; pr_cz0 := _; pr_sz0 := _ |}).
      assert (HK1 : keyed p1) by (repeat split; assumption).
      destruct (IH p1 K0c Kzc K0s Kzs HK1 Wos Q) as [[Y N]|(p' & Y & F2 & E1 & E2 & S)]; rewrite Y; cbn [bind].
      * left. split; [reflexivity|exact N].
      * right. exists p'. split; [reflexivity|]. split; [|split; [exact E1|split; [exact E2|exact S]]].
        eapply frame_trans; [|exact F2]. repeat split.
Qed.
Lemma after_step1 p fc fs os K0c Kzc K0s Kzs : keyed p -> pcall_wf (to_pcall false fc) -> pcall_wf (to_pcall false fs) -> Forall pop_wf os ->
  fits p K0c Kzc K0s Kzs (to_pcall false fc :: pops_c os) (to_pcall false fs :: pops_s os) ->
  let run := (let* p := step2 enc Delta pub p fc in let* p := step3 enc Delta pub p fs in pops_run enc Delta pub p os)%res in
  let G := good p K0c Kzc K0s Kzs (to_pcall false fc :: pops_c os) (to_pcall false fs :: pops_s os) in
  match handshake_check (pr_hs p) with
  | Ok s' => (run = Err /\ ~ G) \/
      exists p', run = Ok (p', map pop_out os) /\ pr_hs p' = s' /\
        pr_cz0 p' = fst (rec_out Ec fivc fc) /\ pr_sz0 p' = fst (rec_out Es fivs fs) /\
        pf_H (pr_pc p') = pf_H (pr_pc p) /\ pf_H (pr_ps p') = pf_H (pr_ps p) /\
        queues_empty (pr_zc p') /\ queues_empty (pr_zs p') /\ (sync (pr_t p') <-> G)
  | _ => forall x, run <> Ok x
  end.
Proof.
  intros HK Wc Ws W Q run G. unfold run, G, step2, step3. clear run G.
  destruct (prove_c_step p fc false (pops_c os) (to_pcall false fs :: pops_s os) K0c Kzc K0s Kzs HK Wc Q)
    as [[X N]|(p1 & K0' & Kz' & X & HK1 & F1 & Q1 & G1)]; rewrite X; cbn [bind].
  { destruct (handshake_check (pr_hs p)); [left; split; [reflexivity|exact N]|discriminate|discriminate]. }
  cbn [pcall_out to_pcall pc_sec snd fst pc_iv].
  set (p1' := {| pr_hs := _; pr_t := _; pr_pc := _; pr_zc := _; pr_ps := _; pr_zs := _; pr_cz0 := _; pr_sz0 := _ |}).
  destruct (prove_s_step p1' fs false (pops_c os) (pops_s os) K0' Kz' K0s Kzs HK1 Ws Q1)
    as [[X2 N2]|(p2 & K0'' & Kz'' & X2 & HK2 & F2 & Q2 & G2)]; rewrite X2; cbn [bind].
  { destruct (handshake_check (pr_hs p)); [left; split; [reflexivity|]|discriminate|discriminate]. intro G. apply N2. apply G1, G. }
  destruct F1 as (F1a & F1b & F1c & F1d & F1e). destruct F2 as (F2a & F2b & F2c & F2d & F2e).
  unfold p1' in F2a, F2b, F2c, F2d, F2e. cbn [pr_hs pr_cz0 pr_sz0 pr_pc pr_ps] in F2a, F2b, F2c, F2d, F2e.
  rewrite F2a, F1a. destruct (handshake_check (pr_hs p)) as [s'| |]; cbn [bind]; try discriminate.
  cbn [pcall_out to_pcall pc_sec snd fst pc_iv].
  set (p2' := {| pr_hs := _; pr_t := pr_t p2; pr_pc := _; pr_zc := _; pr_ps := _; pr_zs := _; pr_cz0 := _; pr_sz0 := _ |}).
  destruct (pops_iff os p2' K0' Kz' K0'' Kz'' HK2 W Q2) as [[Y N3]|(p' & Y & F3 & E1 & E2 & S)]; rewrite Y.
  - left. split; [reflexivity|]. intro G. apply N3. apply G2. apply G1, G.
  - right. exists p'. split; [reflexivity|]. destruct F3 as (F3a & F3b & F3c & F3d & F3e).
    unfold p2' in F3a, F3b, F3c, F3d, F3e. cbn [pr_hs pr_cz0 pr_sz0 pr_pc pr_ps] in F3a, F3b, F3c, F3d, F3e.
    split; [exact F3a|]. split; [now rewrite F3b, F2b|]. split; [exact F3c|]. split; [congruence|]. split; [congruence|].
    split; [exact E1|]. split; [exact E2|]. rewrite S. transitivity (good p1' K0' Kz' K0s Kzs (pops_c os) (to_pcall false fs :: pops_s os)).
    + exact G2.
    + exact G1.
Qed.

(** the committed share of H and the queues of one object agree with the key *)
Definition recorded (E : N -> N) (fiv : list N) (kh : Integer) (za : zaead) (K0 Kz : list Integer) (cs : list pcall) : Prop :=
  bits_of_N 128 (E 0) = bxor kh (bits_of_N 128 (p_gc_h (za_b za))) /\ shares_good E fiv za K0 Kz cs.

Theorem post_iff s t zc zs pms rc rs tc ts sh kHc kHs fc fs os s1 ms kc ksv khc khs K0c Kzc K0s Kzs :
  step1_hs s pms rc rs tc ts sh = Ok (s1, ms, (kc, ksv, str_to_int fivc, str_to_int fivs)) ->
  computeKS ks kc = Ok ekc -> computeKS ks ksv = Ok eks -> sync t ->
  Forall2 (carries Delta) (za_h zc) khc -> length khc = 128%nat -> length kHc = 128%nat ->
  Forall2 (carries Delta) (za_h zs) khs -> length khs = 128%nat -> length kHs = 128%nat ->
  pcall_wf (to_pcall false fc) -> pcall_wf (to_pcall false fs) -> Forall pop_wf os ->
  queues_fit Delta zc K0c Kzc (to_pcall false fc :: pops_c os) -> queues_fit Delta zs K0s Kzs (to_pcall false fs :: pops_s os) ->
  let run := post_record ks enc Delta pub s t zc zs pms rc rs tc ts sh kHc kHs fc fs os in
  let G := recorded Ec fivc khc zc K0c Kzc (to_pcall false fc :: pops_c os) /\
           recorded Es fivs khs zs K0s Kzs (to_pcall false fs :: pops_s os) in
  match handshake_check s1 with
  | Ok s' => (run = Err /\ ~ G) \/
      exists p', run = Ok (p', map pop_out os) /\ pr_hs p' = s' /\
        pr_cz0 p' = fst (rec_out Ec fivc fc) /\ pr_sz0 p' = fst (rec_out Es fivs fs) /\
        pf_H (pr_pc p') = bits_of_N 128 (Ec 0) /\ pf_H (pr_ps p') = bits_of_N 128 (Es 0) /\
        queues_empty (pr_zc p') /\ queues_empty (pr_zs p') /\ (sync (pr_t p') <-> G)
  | _ => forall x, run <> Ok x
  end.
Proof.
  intros HS KC KSV ST Cc Lc1 Lc2 Cs Ls1 Ls2 Wc Ws W Qc Qs run G. unfold run, G, post_record, step1. rewrite HS. cbn [bind].
  assert (B : bal t) by (unfold bal; now rewrite ST).
  destruct (proof_new_ok ks enc ekc Ec CIPc fivc Delta D0 t zc kc khc kHc KC B Lc2 Cc Lc1) as (t1 & h1 & X1 & B1 & _ & S1).
  rewrite X1. cbn [bind].
  destruct (proof_new_ok ks enc eks Es CIPs fivs Delta D0 t1 zs ksv khs kHs KSV B1 Ls2 Cs Ls1) as (t2 & h2 & X2 & B2 & _ & S2).
  rewrite X2. cbn [bind]. clear X1 X2.
  set (p := {| pr_hs := s1; pr_t := _; pr_pc := _; pr_zc := _; pr_ps := _; pr_zs := _; pr_cz0 := _; pr_sz0 := _ |}).
  assert (HK : keyed p) by (repeat split; exact B2).
  assert (Q : fits p K0c Kzc K0s Kzs (to_pcall false fc :: pops_c os) (to_pcall false fs :: pops_s os)) by (split; [exact Qc|exact Qs]).
  pose proof (after_step1 p fc fs os K0c Kzc K0s Kzs HK Wc Ws W Q) as A. cbv zeta in A. change (pr_hs p) with s1 in A.
  assert (GE : good p K0c Kzc K0s Kzs (to_pcall false fc :: pops_c os) (to_pcall false fs :: pops_s os) <->
    recorded Ec fivc khc zc K0c Kzc (to_pcall false fc :: pops_c os) /\ recorded Es fivs khs zs K0s Kzs (to_pcall false fs :: pops_s os)).
  { unfold good, recorded. change (pr_t p) with t2. rewrite S2, S1.
    change (shares_good Ec fivc (pr_zc p) K0c Kzc) with (shares_good Ec fivc zc K0c Kzc).
    change (shares_good Es fivs (pr_zs p) K0s Kzs) with (shares_good Es fivs zs K0s Kzs). tauto. }
  destruct (handshake_check s1) as [s'| |]; [|exact A|exact A].
  destruct A as [[A1 A2]|(p' & A1 & A2 & A3 & A4 & A5 & A6 & A7 & A8 & A9)].
  - left. split; [exact A1|]. now rewrite <- GE.
  - right. exists p'. rewrite GE in A9. cbn in A5, A6. auto 12.
Qed.
End P.

(** * Structure of the calls *)
Lemma prove_handshake_split s pms rc rs tc ts sh :
  prove_handshake s pms rc rs tc ts sh =
  (let* (s, ms, ks) := step1_hs s pms rc rs tc ts sh in let* s := handshake_check s in Ok (s, ms, ks))%res.
Proof.
  Local Transparent step1_hs. unfold prove_handshake, step1_hs. Local Opaque step1_hs.
  destruct (match sh with Some h => _ | None => _ end) as [[s1 ms]| |]; cbn [bind]; [|reflexivity|reflexivity].
  destruct (prove_expansion_keys s1 ms rc rs) as [[s2 k]| |]; cbn [bind]; [|reflexivity|reflexivity].
  destruct (prove_client_finished_msg s2 _ tc) as [s3| |]; cbn [bind]; [|reflexivity|reflexivity].
  destruct (prove_server_finished_msg s3 _ ts) as [s4| |]; reflexivity.
Qed.
Lemma pops_hs enc Delta pub : forall os p p' xs, pops_run enc Delta pub p os = Ok (p', xs) -> pr_hs p' = pr_hs p.
Proof.
  induction os as [|o os IH]; intros p p' xs X; cbn [pops_run] in X; [now injection X as <- <-|].
  destruct (pop_run enc Delta pub p o) as [[p1 x]| |] eqn:E1; cbn [bind] in X; try discriminate X.
  destruct (pops_run enc Delta pub p1 os) as [[p2 ys]| |] eqn:E2; cbn [bind] in X; try discriminate X.
  injection X as <- <-. rewrite (IH _ _ _ E2).
  destruct o as [r|r|r]; cbn [pop_run] in E1; unfold prove_c, prove_s in E1.
  - destruct (prove_aead _ _ _ _ _ _ _ _ _ _ _) as [[[[[? ?] ?] ?] m]| |]; cbn [bind] in E1; try discriminate E1.
    cbn [snd] in E1. destruct m; cbn [read bind] in E1; try discriminate E1. now injection E1 as <- <-.
  - destruct (prove_aead _ _ _ _ _ _ _ _ _ _ _) as [[[[[? ?] ?] ?] m]| |]; cbn [bind] in E1; try discriminate E1.
    cbn [snd] in E1. destruct m; cbn [read bind] in E1; try discriminate E1. now injection E1 as <- <-.
  - destruct (prove_aead_last _ _ _ _) as [[[? ?] ?]| |]; cbn [bind] in E1; try discriminate E1. now injection E1 as <- <-.
Qed.
Lemma post_hs ks enc Delta pub s t zc zs pms rc rs tc ts sh kHc kHs fc fs os p xs :
  post_record ks enc Delta pub s t zc zs pms rc rs tc ts sh kHc kHs fc fs os = Ok (p, xs) ->
  exists s1 ms k, step1_hs s pms rc rs tc ts sh = Ok (s1, ms, k) /\ handshake_check s1 = Ok (pr_hs p) /\
    prove_handshake s pms rc rs tc ts sh = Ok (pr_hs p, ms, k).
Proof.
  intro X. rewrite prove_handshake_split. unfold post_record, step1 in X.
  destruct (step1_hs s pms rc rs tc ts sh) as [[[s1 ms] k]| |]; cbn [bind] in X; try discriminate X.
  exists s1, ms, k. destruct k as [[[ck sk] ci] si].
  destruct (proof_new ks enc Delta t zc ck ci kHc) as [[[pc t1] zc1]| |]; cbn [bind] in X; try discriminate X.
  destruct (proof_new ks enc Delta t1 zs sk si kHs) as [[[ps t2] zs1]| |]; cbn [bind] in X; try discriminate X.
  unfold step2, prove_c in X. cbn [pr_hs pr_t pr_pc pr_zc pr_ps pr_zs pr_cz0 pr_sz0] in X.
  destruct (prove_aead _ _ _ pc _ _ _ _ _ _ _) as [[[[[? ?] ?] ?] m]| |]; cbn [bind] in X; try discriminate X.
  unfold step3, prove_s in X. cbn [pr_hs pr_t pr_pc pr_zc pr_ps pr_zs pr_cz0 pr_sz0] in X.
  destruct (prove_aead _ _ _ ps _ _ _ _ _ _ _) as [[[[[? ?] ?] ?] m2]| |]; cbn [bind] in X; try discriminate X.
  cbn [pr_hs pr_t pr_pc pr_zc pr_ps pr_zs pr_cz0 pr_sz0] in X.
  destruct (handshake_check s1) as [s'| |] eqn:HC; cbn [bind] in X; try discriminate X.
  apply pops_hs in X. cbn [pr_hs] in X. rewrite X. cbn [bind]. rewrite HC. auto.
Qed.

(** * The vectors handed to finalize_check *)
Fixpoint encp (os : list pop) : list (list N * frec) :=
  match os with [] => [] | PClient r :: os => (rr_iv r, to_frec r) :: encp os | _ :: os => encp os end.
Fixpoint decp (os : list pop) : list (list N * frec) :=
  match os with [] => [] | PClient _ :: os => decp os | PServer r :: os | PLast r :: os => (rr_iv r, to_frec r) :: decp os end.
Lemma encs_encp : forall os, encs_of os = map snd (encp os).
Proof. induction os as [|[r|r|r] os IH]; cbn [encs_of encp map snd]; congruence. Qed.
Lemma decs_decp : forall os, decs_of os = map snd (decp os).
Proof. induction os as [|[r|r|r] os IH]; cbn [decs_of decp map snd]; congruence. Qed.
Lemma enc_z0s_encp Ec Es fivc fivs : forall os, enc_z0s os (map (pop_out Ec Es fivc fivs) os) =
  map (fun r => bits_of_N 128 (Ec (j0_of (fivc ++ fst r)))) (encp os).
Proof. induction os as [|[r|r|r] os IH]; cbn [map enc_z0s encp fst]; [reflexivity| |exact IH|exact IH]. now rewrite IH. Qed.
Lemma dec_z0s_decp Ec Es fivc fivs : forall os, dec_z0s os (map (pop_out Ec Es fivc fivs) os) =
  map (fun r => bits_of_N 128 (Es (j0_of (fivs ++ fst r)))) (decp os).
Proof. induction os as [|[r|r|r] os IH]; cbn [map dec_z0s decp fst]; [reflexivity|exact IH| |]; now rewrite IH. Qed.

(** the record carries its GCM tag under the key and fixed iv of its direction *)
Definition tag_ok (E : N -> N) (fiv : list N) (r : rrec) : Prop :=
  rr_tag r = gcm_tag E (fiv ++ rr_iv r) (rr_aad r) (rr_ctxt r).
Definition pop_tag_ok (Ec Es : N -> N) (fivc fivs : list N) (o : pop) : Prop :=
  match o with PClient r => tag_ok Ec fivc r | PServer r | PLast r => tag_ok Es fivs r end.
Lemma tags_split Ec Es fivc fivs : forall os, Forall (pop_tag_ok Ec Es fivc fivs) os <->
  Forall (fun r => fr_tag (snd r) = gcm_tag Ec (fivc ++ fst r) (fr_aad (snd r)) (fr_ctxt (snd r))) (encp os) /\
  Forall (fun r => fr_tag (snd r) = gcm_tag Es (fivs ++ fst r) (fr_aad (snd r)) (fr_ctxt (snd r))) (decp os).
Proof.
  assert (FC : forall A (P : A -> Prop) x l, Forall P (x :: l) <-> P x /\ Forall P l).
  { intros. split; [intro H; split; [exact (Forall_inv H)|exact (Forall_inv_tail H)]|intros []; now constructor]. }
  induction os as [|[r|r|r] os IH]; cbn [encp decp]; [repeat split; constructor| | |];
    rewrite FC, IH, FC; cbn [pop_tag_ok fst snd]; unfold tag_ok; cbn [to_frec fr_tag fr_aad fr_ctxt]; tauto.
Qed.
Definition rrec_bytes (r : rrec) : Prop := bytes_ok (rr_aad r) /\ bytes_ok (rr_ctxt r).
Definition pop_bytes (o : pop) : Prop := match o with PClient r | PServer r | PLast r => rrec_bytes r end.
Lemma encp_bytes : forall os, Forall pop_bytes os -> Forall (fun r => rec_bytes (snd r)) (encp os) /\ Forall (fun r => rec_bytes (snd r)) (decp os).
Proof.
  induction 1 as [|[r|r|r] os H F [I1 I2]]; cbn [encp decp]; [split; constructor| | |]; split; auto; constructor; auto.
Qed.
