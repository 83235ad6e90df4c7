(** A session in code order on the streaming backends. *)
From Coq Require Import List NArith ZArith Bool Arith Lia.
From Verif Require Import L_Bits L_Res L_Xor S_Sched S_Lower S_Codec S_Aes S_Gcm S_Tls S_Open.
From Verif Require S_Netlist S_Circuit.
From Verif Require Import M_EmpInteger M_Utils M_Bristol M_Bn M_Sym M_SymOn M_SymOff M_SymSess M_Block M_Ole2k M_Shares M_Commit M_Garble M_Handshake.
From Verif Require Import M_Aead M_Exch M_View M_LabRec M_GcProc M_Inter.
From Verif Require Import D_AesKs D_AesEnc P_Lower P_Garble P_GarbleFeed P_Gf128 P_Shares P_Gcm P_Aead P_AeadInst P_Sched P_Exch P_ExchAead P_ExchSess.
From Verif Require Import P_Sha256Opt P_Handshake P_Session2 P_Sym P_SymTls P_SymGcm P_Labels P_LabRec P_LabSess P_Live2 P_Inter P_Inter2.
From Verif Require P_GarbleOpt P_Stream P_GcProc P_GcProc2 P_SymVal.
Import ListNotations.
Local Open Scope N_scope.
Local Opaque aes_ks_file aes_enc_file aesE EK str_to_int gcm_ctext key_block ms_spec mulBlock invBlock bytes_of_block block_of_bytes.

Lemma lower_part tf t : part tf t -> exists p, lower tf = lower t ++ p.
Proof. intros [t2 ->]. unfold lower. rewrite rev_app_distr, map_app. eexists. reflexivity. Qed.

Section G.
Variables (sigma aes : N -> N) (Hash : list N -> N) (fixk Kc : nat -> N) (rnd : nat -> bool) (lab : nat -> N) (delta : N).
Hypothesis Hd : getLSB delta = true.
Hypothesis Bd : delta < 2 ^ 128.
Hypothesis Bs : forall x, sigma x < 2 ^ 128.
Hypothesis Ba : forall x, aes x < 2 ^ 128.
Hypothesis Bf : forall i, fixk i < 2 ^ 128.
Hypothesis Bk : forall i, Kc i < 2 ^ 128.
Hypothesis Bl : forall i, lab i < 2 ^ 128.
Variable gfr : N -> N -> N.
Hypothesis GFR : gfr_ok gfr.
Variable hash : list N -> list N.
Hypothesis HL : forall l, length (hash l) = DIGEST_SIZE.
Notation orun bs := (o_run sigma aes Hash fixk Kc rnd lab delta (o_init Kc rnd delta bs)).
Notation clean bs tr := (P_GarbleOpt.clean_run sigma aes Hash fixk Kc rnd lab delta (o_init Kc rnd delta bs) [] [] (lower tr)).
Notation gof := P_GcProc.gof.
Notation eof := P_GcProc.eof.

Theorem stream_inter bs q rounds pa pb rc rs sh os l rdc roc rds ros : (32 <= BN_num_bytes q)%nat -> (0 <= pa < q)%Z -> (0 <= pb < q)%Z ->
  Forall byte8 rc -> Forall byte8 rs -> opt_wf sh -> Forall fin_wf os -> (rounds = true -> tls_sizes rc rs sh os) ->
  rdc < 2 ^ 128 -> rdc <> 0 -> ole_rand_ok roc 1 -> ole_blk roc -> rds < 2 ^ 128 -> rds <> 0 -> ole_rand_ok ros 1 -> ole_blk ros ->
  l <> [] -> Forall lcall_wf l ->
  let ms := ms_spec (pms_of q pa pb) rc rs sh in
  let kb := key_block ms rc rs in
  let spec := lspec (tls_client_key kb) (tls_server_key kb) (tls_client_iv kb) (tls_server_iv kb) in
  let cs := map CPlain (tls_calls pa pb rc rs sh os) ++ CAead false rdc roc :: CAead true rds ros :: map CRec l in
  exists x s its,
    on_session honest aes_ks_file aes_enc_file q rounds (map on_of cs) cst0 = Ok (x, s) /\
    session_items honest aes_ks_file aes_enc_file q rounds cs = Ok its /\
    map it_call its = cs /\ lower (c_tr s) = lower [] ++ flat_map it_seg its /\
    (clean bs (c_tr s) -> exists o op, orun bs (lower (c_tr s)) = Ok (o, op) /\
      always_completes (i_gen gfr hash sigma aes Hash fixk Kc lab delta bs its) (i_eva gfr hash sigma aes Hash fixk Kc rnd lab delta bs its)
        (Ok (gof o (saw true op), map (fun o => out_alice (spec o)) l)) (Ok (eof o (saw false op), map (fun o => out_bob (spec o)) l))).
Proof.
  intros Q Ha Hb Hc Hs Hh Ho Hz R1 R2 R3 R4 R5 R6 R7 R8 NE W ms kb spec cs.
  change cs with (icalls pa pb rc rs sh os rdc rds roc ros l). clear cs. rewrite icalls_calls.
  destruct (calls_ok q rounds pa pb rc rs sh os Ha Hb Hc Hs Hh Ho Hz l W) as (x & s & E & _).
  pose proof E as E1. rewrite <- (icalls_calls pa pb rc rs sh os rdc rds roc ros) in E1.
  destruct (items_whole _ _ _ _ _ (at0 q rounds) E1) as (its & I1 & I2 & I3).
  exists x, s, its. split; [exact E|]. split; [exact I1|]. split; [exact I2|]. split; [exact I3|]. intro Cl.
  pose proof (session_sound _ _ _ _ _ _ _ E) as So. pose proof (lower_wf _ So) as Wf.
  set (init := o_init Kc rnd delta bs) in *.
  set (st := fun (p : list S_Circuit.instr) (j : ostate * M_Garble.opened) => (exists p2, lower (c_tr s) = p ++ p2) /\ orun bs p = Ok j).
  assert (H0 : P_GarbleOpt.oinv Kc rnd delta bs init [] []).
  { exists [], (P_GarbleFeed.pos_init bs). split; [constructor|]. repeat (split; [reflexivity|]). apply P_GarbleFeed.finv_init. }
  assert (PRE : forall p p2, lower (c_tr s) = p ++ p2 -> S_Circuit.wf 0 p = true /\ P_GarbleOpt.clean_run sigma aes Hash fixk Kc rnd lab delta init [] [] p /\
    exists o op, orun bs p = Ok (o, op) /\ P_GarbleOpt.oinv Kc rnd delta bs o (fst (S_Circuit.spec_run [] p)) (fold_left S_Circuit.kind_step p [])).
  { intros p p2 Ep. rewrite Ep in Wf, Cl. apply P_GcProc2.wf_app in Wf as [Wf1 _]. apply P_GcProc2.clean_app in Cl as [Cl1 _].
    destruct (P_GcProc2.stream_conv sigma aes Hash fixk Kc rnd lab delta Hd Bd Bs Ba Bf Bk Bl bs p init [] [] [] [] H0 Wf1 Cl1) as (o & op & Ro & Oi & _).
    split; [exact Wf1|]. split; [exact Cl1|]. exists o, op. auto. }
  assert (HST : forall t, part (c_tr s) t -> exists j, st (lower t) j).
  { intros t P. destruct (lower_part _ _ P) as [p2 Ep]. destruct (PRE _ _ Ep) as (_ & _ & o & op & Ro & _). exists (o, op). split; [eauto|exact Ro]. }
  assert (HB : forall c cs x1 s1 j, sets_master c -> on_session honest aes_ks_file aes_enc_file q rounds (c :: cs) cst0 = Ok (x1, s1) ->
    part (c_tr s) (c_tr s1) -> st (lower (c_tr s1)) j ->
    Forall (splits s1 (gs_w (gof (fst j) (saw true (snd j)))) (es_w (eof (fst j) (saw false (snd j))))) (os_sh x1) /\
    exists op, gs_saw (gof (fst j) (saw true (snd j))) = saw true op /\ es_saw (eof (fst j) (saw false (snd j))) = saw false op /\
      Forall2 S_Circuit.seen (map low_open (S_Netlist.openings (c_tr s1))) op).
  { intros c cs x1 s1 [o op] M E2 P [_ Ro]. destruct (lower_part _ _ P) as [p2 Ep]. destruct (PRE _ _ Ep) as (_ & Cl1 & _).
    destruct (P_Stream.stream_session sigma aes Hash fixk Kc rnd lab delta Hd Bd Bs Ba Bf Bk Bl bs _ _ q rounds c cs x1 s1 net_live_ks net_live_enc Q M E2 Cl1)
      as (o1 & op1 & Ro1 & Se & Sp & _). rewrite Ro in Ro1. injection Ro1 as <- <-. cbn [fst snd]. split; [exact Sp|]. exists op. auto. }
  assert (RC : forall p seg j j', st p j -> st (p ++ seg) j' ->
    conv (p_gen sigma aes Hash fixk Kc lab delta (gof (fst j) (saw true (snd j))) seg) (p_eva sigma aes Hash fixk Kc rnd lab delta (eof (fst j) (saw false (snd j))) seg)
      (Ok (gof (fst j') (saw true (snd j')))) (Ok (eof (fst j') (saw false (snd j'))))).
  { intros p seg [o op] [o' op'] [[p2 Ep] Ro] [[p3 Ep'] Ro']. cbn [fst snd].
    destruct (PRE _ _ Ep) as (_ & _ & o1 & op1 & Ro1 & Oi). rewrite Ro in Ro1. injection Ro1 as <- <-.
    destruct (PRE _ _ Ep') as (Wf2 & Cl2 & _). apply P_GcProc2.wf_app in Wf2 as [_ Wf2]. apply P_GcProc2.clean_app in Cl2 as [_ Cl2].
    specialize (Cl2 _ _ Ro). rewrite P_GcProc2.o_run_app, Ro in Ro'.
    assert (Wf3 : S_Circuit.wf (length (fst (S_Circuit.spec_run [] p))) seg = true) by (rewrite P_GcProc2.spec_run_len; exact Wf2).
    destruct (P_GcProc2.stream_conv sigma aes Hash fixk Kc rnd lab delta Hd Bd Bs Ba Bf Bk Bl bs seg o _ _ (saw true op) (saw false op) Oi Wf3 Cl2)
      as (o2 & op2 & Ro2 & _ & _ & C). rewrite Ro2 in Ro'. injection Ro' as <- <-. rewrite !saw_app. exact C. }
  destruct (PRE [] _ eq_refl) as (_ & _ & o0 & op0 & Ro0 & _). cbn in Ro0. injection Ro0 as <- <-.
  assert (S0 : st [] (init, [])) by (split; [exists (lower (c_tr s)); reflexivity|reflexivity]).
  destruct (HST []) as [j1 S1]; [exists (c_tr s); now rewrite app_nil_r|].
  destruct (good_session _ _ _ st (fun j => gof (fst j) (saw true (snd j))) (fun j => eof (fst j) (saw false (snd j))) gs_w es_w gs_saw es_saw
    q rounds (c_tr s) HST HB pa pb rc rs sh os Ha Hb Hc Hs Hh Ho Hz rdc rds roc ros R1 R2 R3 R4 R5 R6 R7 R8 l x s j1 W NE E eq_refl S1)
    as (its' & [o op] & I1' & G & Sf & NI).
  unfold session_items in I1'. rewrite I1 in I1'. injection I1' as <-. destruct Sf as [_ Sf]. exists o, op. split; [exact Sf|].
  destruct (tls_keys_ok ms rc rs) as (KC & KS & IC & IS). fold kb in KC, KS, IC, IS. fold ms in G. fold kb in G.
  pose proof (conv_istart gfr GFR hash HL _ _ _ st _ _ _ _ gs_w es_w gs_saw es_saw RC _ _ _ _ KC KS IC IS (init, []) j1 its l (o, op) S0 S1 G) as [n C].
  eapply completes; [| |exact C].
  - eapply (wp_istart gfr hash _ _ _ st _ _ gs_w es_w gs_saw es_saw _ _ _ _ _ gs_w gs_saw true (fun j g => gs_f g = og_f (fst j))); [|exact S0|exact S1|exact G|exact NI|reflexivity|reflexivity].
    intros p seg [u1 u2] [v1 v2] g d [_ P1] [_ P2] F D. cbn [fst] in *. rewrite P_GcProc2.o_run_app, P1 in P2.
    destruct (o_run _ _ _ _ _ _ _ _ u1 seg) as [[w1 w2]| |] eqn:Ru; try discriminate. injection P2 as <- <-.
    eapply wp_mono; [|apply (P_GcProc2.wp_gen sigma aes Hash fixk Kc rnd lab delta seg u1 w1 w2 g d Ru F D)].
    intros [g1| |] d1 [D1 H1]; (split; [exact D1|]); [exact (proj1 H1)|exact H1|exact H1].
  - eapply (wp_istart gfr hash _ _ _ st _ _ gs_w es_w gs_saw es_saw _ _ _ _ _ es_w es_saw false (fun j g => es_f g = oe_f (fst j))); [|exact S0|exact S1|exact G|exact NI|reflexivity|reflexivity].
    intros p seg [u1 u2] [v1 v2] g d [_ P1] [_ P2] F D. cbn [fst] in *. rewrite P_GcProc2.o_run_app, P1 in P2.
    destruct (o_run _ _ _ _ _ _ _ _ u1 seg) as [[w1 w2]| |] eqn:Ru; try discriminate. injection P2 as <- <-.
    eapply wp_mono; [|apply (P_GcProc2.wp_eva sigma aes Hash fixk Kc rnd lab delta seg u1 w1 w2 g d Ru F D)].
    intros [g1| |] d1 [D1 H1]; (split; [exact D1|]); [exact (proj1 H1)|contradiction|contradiction].
Qed.
End G.
