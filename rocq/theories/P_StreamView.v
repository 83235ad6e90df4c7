(** What the streaming circuits of a whole session tell each party: C85 and C86 applied to the
    circuit of the session. *)
From Coq Require Import List NArith ZArith Bool Arith Lia.
From Verif Require Import L_Bits L_Res S_Circuit S_Lower S_GarbleView.
From Verif Require S_Netlist.
From Verif Require Import S_Codec S_Aes S_Gcm S_Tls S_Open M_EmpInteger M_Utils M_Bristol M_Bn M_Sym M_SymOn M_SymSess.
From Verif Require Import M_Block M_Shares M_Garble M_GarbleTr M_Handshake D_AesKs D_AesEnc.
From Verif Require Import P_Lower P_Garble P_GarbleOpt P_GarbleView P_GarbleView3 P_GarbleView4 P_Aead P_AeadInst P_Sha256Opt P_Handshake.
From Verif Require Import P_Sym P_SymTls P_SymGcm P_Session2 M_LabRec P_Labels P_Open2 P_Open3 P_SessView P_Det P_Live P_Live2 P_Stream.
Import ListNotations.
Local Open Scope N_scope.
Local Opaque aes_ks_file aes_enc_file aesE str_to_int gcm_ctext key_block ms_spec tls_opened.

Section V.
Variables (sigma aes : N -> N) (Hash : list N -> N) (fixk Kc : nat -> N) (rnd : nat -> bool) (lab : nat -> N) (delta : N).
Hypothesis Hd : getLSB delta = true.
Hypothesis Bd : blk delta.
Hypothesis Bs : forall x, blk (sigma x).
Hypothesis Ba : forall x, blk (aes x).
Hypothesis Bf : forall i, blk (fixk i).
Hypothesis Bk : forall i, blk (Kc i).
Hypothesis Bl : forall i, blk (lab i).
Variables (bs : nat) (ks enc : bristol) (q : Z) (rounds : bool).

Theorem stream_evaluator_session cs1 cs2 x1 s1 x2 s2 : Forall2 (alike S_Netlist.OB) cs1 cs2 ->
  on_session honest ks enc q rounds cs1 cst0 = Ok (x1, s1) -> on_session honest ks enc q rounds cs2 cst0 = Ok (x2, s2) ->
  S_Netlist.openings (c_tr s1) = S_Netlist.openings (c_tr s2) ->
  let on1 := lower (c_tr s1) in let on2 := lower (c_tr s2) in
  let s0 := o_init Kc rnd delta bs in
  clean_run sigma aes Hash fixk Kc rnd lab delta s0 [] [] on1 ->
  exists o op, o_run sigma aes Hash fixk Kc rnd lab delta s0 on1 = Ok (o, op) /\
  let l := oe_w o in let gs := live_gates 0 [] on1 in
  ((forall i, (i < length l)%nat -> kind (fold_left kind_step on1 []) i = None -> ~ special (N.lxor (lbl l i) delta)) ->
   NoDup (unknown_points sigma delta gs l) -> (forall p, In p (unknown_points sigma delta gs l) -> ~ In p (known_points sigma gs l)) ->
   let aes' p := N.lxor (aes p) (shift sigma delta gs l (fst (spec_run [] on1)) (fst (spec_run [] on2)) p) in
   exists o' op', o_run sigma aes' Hash fixk Kc rnd lab delta s0 on2 = Ok (o', op') /\
    Forall2 seen (map low_open (S_Netlist.openings (c_tr s2))) op' /\ oe_w o' = oe_w o /\ oe_f o' = oe_f o /\
    o_msgs sigma aes' Hash fixk Kc rnd lab delta s0 on2 = o_msgs sigma aes Hash fixk Kc rnd lab delta s0 on1 /\
    clean_run sigma aes' Hash fixk Kc rnd lab delta s0 [] [] on2 /\ (forall x, blk (aes' x)) /\ x2 = x1).
Proof.
  intros F E1 E2 O on1 on2 s0 Cl.
  destruct (same_inputs S_Netlist.OB ks enc q rounds cs1 cs2 x1 s1 x2 s2 ltac:(discriminate) F E1 E2 O) as (X & Sh & In_).
  assert (M : map shape on1 = map shape on2) by (apply lower_shape; exact Sh).
  assert (W : wf 0 on1 = true) by (apply lower_wf; exact (session_sound _ _ _ _ _ _ _ E1)).
  assert (T : told BOB (snd (spec_run [] on1)) = told BOB (snd (spec_run [] on2))) by (unfold on1, on2; rewrite !lower_run; cbn [snd]; now rewrite O).
  destruct (streaming_ok sigma aes Hash fixk Kc rnd lab delta Hd Bd Bs Ba Bf Bk Bl bs on1 W Cl) as (o & op & R & _).
  exists o, op. split; [exact R|]. intros l gs Sp N1 N2 aes'.
  destruct (streaming_evaluator_view sigma aes Hash fixk Kc rnd lab delta Hd Bd Bs Ba Bf Bk Bl bs on1 on2 M In_ W T Cl o op R Sp N1 N2)
    as (o' & op' & P1 & P2 & P3 & P4 & P5 & P6 & P7).
  exists o', op'. unfold on2 in P2. rewrite lower_run in P2. repeat (split; [assumption|]). now rewrite X.
Qed.
Theorem stream_garbler_session cs1 cs2 x1 s1 x2 s2 : Forall2 (alike S_Netlist.OA) cs1 cs2 ->
  on_session honest ks enc q rounds cs1 cst0 = Ok (x1, s1) -> on_session honest ks enc q rounds cs2 cst0 = Ok (x2, s2) ->
  S_Netlist.openings (c_tr s1) = S_Netlist.openings (c_tr s2) ->
  let on1 := lower (c_tr s1) in let on2 := lower (c_tr s2) in
  let rnd' m := xorb (rnd m) (xorb (nth m (buffered_inputs bs on1) false) (nth m (buffered_inputs bs on2) false)) in
  let s0 := o_init Kc rnd delta bs in let s0' := o_init Kc rnd' delta bs in
  clean_run sigma aes Hash fixk Kc rnd lab delta s0 [] [] on1 -> clean_run sigma aes Hash fixk Kc rnd' lab delta s0' [] [] on2 ->
  exists o op o' op', o_run sigma aes Hash fixk Kc rnd lab delta s0 on1 = Ok (o, op) /\ o_run sigma aes Hash fixk Kc rnd' lab delta s0' on2 = Ok (o', op') /\
    og_w o' = og_w o /\ og_f o' = og_f o /\
    o_msgs sigma aes Hash fixk Kc rnd' lab delta s0' on2 = o_msgs sigma aes Hash fixk Kc rnd lab delta s0 on1 /\ x2 = x1.
Proof.
  intros F E1 E2 O on1 on2 rnd' s0 s0' Cl Cl'.
  destruct (same_inputs S_Netlist.OA ks enc q rounds cs1 cs2 x1 s1 x2 s2 ltac:(discriminate) F E1 E2 O) as (X & Sh & In_).
  assert (M : map shape on1 = map shape on2) by (apply lower_shape; exact Sh).
  assert (W : wf 0 on1 = true) by (apply lower_wf; exact (session_sound _ _ _ _ _ _ _ E1)).
  assert (T : told ALICE (snd (spec_run [] on1)) = told ALICE (snd (spec_run [] on2))) by (unfold on1, on2; rewrite !lower_run; cbn [snd]; now rewrite O).
  destruct (streaming_garbler_view sigma aes Hash fixk Kc rnd lab delta Hd Bd Bs Ba Bf Bk Bl bs on1 on2 M In_ W T Cl Cl') as (o & op & o' & op' & P1 & P2 & P3 & P4 & P5).
  exists o, op, o', op'. repeat (split; [assumption|]). now rewrite X.
Qed.
End V.

(** ** The TLS session *)
Lemma tls_alike p pa pb pa' pb' rc rs sh os cs : (p = S_Netlist.OA -> pa = pa') -> (p = S_Netlist.OB -> pb = pb') ->
  Forall2 (alike p) (gcm_calls pa pb rc rs sh os cs) (gcm_calls pa' pb' rc rs sh os cs).
Proof.
  intros Ha Hb. assert (R : forall l, (forall c, In c l -> alike p c c) -> Forall2 (alike p) l l).
  { induction l as [|c l IH]; intro H; constructor; [apply H; now left|apply IH; intros; apply H; now right]. }
  assert (K : forall c, alike p c c) by (intros []; cbn [alike]; auto).
  unfold gcm_calls, tls_calls. apply Forall2_app; [|apply R; auto]. cbn [app]. constructor; [|apply R; auto].
  destruct sh; cbn [alike]; auto.
Qed.
Section T.
Variables (sigma aes : N -> N) (Hash : list N -> N) (fixk Kc : nat -> N) (rnd : nat -> bool) (lab : nat -> N) (delta : N).
Hypothesis Hd : getLSB delta = true.
Hypothesis Bd : blk delta.
Hypothesis Bs : forall x, blk (sigma x).
Hypothesis Ba : forall x, blk (aes x).
Hypothesis Bf : forall i, blk (fixk i).
Hypothesis Bk : forall i, blk (Kc i).
Hypothesis Bl : forall i, blk (lab i).
Variables (bs : nat) (q : Z) (rounds : bool) (pa pb : Z) (rc rs : list N) (sh : option (list N)) (os : list fin_op) (cs : list gcall).
Hypothesis Hq : (32 <= BN_num_bytes q)%nat.
Hypothesis Ha : (0 <= pa < q)%Z.
Hypothesis Hb : (0 <= pb < q)%Z.
Hypothesis Hc : Forall byte8 rc.
Hypothesis Hs : Forall byte8 rs.
Hypothesis Hh : opt_wf sh.
Hypothesis Ho : Forall fin_wf os.
Hypothesis Hg : Forall gcall_wf cs.

Theorem stream_evaluator_tls pa' : (0 <= pa' < q)%Z -> session_opened q rounds pa pb rc rs sh os cs = session_opened q rounds pa' pb rc rs sh os cs ->
  exists x s1 s2,
  on_session honest aes_ks_file aes_enc_file q rounds (gcm_calls pa pb rc rs sh os cs) cst0 = Ok (x, s1) /\
  on_session honest aes_ks_file aes_enc_file q rounds (gcm_calls pa' pb rc rs sh os cs) cst0 = Ok (x, s2) /\
  let on1 := lower (c_tr s1) in let on2 := lower (c_tr s2) in
  let s0 := o_init Kc rnd delta bs in
  (clean_run sigma aes Hash fixk Kc rnd lab delta s0 [] [] on1 ->
   exists o op, o_run sigma aes Hash fixk Kc rnd lab delta s0 on1 = Ok (o, op) /\
   let l := oe_w o in let gs := live_gates 0 [] on1 in
   ((forall i, (i < length l)%nat -> kind (fold_left kind_step on1 []) i = None -> ~ special (N.lxor (lbl l i) delta)) ->
    NoDup (unknown_points sigma delta gs l) -> (forall p, In p (unknown_points sigma delta gs l) -> ~ In p (known_points sigma gs l)) ->
    let aes' p := N.lxor (aes p) (shift sigma delta gs l (fst (spec_run [] on1)) (fst (spec_run [] on2)) p) in
    exists o' op', o_run sigma aes' Hash fixk Kc rnd lab delta s0 on2 = Ok (o', op') /\
     oe_w o' = oe_w o /\ oe_f o' = oe_f o /\
     Forall (fun ws => low_bits (oe_w o) ws = bxor (low_bits (og_w o') ws) (ev s2 ws)) (os_sh x) /\
     o_msgs sigma aes' Hash fixk Kc rnd lab delta s0 on2 = o_msgs sigma aes Hash fixk Kc rnd lab delta s0 on1)).
Proof.
  intros Ha' HO.
  destruct (gcm_opened q rounds pa pb rc rs sh os cs Ha Hb Hc Hs Hh Ho Hg) as (x1 & s1 & E1 & O1).
  destruct (gcm_opened q rounds pa' pb rc rs sh os cs Ha' Hb Hc Hs Hh Ho Hg) as (x2 & s2 & E2 & O2).
  assert (O : S_Netlist.openings (c_tr s1) = S_Netlist.openings (c_tr s2)) by (rewrite O1, O2; exact HO).
  assert (A : Forall2 (alike S_Netlist.OB) (gcm_calls pa pb rc rs sh os cs) (gcm_calls pa' pb rc rs sh os cs)) by (apply tls_alike; [discriminate|reflexivity]).
  destruct (same_inputs S_Netlist.OB _ _ q rounds _ _ x1 s1 x2 s2 ltac:(discriminate) A E1 E2 O) as (<- & _).
  exists x1, s1, s2. split; [exact E1|]. split; [exact E2|]. intros on1 on2 s0 Cl.
  destruct (stream_evaluator_session sigma aes Hash fixk Kc rnd lab delta Hd Bd Bs Ba Bf Bk Bl bs _ _ q rounds _ _ x1 s1 x1 s2 A E1 E2 O Cl) as (o & op & R & K).
  exists o, op. split; [exact R|]. intros l gs Sp N1 N2 aes'.
  destruct (K Sp N1 N2) as (o' & op' & P1 & _ & P3 & P4 & P5 & P6 & P7 & _). exists o', op'.
  split; [exact P1|]. split; [exact P3|]. split; [exact P4|]. split; [|exact P5].
  assert (FM : exists c l, gcm_calls pa' pb rc rs sh os cs = c :: l /\ sets_master c).
  { unfold gcm_calls. destruct sh; eexists; eexists; (split; [reflexivity|exact I]). }
  destruct FM as (c & cl & EC & Mc). rewrite EC in E2.
  destruct (stream_session sigma aes' Hash fixk Kc rnd lab delta Hd Bd Bs P7 Bf Bk Bl bs _ _ q rounds c cl x1 s2 net_live_ks net_live_enc Hq Mc E2 P6) as (o2 & op2 & R2 & _ & L2 & _).
  pose proof (eq_trans (eq_sym P1) R2) as X. injection X as <- _. rewrite P3 in L2. exact L2.
Qed.
Theorem stream_garbler_tls pb' : (0 <= pb' < q)%Z -> session_opened q rounds pa pb rc rs sh os cs = session_opened q rounds pa pb' rc rs sh os cs ->
  exists x s1 s2,
  on_session honest aes_ks_file aes_enc_file q rounds (gcm_calls pa pb rc rs sh os cs) cst0 = Ok (x, s1) /\
  on_session honest aes_ks_file aes_enc_file q rounds (gcm_calls pa pb' rc rs sh os cs) cst0 = Ok (x, s2) /\
  let on1 := lower (c_tr s1) in let on2 := lower (c_tr s2) in
  let rnd' m := xorb (rnd m) (xorb (nth m (buffered_inputs bs on1) false) (nth m (buffered_inputs bs on2) false)) in
  let s0 := o_init Kc rnd delta bs in let s0' := o_init Kc rnd' delta bs in
  (clean_run sigma aes Hash fixk Kc rnd lab delta s0 [] [] on1 -> clean_run sigma aes Hash fixk Kc rnd' lab delta s0' [] [] on2 ->
   exists o op o' op', o_run sigma aes Hash fixk Kc rnd lab delta s0 on1 = Ok (o, op) /\ o_run sigma aes Hash fixk Kc rnd' lab delta s0' on2 = Ok (o', op') /\
    og_w o' = og_w o /\ og_f o' = og_f o /\
    Forall (fun ws => low_bits (oe_w o') ws = bxor (low_bits (og_w o) ws) (ev s2 ws)) (os_sh x) /\
    o_msgs sigma aes Hash fixk Kc rnd' lab delta s0' on2 = o_msgs sigma aes Hash fixk Kc rnd lab delta s0 on1).
Proof.
  intros Hb' HO.
  destruct (gcm_opened q rounds pa pb rc rs sh os cs Ha Hb Hc Hs Hh Ho Hg) as (x1 & s1 & E1 & O1).
  destruct (gcm_opened q rounds pa pb' rc rs sh os cs Ha Hb' Hc Hs Hh Ho Hg) as (x2 & s2 & E2 & O2).
  assert (O : S_Netlist.openings (c_tr s1) = S_Netlist.openings (c_tr s2)) by (rewrite O1, O2; exact HO).
  assert (A : Forall2 (alike S_Netlist.OA) (gcm_calls pa pb rc rs sh os cs) (gcm_calls pa pb' rc rs sh os cs)) by (apply tls_alike; [reflexivity|discriminate]).
  destruct (same_inputs S_Netlist.OA _ _ q rounds _ _ x1 s1 x2 s2 ltac:(discriminate) A E1 E2 O) as (<- & _).
  exists x1, s1, s2. split; [exact E1|]. split; [exact E2|]. intros on1 on2 rnd' s0 s0' Cl Cl'.
  destruct (stream_garbler_session sigma aes Hash fixk Kc rnd lab delta Hd Bd Bs Ba Bf Bk Bl bs _ _ q rounds _ _ x1 s1 x1 s2 A E1 E2 O Cl Cl') as (o & op & o' & op' & P1 & P2 & P3 & P4 & P5 & _).
  exists o, op, o', op'. split; [exact P1|]. split; [exact P2|]. split; [exact P3|]. split; [exact P4|]. split; [|exact P5].
  assert (FM : exists c l, gcm_calls pa pb' rc rs sh os cs = c :: l /\ sets_master c).
  { unfold gcm_calls. destruct sh; eexists; eexists; (split; [reflexivity|exact I]). }
  destruct FM as (c & cl & EC & Mc). rewrite EC in E2.
  destruct (stream_session sigma aes Hash fixk Kc rnd' lab delta Hd Bd Bs Ba Bf Bk Bl bs _ _ q rounds c cl x1 s2 net_live_ks net_live_enc Hq Mc E2 Cl') as (o2 & op2 & R2 & _ & L2 & _).
  pose proof (eq_trans (eq_sym P2) R2) as X. injection X as <- _. rewrite P3 in L2. exact L2.
Qed.
End T.
