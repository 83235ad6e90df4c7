(** Sessions on the streaming backends (setup_protocol's default): the wires that become shares are
    never constants, so the shares taken from the labels are right. *)
From Coq Require Import List NArith ZArith Znumtheory Bool Arith Lia.
From Verif Require Import L_Bits L_Res L_Xor L_Group S_Sched S_Ec S_Lower S_Codec S_Aes S_Gcm S_Tls S_Open.
From Verif Require S_Netlist S_Circuit.
From Verif Require Import M_EmpInteger M_Utils M_Bristol M_Bn M_Sym M_SymOn M_SymOff M_SymSess M_Block M_Ole2k M_Shares M_Commit M_Garble M_Handshake.
From Verif Require Import M_Ec M_Ole M_E2f M_ExchDh M_Aead M_Exch M_View M_LabRec P_ExchDh.
From Verif Require Import D_AesKs D_AesEnc P_Lower P_Garble P_GarbleOpt P_Gf128 P_Shares P_Gcm P_Aead P_AeadInst P_Sched P_ExchAead P_ExchSess.
From Verif Require Import P_Sha256Opt P_Handshake P_Session2 P_Sym P_SymTls P_SymGcm P_Labels P_Open2 P_Open3 P_LabRec P_LabSess P_Live P_Live2.
Import ListNotations.
Local Open Scope N_scope.
Local Opaque aes_ks_file aes_enc_file aesE EK str_to_int gcm_ctext key_block ms_spec tls_opened mulBlock invBlock bytes_of_block block_of_bytes.

Lemma kinds_length prog : forall k w, length k = length w ->
  length (fold_left S_Circuit.kind_step prog k) = length (fst (S_Circuit.spec_run w prog)).
Proof.
  induction prog as [|c prog IH]; intros k w L; [exact L|]. cbn [fold_left S_Circuit.spec_run].
  rewrite (IH _ (S_Circuit.spec_step w c)).
  - destruct (S_Circuit.spec_run (S_Circuit.spec_step w c) prog) as [w' o]. reflexivity.
  - destruct c; cbn [S_Circuit.kind_step S_Circuit.spec_step]; rewrite ?app_length, ?repeat_length; cbn [length]; try lia; exact L.
Qed.
Lemma live_kind s w : live s w -> (low_wire w < length (fold_left S_Circuit.kind_step (lower (c_tr s)) []))%nat /\
  S_Circuit.kind (fold_left S_Circuit.kind_step (lower (c_tr s)) []) (low_wire w) = None.
Proof.
  intro H. rewrite lower_kinds, kind_wk. split; [|exact (live_wk _ _ H)].
  destruct w as [|n]; [contradiction|]. cbn [live] in H. cbn [low_wire kcons length]. unfold kl in H.
  assert (X : (N.to_nat n < length (klist (c_tr s)))%nat) by (apply nth_error_Some; rewrite H; discriminate). lia.
Qed.

Section G.
Variables (sigma aes : N -> N) (Hash : list N -> N) (fixk Kc : nat -> N) (rnd : nat -> bool) (lab : nat -> N) (delta : N).
Hypothesis Hd : getLSB delta = true.
Hypothesis Bd : delta < 2 ^ 128.
Hypothesis Bs : forall x, sigma x < 2 ^ 128.
Hypothesis Ba : forall x, aes x < 2 ^ 128.
Hypothesis Bf : forall i, fixk i < 2 ^ 128.
Hypothesis Bk : forall i, Kc i < 2 ^ 128.
Hypothesis Bl : forall i, lab i < 2 ^ 128.
Notation orun bs tr := (o_run sigma aes Hash fixk Kc rnd lab delta (o_init Kc rnd delta bs) (lower tr)).
Notation clean bs tr := (clean_run sigma aes Hash fixk Kc rnd lab delta (o_init Kc rnd delta bs) [] [] (lower tr)).
Theorem stream_session bs ks enc q rounds c cs x s : net_live ks = true -> net_live enc = true -> (32 <= BN_num_bytes q)%nat -> sets_master c ->
  on_session honest ks enc q rounds (c :: cs) cst0 = Ok (x, s) -> clean bs (c_tr s) ->
  exists o op, orun bs (c_tr s) = Ok (o, op) /\
    Forall2 S_Circuit.seen (map low_open (S_Netlist.openings (c_tr s))) op /\
    Forall (splits s (og_w o) (oe_w o)) (os_sh x) /\ o_ge o = [] /\ o_eg o = [].
Proof.
  intros NK NE Q M E Cl. pose proof (session_sound _ _ _ _ _ _ _ E) as S. pose proof (session_live honest ks enc NK NE q rounds c cs x s Q M E) as V.
  destruct (streaming_ok sigma aes Hash fixk Kc rnd lab delta Hd Bd Bs Ba Bf Bk Bl bs (lower (c_tr s)) (lower_wf _ S) Cl)
    as (o & op & R & O & _ & _ & G1 & G2 & L & K).
  exists o, op. split; [exact R|]. rewrite lower_run in O, L, K. cbn [fst snd] in O, L, K. split; [exact O|]. split; [|split; assumption].
  eapply Forall_impl; [|exact V]. intros ws F. unfold splits, low_bits, bxor, ev.
  induction F as [|w ws Hw F IH]; [reflexivity|]. cbn [map map2]. rewrite IH. f_equal.
  destruct (live_kind s w Hw) as [B N]. rewrite (kinds_length _ [] [] eq_refl), lower_run in B. cbn [fst] in B. rewrite <- L in B.
  specialize (K _ B). rewrite N in K. rewrite K, lsb_xor, lsb_sel, low_wire_val by exact Hd. reflexivity.
Qed.
Section S.
Variable gfr : N -> N -> N.
Hypothesis GFR : gfr_ok gfr.
Variable hash : list N -> list N.
Hypothesis HL : forall l, length (hash l) = DIGEST_SIZE.
Theorem stream_records bs q rounds pa pb rc rs sh os l rdc roc rds ros : (32 <= BN_num_bytes q)%nat -> (0 <= pa < q)%Z -> (0 <= pb < q)%Z ->
  Forall byte8 rc -> Forall byte8 rs -> opt_wf sh -> Forall fin_wf os -> (rounds = true -> tls_sizes rc rs sh os) ->
  rdc < 2 ^ 128 -> rdc <> 0 -> ole_rand_ok roc 1 -> ole_blk roc -> rds < 2 ^ 128 -> rds <> 0 -> ole_rand_ok ros 1 -> ole_blk ros ->
  l <> [] -> Forall lcall_wf l ->
  let ms := ms_spec (pms_of q pa pb) rc rs sh in
  let kb := key_block ms rc rs in
  let spec := lspec (tls_client_key kb) (tls_server_key kb) (tls_client_iv kb) (tls_server_iv kb) in
  exists x s, on_session honest aes_ks_file aes_enc_file q rounds (gcm_calls pa pb rc rs sh os (map gcall_of l)) cst0 = Ok (x, s) /\
  (clean bs (c_tr s) -> exists o op, orun bs (c_tr s) = Ok (o, op) /\
    always_completes (l_session gfr hash true (og_w o) (saw true op) (os_sh x) rdc roc rds ros l)
                     (l_session gfr hash false (oe_w o) (saw false op) (os_sh x) rdc roc rds ros l)
      (Ok (map (fun o => out_alice (spec o)) l)) (Ok (map (fun o => out_bob (spec o)) l))).
Proof.
  intros Q Ha Hb Hc Hs Hh Ho Hz R1 R2 R3 R4 R5 R6 R7 R8 NE W ms kb spec.
  pose proof (gcalls_wf l W) as Wg.
  destruct (gcm_wires (fun _ _ => false) (fun _ => false) q rounds pa pb rc rs sh os (map gcall_of l) Ha Hb Hc Hs Hh Ho Wg Hz) as (x & s & _ & _ & E & _ & _ & _ & V).
  fold ms in V. fold kb in V. exists x, s. split; [exact E|]. intro Cl.
  assert (FM : exists c cs, gcm_calls pa pb rc rs sh os (map gcall_of l) = c :: cs /\ sets_master c).
  { unfold gcm_calls. destruct sh; eexists; eexists; (split; [reflexivity|exact I]). }
  destruct FM as (c & cs & EC & M). pose proof E as E0. rewrite EC in E0.
  destruct (stream_session bs _ _ q rounds c cs x s net_live_ks net_live_enc Q M E0 Cl) as (o & op & R & S & L & _ & _).
  pose proof (gcm_openings q rounds pa pb rc rs sh os _ x s Ha Hb Hc Hs Hh Ho Wg E) as O. cbv zeta in O. fold ms in O. fold kb in O.
  rewrite opened_pub in O. rewrite O in S.
  destruct (tls_keys_ok ms rc rs) as (KC & KS & IC & IS). fold kb in KC, KS, IC, IS.
  exists o, op. split; [exact R|].
  destruct (os_sh x) as [|hc [|hs wl]]; try discriminate.
  apply (labels_complete gfr GFR hash HL _ _ _ _ s _ _ hc hs wl (saw true op) (saw false op) rdc roc rds ros l KC KS IC IS L V); try assumption.
  - exact (saw_last true _ _ _ S).
  - exact (saw_last false _ _ _ S).
Qed.
Theorem stream_whole (C : Curve) ccrh bl ra rb Delta raw ta tb sv xa ya xb yb bs rounds rc rs sh os l rdc roc rds ros : (32 <= BN_num_bytes (cp C))%nat ->
  prime (cp C) -> (cp C < 2 ^ Z.of_nat bl)%Z -> length raw = 5%nat -> Forall (fun r => length r = bl) raw ->
  let Ts := smul sv (@gen C) in let Tc := padd (smul ta (@gen C)) (smul tb gen) in
  smul ta (@gen C) <> pz ->
  coords (smul tb Ts) = Some (xa, ya) -> coords (smul ta Ts) = Some (xb, yb) -> xa <> xb ->
  Forall byte8 rc -> Forall byte8 rs -> opt_wf sh -> Forall fin_wf os -> (rounds = true -> tls_sizes rc rs sh os) ->
  rdc < 2 ^ 128 -> rdc <> 0 -> ole_rand_ok roc 1 -> ole_blk roc -> rds < 2 ^ 128 -> rds <> 0 -> ole_rand_ok ros 1 -> ole_blk ros ->
  l <> [] -> Forall lcall_wf l ->
  exists sa sb, e2f_offline ccrh (cp C) bl ra rb Delta raw = Ok (sa, sb) /\
  (((e_a sa + e_a sb) mod cp C)%Z <> 0%Z ->
   exists x y pa pb, coords (smul sv Tc) = Some (x, y) /\
     always_completes (p_pms_off_alice ccrh (cp C) bl tb Ts ra Delta raw) (p_pms_off_bob ccrh (cp C) bl ta Ts rb Delta raw)
       (Ok (Tc, pa)) (Ok (smul ta Ts, pb)) /\
     let ms := ms_spec (premaster (BN_num_bytes (cp C)) (Z.to_N x)) rc rs sh in
     let kb := key_block ms rc rs in
     let spec := lspec (tls_client_key kb) (tls_server_key kb) (tls_client_iv kb) (tls_server_iv kb) in
     exists r s,
      on_session honest aes_ks_file aes_enc_file (cp C) rounds (gcm_calls pa pb rc rs sh os (map gcall_of l)) cst0 = Ok (r, s) /\
      (clean bs (c_tr s) -> exists o op, orun bs (c_tr s) = Ok (o, op) /\
        always_completes (l_session gfr hash true (og_w o) (saw true op) (os_sh r) rdc roc rds ros l)
                         (l_session gfr hash false (oe_w o) (saw false op) (os_sh r) rdc roc rds ros l)
          (Ok (map (fun o => out_alice (spec o)) l)) (Ok (map (fun o => out_bob (spec o)) l)))).
Proof.
  intros Q P B L F Ts Tc NTa Ca Cb Nx Hc Hs Hh Ho Hz R1 R2 R3 R4 R5 R6 R7 R8 NE W.
  destruct (pms_sched C ccrh bl ra rb Delta raw ta tb sv xa ya xb yb P B L F NTa Ca Cb Nx) as (sa & sb & Eo & K).
  exists sa, sb. split; [exact Eo|]. intro N0. destruct (K N0) as (x & y & pa & pb & Cs & Ex & Ra & Rb & _ & AC).
  exists x, y, pa, pb. split; [exact Cs|]. split; [exact AC|].
  pose proof (stream_records bs (cp C) rounds pa pb rc rs sh os l rdc roc rds ros Q
    Ra Rb Hc Hs Hh Ho Hz R1 R2 R3 R4 R5 R6 R7 R8 NE W) as X. unfold pms_of in X. rewrite Ex in X. exact X.
Qed.
End S.
End G.
Theorem never_constant orc q rounds c cs x s : (32 <= BN_num_bytes q)%nat -> sets_master c ->
  on_session orc aes_ks_file aes_enc_file q rounds (c :: cs) cst0 = Ok (x, s) ->
  forall ws w, In ws (os_sh x) -> In w ws ->
    let k := fold_left S_Circuit.kind_step (lower (c_tr s)) [] in
    (low_wire w < length k)%nat /\ S_Circuit.kind k (low_wire w) = None.
Proof.
  intros Q M E ws w H1 H2. pose proof (session_live orc _ _ net_live_ks net_live_enc q rounds c cs x s Q M E) as V.
  rewrite Forall_forall in V. specialize (V _ H1). rewrite Forall_forall in V. exact (live_kind s w (V _ H2)).
Qed.
Definition stream_shares sigma aes Hash fixk Kc rnd lab delta Hd Bd Bs Ba Bf Bk Bl bs q rounds c cs x s :=
  stream_session sigma aes Hash fixk Kc rnd lab delta Hd Bd Bs Ba Bf Bk Bl bs aes_ks_file aes_enc_file q rounds c cs x s net_live_ks net_live_enc.
