(** A TLS session from the shares of the premaster secret to the records: the circuit garbled and
    evaluated on labels, the records exchanged by programs that work on those labels. *)
From Coq Require Import List NArith ZArith Znumtheory Bool Arith Lia.
From Verif Require Import L_Bits L_Res L_Xor S_Sched S_Lower S_Codec S_Aes S_Gcm S_Tls S_Open.
From Verif Require S_Netlist S_Circuit P_AesNet.
From Verif Require Import M_EmpInteger M_Utils M_Bristol M_Bn M_Sym M_SymOn M_SymOff M_SymSess M_Block M_Ole2k M_Shares M_Commit M_Garble M_Handshake.
From Verif Require Import L_Group S_Ec M_Ec M_Ole M_E2f M_ExchDh M_Aead M_Exch M_View M_LabRec P_ExchDh.
From Verif Require Import D_AesKs D_AesEnc P_Gf128 P_Utils P_Shares P_Gcm P_Aead P_AeadInst P_Sched P_Exch P_ExchAead P_ExchSess.
From Verif Require Import P_Sha256Opt P_Handshake P_Session2 P_Sym P_SymTls P_SymGcm P_Labels P_Open2 P_Open3 P_LabRec.
Import ListNotations.
Local Open Scope N_scope.
Local Opaque aes_ks_file aes_enc_file aesE EK str_to_int gcm_ctext key_block ms_spec tls_opened mulBlock invBlock bytes_of_block block_of_bytes.

(** the request to the circuit that a call makes *)
Definition gcall_of (o : lcall) : gcall :=
  {| ga_srv := lc_srv o; ga_iv := in_iv (lc_in o); ga_len := in_len (lc_in o); ga_sec := in_sec (lc_in o);
     ga_enc := match lc_in o with InEnc _ _ _ _ _ => true | InDec _ _ _ _ _ _ _ => false end |}.
Lemma gcalls_wf l : Forall lcall_wf l -> Forall gcall_wf (map gcall_of l).
Proof. intro F. apply Forall_map. eapply Forall_impl; [|exact F]. intros o W. exact (wf_iv o W). Qed.

(** * What the parties saw opened *)
Lemma saw_app alice a b : saw alice (a ++ b) = saw alice a ++ saw alice b.
Proof. apply map_app. Qed.
Lemma saw_length alice a : length (saw alice a) = length a.
Proof. apply map_length. Qed.
Lemma saw_pub alice : forall L op, Forall2 S_Circuit.seen (map low_open (map (pair S_Netlist.OPub) L)) op -> saw alice op = L.
Proof.
  induction L as [|v L IH]; intros op F; inversion F as [|? o ? op' S F']; subst; [reflexivity|].
  cbn [saw map]. fold (saw alice op'). rewrite (IH _ F'). f_equal.
  destruct o as [[p g] e]. cbn in S. destruct S as [-> [-> ->]]. now destruct alice.
Qed.
Lemma saw_last alice T R op : Forall2 S_Circuit.seen (map low_open (T ++ map (pair S_Netlist.OPub) R)) op ->
  skipn (length (saw alice op) - length R) (saw alice op) = R.
Proof.
  rewrite map_app. intro F. apply Forall2_app_inv_l in F as (o1 & o2 & _ & F2 & ->).
  pose proof (saw_pub alice _ _ F2) as E. rewrite saw_app, E, app_length, Nat.add_sub, skipn_app, Nat.sub_diag, skipn_all. reflexivity.
Qed.
Lemma opened_pub Ec Es fc fs cs :
  flat_map (fun c => if ga_sec c then [] else [open_bytes (gc_ks Ec Es fc fs c)]) cs =
  map (pair S_Netlist.OPub) (flat_map (fun c => if ga_sec c then [] else [str_to_int (gc_ks Ec Es fc fs c)]) cs).
Proof.
  induction cs as [|c cs IH]; [reflexivity|]. cbn [flat_map]. rewrite map_app, <- IH. f_equal.
  destruct (ga_sec c); [reflexivity|]. cbn [map]. now rewrite open_bytes_int.
Qed.
Lemma public_count Ec Es fc fs l :
  length (flat_map (fun c => if ga_sec c then [] else [str_to_int (gc_ks Ec Es fc fs c)]) (map gcall_of l)) = public_calls l.
Proof.
  induction l as [|o l IH]; [reflexivity|]. unfold public_calls in *. cbn [map flat_map filter]. rewrite app_length, IH.
  cbn [gcall_of ga_sec]. destruct (in_sec (lc_in o)); reflexivity.
Qed.

(** * What the parties have for each call *)
Section O.
Variables kc ksv fc fs : list N.
Variables (s : cst) (A B : list N).
Definition splits (ws : list S_Netlist.wire) : Prop := low_bits B ws = bxor (low_bits A ws) (ev s ws).
Lemma owns_fit : forall l wl, Forall splits wl ->
  map (ev s) wl = flat_map (gc_sh (aesE kc) (aesE ksv) fc fs) (map gcall_of l) ->
  let opd := flat_map (fun c => if ga_sec c then [] else [str_to_int (gc_ks (aesE kc) (aesE ksv) fc fs c)]) (map gcall_of l) in
  Forall2 (fun o w => fits kc ksv fc fs o (fst w) (snd w)) l (combine (owns A l wl opd) (owns B l wl opd)) /\
  length (owns A l wl opd) = length l /\ length (owns B l wl opd) = length l.
Proof.
  induction l as [|o l IH]; intros wl AB H opd.
  - split; [constructor|split; reflexivity].
  - cbn [map flat_map gc_sh app] in H. destruct wl as [|w0 [|w1 wl]]; try discriminate. cbn [map] in H. injection H as H0 H1 H2.
    apply Forall_cons_iff in AB as [AB0 AB]. apply Forall_cons_iff in AB as [AB1 AB]. unfold splits in AB0, AB1.
    subst opd. cbn [map flat_map]. specialize (IH wl AB H2). cbv zeta in IH. destruct IH as (IF & IA & IB).
    set (R := flat_map _ (map gcall_of l)) in *.
    assert (X : forall v, (in_sec (lc_in o) = false -> v = str_to_int (gc_ks (aesE kc) (aesE ksv) fc fs (gcall_of o))) ->
      fits kc ksv fc fs o {| w_z0 := low_bits A w0; w_z := low_bits A w1; w_open := v |} {| w_z0 := low_bits B w0; w_z := low_bits B w1; w_open := v |}).
    { intros v Hv. unfold fits. cbn [w_z0 w_z w_open].
      assert (G1 : gc_ej0 (aesE kc) (aesE ksv) fc fs (gcall_of o) = aesE (okey kc ksv o) (j0_of (ofiv fc fs o ++ in_iv (lc_in o)))).
      { unfold gc_ej0, okey, ofiv, gcall_of. cbn [ga_srv ga_iv]. destruct (lc_srv o); reflexivity. }
      assert (G2 : gc_ks (aesE kc) (aesE ksv) fc fs (gcall_of o) =
        gcm_ctext (aesE (okey kc ksv o)) (ofiv fc fs o ++ in_iv (lc_in o)) (repeat 0 (in_len (lc_in o)))).
      { unfold gc_ks, okey, ofiv, gcall_of. cbn [ga_srv ga_iv ga_len]. destruct (lc_srv o); reflexivity. }
      rewrite G1 in H0. rewrite G2 in H1, Hv. rewrite AB0, AB1, H0, H1.
      assert (L0 : length w0 = 128%nat).
      { apply (f_equal (@length bool)) in H0. unfold ev in H0. rewrite map_length, bits_of_N_length in H0. exact H0. }
      assert (L1 : length w1 = (8 * in_len (lc_in o))%nat).
      { apply (f_equal (@length bool)) in H1. unfold ev in H1. rewrite map_length, P_AesNet.str_to_int_length, ctext_length, repeat_length in H1. exact H1. }
      split; [unfold low_bits; rewrite map_length; exact L0|]. split; [unfold low_bits; rewrite map_length; exact L1|].
      split; [reflexivity|]. split; [reflexivity|]. intro S. rewrite (Hv S). split; reflexivity. }
    cbn [owns gcall_of ga_sec]. destruct (in_sec (lc_in o)) eqn:Se; cbn [app].
    + cbn [combine length]. split; [constructor; [apply X; discriminate|exact IF]|]. split; f_equal; assumption.
    + cbn [combine length]. split; [constructor; [apply X; reflexivity|exact IF]|]. split; f_equal; assumption.
Qed.
End O.
Lemma pick_true : forall wa wb : list own, length wa = length wb -> map (pick true) (combine wa wb) = wa.
Proof. induction wa as [|a wa IH]; intros [|b wb] L; cbn in L; try discriminate; [reflexivity|]. cbn. f_equal. apply IH. lia. Qed.
Lemma pick_false : forall wa wb : list own, length wa = length wb -> map (pick false) (combine wa wb) = wb.
Proof. induction wa as [|a wa IH]; intros [|b wb] L; cbn in L; try discriminate; [reflexivity|]. cbn. f_equal. apply IH. lia. Qed.

(** * The session *)
Section S.
Variable gfr : N -> N -> N.
Hypothesis GFR : gfr_ok gfr.
Variable hash : list N -> list N.
Hypothesis HL : forall l, length (hash l) = DIGEST_SIZE.
Lemma labels_complete kc ksv fc fs s A B hc hs wl oa ob rc roc rs ros l : key_ok kc -> key_ok ksv -> iv_ok fc -> iv_ok fs ->
  Forall (splits s A B) (hc :: hs :: wl) ->
  map (ev s) (hc :: hs :: wl) = bits_of_N 128 (aesE kc 0) :: bits_of_N 128 (aesE ksv 0) :: flat_map (gc_sh (aesE kc) (aesE ksv) fc fs) (map gcall_of l) ->
  let opd := flat_map (fun c => if ga_sec c then [] else [str_to_int (gc_ks (aesE kc) (aesE ksv) fc fs c)]) (map gcall_of l) in
  skipn (length oa - length opd) oa = opd -> skipn (length ob - length opd) ob = opd ->
  blk rc -> rc <> 0 -> ole_rand_ok roc 1 -> ole_blk roc -> blk rs -> rs <> 0 -> ole_rand_ok ros 1 -> ole_blk ros ->
  l <> [] -> Forall lcall_wf l ->
  always_completes (l_session gfr hash true A oa (hc :: hs :: wl) rc roc rs ros l)
                   (l_session gfr hash false B ob (hc :: hs :: wl) rc roc rs ros l)
    (Ok (map (fun o => out_alice (lspec kc ksv fc fs o)) l)) (Ok (map (fun o => out_bob (lspec kc ksv fc fs o)) l)).
Proof.
  intros KC KS IC IS AB V opd Ha Hb Rc Rc0 ROc BOc Rs Rs0 ROs BOs NE W.
  cbn [map] in V. injection V as V1 V2 V3. apply Forall_cons_iff in AB as [ABc AB]. apply Forall_cons_iff in AB as [ABs AB]. unfold splits in ABc, ABs.
  assert (PC : length opd = public_calls l) by apply public_count.
  rewrite PC in Ha, Hb. unfold l_session. rewrite Ha, Hb.
  destruct (owns_fit kc ksv fc fs s A B l wl AB V3) as (F & LA & LB). fold opd in F, LA, LB.
  set (wa := owns A l wl opd) in *. set (wb := owns B l wl opd) in *. clearbody wa wb.
  assert (Lc : length (low_bits A hc) = 128%nat).
  { unfold low_bits. rewrite map_length. apply (f_equal (@length bool)) in V1. unfold ev in V1. rewrite map_length, bits_of_N_length in V1. exact V1. }
  assert (Ls : length (low_bits A hs) = 128%nat).
  { unfold low_bits. rewrite map_length. apply (f_equal (@length bool)) in V2. unfold ev in V2. rewrite map_length, bits_of_N_length in V2. exact V2. }
  rewrite ABc, ABs, V1, V2.
  destruct (conv_lnew gfr GFR kc fc (low_bits A hc) rc roc KC IC Lc Rc Rc0 ROc BOc) as (c0 & I1 & C1).
  destruct (conv_lnew gfr GFR ksv fs (low_bits A hs) rs ros KS IS Ls Rs Rs0 ROs BOs) as (s0 & I2 & C2).
  pose proof (conv_lcalls gfr GFR hash HL kc ksv fc fs KC KS IC IS l wa wb [] [] c0 s0 I1 I2 W F LA LB) as C3.
  assert (C : conv (rbind (l_new gfr true (low_bits A hc) rc roc) (fun c => rbind (l_new gfr true (low_bits A hs) rs ros) (fun s => l_calls gfr hash true c s (combine l wa))))
                   (rbind (l_new gfr false (bxor (low_bits A hc) (bits_of_N 128 (aesE kc 0))) rc roc) (fun c =>
                      rbind (l_new gfr false (bxor (low_bits A hs) (bits_of_N 128 (aesE ksv 0))) rs ros) (fun s => l_calls gfr hash false c s (combine l wb))))
                   (Ok (map (fun o => out_alice (lspec kc ksv fc fs o)) l)) (Ok (map (fun o => out_bob (lspec kc ksv fc fs o)) l))).
  { eapply conv_rbind; [exact C1|]. eapply conv_rbind; [exact C2|]. exact C3. }
  assert (D : forall alice, disciplined (rbind (l_new gfr alice (half alice (low_bits A hc) (bits_of_N 128 (aesE kc 0))) rc roc) (fun c =>
      rbind (l_new gfr alice (half alice (low_bits A hs) (bits_of_N 128 (aesE ksv 0))) rs ros) (fun s =>
        l_calls gfr hash alice c s (combine l (map (pick alice) (combine wa wb))))))).
  { intro alice. unfold disciplined. apply wp_rbind. eapply wp_mono; [|apply (wp_lnew gfr alice kc fc); try assumption; reflexivity].
    intros x d (D1 & p & -> & N1). apply wp_rbind. eapply wp_mono; [|apply (wp_lnew gfr alice ksv fs); assumption].
    intros x d2 (D2 & p2 & -> & N2). apply (wp_lcalls gfr hash kc ksv fc fs); try assumption. intro. contradiction. }
  destruct C as [n C]. eapply completes; [| |exact C].
  - pose proof (D true) as X. rewrite pick_true in X by congruence. exact X.
  - pose proof (D false) as X. rewrite pick_false in X by congruence. exact X.
Qed.

Variables (sigma aes : N -> N) (Hash : list N -> N) (fixk lab : nat -> N) (delta : N).
Hypothesis Hd : getLSB delta = true.
Theorem label_records orc' junk q rounds pa pb rc rs sh os l rdc roc rds ros : (0 <= pa < q)%Z -> (0 <= pb < q)%Z ->
  Forall byte8 rc -> Forall byte8 rs -> opt_wf sh -> Forall fin_wf os -> (rounds = true -> tls_sizes rc rs sh os) ->
  rdc < 2 ^ 128 -> rdc <> 0 -> ole_rand_ok roc 1 -> ole_blk roc -> rds < 2 ^ 128 -> rds <> 0 -> ole_rand_ok ros 1 -> ole_blk ros ->
  l <> [] -> Forall lcall_wf l ->
  let ms := ms_spec (pms_of q pa pb) rc rs sh in
  let kb := key_block ms rc rs in
  let spec := lspec (tls_client_key kb) (tls_server_key kb) (tls_client_iv kb) (tls_server_iv kb) in
  exists x s y s' n op,
    on_session honest aes_ks_file aes_enc_file q rounds (gcm_calls pa pb rc rs sh os (map gcall_of l)) cst0 = Ok (x, s) /\
    off_session orc' junk aes_ks_file aes_enc_file q rounds (map announce (gcm_calls pa pb rc rs sh os (map gcall_of l))) cst0 = Ok (y, s') /\
    two_phase sigma aes Hash fixk lab delta (lower (c_tr s')) (lower (c_tr s)) = Ok (n, op) /\
    always_completes (l_session gfr hash true (ng_w n) (saw true op) (os_sh x) rdc roc rds ros l)
                     (l_session gfr hash false (ne_w n) (saw false op) (os_sh x) rdc roc rds ros l)
      (Ok (map (fun o => out_alice (spec o)) l)) (Ok (map (fun o => out_bob (spec o)) l)).
Proof.
  intros Ha Hb Hc Hs Hh Ho Hz R1 R2 R3 R4 R5 R6 R7 R8 NE W ms kb spec.
  pose proof (gcalls_wf l W) as Wg. 
  destruct (gcm_wires orc' junk q rounds pa pb rc rs sh os (map gcall_of l) Ha Hb Hc Hs Hh Ho Wg Hz) as (x & s & _ & _ & E & _ & _ & _ & V).
  fold ms in V. fold kb in V.
  destruct (label_session sigma aes Hash fixk lab delta Hd orc' junk _ _ q rounds _ x s (gcm_sizes_ok q rounds pa pb rc rs sh os _ Ha Hb Hz Wg) E)
    as (y & s' & n & op & E' & R & S & L & _ & _).
  pose proof (gcm_openings q rounds pa pb rc rs sh os _ x s Ha Hb Hc Hs Hh Ho Wg E) as O. cbv zeta in O. fold ms in O. fold kb in O.
  rewrite opened_pub in O. rewrite O in S.
  destruct (tls_keys_ok ms rc rs) as (KC & KS & IC & IS). fold kb in KC, KS, IC, IS.
  exists x, s, y, s', n, op. split; [exact E|]. split; [exact E'|]. split; [exact R|].
  destruct (os_sh x) as [|hc [|hs wl]]; try discriminate.
  apply (labels_complete _ _ _ _ s _ _ hc hs wl (saw true op) (saw false op) rdc roc rds ros l KC KS IC IS (proj2 (Forall_forall _ _) (fun ws _ => L ws)) V); try assumption.
  - exact (saw_last true _ _ _ S).
  - exact (saw_last false _ _ _ S).
Qed.
End S.

(** * From the curve points to the records *)
Section W.
Variable gfr : N -> N -> N.
Hypothesis GFR : gfr_ok gfr.
Variable hash : list N -> list N.
Hypothesis HL : forall l, length (hash l) = DIGEST_SIZE.
Variables (sigma aes : N -> N) (Hash : list N -> N) (fixk lab : nat -> N) (delta : N).
Hypothesis Hd : getLSB delta = true.
Theorem whole_session (C : Curve) ccrh bl ra rb Delta raw ta tb sv xa ya xb yb orc' junk rounds rc rs sh os l rdc roc rds ros :
  prime (cp C) -> (cp C < 2 ^ Z.of_nat bl)%Z -> length raw = 5%nat -> Forall (fun r => length r = bl) raw ->
  let Ts := smul sv (@gen C) in let Tc := padd (smul ta (@gen C)) (smul tb gen) in
  smul ta (@gen C) <> pz ->
  coords (smul tb Ts) = Some (xa, ya) -> coords (smul ta Ts) = Some (xb, yb) -> xa <> xb ->
  Forall byte8 rc -> Forall byte8 rs -> opt_wf sh -> Forall fin_wf os -> (rounds = true -> tls_sizes rc rs sh os) ->
  rdc < 2 ^ 128 -> rdc <> 0 -> ole_rand_ok roc 1 -> ole_blk roc -> rds < 2 ^ 128 -> rds <> 0 -> ole_rand_ok ros 1 -> ole_blk ros ->
  l <> [] -> Forall lcall_wf l ->
  exists sa sb, e2f_offline ccrh (cp C) bl ra rb Delta raw = Ok (sa, sb) /\
  (((e_a sa + e_a sb) mod cp C)%Z <> 0%Z ->
   exists x y pa pb, coords (smul sv Tc) = Some (x, y) /\
     always_completes (p_pms_off_alice ccrh (cp C) bl tb Ts ra Delta raw) (p_pms_off_bob ccrh (cp C) bl ta Ts rb Delta raw)
       (Ok (Tc, pa)) (Ok (smul ta Ts, pb)) /\
     let ms := ms_spec (premaster (BN_num_bytes (cp C)) (Z.to_N x)) rc rs sh in
     let kb := key_block ms rc rs in
     let spec := lspec (tls_client_key kb) (tls_server_key kb) (tls_client_iv kb) (tls_server_iv kb) in
     exists r s r' s' n op,
      on_session honest aes_ks_file aes_enc_file (cp C) rounds (gcm_calls pa pb rc rs sh os (map gcall_of l)) cst0 = Ok (r, s) /\
      off_session orc' junk aes_ks_file aes_enc_file (cp C) rounds (map announce (gcm_calls pa pb rc rs sh os (map gcall_of l))) cst0 = Ok (r', s') /\
      two_phase sigma aes Hash fixk lab delta (lower (c_tr s')) (lower (c_tr s)) = Ok (n, op) /\
      always_completes (l_session gfr hash true (ng_w n) (saw true op) (os_sh r) rdc roc rds ros l)
                       (l_session gfr hash false (ne_w n) (saw false op) (os_sh r) rdc roc rds ros l)
        (Ok (map (fun o => out_alice (spec o)) l)) (Ok (map (fun o => out_bob (spec o)) l))).
Proof.
  intros P B L F Ts Tc NTa Ca Cb Nx Hc Hs Hh Ho Hz R1 R2 R3 R4 R5 R6 R7 R8 NE W.
  destruct (pms_sched C ccrh bl ra rb Delta raw ta tb sv xa ya xb yb P B L F NTa Ca Cb Nx) as (sa & sb & Eo & K).
  exists sa, sb. split; [exact Eo|]. intro N0. destruct (K N0) as (x & y & pa & pb & Cs & Ex & Ra & Rb & _ & AC).
  exists x, y, pa, pb. split; [exact Cs|]. split; [exact AC|].
  pose proof (label_records gfr GFR hash HL sigma aes Hash fixk lab delta Hd orc' junk (cp C) rounds pa pb rc rs sh os l rdc roc rds ros
    Ra Rb Hc Hs Hh Ho Hz R1 R2 R3 R4 R5 R6 R7 R8 NE W) as X. unfold pms_of in X. rewrite Ex in X. exact X.
Qed.
End W.
