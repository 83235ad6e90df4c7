(** The whole run, from the curve points to the last record, each party on its own data. *)
From Coq Require Import List NArith ZArith Bool Arith Lia Znumtheory.
From Verif Require Import L_Bits L_Res S_Sched S_Lower S_Codec S_Aes S_Gcm S_Tls L_Group S_Ec.
From Verif Require Import M_EmpInteger M_Utils M_Bristol M_Bn M_Ec M_E2f M_Sym M_SymOn M_SymOff M_SymSess M_Causal M_Block M_Ole2k M_Shares M_Commit M_Garble M_Handshake.
From Verif Require Import M_Aead M_Exch M_ExchDh M_View M_LabRec M_GcProc M_Inter M_Live M_Whole.
From Verif Require Import D_AesKs D_AesEnc P_Gf128 P_Aead P_AeadInst P_Sched P_Exch P_ExchDh P_ExchAead P_ExchSess.
From Verif Require Import P_Sha256Opt P_Handshake P_Session2 P_Sym P_SymTls P_SymGcm P_LabRec P_LabSess P_Inter2.
From Verif Require P_GcProc3.
From Verif Require Import P_LiveItems P_LiveStream P_LiveOwn P_WholeDh P_WholeTwo.
Import ListNotations.
Local Open Scope N_scope.
Local Opaque aes_ks_file aes_enc_file aesE str_to_int gcm_ctext key_block ms_spec.

Lemma own_shares pa pb rc rs sh os rdc rds roc ros l :
  map (own_icall true) (icalls pa pb rc rs sh os rdc rds roc ros l) = map (own_icall true) (icalls pa 0 rc rs sh os rdc rds roc ros l) /\
  map (own_icall false) (icalls pa pb rc rs sh os rdc rds roc ros l) = map (own_icall false) (icalls 0 pb rc rs sh os rdc rds roc ros l).
Proof. unfold icalls, tls_calls. destruct sh; split; reflexivity. Qed.

(** the flags, for any bytes received *)
Lemma whole_wp (sigma aes : N -> N) (Hash : list N -> N) (fixk lab : nat -> N) (delta : N) :
  getLSB delta = true -> delta < 2 ^ 128 -> (forall i, lab i < 2 ^ 128) ->
  forall gfr, gfr_ok gfr -> forall hash, (forall l, length (hash l) = DIGEST_SIZE) ->
  forall (C : Curve) ccrh bl ra rb Delta raw ta tb (Ts : pt C) orc' junk rounds rc rs sh os l rdc roc rds ros y s' g e,
  P_Ole.bound1000 (cp C) -> length raw = 5%nat -> (0 < cp C)%Z ->
  Forall byte8 rc -> Forall byte8 rs -> opt_wf sh -> Forall fin_wf os -> (rounds = true -> tls_sizes rc rs sh os) ->
  rdc < 2 ^ 128 -> rdc <> 0 -> ole_rand_ok roc 1 -> ole_blk roc -> rds < 2 ^ 128 -> rds <> 0 -> ole_rand_ok ros 1 -> ole_blk ros ->
  l <> [] -> Forall lcall_wf l ->
  let ic := fun a b => icalls a b rc rs sh os rdc rds roc ros l in
  off_session orc' junk aes_ks_file aes_enc_file (cp C) rounds (map announce (map on_of (ic 0%Z 0%Z))) cst0 = Ok (y, s') ->
  f_run sigma aes fixk lab delta f_init_g f_init_e [] (lower (c_tr s')) = Ok (g, e, []) ->
  disciplined (w_alice ccrh (cp C) bl aes_ks_file aes_enc_file rounds gfr hash sigma aes Hash fixk lab delta (fun p => map (own_icall true) (ic p 0%Z)) (lower (c_tr s')) tb Ts ra Delta raw) /\
  disciplined (w_bob ccrh (cp C) bl aes_ks_file aes_enc_file rounds gfr hash sigma aes Hash fixk lab delta (fun p => map (own_icall false) (ic 0%Z p)) (lower (c_tr s')) ta Ts rb Delta raw) /\
  forall pa pb, (0 <= pa < cp C)%Z -> (0 <= pb < cp C)%Z ->
    let kb := key_block (ms_spec (pms_of (cp C) pa pb) rc rs sh) rc rs in
    let spec := lspec (tls_client_key kb) (tls_server_key kb) (tls_client_iv kb) (tls_server_iv kb) in
    exists x s n op,
    on_session honest aes_ks_file aes_enc_file (cp C) rounds (map on_of (ic pa pb)) cst0 = Ok (x, s) /\
    two_phase sigma aes Hash fixk lab delta (lower (c_tr s')) (lower (c_tr s)) = Ok (n, op) /\
    conv (l_start aes_ks_file aes_enc_file (cp C) rounds (map (own_icall true) (ic pa 0%Z)) ngen (p_ngen_step Hash fixk lab delta (fg_out g)) ngs_saw gfr hash ngs_w true ng0)
         (l_start aes_ks_file aes_enc_file (cp C) rounds (map (own_icall false) (ic 0%Z pb)) neva (p_neva_step sigma aes Hash fixk lab delta (fe_GC e) (fe_pub e)) nes_saw gfr hash nes_w false ne0)
      (Ok (P_GcProc3.ngof n (saw true op), length (lower (c_tr s)), map (fun o => out_alice (spec o)) l))
      (Ok (P_GcProc3.neof n (saw false op), length (lower (c_tr s)), map (fun o => out_bob (spec o)) l)).
Proof.
  intros Hd Bd Bl gfr GFR hash HL C ccrh bl ra rb Delta raw ta tb Ts orc' junk rounds rc rs sh os l rdc roc rds ros y s' g e
    Bq L Qp Hc Hs Hh Ho Hz R1 R2 R3 R4 R5 R6 R7 R8 NE W ic Eoff Ef.
  assert (Q0 : (0 <= 0 < cp C)%Z) by lia.
  assert (SZ : forall z w, (0 <= z < cp C)%Z -> (0 <= w < cp C)%Z -> Forall (sizes_ok (cp C) rounds) (map on_of (ic z w))).
  { intros z w Hz' Hw'. apply (szs (cp C) rounds z w rc rs sh os); assumption. }
  assert (OwA : forall z w, map (own_icall true) (ic z w) = map (own_icall true) (map (own_icall true) (ic z 0%Z))).
  { intros z w. unfold ic. rewrite (proj1 (own_shares z w rc rs sh os rdc rds roc ros l)). apply (own_calls true (cp C) rounds). }
  assert (OwB : forall z w, map (own_icall false) (ic z w) = map (own_icall false) (map (own_icall false) (ic 0%Z w))).
  { intros z w. unfold ic. rewrite (proj2 (own_shares z w rc rs sh os rdc rds roc ros l)). apply (own_calls false (cp C) rounds). }
  assert (Co := fun z w Hz' Hw' => core sigma aes Hash fixk lab delta Hd Bd Bl gfr GFR hash HL (cp C) rounds rc rs sh os Hc Hs Hh Ho Hz rdc rds roc ros
    R1 R2 R3 R4 R5 R6 R7 R8 l NE W orc' junk y s' g e z w _ _ Hz' Hw' Eoff Ef (OwA z w) (OwB z w)
    (proj2 (own_calls true (cp C) rounds _) (SZ z 0%Z Hz' Q0)) (proj2 (own_calls false (cp C) rounds _) (SZ 0%Z w Q0 Hw'))).
  cbv zeta in Co.
  split; [|split].
  - unfold disciplined, w_alice. apply wp_rbind. eapply wp_mono; [|eapply P_GcProc3.wp_fgen; [exact Ef|reflexivity]]. intros r d [D ->].
    apply wp_rbind, (wp_offline_send ccrh (cp C) Bq); [exact L|exact D|]. intros [u| |]; [|reflexivity|reflexivity].
    apply wp_rbind. unfold p_client_VB. cbn [wp]. split; [reflexivity|]. intros bs _. cbn [fset snd].
    destruct (compute_client_VB tb Ts bs) as [[[[Tc' Vb] Ta] rest]| |]; cbn [bind]; [|reflexivity|reflexivity].
    apply wp_rbind, (wp_pms_online (cp C) Bq); [right; reflexivity|]. intros [[T' z]| |] Rz; [|reflexivity|reflexivity].
    specialize (Rz T' z eq_refl). destruct (Co z 0%Z Rz Q0) as (_ & _ & _ & _ & _ & _ & _ & X & _). eapply wp_mono; [|apply X; reflexivity]. intros r0 d0 [H0 _]. exact H0.
  - unfold disciplined, w_bob. apply wp_rbind. eapply wp_mono; [|eapply (P_GcProc3.wp_feva sigma aes fixk lab delta (lower (c_tr s')) _ _ _ _ _ _ f_init_e); [exact Ef|reflexivity..]].
    intros r d (D & e2 & -> & L1 & L2).
    apply wp_rbind, (wp_offline_dirty ccrh (cp C)); [exact D|exact L| |].
    + intros [o| |] d' D' X ->; [now destruct (X o)|reflexivity|reflexivity].
    + intros u d' D'. apply wp_rbind. unfold p_primus_VA. destruct (compute_primus_VA ta Ts) as [[bytes Va] t0]. cbn [wp fset snd].
      apply wp_rbind, (wp_pms_online (cp C) Bq); [left; split; [reflexivity|exact D']|]. intros [[T' z]| |] Rz; [|reflexivity|reflexivity].
      specialize (Rz T' z eq_refl). destruct (Co 0%Z z Q0 Rz) as (_ & _ & _ & _ & _ & _ & _ & _ & X). eapply wp_mono; [|apply X; [reflexivity|exact L1|exact L2]]. intros r0 d0 [H0 _]. exact H0.
  - intros pa pb Ra Rb. destruct (Co pa pb Ra Rb) as (x & s & n & op & E & T & Cv & _ & _). exists x, s, n, op. auto.
Qed.

Theorem whole_two (sigma aes : N -> N) (Hash : list N -> N) (fixk lab : nat -> N) (delta : N) :
  getLSB delta = true -> delta < 2 ^ 128 -> (forall x, sigma x < 2 ^ 128) -> (forall x, aes x < 2 ^ 128) ->
  (forall i, fixk i < 2 ^ 128) -> (forall i, lab i < 2 ^ 128) ->
  forall gfr, gfr_ok gfr -> forall hash, (forall l, length (hash l) = DIGEST_SIZE) ->
  forall (C : Curve) ccrh bl ra rb Delta raw ta tb sv xa ya xb yb orc' junk rounds rc rs sh os l rdc roc rds ros,
  prime (cp C) -> (cp C < 2 ^ Z.of_nat bl)%Z -> length raw = 5%nat -> Forall (fun r => length r = bl) raw ->
  let Ts := smul sv (@gen C) in let Tc := padd (smul ta (@gen C)) (smul tb gen) in
  smul ta (@gen C) <> pz ->
  coords (smul tb Ts) = Some (xa, ya) -> coords (smul ta Ts) = Some (xb, yb) -> xa <> xb ->
  Forall byte8 rc -> Forall byte8 rs -> opt_wf sh -> Forall fin_wf os -> (rounds = true -> tls_sizes rc rs sh os) ->
  rdc < 2 ^ 128 -> rdc <> 0 -> ole_rand_ok roc 1 -> ole_blk roc -> rds < 2 ^ 128 -> rds <> 0 -> ole_rand_ok ros 1 -> ole_blk ros ->
  l <> [] -> Forall lcall_wf l ->
  let cs := fun a b => map CPlain (tls_calls a b rc rs sh os) ++ CAead false rdc roc :: CAead true rds ros :: map CRec l in
  exists sa sb y s',
    e2f_offline ccrh (cp C) bl ra rb Delta raw = Ok (sa, sb) /\
    off_session orc' junk aes_ks_file aes_enc_file (cp C) rounds (map announce (map on_of (cs 0%Z 0%Z))) cst0 = Ok (y, s') /\
    (((e_a sa + e_a sb) mod cp C)%Z <> 0%Z ->
     exists x0 y0, coords (smul sv Tc) = Some (x0, y0) /\
     let ms := ms_spec (premaster (BN_num_bytes (cp C)) (Z.to_N x0)) rc rs sh in
     let kb := key_block ms rc rs in
     let spec := lspec (tls_client_key kb) (tls_server_key kb) (tls_client_iv kb) (tls_server_iv kb) in
     exists pa pb x s n op,
       (0 <= pa < cp C)%Z /\ (0 <= pb < cp C)%Z /\ ((pa + pb) mod cp C)%Z = x0 /\
       on_session honest aes_ks_file aes_enc_file (cp C) rounds (map on_of (cs pa pb)) cst0 = Ok (x, s) /\
       two_phase sigma aes Hash fixk lab delta (lower (c_tr s')) (lower (c_tr s)) = Ok (n, op) /\
       always_completes
         (w_alice ccrh (cp C) bl aes_ks_file aes_enc_file rounds gfr hash sigma aes Hash fixk lab delta (fun p => map (own_icall true) (cs p 0%Z)) (lower (c_tr s')) tb Ts ra Delta raw)
         (w_bob ccrh (cp C) bl aes_ks_file aes_enc_file rounds gfr hash sigma aes Hash fixk lab delta (fun p => map (own_icall false) (cs 0%Z p)) (lower (c_tr s')) ta Ts rb Delta raw)
         (Ok (mkNG (ng_w n) (ng_gid n) (ng_prg n) (saw true op), length (lower (c_tr s)), map (fun o => out_alice (spec o)) l))
         (Ok (mkNE (ne_w n) (ne_gid n) (ne_cnt n) (ng_prg n) (saw false op), length (lower (c_tr s)), map (fun o => out_bob (spec o)) l))).
Proof.
  intros Hd Bd Bs Ba Bf Bl gfr GFR hash HL C ccrh bl ra rb Delta raw ta tb sv xa ya xb yb orc' junk rounds rc rs sh os l rdc roc rds ros
    P B L F Ts Tc NTa Ca Cb Nx Hc Hs Hh Ho Hz R1 R2 R3 R4 R5 R6 R7 R8 NE W cs.
  destruct (pms_conv C ccrh bl ra rb Delta raw ta tb sv xa ya xb yb P B L F NTa Ca Cb Nx) as (Bq & sa & sb & Eo & K1 & K2 & K3).
  fold Ts in K2, K3. fold Tc in K2, K3.
  assert (Qp : (0 < cp C)%Z) by (pose proof (prime_ge_2 _ P); lia).
  change cs with (fun a b => icalls a b rc rs sh os rdc rds roc ros l). cbv beta.
  destruct (off_ok sigma aes Hash fixk lab delta Bd Bs Ba Bf Bl (cp C) rounds rc rs sh os Hc Hs Hh Ho Hz rdc rds roc ros l W orc' junk Qp) as (y & s' & g & e & Eoff & Ef & CF).
  exists sa, sb, y, s'. split; [exact Eo|]. split; [exact Eoff|]. intro N0.
  destruct (K3 N0) as (x0 & y0 & pa & pb & Cs & Ex & Ra & Rb & K4).
  exists x0, y0. split; [exact Cs|]. intros ms kb spec. exists pa, pb.
  destruct (whole_wp sigma aes Hash fixk lab delta Hd Bd Bl gfr GFR hash HL C ccrh bl ra rb Delta raw ta tb Ts orc' junk rounds rc rs sh os l rdc roc rds ros y s' g e
    Bq L Qp Hc Hs Hh Ho Hz R1 R2 R3 R4 R5 R6 R7 R8 NE W Eoff Ef) as (DA & DB & Co).
  destruct (Co pa pb Ra Rb) as (x & s & n & op & E & T & Cv).
  exists x, s, n, op. split; [exact Ra|]. split; [exact Rb|]. split; [exact Ex|]. split; [exact E|]. split; [exact T|].
  unfold pms_of in Cv. rewrite Ex in Cv. fold ms in Cv. fold kb in Cv. fold spec in Cv.
  match goal with |- always_completes ?p ?q ?a ?b => assert (V : conv p q a b) end.
  { unfold w_alice, w_bob. eapply conv_rbind; [exact CF|]. cbv beta. eapply conv_rbind; [exact K1|]. cbv beta. eapply conv_rbind; [exact K2|]. cbv beta iota.
    eapply conv_rbind; [exact K4|]. cbv beta iota. exact Cv. }
  destruct V as [k V]. exact (completes _ _ _ _ k DA DB V).
Qed.

(** the conversion stops: the masks add up to zero, or the two points have the same x-coordinate *)
Theorem whole_abort (sigma aes : N -> N) (Hash : list N -> N) (fixk lab : nat -> N) (delta : N) :
  getLSB delta = true -> delta < 2 ^ 128 -> (forall x, sigma x < 2 ^ 128) -> (forall x, aes x < 2 ^ 128) ->
  (forall i, fixk i < 2 ^ 128) -> (forall i, lab i < 2 ^ 128) ->
  forall gfr, gfr_ok gfr -> forall hash, (forall l, length (hash l) = DIGEST_SIZE) ->
  forall (C : Curve) ccrh bl ra rb Delta raw ta tb (Ts : pt C) xa ya xb yb orc' junk rounds rc rs sh os l rdc roc rds ros,
  prime (cp C) -> (cp C < 2 ^ Z.of_nat bl)%Z -> length raw = 5%nat -> Forall (fun r => length r = bl) raw ->
  smul ta (@gen C) <> pz ->
  coords (smul tb Ts) = Some (xa, ya) -> coords (smul ta Ts) = Some (xb, yb) ->
  Forall byte8 rc -> Forall byte8 rs -> opt_wf sh -> Forall fin_wf os -> (rounds = true -> tls_sizes rc rs sh os) ->
  rdc < 2 ^ 128 -> rdc <> 0 -> ole_rand_ok roc 1 -> ole_blk roc -> rds < 2 ^ 128 -> rds <> 0 -> ole_rand_ok ros 1 -> ole_blk ros ->
  l <> [] -> Forall lcall_wf l ->
  let cs := fun a b => map CPlain (tls_calls a b rc rs sh os) ++ CAead false rdc roc :: CAead true rds ros :: map CRec l in
  exists sa sb y s',
    e2f_offline ccrh (cp C) bl ra rb Delta raw = Ok (sa, sb) /\
    off_session orc' junk aes_ks_file aes_enc_file (cp C) rounds (map announce (map on_of (cs 0%Z 0%Z))) cst0 = Ok (y, s') /\
    (((e_a sa + e_a sb) mod cp C)%Z = 0%Z \/ xa = xb ->
     always_completes
       (w_alice ccrh (cp C) bl aes_ks_file aes_enc_file rounds gfr hash sigma aes Hash fixk lab delta (fun p => map (own_icall true) (cs p 0%Z)) (lower (c_tr s')) tb Ts ra Delta raw)
       (w_bob ccrh (cp C) bl aes_ks_file aes_enc_file rounds gfr hash sigma aes Hash fixk lab delta (fun p => map (own_icall false) (cs 0%Z p)) (lower (c_tr s')) ta Ts rb Delta raw)
       Err Err).
Proof.
  intros Hd Bd Bs Ba Bf Bl gfr GFR hash HL C ccrh bl ra rb Delta raw ta tb Ts xa ya xb yb orc' junk rounds rc rs sh os l rdc roc rds ros
    P B L F NTa Ca Cb Hc Hs Hh Ho Hz R1 R2 R3 R4 R5 R6 R7 R8 NE W cs.
  assert (Qp : (0 < cp C)%Z) by (pose proof (prime_ge_2 _ P); lia).
  pose proof (cp_bound C P) as Bq.
  destruct (P_Exch.conv_offline ccrh (cp C) Bq bl ra rb Delta raw B L F) as (sa & sb & Eo & K1).
  change cs with (fun a b => icalls a b rc rs sh os rdc rds roc ros l). cbv beta.
  destruct (off_ok sigma aes Hash fixk lab delta Bd Bs Ba Bf Bl (cp C) rounds rc rs sh os Hc Hs Hh Ho Hz rdc rds roc ros l W orc' junk Qp) as (y & s' & g & e & Eoff & Ef & CF).
  exists sa, sb, y, s'. split; [exact Eo|]. split; [exact Eoff|]. intro N0.
  destruct (whole_wp sigma aes Hash fixk lab delta Hd Bd Bl gfr GFR hash HL C ccrh bl ra rb Delta raw ta tb Ts orc' junk rounds rc rs sh os l rdc roc rds ros y s' g e
    Bq L Qp Hc Hs Hh Ho Hz R1 R2 R3 R4 R5 R6 R7 R8 NE W Eoff Ef) as (DA & DB & _).
  match goal with |- always_completes ?p ?q ?a ?b => assert (V : conv p q a b) end.
  { unfold w_alice, w_bob. eapply conv_rbind; [exact CF|]. cbv beta. eapply conv_rbind; [exact K1|]. cbv beta. eapply conv_rbind; [exact (proj1 (conv_points ta tb Ts NTa))|]. cbv beta iota.
    apply conv_rerr. pose proof (conv_pms_online (cp C) Bq sa sb (smul ta Ts) (smul tb Ts) (padd (smul ta gen) (smul tb gen))) as V.
    unfold pms_run, affine in V. rewrite Ca, Cb in V. cbn [fst snd] in V.
    destruct (P_E2f.e2f_correct ccrh (cp C) bl ra rb Delta raw xa ya xb yb P Bq B L F) as (sa' & sb' & E' & Er & _).
    assert (X1 : sa' = sa) by congruence. assert (X2 : sb' = sb) by congruence. subst sa' sb'.
    rewrite Er in V; [exact V|]. destruct N0 as [N0| ->]; [left; exact N0|right; reflexivity]. }
  destruct V as [k V]. exact (completes _ _ _ _ k DA DB V).
Qed.
