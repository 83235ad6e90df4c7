(** The whole run against a peer that sends anything: undefined behaviour only at an oversized length. *)
From Coq Require Import List NArith ZArith Bool Arith Lia Znumtheory.
From Verif Require Import L_Bits L_Res S_Sched S_Feed S_Lower S_Codec S_Aes S_Gcm S_Tls L_Group S_Ec.
From Verif Require Import M_EmpInteger M_Utils M_Bristol M_Bn M_Ec M_E2f M_Sym M_SymOn M_SymOff M_SymSess M_Causal M_Block M_Ole2k M_Shares M_Commit M_Garble M_Handshake.
From Verif Require Import M_Aead M_Exch M_ExchDh M_View M_LabRec M_GcProc M_Inter M_Live M_Whole.
From Verif Require Import D_AesKs D_AesEnc P_Gf128 P_Aead P_AeadInst P_Sched P_Exch P_ExchDh P_ExchAead P_ExchSess.
From Verif Require Import P_Sha256Opt P_Handshake P_Session2 P_Sym P_SymTls P_SymGcm P_LabRec P_LabSess P_Inter2.
From Verif Require P_GcProc3.
From Verif Require Import P_LiveItems P_LiveStream P_LiveOwn P_WholeDh P_WholeTwo P_Whole P_Inter P_Feed.
Import ListNotations.
Local Open Scope N_scope.
Local Opaque aes_ks_file aes_enc_file aesE str_to_int gcm_ctext key_block ms_spec.

Theorem whole_safe : forall (sigma aes : N -> N) (Hash : list N -> N) (fixk lab : nat -> N) (delta : N),
  getLSB delta = true -> delta < 2 ^ 128 -> (forall x, sigma x < 2 ^ 128) -> (forall x, aes x < 2 ^ 128) ->
  (forall i, fixk i < 2 ^ 128) -> (forall i, lab i < 2 ^ 128) ->
  forall gfr, gfr_ok gfr -> forall hash, (forall l, length (hash l) = DIGEST_SIZE) ->
  forall (C : Curve) ccrh bl ra rb Delta raw ta tb (Ts : pt C) orc' junk rounds rc rs sh os l rdc roc rds ros,
  prime (cp C) -> length raw = 5%nat ->
  Forall byte8 rc -> Forall byte8 rs -> opt_wf sh -> Forall fin_wf os -> (rounds = true -> tls_sizes rc rs sh os) ->
  rdc < 2 ^ 128 -> rdc <> 0 -> ole_rand_ok roc 1 -> ole_blk roc -> rds < 2 ^ 128 -> rds <> 0 -> ole_rand_ok ros 1 -> ole_blk ros ->
  l <> [] -> Forall lcall_wf l ->
  let cs := fun a b => map CPlain (tls_calls a b rc rs sh os) ++ CAead false rdc roc :: CAead true rds ros :: map CRec l in
  exists y s',
    off_session orc' junk aes_ks_file aes_enc_file (cp C) rounds (map announce (map on_of (cs 0%Z 0%Z))) cst0 = Ok (y, s') /\
    (forall ins, fed (w_alice ccrh (cp C) bl aes_ks_file aes_enc_file rounds gfr hash sigma aes Hash fixk lab delta (fun p => map (own_icall true) (cs p 0%Z)) (lower (c_tr s')) tb Ts ra Delta raw) ins UB ->
       exists pre h, ins = pre ++ [h] /\ oversized h) /\
    (forall ins, fed (w_bob ccrh (cp C) bl aes_ks_file aes_enc_file rounds gfr hash sigma aes Hash fixk lab delta (fun p => map (own_icall false) (cs 0%Z p)) (lower (c_tr s')) ta Ts rb Delta raw) ins UB ->
       exists pre h, ins = pre ++ [h] /\ oversized h).
Proof.
  intros sigma aes Hash fixk lab delta Hd Bd Bs Ba Bf Bl gfr GFR hash HL C ccrh bl ra rb Delta raw ta tb Ts orc' junk rounds rc rs sh os l rdc roc rds ros
    P L Hc Hs Hh Ho Hz R1 R2 R3 R4 R5 R6 R7 R8 NE W cs.
  assert (Qp : (0 < cp C)%Z) by (pose proof (prime_ge_2 _ P); lia).
  pose proof (cp_bound C P) as Bq.
  set (ic := fun a b => icalls a b rc rs sh os rdc rds roc ros l). change cs with ic.
  destruct (off_ok sigma aes Hash fixk lab delta Bd Bs Ba Bf Bl (cp C) rounds rc rs sh os Hc Hs Hh Ho Hz rdc rds roc ros l W orc' junk Qp) as (y & s' & g & e & Eoff & Ef & _).
  exists y, s'. split; [exact Eoff|].
  assert (Q0 : (0 <= 0 < cp C)%Z) by lia.
  assert (SZ : forall z w, (0 <= z < cp C)%Z -> (0 <= w < cp C)%Z -> Forall (sizes_ok (cp C) rounds) (map on_of (ic z w))).
  { intros z w Hz' Hw'. apply (szs (cp C) rounds z w rc rs sh os); assumption. }
  assert (OwA : forall z w, map (own_icall true) (ic z w) = map (own_icall true) (map (own_icall true) (ic z 0%Z))).
  { intros z w. unfold ic. rewrite (proj1 (own_shares z w rc rs sh os rdc rds roc ros l)). apply (own_calls true (cp C) rounds). }
  assert (OwB : forall z w, map (own_icall false) (ic z w) = map (own_icall false) (map (own_icall false) (ic 0%Z w))).
  { intros z w. unfold ic. rewrite (proj2 (own_shares z w rc rs sh os rdc rds roc ros l)). apply (own_calls false (cp C) rounds). }
  assert (Co := fun z w Hz' Hw' => core sigma aes Hash fixk lab delta Hd Bd Bl gfr GFR hash HL (cp C) rounds rc rs sh os Hc Hs Hh Ho Hz rdc rds roc ros
    R1 R2 R3 R4 R5 R6 R7 R8 l NE W orc' junk y s' g e z w _ _ Hz' Hw' Eoff Ef (OwA z w) (OwB z w)
    (proj2 (own_calls true (cp C) rounds _) (SZ z 0%Z Hz' Q0)) (proj2 (own_calls false (cp C) rounds _) (SZ 0%Z w Q0 Hw'))).
  cbv zeta in Co.
  assert (FIN : forall A (p : proc (res A)), sf p (fun r => r <> UB) -> forall ins, fed p ins UB -> exists pre h, ins = pre ++ [h] /\ oversized h).
  { intros A p S ins F. destruct (S _ _ F) as [[_ K]|K]; [exact K|congruence]. }
  split; apply FIN; clear FIN.
  - unfold w_alice. eapply sf_step with (V := fun x => x = g).
    { eapply sf_wp; [eapply P_GcProc3.wp_fgen with (d := (false, false)); [exact Ef|reflexivity]|]. intros r d [_ ->]. eauto. }
    intros g1 ->. eapply sf_step; [apply (sf_offline ccrh (cp C) Bq), L|]. intros u _.
    apply sf_rbind. eapply sf_mono; [|apply sf_client_VB]. intros [[[Tc' Vb] Ta]| |] NU; [|discriminate|congruence].
    apply sf_rbind. eapply sf_mono; [|apply (sf_pms_online (cp C) P Bq)]. intros r [-> |(z & -> & Rz)]; [discriminate|].
    destruct (Co z 0%Z Rz Q0) as (_ & _ & _ & _ & _ & _ & _ & X & _). eapply sf_wp; [apply (X (false, false)); reflexivity|]. intros r d' [_ H]. exact H.
  - unfold w_bob. eapply sf_step with (V := fun e2 => length (fe_GC e2) = length (fe_GC e) /\ length (fe_pub e2) = length (fe_pub e)).
    { eapply sf_wp; [eapply (P_GcProc3.wp_feva sigma aes fixk lab delta (lower (c_tr s')) _ _ _ _ _ _ f_init_e) with (d := (false, false)); [exact Ef|reflexivity..]|].
      intros r d (_ & e2 & -> & L1 & L2). eauto. }
    intros e2 [L1 L2]. eapply sf_step; [apply (sf_offline ccrh (cp C) Bq), L|]. intros u _.
    apply sf_rbind. unfold p_primus_VA. destruct (compute_primus_VA ta Ts) as [[bytes Va] t0]. apply sf_send, sf_ret.
    apply sf_rbind. eapply sf_mono; [|apply (sf_pms_online (cp C) P Bq)]. intros r [-> |(z & -> & Rz)]; [discriminate|].
    destruct (Co 0%Z z Q0 Rz) as (_ & _ & _ & _ & _ & _ & _ & _ & X). eapply sf_wp; [apply (X (false, false)); [reflexivity|exact L1|exact L2]|]. intros r d' [_ H]. exact H.
Qed.
(** the announcements that lead there, in the attestor's and the client's run *)
Theorem whole_over_bob : forall (sigma aes : N -> N) (Hash : list N -> N) (fixk lab : nat -> N) (delta : N) gfr hash (C : Curve) ccrh bl r Delta row raw t (Ts : pt C)
  rounds cs off e i h, (0 < bl)%nat -> row <> [] -> fed (p_feva f_init_e off) i (Ok e) -> oversized h ->
  fed (w_bob ccrh (cp C) bl aes_ks_file aes_enc_file rounds gfr hash sigma aes Hash fixk lab delta cs off t Ts r Delta (row :: raw)) (i ++ [h]) UB.
Proof.
  intros. unfold w_bob. eapply fed_ok; [eassumption|]. apply fed_ub. now apply over_offline.
Qed.
Theorem whole_over_alice : forall (sigma aes : N -> N) (Hash : list N -> N) (fixk lab : nat -> N) (delta : N) gfr hash (C : Curve) ccrh bl r Delta raw t (Ts : pt C)
  rounds cs off g i buf Ta h, prime (cp C) -> length raw = 5%nat -> fed (p_fgen sigma aes fixk lab delta f_init_g off) i (Ok g) ->
  length buf = 65%nat -> @oct2point C buf = Some Ta -> oversized h ->
  fed (w_alice ccrh (cp C) bl aes_ks_file aes_enc_file rounds gfr hash sigma aes Hash fixk lab delta cs off t Ts r Delta raw) (i ++ [buf; h]) UB.
Proof.
  intros sigma aes Hash fixk lab delta gfr hash C ccrh bl r Delta raw t Ts rounds cs off g i buf Ta h P L F Lb Ob O.
  pose proof (cp_bound C P) as Bq. unfold w_alice. eapply fed_ok; [exact F|].
  destruct (fed_ole_send ccrh (cp C) Bq bl Delta [e2f_mask (cp C) bl (rnd_a r); e2f_mask (cp C) bl (rnd_b r); e2f_mask (cp C) bl (rnd_a r); e2f_mask (cp C) bl (rnd_bp r); e2f_mask (cp C) bl (rnd_r r)] raw L) as [os H].
  change [buf; h] with ([] ++ [buf; h]). eapply fed_ok.
  { unfold p_e2f_offline. cbv zeta. change (@nil (list N)) with (@nil (list N) ++ []). eapply fed_ok; [exact H|constructor]. }
  change [buf; h] with ([buf] ++ [h]). eapply fed_ok with (a := (padd Ta (EC_POINT_mul (Some t) None), EC_POINT_mul None (Some (Ts, t)), Ta)).
  { unfold p_client_VB. constructor; [exact Lb|]. unfold compute_client_VB, recv65. rewrite Lb. cbn [Nat.ltb Nat.leb bind].
    rewrite firstn_all2 by (rewrite Lb; apply Nat.le_refl). rewrite Ob. cbn [bind]. constructor. }
  cbv iota. apply fed_ub. unfold p_pms_online. apply fed_ub. apply over_online; [exact Bq|exact O].
Qed.
