(** Sessions run by each party on its own data alone. *)
From Coq Require Import List NArith ZArith Bool Arith Lia.
From Verif Require Import L_Bits L_Res S_Sched S_Lower S_Codec S_Aes S_Gcm S_Tls.
From Verif Require S_Circuit.
From Verif Require Import M_EmpInteger M_Utils M_Bristol M_Bn M_Sym M_SymOn M_SymOff M_SymSess M_Causal M_Block M_Ole2k M_Shares M_Commit M_Garble M_Handshake.
From Verif Require Import M_Aead M_Exch M_View M_LabRec M_GcProc M_Inter M_Live.
From Verif Require Import D_AesKs D_AesEnc P_Gf128 P_Aead P_AeadInst P_ExchAead P_ExchSess P_Sha256Opt P_Handshake P_Session2 P_Sym P_SymTls P_SymGcm P_LabRec P_LabSess.
From Verif Require Import P_GarbleOpt P_Inter2 P_LiveItems P_LiveStream P_LiveTwo.
Import ListNotations.
Local Open Scope N_scope.
Local Opaque aes_ks_file aes_enc_file aesE str_to_int gcm_ctext key_block ms_spec.

Lemma own_twice a c : own_icall a (own_icall a c) = own_icall a c.
Proof.
  destruct c as [c|srv r ro|[sv i ro]]; cbn [own_icall lc_srv lc_in lc_ole].
  - f_equal. destruct a, c; reflexivity.
  - destruct a; reflexivity.
  - do 2 f_equal. destruct a, i; cbn [own_in]; try reflexivity. now rewrite repeat_length.
Qed.
Lemma own_sizes q r a c : sizes_ok q r (on_of c) -> sizes_ok q r (on_of (own_icall a c)).
Proof.
  assert (Z : share_ok q 0) by (unfold share_ok; cbn; apply Nat.le_0_l).
  destruct c as [c|srv x ro|[sv i ro]]; cbn [own_icall on_of lc_srv lc_in lc_ole].
  - destruct a, c; cbn [own_call sizes_ok]; tauto.
  - destruct a; exact (fun H => H).
  - destruct a, i; exact (fun H => H).
Qed.
Theorem own_calls a q r cs : map (own_icall a) cs = map (own_icall a) (map (own_icall a) cs) /\
  (Forall (sizes_ok q r) (map on_of cs) -> Forall (sizes_ok q r) (map on_of (map (own_icall a) cs))).
Proof.
  split; [rewrite map_map; apply map_ext; intro; symmetry; apply own_twice|].
  intro F. rewrite Forall_map in F. rewrite map_map, Forall_map. eapply Forall_impl; [|exact F]. intro c. apply own_sizes.
Qed.

Theorem live_stream_own (sigma aes : N -> N) (Hash : list N -> N) (fixk Kc : nat -> N) (rnd : nat -> bool) (lab : nat -> N) (delta : N) :
  getLSB delta = true -> delta < 2 ^ 128 -> (forall x, sigma x < 2 ^ 128) -> (forall x, aes x < 2 ^ 128) ->
  (forall i, fixk i < 2 ^ 128) -> (forall i, Kc i < 2 ^ 128) -> (forall i, lab i < 2 ^ 128) ->
  forall gfr, gfr_ok gfr -> forall hash, (forall l, length (hash l) = DIGEST_SIZE) ->
  forall bs q rounds pa pb rc rs sh os l rdc roc rds ros, (32 <= BN_num_bytes q)%nat -> (0 <= pa < q)%Z -> (0 <= pb < q)%Z ->
  Forall byte8 rc -> Forall byte8 rs -> opt_wf sh -> Forall fin_wf os -> (rounds = true -> tls_sizes rc rs sh os) ->
  rdc < 2 ^ 128 -> rdc <> 0 -> ole_rand_ok roc 1 -> ole_blk roc -> rds < 2 ^ 128 -> rds <> 0 -> ole_rand_ok ros 1 -> ole_blk ros ->
  l <> [] -> Forall lcall_wf l ->
  let ms := ms_spec (pms_of q pa pb) rc rs sh in
  let kb := key_block ms rc rs in
  let spec := lspec (tls_client_key kb) (tls_server_key kb) (tls_client_iv kb) (tls_server_iv kb) in
  let cs := map CPlain (tls_calls pa pb rc rs sh os) ++ CAead false rdc roc :: CAead true rds ros :: map CRec l in
  exists x s,
    on_session honest aes_ks_file aes_enc_file q rounds (map on_of cs) cst0 = Ok (x, s) /\
    (clean_run sigma aes Hash fixk Kc rnd lab delta (o_init Kc rnd delta bs) [] [] (lower (c_tr s)) ->
     exists o op, o_run sigma aes Hash fixk Kc rnd lab delta (o_init Kc rnd delta bs) (lower (c_tr s)) = Ok (o, op) /\
      always_completes (l_gen aes_ks_file aes_enc_file q rounds (map (own_icall true) cs) gfr hash sigma aes Hash fixk Kc lab delta bs)
                       (l_eva aes_ks_file aes_enc_file q rounds (map (own_icall false) cs) gfr hash sigma aes Hash fixk Kc rnd lab delta bs)
        (Ok (mkG (og_w o) (og_gid o) (og_f o) (saw true op), length (lower (c_tr s)), map (fun o => out_alice (spec o)) l))
        (Ok (mkE (oe_w o) (oe_gid o) (oe_f o) (saw false op), length (lower (c_tr s)), map (fun o => out_bob (spec o)) l))).
Proof.
  intros Hd Bd Bs Ba Bf Bk Bl gfr GFR hash HL bs q rounds pa pb rc rs sh os l rdc roc rds ros Q Ha Hb Hc Hs Hh Ho Hz R1 R2 R3 R4 R5 R6 R7 R8 NE W ms kb spec cs.
  assert (Z : Forall (sizes_ok q rounds) (map on_of cs)) by (apply (szs q rounds pa pb rc rs sh os); assumption).
  destruct (own_calls true q rounds cs) as [OA ZA]. destruct (own_calls false q rounds cs) as [OB ZB].
  exact (live_stream sigma aes Hash fixk Kc rnd lab delta Hd Bd Bs Ba Bf Bk Bl gfr GFR hash HL bs q rounds pa pb rc rs sh os l rdc roc rds ros _ _
    Q Ha Hb Hc Hs Hh Ho Hz R1 R2 R3 R4 R5 R6 R7 R8 NE W OA OB (ZA Z) (ZB Z)).
Qed.
Theorem live_two_own (sigma aes : N -> N) (Hash : list N -> N) (fixk lab : nat -> N) (delta : N) :
  getLSB delta = true -> delta < 2 ^ 128 -> (forall x, sigma x < 2 ^ 128) -> (forall x, aes x < 2 ^ 128) ->
  (forall i, fixk i < 2 ^ 128) -> (forall i, lab i < 2 ^ 128) ->
  forall gfr, gfr_ok gfr -> forall hash, (forall l, length (hash l) = DIGEST_SIZE) ->
  forall orc' junk q rounds pa pb rc rs sh os l rdc roc rds ros, (0 <= pa < q)%Z -> (0 <= pb < q)%Z ->
  Forall byte8 rc -> Forall byte8 rs -> opt_wf sh -> Forall fin_wf os -> (rounds = true -> tls_sizes rc rs sh os) ->
  rdc < 2 ^ 128 -> rdc <> 0 -> ole_rand_ok roc 1 -> ole_blk roc -> rds < 2 ^ 128 -> rds <> 0 -> ole_rand_ok ros 1 -> ole_blk ros ->
  l <> [] -> Forall lcall_wf l ->
  let ms := ms_spec (pms_of q pa pb) rc rs sh in
  let kb := key_block ms rc rs in
  let spec := lspec (tls_client_key kb) (tls_server_key kb) (tls_client_iv kb) (tls_server_iv kb) in
  let cs := map CPlain (tls_calls pa pb rc rs sh os) ++ CAead false rdc roc :: CAead true rds ros :: map CRec l in
  exists x s y s' n op,
    on_session honest aes_ks_file aes_enc_file q rounds (map on_of cs) cst0 = Ok (x, s) /\
    off_session orc' junk aes_ks_file aes_enc_file q rounds (map announce (map on_of cs)) cst0 = Ok (y, s') /\
    two_phase sigma aes Hash fixk lab delta (lower (c_tr s')) (lower (c_tr s)) = Ok (n, op) /\
    always_completes (l_gen2 aes_ks_file aes_enc_file q rounds (map (own_icall true) cs) gfr hash sigma aes Hash fixk lab delta (lower (c_tr s')))
                     (l_eva2 aes_ks_file aes_enc_file q rounds (map (own_icall false) cs) gfr hash sigma aes Hash fixk lab delta (lower (c_tr s')))
      (Ok (mkNG (ng_w n) (ng_gid n) (ng_prg n) (saw true op), length (lower (c_tr s)), map (fun o => out_alice (spec o)) l))
      (Ok (mkNE (ne_w n) (ne_gid n) (ne_cnt n) (ng_prg n) (saw false op), length (lower (c_tr s)), map (fun o => out_bob (spec o)) l)).
Proof.
  intros Hd Bd Bs Ba Bf Bl gfr GFR hash HL orc' junk q rounds pa pb rc rs sh os l rdc roc rds ros Ha Hb Hc Hs Hh Ho Hz R1 R2 R3 R4 R5 R6 R7 R8 NE W ms kb spec cs.
  assert (Z : Forall (sizes_ok q rounds) (map on_of cs)) by (apply (szs q rounds pa pb rc rs sh os); assumption).
  destruct (own_calls true q rounds cs) as [OA ZA]. destruct (own_calls false q rounds cs) as [OB ZB].
  exact (live_two_phase sigma aes Hash fixk lab delta Hd Bd Bs Ba Bf Bl gfr GFR hash HL orc' junk q rounds pa pb rc rs sh os l rdc roc rds ros _ _
    Ha Hb Hc Hs Hh Ho Hz R1 R2 R3 R4 R5 R6 R7 R8 NE W OA OB (ZA Z) (ZB Z)).
Qed.
