(** Property C105: the run of /repo/test/prot_on_off.cpp from the offline phase to the last record, each
    party on its own data alone. *)
From Coq Require Import List NArith ZArith Bool Arith Znumtheory.
From Verif Require Import L_Bits L_Res S_Sched S_Lower S_Codec S_Aes S_Gcm S_Tls L_Group S_Ec.
From Verif Require Import M_EmpInteger M_Utils M_Bristol M_Bn M_Ec M_E2f M_Sym M_SymOn M_SymOff M_SymSess M_Causal M_Block M_Ole2k M_Shares M_Commit M_Garble M_Handshake.
From Verif Require Import M_Aead M_Exch M_ExchDh M_View M_LabRec M_GcProc M_Inter M_Live M_Whole D_AesKs D_AesEnc D_Toy.
From Verif Require Import P_Gf128 P_Aead P_AeadInst P_ExchAead P_ExchSess P_ExchRef P_Sha256Opt P_Handshake P_Session2 P_Sym P_SymTls P_SymGcm P_LabRec P_LabSess.
From Verif Require Import P_Whole C_Commit C_LabSess.
Import ListNotations.
Local Open Scope N_scope.
Local Opaque aes_ks_file aes_enc_file aesE str_to_int gf_mul.

(** ** C105 *)
(** The client's program is given its own secret, random values and arguments, the attestor's its own; the
    share of the premaster secret is the one the party itself computes on the way.  Unless the sum of the
    two masks a is zero, every schedule ends, the shares add up to the x-coordinate x0 of the point the
    server computes, and the records are those of the specification for the premaster secret x0. *)
Theorem C105_whole_run : forall (sigma aes : N -> N) (Hash : list N -> N) (fixk lab : nat -> N) (delta : N),
  getLSB delta = true -> delta < 2 ^ 128 -> (forall x, sigma x < 2 ^ 128) -> (forall x, aes x < 2 ^ 128) ->
  (forall i, fixk i < 2 ^ 128) -> (forall i, lab i < 2 ^ 128) ->
  forall gfr, gfr_ok gfr -> forall hash, (forall l, length (hash l) = DIGEST_SIZE) ->
  forall (C : Curve) ccrh bl ra rb Delta raw ta tb sv xa ya xb yb orc' junk rounds rc rs sh os l rdc roc rds ros,
  prime (cp C) -> (cp C < 2 ^ Z.of_nat bl)%Z -> length raw = 5%nat -> Forall (fun r => length r = bl) raw ->
  let Ts := smul sv (@gen C) in let Tc := padd (smul ta (@gen C)) (smul tb gen) in
  smul ta (@gen C) <> pz ->
  coords (smul tb Ts) = Some (xa, ya) -> coords (smul ta Ts) = Some (xb, yb) -> xa <> xb ->
  Forall byte8 rc -> Forall byte8 rs -> opt_wf sh -> Forall fin_wf os -> (rounds = true -> tls_sizes rc rs sh os) ->
  rdc < 2 ^ 128 -> rdc <> 0 -> ole_rand_ok roc 1 -> ole_blk roc -> rds < 2 ^ 128 -> rds <> 0 -> ole_rand_ok ros 1 -> ole_blk ros ->
  l <> [] -> Forall lcall_wf l ->
  let cs := fun a b => map CPlain (tls_calls a b rc rs sh os) ++ CAead false rdc roc :: CAead true rds ros :: map CRec l in
  exists sa sb y s',
    e2f_offline ccrh (cp C) bl ra rb Delta raw = Ok (sa, sb) /\
    off_session orc' junk aes_ks_file aes_enc_file (cp C) rounds (map announce (map on_of (cs 0%Z 0%Z))) cst0 = Ok (y, s') /\
    (((e_a sa + e_a sb) mod cp C)%Z <> 0%Z ->
     exists x0 y0, coords (smul sv Tc) = Some (x0, y0) /\
     let ms := ms_spec (premaster (BN_num_bytes (cp C)) (Z.to_N x0)) rc rs sh in
     let kb := key_block ms rc rs in
     let spec := lspec (tls_client_key kb) (tls_server_key kb) (tls_client_iv kb) (tls_server_iv kb) in
     exists pa pb x s n op,
       (0 <= pa < cp C)%Z /\ (0 <= pb < cp C)%Z /\ ((pa + pb) mod cp C)%Z = x0 /\
       on_session honest aes_ks_file aes_enc_file (cp C) rounds (map on_of (cs pa pb)) cst0 = Ok (x, s) /\
       two_phase sigma aes Hash fixk lab delta (lower (c_tr s')) (lower (c_tr s)) = Ok (n, op) /\
       always_completes
         (w_alice ccrh (cp C) bl aes_ks_file aes_enc_file rounds gfr hash sigma aes Hash fixk lab delta (fun p => map (own_icall true) (cs p 0%Z)) (lower (c_tr s')) tb Ts ra Delta raw)
         (w_bob ccrh (cp C) bl aes_ks_file aes_enc_file rounds gfr hash sigma aes Hash fixk lab delta (fun p => map (own_icall false) (cs 0%Z p)) (lower (c_tr s')) ta Ts rb Delta raw)
         (Ok (mkNG (ng_w n) (ng_gid n) (ng_prg n) (saw true op), length (lower (c_tr s)), map (fun o => out_alice (spec o)) l))
         (Ok (mkNE (ne_w n) (ne_gid n) (ne_cnt n) (ng_prg n) (saw false op), length (lower (c_tr s)), map (fun o => out_bob (spec o)) l))).
Proof. exact whole_two. Qed.
Print Assumptions C105_whole_run.
(** the theorem on the toy curve, the server's share being 3 * G, with records of each kind *)
Example C105_ex : 
  let ra := {| rnd_a := 3; rnd_b := 5; rnd_bp := 7; rnd_r := 1 |} in
  let rb := {| rnd_a := 2; rnd_b := 4; rnd_bp := 6; rnd_r := 8 |} in
  let raw := repeat [1; 2; 3; 4; 5] 5 in
  let Ts := smul 3 (@gen toy) in
  let cs := fun a b => map CPlain (tls_calls a b (repeat 1 32) (repeat 2 32) None []) ++ CAead false 9 (ex_ro 1) :: CAead true 8 (ex_ro 1) :: map CRec ex90 in
  exists off oa ob,
    always_completes
      (w_alice (fun x => x + 1) 17 5 aes_ks_file aes_enc_file true gf_mul (fun _ => repeat 0 32) (fun _ => 1) (fun _ => 2) (fun _ => 3) (fun _ => 4) (fun _ => 6) 5
         (fun p => map (own_icall true) (cs p 0%Z)) off 7 Ts ra 33 raw)
      (w_bob (fun x => x + 1) 17 5 aes_ks_file aes_enc_file true gf_mul (fun _ => repeat 0 32) (fun _ => 1) (fun _ => 2) (fun _ => 3) (fun _ => 4) (fun _ => 6) 5
         (fun p => map (own_icall false) (cs 0%Z p)) off 4 Ts rb 33 raw)
      (Ok oa) (Ok ob) /\ length (snd oa) = 4%nat /\
    exists x0 y0, coords (c := toy) (smul 3 (padd (smul 4 (@gen toy)) (smul 7 gen))) = Some (x0, y0) /\
      let kb := key_block (ms_spec (premaster 1 (Z.to_N x0)) (repeat 1 32) (repeat 2 32) None) (repeat 1 32) (repeat 2 32) in
      nth 1 (snd oa) (PEnc ([], [])) = PEnc (gcm_ae (aesE (tls_client_key kb)) (tls_client_iv kb ++ repeat 6 8) [4; 200] []).
Proof.
  intros ra rb raw Ts cs. destruct C64_ex as (P & B & _ & NT & Ca & Cb & M). destruct C90_ex as (GF & N9 & W9 & RO & RB & _ & TS & _).
  assert (B1 : Forall byte8 (repeat 1 32)) by (apply Forall_forall; intros z Hz; apply repeat_spec in Hz; subst z; reflexivity).
  assert (B2 : Forall byte8 (repeat 2 32)) by (apply Forall_forall; intros z Hz; apply repeat_spec in Hz; subst z; reflexivity).
  assert (L5 : Forall (fun r : list N => length r = 5%nat) raw) by (apply Forall_forall; intros z Hz; apply repeat_spec in Hz; subst z; reflexivity).
  pose proof (C105_whole_run (fun _ => 1) (fun _ => 2) (fun _ => 3) (fun _ => 4) (fun _ => 6) 5 eq_refl eq_refl (fun _ => eq_refl) (fun _ => eq_refl) (fun _ => eq_refl) (fun _ => eq_refl)
    gf_mul GF (fun _ => repeat 0 32) (fun _ => eq_refl) toy (fun x => x + 1) 5%nat ra rb 33 raw 4%Z 7%Z 3%Z 6%Z 3%Z 0%Z 11%Z (fun _ _ => false) (fun _ => false) true
    (repeat 1 32) (repeat 2 32) None [] ex90 9 (ex_ro 1) 8 (ex_ro 1) P B eq_refl L5 NT Ca Cb ltac:(discriminate) B1 B2 I (Forall_nil _) (fun _ => TS)
    eq_refl ltac:(discriminate) RO RB eq_refl ltac:(discriminate) RO RB N9 W9) as K.
  destruct K as (sa & sb & y & s' & Eo & _ & K). change (cp toy) with 17%Z in Eo, K. unfold ra, rb, raw in Eo. rewrite Eo in M.
  destruct (K (proj1 M)) as (x0 & y0 & Cs & pa & pb & x & s & n & op & _ & _ & _ & _ & _ & AC).
  change (BN_num_bytes 17) with 1%nat in AC.
  exists (lower (c_tr s')). eexists. eexists. split; [exact AC|]. cbn [snd].
  split; [reflexivity|]. exists x0, y0. split; [exact Cs|]. reflexivity.
Qed.
(** If the masks add up to zero or the two points have the same x-coordinate, both parties stop with an
    error in the conversion, under every schedule, and neither waits for the other. *)
Theorem C105_abort : forall (sigma aes : N -> N) (Hash : list N -> N) (fixk lab : nat -> N) (delta : N),
  getLSB delta = true -> delta < 2 ^ 128 -> (forall x, sigma x < 2 ^ 128) -> (forall x, aes x < 2 ^ 128) ->
  (forall i, fixk i < 2 ^ 128) -> (forall i, lab i < 2 ^ 128) ->
  forall gfr, gfr_ok gfr -> forall hash, (forall l, length (hash l) = DIGEST_SIZE) ->
  forall (C : Curve) ccrh bl ra rb Delta raw ta tb (Ts : pt C) xa ya xb yb orc' junk rounds rc rs sh os l rdc roc rds ros,
  prime (cp C) -> (cp C < 2 ^ Z.of_nat bl)%Z -> length raw = 5%nat -> Forall (fun r => length r = bl) raw ->
  smul ta (@gen C) <> pz ->
  coords (smul tb Ts) = Some (xa, ya) -> coords (smul ta Ts) = Some (xb, yb) ->
  Forall byte8 rc -> Forall byte8 rs -> opt_wf sh -> Forall fin_wf os -> (rounds = true -> tls_sizes rc rs sh os) ->
  rdc < 2 ^ 128 -> rdc <> 0 -> ole_rand_ok roc 1 -> ole_blk roc -> rds < 2 ^ 128 -> rds <> 0 -> ole_rand_ok ros 1 -> ole_blk ros ->
  l <> [] -> Forall lcall_wf l ->
  let cs := fun a b => map CPlain (tls_calls a b rc rs sh os) ++ CAead false rdc roc :: CAead true rds ros :: map CRec l in
  exists sa sb y s',
    e2f_offline ccrh (cp C) bl ra rb Delta raw = Ok (sa, sb) /\
    off_session orc' junk aes_ks_file aes_enc_file (cp C) rounds (map announce (map on_of (cs 0%Z 0%Z))) cst0 = Ok (y, s') /\
    (((e_a sa + e_a sb) mod cp C)%Z = 0%Z \/ xa = xb ->
     always_completes
       (w_alice ccrh (cp C) bl aes_ks_file aes_enc_file rounds gfr hash sigma aes Hash fixk lab delta (fun p => map (own_icall true) (cs p 0%Z)) (lower (c_tr s')) tb Ts ra Delta raw)
       (w_bob ccrh (cp C) bl aes_ks_file aes_enc_file rounds gfr hash sigma aes Hash fixk lab delta (fun p => map (own_icall false) (cs 0%Z p)) (lower (c_tr s')) ta Ts rb Delta raw)
       Err Err).
Proof. exact whole_abort. Qed.
Print Assumptions C105_abort.
(** both parties happen to draw the same scalar *)
Example C105_abort_ex : 
  let ra := {| rnd_a := 3; rnd_b := 5; rnd_bp := 7; rnd_r := 1 |} in
  let rb := {| rnd_a := 2; rnd_b := 4; rnd_bp := 6; rnd_r := 8 |} in
  let raw := repeat [1; 2; 3; 4; 5] 5 in
  let Ts := smul 3 (@gen toy) in
  let cs := fun a b => map CPlain (tls_calls a b (repeat 1 32) (repeat 2 32) None []) ++ CAead false 9 (ex_ro 1) :: CAead true 8 (ex_ro 1) :: map CRec ex90 in
  exists off,
    always_completes
      (w_alice (fun x => x + 1) 17 5 aes_ks_file aes_enc_file true gf_mul (fun _ => repeat 0 32) (fun _ => 1) (fun _ => 2) (fun _ => 3) (fun _ => 4) (fun _ => 6) 5
         (fun p => map (own_icall true) (cs p 0%Z)) off 4 Ts ra 33 raw)
      (w_bob (fun x => x + 1) 17 5 aes_ks_file aes_enc_file true gf_mul (fun _ => repeat 0 32) (fun _ => 1) (fun _ => 2) (fun _ => 3) (fun _ => 4) (fun _ => 6) 5
         (fun p => map (own_icall false) (cs 0%Z p)) off 4 Ts rb 33 raw)
      Err Err.
Proof.
  intros ra rb raw Ts cs. destruct C64_ex as (P & B & _ & NT & _ & Cb & _). destruct C90_ex as (GF & N9 & W9 & RO & RB & _ & TS & _).
  assert (B1 : Forall byte8 (repeat 1 32)) by (apply Forall_forall; intros z Hz; apply repeat_spec in Hz; subst z; reflexivity).
  assert (B2 : Forall byte8 (repeat 2 32)) by (apply Forall_forall; intros z Hz; apply repeat_spec in Hz; subst z; reflexivity).
  assert (L5 : Forall (fun r : list N => length r = 5%nat) raw) by (apply Forall_forall; intros z Hz; apply repeat_spec in Hz; subst z; reflexivity).
  pose proof (C105_abort (fun _ => 1) (fun _ => 2) (fun _ => 3) (fun _ => 4) (fun _ => 6) 5 eq_refl eq_refl (fun _ => eq_refl) (fun _ => eq_refl) (fun _ => eq_refl) (fun _ => eq_refl)
    gf_mul GF (fun _ => repeat 0 32) (fun _ => eq_refl) toy (fun x => x + 1) 5%nat ra rb 33 raw 4%Z 4%Z Ts 0%Z 11%Z 0%Z 11%Z (fun _ _ => false) (fun _ => false) true
    (repeat 1 32) (repeat 2 32) None [] ex90 9 (ex_ro 1) 8 (ex_ro 1) P B eq_refl L5 NT Cb Cb B1 B2 I (Forall_nil _) (fun _ => TS)
    eq_refl ltac:(discriminate) RO RB eq_refl ltac:(discriminate) RO RB N9 W9) as K.
  destruct K as (sa & sb & y & s' & _ & _ & K). change (cp toy) with 17%Z in K. exists (lower (c_tr s')). exact (K (or_intror eq_refl)).
Qed.
