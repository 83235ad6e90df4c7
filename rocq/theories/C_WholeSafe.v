(** Property C106: in the run of /repo/test/prot_on_off.cpp, what a peer that sends anything can lead a party
    to. *)
From Coq Require Import List NArith ZArith Bool Arith Znumtheory.
From Verif Require Import L_Bits L_Res S_Sched S_Feed S_Lower S_Codec S_Aes S_Gcm S_Tls L_Group S_Ec.
From Verif Require Import M_EmpInteger M_Utils M_Bristol M_Bn M_Ec M_E2f M_Sym M_SymOn M_SymOff M_SymSess M_Causal M_Block M_Ole2k M_Shares M_Commit M_Garble M_Handshake.
From Verif Require Import M_Aead M_Exch M_ExchDh M_View M_LabRec M_GcProc M_Inter M_Live M_Whole D_AesKs D_AesEnc D_Toy P_Dh.
From Verif Require Import P_Gf128 P_Aead P_AeadInst P_ExchAead P_ExchSess P_ExchRef P_Sha256Opt P_Handshake P_Session2 P_Sym P_SymTls P_SymGcm P_LabRec P_LabSess.
From Verif Require Import P_WholeSafe C_Commit C_LabSess.
Import ListNotations.
Local Open Scope N_scope.
Local Opaque aes_ks_file aes_enc_file aesE str_to_int gf_mul.

(** ** C106 *)
(** The peer may send any bytes at all, at every point of the run.  If a party's program comes to undefined
    behaviour, the last thing it received was a four-byte length above 1000, the size of the buffer in
    recv_bn.  Everything else it may be sent leads to an error or an ordinary end. *)
Theorem C106_only_overrun : forall (sigma aes : N -> N) (Hash : list N -> N) (fixk lab : nat -> N) (delta : N),
  getLSB delta = true -> delta < 2 ^ 128 -> (forall x, sigma x < 2 ^ 128) -> (forall x, aes x < 2 ^ 128) ->
  (forall i, fixk i < 2 ^ 128) -> (forall i, lab i < 2 ^ 128) ->
  forall gfr, gfr_ok gfr -> forall hash, (forall l, length (hash l) = DIGEST_SIZE) ->
  forall (C : Curve) ccrh bl ra rb Delta raw ta tb (Ts : pt C) orc' junk rounds rc rs sh os l rdc roc rds ros,
  prime (cp C) -> length raw = 5%nat ->
  Forall byte8 rc -> Forall byte8 rs -> opt_wf sh -> Forall fin_wf os -> (rounds = true -> tls_sizes rc rs sh os) ->
  rdc < 2 ^ 128 -> rdc <> 0 -> ole_rand_ok roc 1 -> ole_blk roc -> rds < 2 ^ 128 -> rds <> 0 -> ole_rand_ok ros 1 -> ole_blk ros ->
  l <> [] -> Forall lcall_wf l ->
  let cs := fun a b => map CPlain (tls_calls a b rc rs sh os) ++ CAead false rdc roc :: CAead true rds ros :: map CRec l in
  exists y s',
    off_session orc' junk aes_ks_file aes_enc_file (cp C) rounds (map announce (map on_of (cs 0%Z 0%Z))) cst0 = Ok (y, s') /\
    (forall ins, fed (w_alice ccrh (cp C) bl aes_ks_file aes_enc_file rounds gfr hash sigma aes Hash fixk lab delta (fun p => map (own_icall true) (cs p 0%Z)) (lower (c_tr s')) tb Ts ra Delta raw) ins UB ->
       exists pre h, ins = pre ++ [h] /\ oversized h) /\
    (forall ins, fed (w_bob ccrh (cp C) bl aes_ks_file aes_enc_file rounds gfr hash sigma aes Hash fixk lab delta (fun p => map (own_icall false) (cs 0%Z p)) (lower (c_tr s')) ta Ts rb Delta raw) ins UB ->
       exists pre h, ins = pre ++ [h] /\ oversized h).
Proof. exact whole_safe. Qed.
Print Assumptions C106_only_overrun.
(** That no peer can do it is false.  The attestor: the first length it reads after the garbled circuits. *)
Theorem C106_bob_refuted : forall (sigma aes : N -> N) (Hash : list N -> N) (fixk lab : nat -> N) (delta : N) gfr hash (C : Curve) ccrh bl r Delta row raw t (Ts : pt C)
  rounds cs off e i h, (0 < bl)%nat -> row <> [] -> fed (p_feva f_init_e off) i (Ok e) -> oversized h ->
  fed (w_bob ccrh (cp C) bl aes_ks_file aes_enc_file rounds gfr hash sigma aes Hash fixk lab delta cs off t Ts r Delta (row :: raw)) (i ++ [h]) UB.
Proof. exact whole_over_bob. Qed.
Print Assumptions C106_bob_refuted.
(** The client: the first length it reads after the attestor's point, whatever the point. *)
Theorem C106_alice_refuted : forall (sigma aes : N -> N) (Hash : list N -> N) (fixk lab : nat -> N) (delta : N) gfr hash (C : Curve) ccrh bl r Delta raw t (Ts : pt C)
  rounds cs off g i buf Ta h, prime (cp C) -> length raw = 5%nat -> fed (p_fgen sigma aes fixk lab delta f_init_g off) i (Ok g) ->
  length buf = 65%nat -> @oct2point C buf = Some Ta -> oversized h ->
  fed (w_alice ccrh (cp C) bl aes_ks_file aes_enc_file rounds gfr hash sigma aes Hash fixk lab delta cs off t Ts r Delta raw) (i ++ [buf; h]) UB.
Proof. exact whole_over_alice. Qed.
Print Assumptions C106_alice_refuted.

(** the theorem on the toy curve; and with no circuits garbled in advance, the messages that lead to the
    overrun; a length of exactly 1000 is not one *)
Example C106_ex :
  let ra := {| rnd_a := 3; rnd_b := 5; rnd_bp := 7; rnd_r := 1 |} in
  let raw := repeat [1; 2; 3; 4; 5] 5 in
  let Ts := smul 3 (@gen toy) in
  let cs := fun a b => map CPlain (tls_calls a b (repeat 1 32) (repeat 2 32) None []) ++ CAead false 9 (ex_ro 1) :: CAead true 8 (ex_ro 1) :: map CRec ex90 in
  let wa := fun off => w_alice (fun x => x + 1) 17 5 aes_ks_file aes_enc_file true gf_mul (fun _ => repeat 0 32) (fun _ => 1) (fun _ => 2) (fun _ => 3) (fun _ => 4) (fun _ => 6) 5
         (fun p => map (own_icall true) (cs p 0%Z)) off 7 Ts ra 33 raw in
  let wb := fun off => w_bob (fun x => x + 1) 17 5 aes_ks_file aes_enc_file true gf_mul (fun _ => repeat 0 32) (fun _ => 1) (fun _ => 2) (fun _ => 3) (fun _ => 4) (fun _ => 6) 5
         (fun p => map (own_icall false) (cs 0%Z p)) off 4 Ts ra 33 raw in
  (exists off, (forall ins, fed (wa off) ins UB -> exists pre h, ins = pre ++ [h] /\ oversized h) /\
    (forall ins, fed (wb off) ins UB -> exists pre h, ins = pre ++ [h] /\ oversized h)) /\
  fed (wb []) [[233; 3; 0; 0]] UB /\
  fed (wa []) [point2oct (@gen toy); [0; 0; 0; 1]] UB /\
  ~ oversized [232; 3; 0; 0].
Proof.
  intros ra raw Ts cs wa wb. destruct C64_ex as (P & _). destruct C90_ex as (GF & N9 & W9 & RO & RB & _ & TS & _).
  assert (B1 : Forall byte8 (repeat 1 32)) by (apply Forall_forall; intros z Hz; apply repeat_spec in Hz; subst z; reflexivity).
  assert (B2 : Forall byte8 (repeat 2 32)) by (apply Forall_forall; intros z Hz; apply repeat_spec in Hz; subst z; reflexivity).
  split; [|split; [|split]].
  - pose proof (C106_only_overrun (fun _ => 1) (fun _ => 2) (fun _ => 3) (fun _ => 4) (fun _ => 6) 5 eq_refl eq_refl (fun _ => eq_refl) (fun _ => eq_refl) (fun _ => eq_refl) (fun _ => eq_refl)
      gf_mul GF (fun _ => repeat 0 32) (fun _ => eq_refl) toy (fun x => x + 1) 5%nat ra ra 33 raw 4%Z 7%Z Ts (fun _ _ => false) (fun _ => false) true
      (repeat 1 32) (repeat 2 32) None [] ex90 9 (ex_ro 1) 8 (ex_ro 1) P eq_refl B1 B2 I (Forall_nil _) (fun _ => TS)
      eq_refl ltac:(discriminate) RO RB eq_refl ltac:(discriminate) RO RB N9 W9) as K.
    destruct K as (y & s' & _ & KA & KB). change (cp toy) with 17%Z in KA, KB. exists (lower (c_tr s')). split; [exact KA|exact KB].
  - exact (C106_bob_refuted (fun _ => 1) (fun _ => 2) (fun _ => 3) (fun _ => 4) (fun _ => 6) 5 gf_mul (fun _ => repeat 0 32) toy (fun x => x + 1) 5%nat ra 33 [1; 2; 3; 4; 5] (repeat [1; 2; 3; 4; 5] 4) 4%Z Ts
      true _ [] _ [] [233; 3; 0; 0] (Nat.lt_0_succ 4) ltac:(discriminate) (FRet _) (ex_intro _ 233 (ex_intro _ 3 (ex_intro _ 0 (ex_intro _ 0 (conj eq_refl eq_refl)))))).
  - exact (C106_alice_refuted (fun _ => 1) (fun _ => 2) (fun _ => 3) (fun _ => 4) (fun _ => 6) 5 gf_mul (fun _ => repeat 0 32) toy (fun x => x + 1) 5%nat ra 33 raw 7%Z Ts
      true _ [] _ [] (point2oct (@gen toy)) (@gen toy) [0; 0; 0; 1] P eq_refl (FRet _) eq_refl (oct_round (@gen toy) ltac:(discriminate))
      (ex_intro _ 0 (ex_intro _ 0 (ex_intro _ 0 (ex_intro _ 1 (conj eq_refl eq_refl)))))).
  - intros (a & b & c & d & E & O). injection E as <- <- <- <-. discriminate.
Qed.
