(** Property C92: what the streaming circuits of a session tell each party, as C89 for the two-phase
    backends.  The two sessions differ in the peer's share of the premaster secret and open the same
    values; everything the party sees is the same for some other choice of what the party does not
    know. *)
From Coq Require Import List NArith ZArith Bool Arith Lia.
From Verif Require Import L_Bits L_Res S_Circuit S_Lower S_GarbleView.
From Verif Require S_Netlist.
From Verif Require Import S_Codec S_Aes S_Gcm S_Tls M_EmpInteger M_Utils M_Bristol M_Bn M_Sym M_SymOn M_SymSess.
From Verif Require Import M_Block M_Shares M_Garble M_GarbleTr M_Handshake M_LabRec D_AesKs D_AesEnc.
From Verif Require Import P_Garble P_GarbleOpt P_GarbleView3 P_Aead P_AeadInst P_Sha256Opt P_Handshake P_SymTls P_SymGcm P_SessView P_Det P_StreamView.
Import ListNotations.
Local Open Scope N_scope.
Local Opaque aes_ks_file aes_enc_file aesE str_to_int ms_spec key_block on_session lower.

(** ** C92 *)
(** Two sessions in which the party makes the same calls with its own share: as long as the same
    values are opened, the requests and the results (the wires and opened bytes returned) are the
    same, and so are the bits the party feeds. *)
Theorem C92_own_inputs : forall p ks enc q rounds cs cs' x s x' s', p <> S_Netlist.OPub -> Forall2 (alike p) cs cs' ->
  on_session honest ks enc q rounds cs cst0 = Ok (x, s) -> on_session honest ks enc q rounds cs' cst0 = Ok (x', s') ->
  S_Netlist.openings (c_tr s) = S_Netlist.openings (c_tr s') ->
  x = x' /\ S_Netlist.shape (c_tr s) = S_Netlist.shape (c_tr s') /\
  inputs_of (low_party p) (lower (c_tr s)) = inputs_of (low_party p) (lower (c_tr s')).
Proof. exact same_inputs. Qed.
Print Assumptions C92_own_inputs.
(** The evaluator's messages, labels and results fit the peer's other share: with another hash (the
    change pairs the hashes of the two runs, C85_change_back) the second session looks the same. *)
Theorem C92_evaluator_session : forall sigma aes Hash fixk Kc rnd lab delta, getLSB delta = true -> blk delta ->
  (forall x, blk (sigma x)) -> (forall x, blk (aes x)) -> (forall i, blk (fixk i)) -> (forall i, blk (Kc i)) -> (forall i, blk (lab i)) ->
  forall bs ks enc q rounds cs1 cs2 x1 s1 x2 s2, Forall2 (alike S_Netlist.OB) cs1 cs2 ->
  on_session honest ks enc q rounds cs1 cst0 = Ok (x1, s1) -> on_session honest ks enc q rounds cs2 cst0 = Ok (x2, s2) ->
  S_Netlist.openings (c_tr s1) = S_Netlist.openings (c_tr s2) ->
  let on1 := lower (c_tr s1) in let on2 := lower (c_tr s2) in
  let s0 := o_init Kc rnd delta bs in
  clean_run sigma aes Hash fixk Kc rnd lab delta s0 [] [] on1 ->
  exists o op, o_run sigma aes Hash fixk Kc rnd lab delta s0 on1 = Ok (o, op) /\
  let l := oe_w o in let gs := live_gates 0 [] on1 in
  ((forall i, (i < length l)%nat -> kind (fold_left kind_step on1 []) i = None -> ~ special (N.lxor (lbl l i) delta)) ->
   NoDup (unknown_points sigma delta gs l) -> (forall p, In p (unknown_points sigma delta gs l) -> ~ In p (known_points sigma gs l)) ->
   let aes' p := N.lxor (aes p) (shift sigma delta gs l (fst (spec_run [] on1)) (fst (spec_run [] on2)) p) in
   exists o' op', o_run sigma aes' Hash fixk Kc rnd lab delta s0 on2 = Ok (o', op') /\
    Forall2 seen (map low_open (S_Netlist.openings (c_tr s2))) op' /\ oe_w o' = oe_w o /\ oe_f o' = oe_f o /\
    o_msgs sigma aes' Hash fixk Kc rnd lab delta s0 on2 = o_msgs sigma aes Hash fixk Kc rnd lab delta s0 on1 /\
    clean_run sigma aes' Hash fixk Kc rnd lab delta s0 [] [] on2 /\ (forall x, blk (aes' x)) /\ x2 = x1).
Proof. exact stream_evaluator_session. Qed.
Print Assumptions C92_evaluator_session.
(** The garbler's view fits the evaluator's other share: with other choice bits of the preprocessed
    transfers, in bijection with the first. *)
Theorem C92_garbler_session : forall sigma aes Hash fixk Kc rnd lab delta, getLSB delta = true -> blk delta ->
  (forall x, blk (sigma x)) -> (forall x, blk (aes x)) -> (forall i, blk (fixk i)) -> (forall i, blk (Kc i)) -> (forall i, blk (lab i)) ->
  forall bs ks enc q rounds cs1 cs2 x1 s1 x2 s2, Forall2 (alike S_Netlist.OA) cs1 cs2 ->
  on_session honest ks enc q rounds cs1 cst0 = Ok (x1, s1) -> on_session honest ks enc q rounds cs2 cst0 = Ok (x2, s2) ->
  S_Netlist.openings (c_tr s1) = S_Netlist.openings (c_tr s2) ->
  let on1 := lower (c_tr s1) in let on2 := lower (c_tr s2) in
  let rnd' m := xorb (rnd m) (xorb (nth m (buffered_inputs bs on1) false) (nth m (buffered_inputs bs on2) false)) in
  let s0 := o_init Kc rnd delta bs in let s0' := o_init Kc rnd' delta bs in
  clean_run sigma aes Hash fixk Kc rnd lab delta s0 [] [] on1 -> clean_run sigma aes Hash fixk Kc rnd' lab delta s0' [] [] on2 ->
  exists o op o' op', o_run sigma aes Hash fixk Kc rnd lab delta s0 on1 = Ok (o, op) /\ o_run sigma aes Hash fixk Kc rnd' lab delta s0' on2 = Ok (o', op') /\
    og_w o' = og_w o /\ og_f o' = og_f o /\
    o_msgs sigma aes Hash fixk Kc rnd' lab delta s0' on2 = o_msgs sigma aes Hash fixk Kc rnd lab delta s0 on1 /\ x2 = x1.
Proof. exact stream_garbler_session. Qed.
Print Assumptions C92_garbler_session.

(** The TLS session with another share of the peer that gives the same values of C88: the shares of
    H, Z0 and Z the party holds are shares of the other session's values too. *)
Theorem C92_evaluator_tls : forall sigma aes Hash fixk Kc rnd lab delta, getLSB delta = true -> blk delta ->
  (forall x, blk (sigma x)) -> (forall x, blk (aes x)) -> (forall i, blk (fixk i)) -> (forall i, blk (Kc i)) -> (forall i, blk (lab i)) ->
  forall bs q rounds pa pb rc rs sh os cs, (32 <= BN_num_bytes q)%nat -> (0 <= pa < q)%Z -> (0 <= pb < q)%Z ->
  Forall byte8 rc -> Forall byte8 rs -> opt_wf sh -> Forall fin_wf os -> Forall gcall_wf cs ->
  forall pa', (0 <= pa' < q)%Z -> session_opened q rounds pa pb rc rs sh os cs = session_opened q rounds pa' pb rc rs sh os cs ->
  exists x s1 s2,
  on_session honest aes_ks_file aes_enc_file q rounds (gcm_calls pa pb rc rs sh os cs) cst0 = Ok (x, s1) /\
  on_session honest aes_ks_file aes_enc_file q rounds (gcm_calls pa' pb rc rs sh os cs) cst0 = Ok (x, s2) /\
  let on1 := lower (c_tr s1) in let on2 := lower (c_tr s2) in
  let s0 := o_init Kc rnd delta bs in
  (clean_run sigma aes Hash fixk Kc rnd lab delta s0 [] [] on1 ->
   exists o op, o_run sigma aes Hash fixk Kc rnd lab delta s0 on1 = Ok (o, op) /\
   let l := oe_w o in let gs := live_gates 0 [] on1 in
   ((forall i, (i < length l)%nat -> kind (fold_left kind_step on1 []) i = None -> ~ special (N.lxor (lbl l i) delta)) ->
    NoDup (unknown_points sigma delta gs l) -> (forall p, In p (unknown_points sigma delta gs l) -> ~ In p (known_points sigma gs l)) ->
    let aes' p := N.lxor (aes p) (shift sigma delta gs l (fst (spec_run [] on1)) (fst (spec_run [] on2)) p) in
    exists o' op', o_run sigma aes' Hash fixk Kc rnd lab delta s0 on2 = Ok (o', op') /\
     oe_w o' = oe_w o /\ oe_f o' = oe_f o /\
     Forall (fun ws => low_bits (oe_w o) ws = bxor (low_bits (og_w o') ws) (ev s2 ws)) (os_sh x) /\
     o_msgs sigma aes' Hash fixk Kc rnd lab delta s0 on2 = o_msgs sigma aes Hash fixk Kc rnd lab delta s0 on1)).
Proof. exact stream_evaluator_tls. Qed.
Print Assumptions C92_evaluator_tls.
Theorem C92_garbler_tls : forall sigma aes Hash fixk Kc rnd lab delta, getLSB delta = true -> blk delta ->
  (forall x, blk (sigma x)) -> (forall x, blk (aes x)) -> (forall i, blk (fixk i)) -> (forall i, blk (Kc i)) -> (forall i, blk (lab i)) ->
  forall bs q rounds pa pb rc rs sh os cs, (32 <= BN_num_bytes q)%nat -> (0 <= pa < q)%Z -> (0 <= pb < q)%Z ->
  Forall byte8 rc -> Forall byte8 rs -> opt_wf sh -> Forall fin_wf os -> Forall gcall_wf cs ->
  forall pb', (0 <= pb' < q)%Z -> session_opened q rounds pa pb rc rs sh os cs = session_opened q rounds pa pb' rc rs sh os cs ->
  exists x s1 s2,
  on_session honest aes_ks_file aes_enc_file q rounds (gcm_calls pa pb rc rs sh os cs) cst0 = Ok (x, s1) /\
  on_session honest aes_ks_file aes_enc_file q rounds (gcm_calls pa pb' rc rs sh os cs) cst0 = Ok (x, s2) /\
  let on1 := lower (c_tr s1) in let on2 := lower (c_tr s2) in
  let rnd' m := xorb (rnd m) (xorb (nth m (buffered_inputs bs on1) false) (nth m (buffered_inputs bs on2) false)) in
  let s0 := o_init Kc rnd delta bs in let s0' := o_init Kc rnd' delta bs in
  (clean_run sigma aes Hash fixk Kc rnd lab delta s0 [] [] on1 -> clean_run sigma aes Hash fixk Kc rnd' lab delta s0' [] [] on2 ->
   exists o op o' op', o_run sigma aes Hash fixk Kc rnd lab delta s0 on1 = Ok (o, op) /\ o_run sigma aes Hash fixk Kc rnd' lab delta s0' on2 = Ok (o', op') /\
    og_w o' = og_w o /\ og_f o' = og_f o /\
    Forall (fun ws => low_bits (oe_w o') ws = bxor (low_bits (og_w o) ws) (ev s2 ws)) (os_sh x) /\
    o_msgs sigma aes Hash fixk Kc rnd' lab delta s0' on2 = o_msgs sigma aes Hash fixk Kc rnd lab delta s0 on1).
Proof. exact stream_garbler_tls. Qed.
Print Assumptions C92_garbler_tls.

(** two sessions over the 256-bit field with different premaster secrets and nothing opened; the
    result (wires and opened bytes) is the same, the values on the wires are not fixed by it *)
Definition p256 : Z := (2 ^ 256 - 2 ^ 224 + 2 ^ 192 + 2 ^ 96 - 1)%Z.
Example C92_ex : let cs := [{| ga_srv := false; ga_iv := [1; 2; 3; 4; 5; 6; 7; 8]; ga_len := 37; ga_sec := true; ga_enc := true |}] in
  pms_of p256 200 100 <> pms_of p256 201 100 /\ Forall gcall_wf cs /\ (32 <= BN_num_bytes p256)%nat /\
  session_opened p256 true 200 100 (repeat 1 32) (repeat 2 32) None [] cs = session_opened p256 true 201 100 (repeat 1 32) (repeat 2 32) None [] cs /\
  Forall2 (alike S_Netlist.OB) (gcm_calls 200 100 (repeat 1 32) (repeat 2 32) None [] cs) (gcm_calls 201 100 (repeat 1 32) (repeat 2 32) None [] cs).
Proof.
  cbv zeta. split; [vm_compute; discriminate|]. split; [repeat constructor|]. split; [apply Nat.leb_le; vm_compute; reflexivity|].
  split; [rewrite !nothing_opened by repeat constructor; reflexivity|]. apply tls_alike; [discriminate|reflexivity].
Qed.
(** in standard mode ALICE feeds digests that were opened before; with equal openings they are equal *)
Example C92_own_ex : alike S_Netlist.OA (NMaster 5 7 [1] [2]) (NMaster 5 9 [1] [2]) /\ ~ alike S_Netlist.OB (NMaster 5 7 [1] [2]) (NMaster 5 9 [1] [2]).
Proof. split; [cbn; auto using eq_refl|]. - split; [reflexivity|]. split; [discriminate|auto]. - intros (_ & H & _). specialize (H eq_refl). discriminate H. Qed.
