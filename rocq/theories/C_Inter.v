(** Property C101: a TLS session in the order of the code.  Every call garbles, transfers and opens its part
    of the circuit and then exchanges the messages of its protocol, all on the same channel; the two
    parties end under every schedule with what GCM with the TLS keys gives. *)
From Coq Require Import List NArith ZArith Bool Arith.
From Verif Require Import L_Bits L_Res S_Sched S_Lower S_Codec S_Aes S_Gcm S_Tls.
From Verif Require Import M_EmpInteger M_Utils M_Bristol M_Bn M_Sym M_SymOn M_SymOff M_SymSess M_Block M_Ole2k M_Shares M_Commit M_Garble M_Handshake.
From Verif Require Import M_Aead M_Exch M_View M_LabRec M_GcProc M_Inter D_AesKs D_AesEnc D_Toy.
From Verif Require Import P_Gf128 P_Aead P_AeadInst P_ExchAead P_ExchSess P_ExchRef P_Sha256Opt P_Handshake P_Session2 P_Sym P_SymTls P_SymGcm P_LabRec P_LabSess.
From Verif Require Import P_GarbleOpt P_Inter3 P_Inter4 C_LabSess.
From Verif Require S_Circuit.
Import ListNotations.
Local Open Scope N_scope.
Local Opaque aes_ks_file aes_enc_file aesE str_to_int gf_mul.

(** ** C101 *)
(** Streaming: the items are the calls with their parts of the circuit ([map it_call its = cs], and the
    parts put together are the circuit).  If the garbling is free of collisions ([clean_run], C26), every
    schedule ends, with the labels of the joint run and the records of the specification. *)
Theorem C101_streaming : forall (sigma aes : N -> N) (Hash : list N -> N) (fixk Kc : nat -> N) (rnd : nat -> bool) (lab : nat -> N) (delta : N),
  getLSB delta = true -> delta < 2 ^ 128 -> (forall x, sigma x < 2 ^ 128) -> (forall x, aes x < 2 ^ 128) ->
  (forall i, fixk i < 2 ^ 128) -> (forall i, Kc i < 2 ^ 128) -> (forall i, lab i < 2 ^ 128) ->
  forall gfr, gfr_ok gfr -> forall hash, (forall l, length (hash l) = DIGEST_SIZE) ->
  forall bs q rounds pa pb rc rs sh os l rdc roc rds ros, (32 <= BN_num_bytes q)%nat -> (0 <= pa < q)%Z -> (0 <= pb < q)%Z ->
  Forall byte8 rc -> Forall byte8 rs -> opt_wf sh -> Forall fin_wf os -> (rounds = true -> tls_sizes rc rs sh os) ->
  rdc < 2 ^ 128 -> rdc <> 0 -> ole_rand_ok roc 1 -> ole_blk roc -> rds < 2 ^ 128 -> rds <> 0 -> ole_rand_ok ros 1 -> ole_blk ros ->
  l <> [] -> Forall lcall_wf l ->
  let ms := ms_spec (pms_of q pa pb) rc rs sh in
  let kb := key_block ms rc rs in
  let spec := lspec (tls_client_key kb) (tls_server_key kb) (tls_client_iv kb) (tls_server_iv kb) in
  let cs := map CPlain (tls_calls pa pb rc rs sh os) ++ CAead false rdc roc :: CAead true rds ros :: map CRec l in
  exists x s its,
    on_session honest aes_ks_file aes_enc_file q rounds (map on_of cs) cst0 = Ok (x, s) /\
    session_items honest aes_ks_file aes_enc_file q rounds cs = Ok its /\
    map it_call its = cs /\ lower (c_tr s) = lower [] ++ flat_map it_seg its /\
    (clean_run sigma aes Hash fixk Kc rnd lab delta (o_init Kc rnd delta bs) [] [] (lower (c_tr s)) -> exists o op, o_run sigma aes Hash fixk Kc rnd lab delta (o_init Kc rnd delta bs) (lower (c_tr s)) = Ok (o, op) /\
      always_completes (i_gen gfr hash sigma aes Hash fixk Kc lab delta bs its) (i_eva gfr hash sigma aes Hash fixk Kc rnd lab delta bs its)
        (Ok (mkG (og_w o) (og_gid o) (og_f o) (saw true op), map (fun o => out_alice (spec o)) l)) (Ok (mkE (oe_w o) (oe_gid o) (oe_f o) (saw false op), map (fun o => out_bob (spec o)) l))).
Proof. exact stream_inter. Qed.
Print Assumptions C101_streaming.
(** Two phases: the circuits are garbled in advance from the announced lengths alone, then the calls run in
    order on the stored tables. *)
Theorem C101_two_phase : forall (sigma aes : N -> N) (Hash : list N -> N) (fixk lab : nat -> N) (delta : N),
  getLSB delta = true -> delta < 2 ^ 128 -> (forall x, sigma x < 2 ^ 128) -> (forall x, aes x < 2 ^ 128) ->
  (forall i, fixk i < 2 ^ 128) -> (forall i, lab i < 2 ^ 128) ->
  forall gfr, gfr_ok gfr -> forall hash, (forall l, length (hash l) = DIGEST_SIZE) ->
  forall orc' junk q rounds pa pb rc rs sh os l rdc roc rds ros, (0 <= pa < q)%Z -> (0 <= pb < q)%Z ->
  Forall byte8 rc -> Forall byte8 rs -> opt_wf sh -> Forall fin_wf os -> (rounds = true -> tls_sizes rc rs sh os) ->
  rdc < 2 ^ 128 -> rdc <> 0 -> ole_rand_ok roc 1 -> ole_blk roc -> rds < 2 ^ 128 -> rds <> 0 -> ole_rand_ok ros 1 -> ole_blk ros ->
  l <> [] -> Forall lcall_wf l ->
  let ms := ms_spec (pms_of q pa pb) rc rs sh in
  let kb := key_block ms rc rs in
  let spec := lspec (tls_client_key kb) (tls_server_key kb) (tls_client_iv kb) (tls_server_iv kb) in
  let cs := map CPlain (tls_calls pa pb rc rs sh os) ++ CAead false rdc roc :: CAead true rds ros :: map CRec l in
  exists x s y s' its n op,
    on_session honest aes_ks_file aes_enc_file q rounds (map on_of cs) cst0 = Ok (x, s) /\
    off_session orc' junk aes_ks_file aes_enc_file q rounds (map announce (map on_of cs)) cst0 = Ok (y, s') /\
    session_items honest aes_ks_file aes_enc_file q rounds cs = Ok its /\
    map it_call its = cs /\ lower (c_tr s) = lower [] ++ flat_map it_seg its /\
    two_phase sigma aes Hash fixk lab delta (lower (c_tr s')) (lower (c_tr s)) = Ok (n, op) /\
    always_completes (i_gen2 gfr hash sigma aes Hash fixk lab delta (lower (c_tr s')) its) (i_eva2 gfr hash sigma aes Hash fixk lab delta (lower (c_tr s')) its)
      (Ok (mkNG (ng_w n) (ng_gid n) (ng_prg n) (saw true op), map (fun o => out_alice (spec o)) l)) (Ok (mkNE (ne_w n) (ne_gid n) (ne_cnt n) (ng_prg n) (saw false op), map (fun o => out_bob (spec o)) l)).
Proof. exact two_phase_inter. Qed.
Print Assumptions C101_two_phase.
(** the hypotheses hold of records of each kind on both objects, and the items of a session with them are
    the handshake's calls, the two constructors and four records *)
Example C101_ex : gfr_ok gf_mul /\ ex90 <> [] /\ Forall lcall_wf ex90 /\ ole_rand_ok (ex_ro 1) 1 /\ ole_blk (ex_ro 1) /\
  (32 <= BN_num_bytes (2 ^ 255))%nat /\ tls_sizes (repeat 1 32) (repeat 2 32) None [] /\
  length (map CPlain (tls_calls 3 5 (repeat 1 32) (repeat 2 32) None []) ++ CAead false 1 (ex_ro 1) :: CAead true 1 (ex_ro 1) :: map CRec ex90) = 8%nat.
Proof.
  destruct C90_ex as (A & B & C & D & E & _ & F & _). repeat (split; [assumption|]). split; [vm_compute; repeat constructor|]. split; [exact F|]. reflexivity.
Qed.
