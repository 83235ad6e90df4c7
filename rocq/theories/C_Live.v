(** Property C104: the session of C101 run by each party on its own data alone.  A party computes every
    request when it comes to it, from its own arguments and the values opened to it before; the peer's
    share of the premaster secret, messages and random values are not among its data. *)
From Coq Require Import List NArith ZArith Bool Arith.
From Verif Require Import L_Bits L_Res S_Sched S_Lower S_Codec S_Aes S_Gcm S_Tls.
From Verif Require Import M_EmpInteger M_Utils M_Bristol M_Bn M_Sym M_SymOn M_SymOff M_SymSess M_Causal M_Block M_Ole2k M_Shares M_Commit M_Garble M_Handshake.
From Verif Require Import M_Aead M_Exch M_View M_LabRec M_GcProc M_Inter M_Live D_AesKs D_AesEnc D_Toy.
From Verif Require Import P_Gf128 P_Aead P_AeadInst P_ExchAead P_ExchSess P_ExchRef P_Sha256Opt P_Handshake P_Session2 P_Sym P_SymTls P_SymGcm P_LabRec P_LabSess.
From Verif Require Import P_GarbleOpt P_LiveStream P_LiveTwo P_LiveOwn C_LabSess.
From Verif Require S_Circuit.
Import ListNotations.
Local Open Scope N_scope.
Local Opaque aes_ks_file aes_enc_file aesE str_to_int gf_mul.

(** ** C104 *)
(** Streaming: the programs are given the calls with the peer's data erased ([own_icall]).  If the garbling
    of the circuit that the two inputs together define is free of collisions ([clean_run], C26), every
    schedule ends, with the labels of the joint run on that circuit and the records of the specification. *)
Theorem C104_streaming : forall (sigma aes : N -> N) (Hash : list N -> N) (fixk Kc : nat -> N) (rnd : nat -> bool) (lab : nat -> N) (delta : N),
  getLSB delta = true -> delta < 2 ^ 128 -> (forall x, sigma x < 2 ^ 128) -> (forall x, aes x < 2 ^ 128) ->
  (forall i, fixk i < 2 ^ 128) -> (forall i, Kc i < 2 ^ 128) -> (forall i, lab i < 2 ^ 128) ->
  forall gfr, gfr_ok gfr -> forall hash, (forall l, length (hash l) = DIGEST_SIZE) ->
  forall bs q rounds pa pb rc rs sh os l rdc roc rds ros, (32 <= BN_num_bytes q)%nat -> (0 <= pa < q)%Z -> (0 <= pb < q)%Z ->
  Forall byte8 rc -> Forall byte8 rs -> opt_wf sh -> Forall fin_wf os -> (rounds = true -> tls_sizes rc rs sh os) ->
  rdc < 2 ^ 128 -> rdc <> 0 -> ole_rand_ok roc 1 -> ole_blk roc -> rds < 2 ^ 128 -> rds <> 0 -> ole_rand_ok ros 1 -> ole_blk ros ->
  l <> [] -> Forall lcall_wf l ->
  let ms := ms_spec (pms_of q pa pb) rc rs sh in
  let kb := key_block ms rc rs in
  let spec := lspec (tls_client_key kb) (tls_server_key kb) (tls_client_iv kb) (tls_server_iv kb) in
  let cs := map CPlain (tls_calls pa pb rc rs sh os) ++ CAead false rdc roc :: CAead true rds ros :: map CRec l in
  exists x s,
    on_session honest aes_ks_file aes_enc_file q rounds (map on_of cs) cst0 = Ok (x, s) /\
    (clean_run sigma aes Hash fixk Kc rnd lab delta (o_init Kc rnd delta bs) [] [] (lower (c_tr s)) ->
     exists o op, o_run sigma aes Hash fixk Kc rnd lab delta (o_init Kc rnd delta bs) (lower (c_tr s)) = Ok (o, op) /\
      always_completes (l_gen aes_ks_file aes_enc_file q rounds (map (own_icall true) cs) gfr hash sigma aes Hash fixk Kc lab delta bs)
                       (l_eva aes_ks_file aes_enc_file q rounds (map (own_icall false) cs) gfr hash sigma aes Hash fixk Kc rnd lab delta bs)
        (Ok (mkG (og_w o) (og_gid o) (og_f o) (saw true op), length (lower (c_tr s)), map (fun o => out_alice (spec o)) l))
        (Ok (mkE (oe_w o) (oe_gid o) (oe_f o) (saw false op), length (lower (c_tr s)), map (fun o => out_bob (spec o)) l))).
Proof. exact live_stream_own. Qed.
Print Assumptions C104_streaming.
(** Two phases: the circuits are garbled in advance from the announced lengths. *)
Theorem C104_two_phase : forall (sigma aes : N -> N) (Hash : list N -> N) (fixk lab : nat -> N) (delta : N),
  getLSB delta = true -> delta < 2 ^ 128 -> (forall x, sigma x < 2 ^ 128) -> (forall x, aes x < 2 ^ 128) ->
  (forall i, fixk i < 2 ^ 128) -> (forall i, lab i < 2 ^ 128) ->
  forall gfr, gfr_ok gfr -> forall hash, (forall l, length (hash l) = DIGEST_SIZE) ->
  forall orc' junk q rounds pa pb rc rs sh os l rdc roc rds ros, (0 <= pa < q)%Z -> (0 <= pb < q)%Z ->
  Forall byte8 rc -> Forall byte8 rs -> opt_wf sh -> Forall fin_wf os -> (rounds = true -> tls_sizes rc rs sh os) ->
  rdc < 2 ^ 128 -> rdc <> 0 -> ole_rand_ok roc 1 -> ole_blk roc -> rds < 2 ^ 128 -> rds <> 0 -> ole_rand_ok ros 1 -> ole_blk ros ->
  l <> [] -> Forall lcall_wf l ->
  let ms := ms_spec (pms_of q pa pb) rc rs sh in
  let kb := key_block ms rc rs in
  let spec := lspec (tls_client_key kb) (tls_server_key kb) (tls_client_iv kb) (tls_server_iv kb) in
  let cs := map CPlain (tls_calls pa pb rc rs sh os) ++ CAead false rdc roc :: CAead true rds ros :: map CRec l in
  exists x s y s' n op,
    on_session honest aes_ks_file aes_enc_file q rounds (map on_of cs) cst0 = Ok (x, s) /\
    off_session orc' junk aes_ks_file aes_enc_file q rounds (map announce (map on_of cs)) cst0 = Ok (y, s') /\
    two_phase sigma aes Hash fixk lab delta (lower (c_tr s')) (lower (c_tr s)) = Ok (n, op) /\
    always_completes (l_gen2 aes_ks_file aes_enc_file q rounds (map (own_icall true) cs) gfr hash sigma aes Hash fixk lab delta (lower (c_tr s')))
                     (l_eva2 aes_ks_file aes_enc_file q rounds (map (own_icall false) cs) gfr hash sigma aes Hash fixk lab delta (lower (c_tr s')))
      (Ok (mkNG (ng_w n) (ng_gid n) (ng_prg n) (saw true op), length (lower (c_tr s)), map (fun o => out_alice (spec o)) l))
      (Ok (mkNE (ne_w n) (ne_gid n) (ne_cnt n) (ng_prg n) (saw false op), length (lower (c_tr s)), map (fun o => out_bob (spec o)) l)).
Proof. exact live_two_own. Qed.
Print Assumptions C104_two_phase.
(** Anything may stand in place of the peer's data: the programs still end the same way. *)
Theorem C104_streaming_any : forall (sigma aes : N -> N) (Hash : list N -> N) (fixk Kc : nat -> N) (rnd : nat -> bool) (lab : nat -> N) (delta : N),
  getLSB delta = true -> delta < 2 ^ 128 -> (forall x, sigma x < 2 ^ 128) -> (forall x, aes x < 2 ^ 128) ->
  (forall i, fixk i < 2 ^ 128) -> (forall i, Kc i < 2 ^ 128) -> (forall i, lab i < 2 ^ 128) ->
  forall gfr, gfr_ok gfr -> forall hash, (forall l, length (hash l) = DIGEST_SIZE) ->
  forall bs q rounds pa pb rc rs sh os l rdc roc rds ros csA csB, (32 <= BN_num_bytes q)%nat -> (0 <= pa < q)%Z -> (0 <= pb < q)%Z ->
  Forall byte8 rc -> Forall byte8 rs -> opt_wf sh -> Forall fin_wf os -> (rounds = true -> tls_sizes rc rs sh os) ->
  rdc < 2 ^ 128 -> rdc <> 0 -> ole_rand_ok roc 1 -> ole_blk roc -> rds < 2 ^ 128 -> rds <> 0 -> ole_rand_ok ros 1 -> ole_blk ros ->
  l <> [] -> Forall lcall_wf l ->
  let ms := ms_spec (pms_of q pa pb) rc rs sh in
  let kb := key_block ms rc rs in
  let spec := lspec (tls_client_key kb) (tls_server_key kb) (tls_client_iv kb) (tls_server_iv kb) in
  let cs := map CPlain (tls_calls pa pb rc rs sh os) ++ CAead false rdc roc :: CAead true rds ros :: map CRec l in
  map (own_icall true) cs = map (own_icall true) csA -> map (own_icall false) cs = map (own_icall false) csB ->
  Forall (sizes_ok q rounds) (map on_of csA) -> Forall (sizes_ok q rounds) (map on_of csB) ->
  exists x s,
    on_session honest aes_ks_file aes_enc_file q rounds (map on_of cs) cst0 = Ok (x, s) /\
    (clean_run sigma aes Hash fixk Kc rnd lab delta (o_init Kc rnd delta bs) [] [] (lower (c_tr s)) ->
     exists o op, o_run sigma aes Hash fixk Kc rnd lab delta (o_init Kc rnd delta bs) (lower (c_tr s)) = Ok (o, op) /\
      always_completes (l_gen aes_ks_file aes_enc_file q rounds csA gfr hash sigma aes Hash fixk Kc lab delta bs)
                       (l_eva aes_ks_file aes_enc_file q rounds csB gfr hash sigma aes Hash fixk Kc rnd lab delta bs)
        (Ok (mkG (og_w o) (og_gid o) (og_f o) (saw true op), length (lower (c_tr s)), map (fun o => out_alice (spec o)) l))
        (Ok (mkE (oe_w o) (oe_gid o) (oe_f o) (saw false op), length (lower (c_tr s)), map (fun o => out_bob (spec o)) l))).
Proof. exact live_stream. Qed.
Print Assumptions C104_streaming_any.
Theorem C104_two_phase_any : forall (sigma aes : N -> N) (Hash : list N -> N) (fixk lab : nat -> N) (delta : N),
  getLSB delta = true -> delta < 2 ^ 128 -> (forall x, sigma x < 2 ^ 128) -> (forall x, aes x < 2 ^ 128) ->
  (forall i, fixk i < 2 ^ 128) -> (forall i, lab i < 2 ^ 128) ->
  forall gfr, gfr_ok gfr -> forall hash, (forall l, length (hash l) = DIGEST_SIZE) ->
  forall orc' junk q rounds pa pb rc rs sh os l rdc roc rds ros csA csB, (0 <= pa < q)%Z -> (0 <= pb < q)%Z ->
  Forall byte8 rc -> Forall byte8 rs -> opt_wf sh -> Forall fin_wf os -> (rounds = true -> tls_sizes rc rs sh os) ->
  rdc < 2 ^ 128 -> rdc <> 0 -> ole_rand_ok roc 1 -> ole_blk roc -> rds < 2 ^ 128 -> rds <> 0 -> ole_rand_ok ros 1 -> ole_blk ros ->
  l <> [] -> Forall lcall_wf l ->
  let ms := ms_spec (pms_of q pa pb) rc rs sh in
  let kb := key_block ms rc rs in
  let spec := lspec (tls_client_key kb) (tls_server_key kb) (tls_client_iv kb) (tls_server_iv kb) in
  let cs := map CPlain (tls_calls pa pb rc rs sh os) ++ CAead false rdc roc :: CAead true rds ros :: map CRec l in
  map (own_icall true) cs = map (own_icall true) csA -> map (own_icall false) cs = map (own_icall false) csB ->
  Forall (sizes_ok q rounds) (map on_of csA) -> Forall (sizes_ok q rounds) (map on_of csB) ->
  exists x s y s' n op,
    on_session honest aes_ks_file aes_enc_file q rounds (map on_of cs) cst0 = Ok (x, s) /\
    off_session orc' junk aes_ks_file aes_enc_file q rounds (map announce (map on_of cs)) cst0 = Ok (y, s') /\
    two_phase sigma aes Hash fixk lab delta (lower (c_tr s')) (lower (c_tr s)) = Ok (n, op) /\
    always_completes (l_gen2 aes_ks_file aes_enc_file q rounds csA gfr hash sigma aes Hash fixk lab delta (lower (c_tr s')))
                     (l_eva2 aes_ks_file aes_enc_file q rounds csB gfr hash sigma aes Hash fixk lab delta (lower (c_tr s')))
      (Ok (mkNG (ng_w n) (ng_gid n) (ng_prg n) (saw true op), length (lower (c_tr s)), map (fun o => out_alice (spec o)) l))
      (Ok (mkNE (ne_w n) (ne_gid n) (ne_cnt n) (ng_prg n) (saw false op), length (lower (c_tr s)), map (fun o => out_bob (spec o)) l)).
Proof. exact live_two_phase. Qed.
Print Assumptions C104_two_phase_any.
(** the erased calls are one choice of it *)
Theorem C104_own : forall a q r cs, map (own_icall a) cs = map (own_icall a) (map (own_icall a) cs) /\
  (Forall (sizes_ok q r) (map on_of cs) -> Forall (sizes_ok q r) (map on_of (map (own_icall a) cs))).
Proof. exact own_calls. Qed.
Print Assumptions C104_own.
(** what is erased, on calls of each kind *)
Definition ex104 : lcall := {| lc_srv := false; lc_in := InEnc [] [] [] [] true; lc_ole := ex_ro 0 |}.
Example C104_ex :
  map (own_icall true) [CPlain (NMaster 3 5 [1] [2]); CAead false 9 (ex_ro 1); CRec (nth 1 ex90 ex104); CRec (nth 2 ex90 ex104)] =
    [CPlain (NMaster 3 0 [1] [2]); CAead false 9 (ex_ro 1);
     CRec {| lc_srv := false; lc_in := InEnc [4; 200] [] [] (repeat 6 8) false; lc_ole := ex_ro 2 |};
     CRec {| lc_srv := true; lc_in := InDec [9; 8] (repeat 0 16) [] (repeat 6 8) false (repeat 1 16) []; lc_ole := ex_ro 2 |}] /\
  map (own_icall false) [CPlain (NMaster 3 5 [1] [2]); CAead false 9 (ex_ro 1); CRec (nth 1 ex90 ex104)] =
    [CPlain (NMaster 0 5 [1] [2]); CAead false 0 (ex_ro 1);
     CRec {| lc_srv := false; lc_in := InEnc [0; 0] [4; 200] [] (repeat 6 8) false; lc_ole := ex_ro 2 |}].
Proof. split; reflexivity. Qed.
(** the hypotheses hold of records of each kind *)
Example C104_ex_hyps : gfr_ok gf_mul /\ ex90 <> [] /\ Forall lcall_wf ex90 /\ ole_rand_ok (ex_ro 1) 1 /\ ole_blk (ex_ro 1) /\
  (32 <= BN_num_bytes (2 ^ 255))%nat /\ tls_sizes (repeat 1 32) (repeat 2 32) None [].
Proof. destruct C90_ex as (A & B & C & D & E & _ & F & _). repeat (split; [assumption|]). split; [vm_compute; repeat constructor|exact F]. Qed.
(** the loop on a session without calls: the two constants, then nothing more to request *)
Example C104_ex_live : requests aes_ks_file aes_enc_file 97 false [] [] = [S_Circuit.IPub false; S_Circuit.IPub true] /\
  live aes_ks_file aes_enc_file 97 false [] nat (fun n _ => Ret (Ok (S n))) (fun _ => []) 2%nat 0%nat 0%nat = Ret (Ok (2%nat, 2%nat)) /\
  live aes_ks_file aes_enc_file 97 false [] nat (fun n _ => Ret (Ok (S n))) (fun _ => []) 3%nat 0%nat 0%nat = Ret UB.
Proof. repeat split; reflexivity. Qed.
