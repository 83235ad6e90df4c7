(** Properties C30 and C72: the offline classes precompute the circuit the online classes use; on
    the shipped AES circuits it computes the GCM values of TLS 1.2. *)
From Coq Require Import List NArith ZArith Bool Arith.
From Verif Require Import L_Bits L_Res S_Netlist M_EmpInteger M_Utils M_Bristol M_Bn M_Sym M_SymOn M_SymOff M_SymSess.
From Verif Require Import M_Handshake S_Tls P_Sha256Opt P_Handshake P_SymVal P_SymTls.
From Verif Require Import S_Gcm M_Block P_Aead P_AeadInst D_AesKs D_AesEnc P_SymGcm.
Import ListNotations.

(** ** C30 *)
(** Any session: any number and order of handshake and record calls, any contents, any
    values opened to the online ([orc]) and offline ([orc']) programs, any uninitialised
    bytes ([junk]), both modes.  Requests, garbled tables and input bits of each party are
    the same; an abort happens in both or in none. *)
Theorem C30_same_circuit : forall orc orc' junk aes_ks aes_enc q rounds cs,
  Forall (sizes_ok q rounds) cs ->
  match on_session orc aes_ks aes_enc q rounds cs cst0,
        off_session orc' junk aes_ks aes_enc q rounds (map announce cs) cst0 with
  | Ok (_, s), Ok (_, s') =>
      shape (c_tr s) = shape (c_tr s') /\ tables (c_tr s) = tables (c_tr s') /\
      (forall p, fed p (c_tr s) = fed p (c_tr s'))
  | Err, Err => True
  | UB, UB => True
  | _, _ => False
  end.
Proof. exact same_circuit. Qed.
Print Assumptions C30_same_circuit.
(** the standard sizes satisfy the hypothesis; outside rounds mode any seed does *)
Example C30_ex_sizes : forall iv, length iv = 8%nat ->
  Forall (sizes_ok 251 true)
    [NMaster 200 100 (repeat 1%N 32) (repeat 2%N 32); NExpand (repeat 1%N 32) (repeat 2%N 32);
     NClientFin client_finished_label (repeat 3%N 32); NAead false; NAead true;
     NEncrypt 0 iv 16 false; NDecrypt 1 iv 16 true] /\
  Forall (sizes_ok 251 false) [NMaster 200 100 [1%N] []; NExtMaster 7 8 []; NExpand [] []].
Proof.
  intros iv L. split; repeat (constructor; cbn; auto); try discriminate; unfold share_ok; cbv; repeat constructor.
Qed.

(** With honest openings the run succeeds exactly when the cleartext session (functions of
    M_Handshake and M_Aead) does, opens the same bytes, and every wire of the handshake
    keys, and every wire turned into shares (H, Z0, Z), carries the cleartext bit. *)
Theorem C30_online_values : forall aes_ks aes_enc q rounds cs,
  match on_session honest aes_ks aes_enc q rounds cs cst0, v_session aes_ks aes_enc q rounds cs with
  | Ok (x, s), Ok v =>
      ev s (on_ms (os_hs x)) = hs_ms (v_hs v) /\
      ev s (on_cwk (os_hs x)) = hs_cwk (v_hs v) /\ ev s (on_swk (os_hs x)) = hs_swk (v_hs v) /\
      ev s (on_civ (os_hs x)) = hs_civ (v_hs v) /\ ev s (on_siv (os_hs x)) = hs_siv (v_hs v) /\
      os_out x = v_out v /\ map (ev s) (os_sh x) = v_sh v
  | Err, Err => True
  | UB, UB => True
  | _, _ => False
  end.
Proof. exact online_values. Qed.
Print Assumptions C30_online_values.

(** A TLS 1.2 handshake: the offline run announced without any secret, evaluated on the
    inputs of the online run, computes the TLS keys. *)
Theorem C30_precomputed_circuit_is_tls12 : forall aes_ks aes_enc orc' junk q rounds pa pb rc rs sh os,
  (0 <= pa < q)%Z -> (0 <= pb < q)%Z ->
  Forall byte8 rc -> Forall byte8 rs -> opt_wf sh -> Forall fin_wf os ->
  (rounds = true -> tls_sizes rc rs sh os) ->
  let ms := ms_spec (pms_of q pa pb) rc rs sh in
  let kb := key_block ms rc rs in
  exists x s y s',
    on_session honest aes_ks aes_enc q rounds (tls_calls pa pb rc rs sh os) cst0 = Ok (x, s) /\
    off_session orc' junk aes_ks aes_enc q rounds (map announce (tls_calls pa pb rc rs sh os)) cst0 = Ok (y, s') /\
    shape (c_tr s) = shape (c_tr s') /\
    ev s (off_ms (fs_hs y)) = str_to_int ms /\
    ev s (off_cwk (fs_hs y)) = str_to_int (tls_client_key kb) /\
    ev s (off_swk (fs_hs y)) = str_to_int (tls_server_key kb) /\
    ev s (off_civ (fs_hs y)) = str_to_int (tls_client_iv kb) /\
    ev s (off_siv (fs_hs y)) = str_to_int (tls_server_iv kb) /\
    os_out x = map (fun o => rev (fin_vd ms o)) os.
Proof. exact tls_offline. Qed.
Print Assumptions C30_precomputed_circuit_is_tls12.
Example C30_ex_tls_sizes : tls_sizes (repeat 1%N 32) (repeat 2%N 32) (Some (repeat 3%N 32))
  [FinC client_finished_label (repeat 4%N 32); FinS server_finished_label (repeat 5%N 32)].
Proof. repeat (split || constructor). Qed.

(** "For every seed length" is false in rounds mode: every other length of the randoms
    makes the online program feed a different number of bits. *)
Theorem C30_seed_length_refuted : forall aes_ks aes_enc orc' junk, exists q pa pb rc rs x s y s',
  on_session honest aes_ks aes_enc q true [NMaster pa pb rc rs] cst0 = Ok (x, s) /\
  off_session orc' junk aes_ks aes_enc q true (map announce [NMaster pa pb rc rs]) cst0 = Ok (y, s') /\
  shape (c_tr s) <> shape (c_tr s').
Proof. exact seed_length_refuted. Qed.
Print Assumptions C30_seed_length_refuted.
Theorem C30_other_seed_lengths_differ : forall aes_ks aes_enc q pa pb rc rs orc' junk,
  (0 <= pa < q)%Z -> (0 <= pb < q)%Z -> Forall byte8 rc -> Forall byte8 rs ->
  (length rc + length rs <> 64)%nat ->
  exists x s y s',
    on_session honest aes_ks aes_enc q true [NMaster pa pb rc rs] cst0 = Ok (x, s) /\
    off_session orc' junk aes_ks aes_enc q true [FMaster] cst0 = Ok (y, s') /\
    shape (c_tr s) <> shape (c_tr s').
Proof. exact rounds_mismatch. Qed.
Print Assumptions C30_other_seed_lengths_differ.

(** ** C72 *)
(** Handshake, the two AEAD constructors, then any sequence of record calls of either object.
    The session on the shipped circuits completes, its precomputed circuit is the same, the
    opened bytes are the Finished data and the key streams of the open calls (reversed, as
    Integer::reveal gives them), and the wires turned into shares carry, in order, H of both
    objects and E(J0) and the key stream of every call. *)
Theorem C72_gcm_wires : forall orc' junk q rounds pa pb rc rs sh os cs, (0 <= pa < q)%Z -> (0 <= pb < q)%Z ->
  Forall byte8 rc -> Forall byte8 rs -> opt_wf sh -> Forall fin_wf os -> Forall gcall_wf cs ->
  (rounds = true -> tls_sizes rc rs sh os) ->
  let ms := ms_spec (pms_of q pa pb) rc rs sh in
  let kb := key_block ms rc rs in
  let Ec := aesE (tls_client_key kb) in let Es := aesE (tls_server_key kb) in
  let fc := tls_client_iv kb in let fs := tls_server_iv kb in
  exists x s y s',
    on_session honest aes_ks_file aes_enc_file q rounds (gcm_calls pa pb rc rs sh os cs) cst0 = Ok (x, s) /\
    off_session orc' junk aes_ks_file aes_enc_file q rounds (map announce (gcm_calls pa pb rc rs sh os cs)) cst0 = Ok (y, s') /\
    shape (c_tr s) = shape (c_tr s') /\
    os_out x = map (fun f => rev (fin_vd ms f)) os ++ map (gc_out Ec Es fc fs) cs /\
    map (ev s) (os_sh x) = bits_of_N 128 (Ec 0%N) :: bits_of_N 128 (Es 0%N) :: flat_map (gc_sh Ec Es fc fs) cs.
Proof. exact gcm_wires. Qed.
Print Assumptions C72_gcm_wires.
Example C72_ex : Forall gcall_wf
  [{| ga_srv := false; ga_iv := [1; 2; 3; 4; 5; 6; 7; 8]%N; ga_len := 37; ga_sec := true; ga_enc := true |};
   {| ga_srv := true; ga_iv := repeat 255%N 8; ga_len := 0; ga_sec := false; ga_enc := false |}] /\
  tls_sizes (repeat 1%N 32) (repeat 2%N 32) None [].
Proof. split; [|repeat (split || constructor)]. repeat constructor. Qed.
