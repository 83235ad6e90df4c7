(** Property C87: a session run through wire labels.  The circuit of the offline classes is garbled
    in advance, the online classes evaluate it, and the shares the record layer uses are read from
    the labels.  The hash and key functions of the garbling scheme, the label stream and the global
    offset are arbitrary. *)
From Coq Require Import List NArith ZArith Bool Arith.
From Verif Require Import L_Bits L_Res S_Circuit S_Lower.
From Verif Require S_Netlist.
From Verif Require Import S_Codec S_Aes S_Gcm S_Tls M_EmpInteger M_Utils M_Bristol M_Bn M_Sym M_SymOn M_SymOff M_SymSess.
From Verif Require Import M_Block M_Shares M_Garble M_Handshake D_AesKs D_AesEnc.
From Verif Require Import P_Garble P_Aead P_AeadInst P_Handshake P_Sym P_SymTls P_SymGcm M_LabRec P_Labels.
Import ListNotations.
Local Open Scope N_scope.

(** ** C87 *)
(** Any session: if the online run of the calls succeeds at all, then garbling what the offline
    classes announce and evaluating what the online classes request succeeds, every opening shows the
    party it is meant for the value the session computes, and on every wire vector the low bits of the
    two parties' labels are XOR shares of the value. *)
Theorem C87_session_labels : forall (sigma aes : N -> N) (Hash : list N -> N) (fixk lab : nat -> N) (delta : N),
  getLSB delta = true ->
  forall orc' junk ks enc q rounds cs x s, Forall (sizes_ok q rounds) cs ->
  on_session honest ks enc q rounds cs cst0 = Ok (x, s) ->
  exists y s' n op, off_session orc' junk ks enc q rounds (map announce cs) cst0 = Ok (y, s') /\
    two_phase sigma aes Hash fixk lab delta (lower (c_tr s')) (lower (c_tr s)) = Ok (n, op) /\
    Forall2 seen (map low_open (S_Netlist.openings (c_tr s))) op /\
    (forall ws, low_bits (ne_w n) ws = bxor (low_bits (ng_w n) ws) (ev s ws)) /\ n_ge n = [] /\ n_eg n = [].
Proof. exact label_session. Qed.
Print Assumptions C87_session_labels.

(** The TLS session: what the two parties read from their labels XORs to H of both AEAD objects and
    to E(J0) and the key stream of every record. *)
Theorem C87_gcm_shares : forall (sigma aes : N -> N) (Hash : list N -> N) (fixk lab : nat -> N) (delta : N),
  getLSB delta = true ->
  forall orc' junk q rounds pa pb rc rs sh os cs, (0 <= pa < q)%Z -> (0 <= pb < q)%Z ->
  Forall byte8 rc -> Forall byte8 rs -> opt_wf sh -> Forall fin_wf os -> Forall gcall_wf cs ->
  (rounds = true -> tls_sizes rc rs sh os) ->
  let ms := ms_spec (pms_of q pa pb) rc rs sh in
  let kb := key_block ms rc rs in
  let Ec := aesE (tls_client_key kb) in let Es := aesE (tls_server_key kb) in
  let fc := tls_client_iv kb in let fs := tls_server_iv kb in
  exists x s y s' n op,
    on_session honest aes_ks_file aes_enc_file q rounds (gcm_calls pa pb rc rs sh os cs) cst0 = Ok (x, s) /\
    off_session orc' junk aes_ks_file aes_enc_file q rounds (map announce (gcm_calls pa pb rc rs sh os cs)) cst0 = Ok (y, s') /\
    two_phase sigma aes Hash fixk lab delta (lower (c_tr s')) (lower (c_tr s)) = Ok (n, op) /\
    Forall2 seen (map low_open (S_Netlist.openings (c_tr s))) op /\
    os_out x = map (fun f => rev (fin_vd ms f)) os ++ map (gc_out Ec Es fc fs) cs /\
    exists hc hs l, os_sh x = hc :: hs :: flat_map (fun p => [fst p; snd p]) l /\
      block_shares n hc (Ec 0) /\ block_shares n hs (Es 0) /\
      Forall2 (fun c p => block_shares n (fst p) (gc_ej0 Ec Es fc fs c) /\ char_shares n (snd p) (gc_ks Ec Es fc fs c)) cs l.
Proof. exact gcm_labels. Qed.
Print Assumptions C87_gcm_shares.
(** the hypotheses hold of a session with a record in each direction *)
Example C87_ex : getLSB 5 = true /\ Forall gcall_wf
  [{| ga_srv := false; ga_iv := [1; 2; 3; 4; 5; 6; 7; 8]%N; ga_len := 37; ga_sec := true; ga_enc := true |};
   {| ga_srv := true; ga_iv := repeat 255%N 8; ga_len := 0; ga_sec := false; ga_enc := false |}] /\
  tls_sizes (repeat 1%N 32) (repeat 2%N 32) None [].
Proof. split; [reflexivity|]. split; [|repeat (split || constructor)]. repeat constructor. Qed.
(** a small circuit run through labels: AND of a feed of each party, opened to both *)
Example C87_lower_ex :
  let tr := [S_Netlist.EReveal S_Netlist.OPub [S_Netlist.WId 2]; S_Netlist.EAnd (S_Netlist.WId 0) (S_Netlist.WId 1);
             S_Netlist.EFeed S_Netlist.OB [true]; S_Netlist.EFeed S_Netlist.OA [true]] in
  match two_phase (fun x => x) (fun x => x) (fun _ => 0) (fun i => N.of_nat i + 77) (fun i => N.of_nat (i * i + 3) * 4) 13
          (lower tr) (lower tr) with
  | Ok (n, op) => op = [(PUBLIC, [true], [true])] /\ S_Netlist.openings tr = [(S_Netlist.OPub, [true])]
  | _ => False
  end.
Proof. vm_compute. split; reflexivity. Qed.
