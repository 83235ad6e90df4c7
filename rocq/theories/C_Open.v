(** Property C88: what a session opens to both parties on the garbled circuit. *)
From Coq Require Import List NArith ZArith Bool Arith.
From Verif Require Import L_Bits L_Res S_Netlist S_Codec S_Aes S_Gcm S_Sha256 S_Tls S_Open M_EmpInteger M_Utils M_Bristol M_Bn M_Sym M_SymOn M_SymSess.
From Verif Require Import M_Handshake D_AesKs D_AesEnc.
From Verif Require Import P_Aead P_AeadInst P_Handshake P_SymTls P_SymGcm P_Open2 P_Open3.
Import ListNotations.
Local Open Scope N_scope.

(** ** C88 *)
(** The list of opened vectors of a TLS session, in order.  Without the option to save rounds: for
    each of the two secrets the chaining value of the inner hash once and the PRF's A(i); for each
    Finished message A(1) and the verify data.  With the option: the verify data alone.  Then the key
    stream of each record whose content is public. *)
Theorem C88_session_opened : forall q rounds pa pb rc rs sh os cs, (0 <= pa < q)%Z -> (0 <= pb < q)%Z ->
  Forall byte8 rc -> Forall byte8 rs -> opt_wf sh -> Forall fin_wf os -> Forall gcall_wf cs ->
  let pms := pms_of q pa pb in
  let ms := ms_spec pms rc rs sh in
  let kb := key_block ms rc rs in
  let Ec := aesE (tls_client_key kb) in let Es := aesE (tls_server_key kb) in
  let fc := tls_client_iv kb in let fs := tls_server_iv kb in
  exists x s, on_session honest aes_ks_file aes_enc_file q rounds (gcm_calls pa pb rc rs sh os cs) cst0 = Ok (x, s) /\
  openings (c_tr s) = tls_opened rounds pms ms rc rs sh (map fin_pair os) ++
    flat_map (fun c => if ga_sec c then [] else [open_bytes (gc_ks Ec Es fc fs c)]) cs.
Proof. exact gcm_opened. Qed.
Print Assumptions C88_session_opened.

(** With the option to save rounds, any sequence of calls opens exactly the bytes it hands to the
    caller. *)
Theorem C88_rounds_opened : forall ks enc q cs x s,
  on_session honest ks enc q true cs cst0 = Ok (x, s) ->
  map bytes_open (openings (c_tr s)) = handed cs (os_out x).
Proof. exact rounds_opened. Qed.
Print Assumptions C88_rounds_opened.

(** Without that option this is false: a handshake that hands out nothing opens six vectors, the
    first of them the inner chaining value under the premaster secret. *)
Theorem C88_handed_only_refuted : exists q pa pb rc rs x s,
  on_session honest aes_ks_file aes_enc_file q false (tls_calls pa pb rc rs None []) cst0 = Ok (x, s) /\
  os_out x = [] /\ length (openings (c_tr s)) = 6%nat /\
  exists l, openings (c_tr s) = open_words (inner_state (bits_of_bytes (pms_of q pa pb))) :: l.
Proof. exact opens_more. Qed.
Print Assumptions C88_handed_only_refuted.

(** the hypotheses hold of a session with both Finished messages, a secret and a public record *)
Example C88_ex : Forall byte8 (repeat 1 32) /\ Forall fin_wf [FinC [99; 108] (repeat 7 32); FinS [115] (repeat 8 32)] /\
  Forall gcall_wf
  [{| ga_srv := false; ga_iv := [1; 2; 3; 4; 5; 6; 7; 8]; ga_len := 37; ga_sec := true; ga_enc := true |};
   {| ga_srv := true; ga_iv := repeat 255 8; ga_len := 5; ga_sec := false; ga_enc := false |}].
Proof. repeat split; repeat constructor. Qed.
(** the specification counts: ten vectors for a handshake with two Finished messages, two in rounds
    mode *)
Example C88_count_ex :
  length (tls_opened false [1; 2] [3] [4] [5] None [([99], [7]); ([115], [8])]) = 10%nat /\
  length (tls_opened true [1; 2] [3] [4] [5] None [([99], [7]); ([115], [8])]) = 2%nat.
Proof. split; reflexivity. Qed.
(** the calls that hand out opened bytes *)
Example C88_handed_ex : handed [NMaster 1 2 [] []; NClientFin [1] [2]; NAead false; NEncrypt 0 [] 3 true; NDecrypt 0 [] 2 false]
  [[9]; []; [8; 7]] = [[9]; [8; 7]].
Proof. reflexivity. Qed.
