(** Property C89: what the garbled circuits of a whole session tell each party. *)
From Coq Require Import List NArith ZArith Bool Arith.
From Verif Require Import L_Bits L_Res S_Circuit S_Lower S_GarbleView.
From Verif Require S_Netlist.
From Verif Require Import S_Codec S_Aes S_Gcm S_Tls S_Open M_EmpInteger M_Utils M_Bristol M_Bn M_Sym M_SymOn M_SymOff M_SymSess.
From Verif Require Import M_Block M_Shares M_Garble M_GarbleTr M_Handshake D_AesKs D_AesEnc.
From Verif Require Import P_Garble P_Aead P_AeadInst P_Handshake P_Sym P_SymTls P_SymGcm M_LabRec P_Labels P_Open3 P_SessView P_GarbleSat.
Import ListNotations.
Local Open Scope N_scope.

(** ** C89 *)
(** Any two sessions that announce the same calls and open the same values.  Whatever the garbler's
    random values in the first, the change of C83 makes the second send the evaluator the same
    tables, labels and messages; the shares the evaluator reads from its labels are the same. *)
Theorem C89_evaluator_session : forall sigma aes Hash fixk lab delta, getLSB delta = true ->
  forall orc' junk ks enc q rounds cs1 cs2 x1 s1 x2 s2, Forall (sizes_ok q rounds) cs1 -> Forall (sizes_ok q rounds) cs2 ->
  map announce cs1 = map announce cs2 ->
  on_session honest ks enc q rounds cs1 cst0 = Ok (x1, s1) -> on_session honest ks enc q rounds cs2 cst0 = Ok (x2, s2) ->
  S_Netlist.openings (c_tr s1) = S_Netlist.openings (c_tr s2) ->
  let on1 := lower (c_tr s1) in let on2 := lower (c_tr s2) in
  exists y s', off_session orc' junk ks enc q rounds (map announce cs1) cst0 = Ok (y, s') /\
  let off := lower (c_tr s') in
  exists g e n op, f_run sigma aes fixk lab delta f_init_g f_init_e [] off = Ok (g, e, []) /\
  n_run sigma aes Hash fixk lab delta (fg_out g) (fe_GC e) (fe_pub e) n_init on1 = Ok (n, op) /\
  let l := ne_w n in let gs := S_GarbleView.gates 0 on1 in
  (NoDup (unknown_points sigma delta gs l) ->
   (forall p, In p (unknown_points sigma delta gs l) -> ~ In p (known_points sigma gs l)) ->
   let aes' p := N.lxor (aes p) (shift sigma delta gs l (fst (spec_run [] on1)) (fst (spec_run [] on2)) p) in
   let lab' k := N.lxor (lab k) (if xorb (nth k (inputs on1) false) (nth k (inputs on2) false) then delta else 0) in
   exists g' n' op',
    f_run sigma aes' fixk lab' delta f_init_g f_init_e [] off = Ok (g', e, []) /\
    f_sent sigma aes' fixk lab' delta f_init_g off = f_sent sigma aes fixk lab delta f_init_g off /\
    n_run sigma aes' Hash fixk lab' delta (fg_out g') (fe_GC e) (fe_pub e) n_init on2 = Ok (n', op') /\
    Forall2 seen (map low_open (S_Netlist.openings (c_tr s2))) op' /\
    ne_w n' = ne_w n /\
    (forall ws, low_bits (ne_w n) ws = bxor (low_bits (ng_w n') ws) (ev s2 ws)) /\
    n_sent sigma aes' Hash fixk lab' delta (fg_out g') (fe_GC e) (fe_pub e) n_init on2 =
    n_sent sigma aes Hash fixk lab delta (fg_out g) (fe_GC e) (fe_pub e) n_init on1).
Proof. exact evaluator_session. Qed.
Print Assumptions C89_evaluator_session.
(** The garbler needs no change: its labels and what it receives are the same. *)
Theorem C89_garbler_session : forall sigma aes Hash fixk lab delta, getLSB delta = true ->
  forall orc' junk ks enc q rounds cs1 cs2 x1 s1 x2 s2, Forall (sizes_ok q rounds) cs1 -> Forall (sizes_ok q rounds) cs2 ->
  map announce cs1 = map announce cs2 ->
  on_session honest ks enc q rounds cs1 cst0 = Ok (x1, s1) -> on_session honest ks enc q rounds cs2 cst0 = Ok (x2, s2) ->
  S_Netlist.openings (c_tr s1) = S_Netlist.openings (c_tr s2) ->
  let on1 := lower (c_tr s1) in let on2 := lower (c_tr s2) in
  exists y s', off_session orc' junk ks enc q rounds (map announce cs1) cst0 = Ok (y, s') /\
  exists g e n n' op op', f_run sigma aes fixk lab delta f_init_g f_init_e [] (lower (c_tr s')) = Ok (g, e, []) /\
    n_run sigma aes Hash fixk lab delta (fg_out g) (fe_GC e) (fe_pub e) n_init on1 = Ok (n, op) /\
    n_run sigma aes Hash fixk lab delta (fg_out g) (fe_GC e) (fe_pub e) n_init on2 = Ok (n', op') /\
    ng_w n' = ng_w n /\
    snd (n_sent sigma aes Hash fixk lab delta (fg_out g) (fe_GC e) (fe_pub e) n_init on1) =
    snd (n_sent sigma aes Hash fixk lab delta (fg_out g) (fe_GC e) (fe_pub e) n_init on2).
Proof. exact garbler_session. Qed.
Print Assumptions C89_garbler_session.

(** The TLS session with two pairs of shares of the premaster secret: it is enough that the values of
    C88, which are written from the specification, agree. *)
Theorem C89_evaluator_tls : forall sigma aes Hash fixk lab delta, getLSB delta = true ->
  forall orc' junk q rounds pa pb pa' pb' rc rs sh os cs, (0 <= pa < q)%Z -> (0 <= pb < q)%Z -> (0 <= pa' < q)%Z -> (0 <= pb' < q)%Z ->
  Forall byte8 rc -> Forall byte8 rs -> opt_wf sh -> Forall fin_wf os -> Forall gcall_wf cs ->
  (rounds = true -> tls_sizes rc rs sh os) ->
  session_opened q rounds pa pb rc rs sh os cs = session_opened q rounds pa' pb' rc rs sh os cs ->
  exists x1 s1 x2 s2 y s' g e n op,
  on_session honest aes_ks_file aes_enc_file q rounds (gcm_calls pa pb rc rs sh os cs) cst0 = Ok (x1, s1) /\
  on_session honest aes_ks_file aes_enc_file q rounds (gcm_calls pa' pb' rc rs sh os cs) cst0 = Ok (x2, s2) /\
  off_session orc' junk aes_ks_file aes_enc_file q rounds (map announce (gcm_calls pa pb rc rs sh os cs)) cst0 = Ok (y, s') /\
  let on1 := lower (c_tr s1) in let on2 := lower (c_tr s2) in let off := lower (c_tr s') in
  f_run sigma aes fixk lab delta f_init_g f_init_e [] off = Ok (g, e, []) /\
  n_run sigma aes Hash fixk lab delta (fg_out g) (fe_GC e) (fe_pub e) n_init on1 = Ok (n, op) /\
  let l := ne_w n in let gs := S_GarbleView.gates 0 on1 in
  (NoDup (unknown_points sigma delta gs l) ->
   (forall p, In p (unknown_points sigma delta gs l) -> ~ In p (known_points sigma gs l)) ->
   let aes' p := N.lxor (aes p) (shift sigma delta gs l (fst (spec_run [] on1)) (fst (spec_run [] on2)) p) in
   let lab' k := N.lxor (lab k) (if xorb (nth k (inputs on1) false) (nth k (inputs on2) false) then delta else 0) in
   exists g' n' op',
    f_run sigma aes' fixk lab' delta f_init_g f_init_e [] off = Ok (g', e, []) /\
    f_sent sigma aes' fixk lab' delta f_init_g off = f_sent sigma aes fixk lab delta f_init_g off /\
    n_run sigma aes' Hash fixk lab' delta (fg_out g') (fe_GC e) (fe_pub e) n_init on2 = Ok (n', op') /\
    ne_w n' = ne_w n /\
    (forall ws, low_bits (ne_w n) ws = bxor (low_bits (ng_w n') ws) (ev s2 ws)) /\
    n_sent sigma aes' Hash fixk lab' delta (fg_out g') (fe_GC e) (fe_pub e) n_init on2 =
    n_sent sigma aes Hash fixk lab delta (fg_out g) (fe_GC e) (fe_pub e) n_init on1).
Proof. exact evaluator_tls. Qed.
Print Assumptions C89_evaluator_tls.
Theorem C89_garbler_tls : forall sigma aes Hash fixk lab delta, getLSB delta = true ->
  forall orc' junk q rounds pa pb pa' pb' rc rs sh os cs, (0 <= pa < q)%Z -> (0 <= pb < q)%Z -> (0 <= pa' < q)%Z -> (0 <= pb' < q)%Z ->
  Forall byte8 rc -> Forall byte8 rs -> opt_wf sh -> Forall fin_wf os -> Forall gcall_wf cs ->
  (rounds = true -> tls_sizes rc rs sh os) ->
  session_opened q rounds pa pb rc rs sh os cs = session_opened q rounds pa' pb' rc rs sh os cs ->
  exists x1 s1 x2 s2 y s' g e n n' op op',
  on_session honest aes_ks_file aes_enc_file q rounds (gcm_calls pa pb rc rs sh os cs) cst0 = Ok (x1, s1) /\
  on_session honest aes_ks_file aes_enc_file q rounds (gcm_calls pa' pb' rc rs sh os cs) cst0 = Ok (x2, s2) /\
  off_session orc' junk aes_ks_file aes_enc_file q rounds (map announce (gcm_calls pa pb rc rs sh os cs)) cst0 = Ok (y, s') /\
  f_run sigma aes fixk lab delta f_init_g f_init_e [] (lower (c_tr s')) = Ok (g, e, []) /\
  n_run sigma aes Hash fixk lab delta (fg_out g) (fe_GC e) (fe_pub e) n_init (lower (c_tr s1)) = Ok (n, op) /\
  n_run sigma aes Hash fixk lab delta (fg_out g) (fe_GC e) (fe_pub e) n_init (lower (c_tr s2)) = Ok (n', op') /\
  ng_w n' = ng_w n /\
  snd (n_sent sigma aes Hash fixk lab delta (fg_out g) (fe_GC e) (fe_pub e) n_init (lower (c_tr s1))) =
  snd (n_sent sigma aes Hash fixk lab delta (fg_out g) (fe_GC e) (fe_pub e) n_init (lower (c_tr s2))).
Proof. exact garbler_tls. Qed.
Print Assumptions C89_garbler_tls.

(** In rounds mode these values agree as soon as the verify data and the public key streams do; with
    no Finished message and secret records only, for any two premaster secrets. *)
Theorem C89_rounds_values : forall q pa pb pa' pb' rc rs sh os cs,
  let ms := ms_spec (pms_of q pa pb) rc rs sh in let ms' := ms_spec (pms_of q pa' pb') rc rs sh in
  let kb := key_block ms rc rs in let kb' := key_block ms' rc rs in
  Forall (fun o => fin_vd ms o = fin_vd ms' o) os ->
  Forall (fun c => ga_sec c = false ->
    gc_ks (aesE (tls_client_key kb)) (aesE (tls_server_key kb)) (tls_client_iv kb) (tls_server_iv kb) c =
    gc_ks (aesE (tls_client_key kb')) (aesE (tls_server_key kb')) (tls_client_iv kb') (tls_server_iv kb') c) cs ->
  session_opened q true pa pb rc rs sh os cs = session_opened q true pa' pb' rc rs sh os cs.
Proof. exact rounds_equal. Qed.
Print Assumptions C89_rounds_values.
Theorem C89_rounds_nothing : forall q pa pb rc rs sh cs, Forall (fun c => ga_sec c = true) cs ->
  session_opened q true pa pb rc rs sh [] cs = [].
Proof. exact nothing_opened. Qed.
Print Assumptions C89_rounds_nothing.

(** The two hypotheses on the hashed points can be met for every circuit of fewer than 2^63
    requests: with the identity as permutation, and labels and Delta below 2^64. *)
Theorem C89_points_possible : forall Hash fixk lab delta, getLSB delta = true -> small delta ->
  (forall k, small (fixk k)) -> (forall k, small (lab k)) ->
  forall off on1 g e s op, map shape off = map shape on1 -> wf 0 on1 = true -> N.of_nat (length on1) < 2 ^ 63 ->
  f_run (fun x => x) (fun x => x) fixk lab delta f_init_g f_init_e [] off = Ok (g, e, []) ->
  n_run (fun x => x) (fun x => x) Hash fixk lab delta (fg_out g) (fe_GC e) (fe_pub e) n_init on1 = Ok (s, op) ->
  NoDup (unknown_points (fun x => x) delta (S_GarbleView.gates 0 on1) (ne_w s)) /\
  (forall p, In p (unknown_points (fun x => x) delta (S_GarbleView.gates 0 on1) (ne_w s)) ->
     ~ In p (known_points (fun x => x) (S_GarbleView.gates 0 on1) (ne_w s))).
Proof. exact points_fresh. Qed.
Print Assumptions C89_points_possible.
Example C89_small_ex : getLSB 5 = true /\ small 5 /\ small (2 ^ 64 - 1) /\ ~ small (2 ^ 64).
Proof. repeat split. discriminate. Qed.
(** two different premaster secrets, nothing opened *)
Example C89_ex : let cs := [{| ga_srv := false; ga_iv := [1; 2; 3; 4; 5; 6; 7; 8]; ga_len := 37; ga_sec := true; ga_enc := true |}] in
  pms_of 251 200 100 <> pms_of 251 200 101 /\ Forall gcall_wf cs /\ tls_sizes (repeat 1 32) (repeat 2 32) None [] /\
  session_opened 251 true 200 100 (repeat 1 32) (repeat 2 32) None [] cs = session_opened 251 true 200 101 (repeat 1 32) (repeat 2 32) None [] cs.
Proof.
  cbv zeta. split; [vm_compute; discriminate|]. split; [repeat constructor|]. split; [repeat (split || constructor)|].
  rewrite !nothing_opened; [reflexivity|repeat constructor|repeat constructor].
Qed.
