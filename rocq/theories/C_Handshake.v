(** Properties C32-C35, C58, C59 and C61-C63: the TLS 1.2 key schedule in the garbled and
    in the proof phase. *)
From Coq Require Import List NArith ZArith Bool Arith.
From Verif Require Import L_Bits L_Res L_Str M_EmpInteger M_Trace M_Utils M_Sha256 M_Hmac M_Bn M_Addmod M_Handshake M_ProvePrf.
From Verif Require Import S_Sha256 S_Hmac S_Codec S_Tls P_Sha256Opt P_Hmac P_PrfHist P_PrfZk P_PrfZkC P_Handshake P_HandshakeZk P_ProvePrf P_Tight.
Import ListNotations.

(** ** C32 *)
(** From shares pa and pb of the x coordinate modulo q, for the plain ([sh = None]) and the
    extended ([sh = Some session_hash]) master secret, both modes ([rounds]) and any
    sequence [os] of Finished computations. *)
Theorem C32_session_is_tls12 : forall q rounds pa pb rc rs sh os, (0 <= pa < q)%Z -> (0 <= pb < q)%Z ->
  Forall byte8 rc -> Forall byte8 rs -> opt_wf sh -> Forall fin_wf os ->
  let ms := ms_spec (premaster (BN_num_bytes q) (Z.to_N ((pa + pb) mod q))) rc rs sh in
  let kb := key_block ms rc rs in
  exists s, session q rounds pa pb rc rs sh os = Ok s /\
    hs_ms s = str_to_int ms /\
    hs_cwk s = str_to_int (tls_client_key kb) /\ hs_swk s = str_to_int (tls_server_key kb) /\
    hs_civ s = str_to_int (tls_client_iv kb) /\ hs_siv s = str_to_int (tls_server_iv kb) /\
    (hs_cufin s, hs_sufin s) = fin_spec ms os None None.
Proof. exact session_ok. Qed.
Print Assumptions C32_session_is_tls12.
(** two shares above q/2, so the sum wraps *)
Example C32_ex_hyps : (0 <= 200 < 251)%Z /\ (0 <= 100 < 251)%Z /\ ((200 + 100) mod 251 = 49)%Z /\
  Forall byte8 [1; 2]%N /\ opt_wf (Some [9]%N) /\
  Forall fin_wf [FinC client_finished_label [5; 6]%N; FinS server_finished_label [5; 6]%N].
Proof.
  assert (B : forall a b, (a < 256)%N -> (b < 256)%N -> Forall byte8 [a; b]) by (intros; repeat constructor; assumption).
  split; [split; reflexivity || discriminate|]. split; [split; reflexivity || discriminate|]. split; [reflexivity|].
  split; [apply B; reflexivity|]. split; [repeat constructor|].
  constructor; [|constructor; [|constructor]]; (split; [apply ascii_bytes_byte|apply B; reflexivity]).
Qed.

(** each party feeds its own share to the addition, and the share kept for the proof is ALICE's *)
Theorem C32_own_share_fed : forall s pa pb s' x, pms_addmod s pa pb = Ok (s', x) ->
  exists a b, pms_int (hs_q s) pa = Ok a /\ pms_int (hs_q s) pb = Ok b /\
    evs (sha (hs_hmac s')) = evs (sha (hs_hmac s)) ++ [EvFeed ALICE (length a); EvFeed BOB (length b); EvAddmod (length a)] /\
    hs_zk_pms s' = a.
Proof. exact own_share_fed. Qed.
Print Assumptions C32_own_share_fed.
Example C32_own_share_ex : exists s' x, pms_addmod (hs_new 251 true) 200 100 = Ok (s', x) /\ x = bits_of_N 8 49 /\ hs_zk_pms s' = bits_of_N 8 200.
Proof. eexists. eexists. split; [vm_compute; reflexivity|split; reflexivity]. Qed.

(** ** C33 *)
(** The comparison accepts exactly the byte-reversed verify_data ... *)
Theorem C33_accepts_reversed : forall s vd msg res1, hs_sufin s = Some (rev vd) ->
  length vd = 12%nat -> length msg = 12%nat ->
  (check_server_finished s msg res1 = Ok true <-> res1 = true /\ msg = rev vd).
Proof. exact check_finished_iff. Qed.
Print Assumptions C33_accepts_reversed.
Example C33_ex : let vd := [1; 2; 3; 4; 5; 6; 7; 8; 9; 10; 11; 12]%N in
  let s := set_sufin (hs_new 251 false) (rev vd) in
  check_server_finished s (rev vd) true = Ok true /\ check_server_finished s vd true = Ok false.
Proof. vm_compute. split; reflexivity. Qed.
(** ... so a genuine server Finished message is rejected. *)
Theorem C33_genuine_finished_refuted : exists q pa pb rc rs tau s,
  session q false pa pb rc rs None [FinC client_finished_label tau; FinS server_finished_label tau] = Ok s /\
  check_server_finished s (server_verify_data (master_secret (pms_of q pa pb) rc rs) tau) true = Ok false.
Proof. exact finished_rejected. Qed.
Print Assumptions C33_genuine_finished_refuted.

(** ** C34 *)
(** Soundness: any recorded public values (the lists iv_in_hashes and pub_M of the garbled
    run, of the right shape), any history of PRF calls. *)
Theorem C34_sound : forall secret os p h p' h' rs c1 c2,
  zk_iv_in_hashes (sha h) = [] -> zpos (sha h) = (-1)%Z -> zk_sec_M p = [] -> zk_pos p = 0%nat ->
  Forall goodN (iv_in_hashes (sha h)) -> Forall goodN (pub_M p) -> pbytes os ->
  zrun (p, h) (PInit secret :: os) = Ok (p', h', None :: rs) ->
  prf_check p' = Ok c1 -> sha256_check (sha h') = Ok c2 -> cmp_hold c1 -> cmp_hold c2 ->
  map (option_map (@rev bool)) rs = pspec (rev secret) os.
Proof. exact zk_prf_sound. Qed.
Print Assumptions C34_sound.
(** Completeness: an honest garbled run from new objects followed by the proof run. *)
Theorem C34_complete : forall secret os, pdisc Fresh os ->
  exists p h rs p' h' rs' c1 c2,
    prun (prf_init0, hmac_init) (PInit secret :: os) = Ok (p, h, None :: rs) /\
    zrun (p, h) (PInit secret :: os) = Ok (p', h', None :: rs') /\
    prf_check p' = Ok c1 /\ sha256_check (sha h') = Ok c2 /\ cmp_hold c1 /\ cmp_hold c2 /\
    length c1 = length (exp_pubs secret os) /\ length c2 = length (exp_ivs secret Fresh os) /\
    rs' = rs /\ map (option_map (@rev bool)) rs = pspec (rev secret) os.
Proof. exact zk_prf_complete. Qed.
Print Assumptions C34_complete.
(** The number of comparisons is not zero: one derivation of 48 bytes from a fresh key. *)
Example C34_ex_counts : forall secret l s,
  length (exp_pubs secret [POpt 384 l s true true]) = 2%nat /\
  length (exp_ivs secret Fresh [POpt 384 l s true true]) = 1%nat.
Proof. intros. split; reflexivity. Qed.

(** Handshake: whatever the garbled phase recorded, if the comparisons of the proof phase
    hold, master secret and keys are those of the TLS key schedule of the secret shared by
    the committed wires zk_pms (value [a]) and the verifier's share, and the Finished values
    opened in the garbled phase were the right ones. *)
Theorem C34_handshake_sound : forall s pms rc rs tau_c tau_s sh s' ms ks a, let q := hs_q s in
  (0 <= a < q)%Z -> hs_zk_pms s = share_int q a -> (0 <= hs_bnb s < q)%Z ->
  zst s -> opt_bytes (hs_cufin s) -> opt_bytes (hs_sufin s) ->
  Forall byte8 rc -> Forall byte8 rs -> Forall byte8 tau_c -> Forall byte8 tau_s -> opt_wf sh ->
  prove_handshake s pms rc rs tau_c tau_s sh = Ok (s', ms, ks) -> checks_hold s' ->
  let m := ms_spec (pms_of q a (hs_bnb s)) rc rs sh in
  let kb := key_block m rc rs in
  ms = str_to_int m /\
  ks = (str_to_int (tls_client_key kb), str_to_int (tls_server_key kb),
        str_to_int (tls_client_iv kb), str_to_int (tls_server_iv kb)) /\
  hs_cufin s = Some (rev (client_verify_data m tau_c)) /\
  hs_sufin s = Some (rev (server_verify_data m tau_s)).
Proof. exact prove_handshake_sound. Qed.
Print Assumptions C34_handshake_sound.

(** verify data of another length than the 12 bytes computed cannot be compared: an error, not an
    accepted proof *)
Theorem C34_finished_length : forall s label tau s1 x u, hs_prf_call s [] finished_msg_length label tau true = Ok (s1, x) -> length x <> (length u * 8)%nat ->
  (hs_cufin s1 = Some u -> prove_client_finished_msg s label tau = Err) /\
  (hs_sufin s1 = Some u -> prove_server_finished_msg s label tau = Err).
Proof. exact finished_length. Qed.
Print Assumptions C34_finished_length.
Example C34_finished_ex : exists s s1 x, hs_prf_call s [] finished_msg_length server_finished_label [3]%N true = Ok (s1, x) /\
  length x = 96%nat /\ hs_cufin s1 = Some [1; 2]%N.
Proof.
  destruct (hinit_inv (hs_hmac (hs_new 251 true)) (str_to_int [7; 8]%N) eq_refl) as (h & _ & V).
  set (s := set_cufin (set_prf (hs_new 251 true) (hs_prf (hs_new 251 true)) h) [1; 2]%N).
  destruct (hs_prf_call_str s [7; 8]%N Fresh finished_msg_length server_finished_label [3]%N V (or_introl eq_refl)) as (p & h' & E & _);
    [apply ascii_bytes_byte|repeat constructor|].
  exists s, (set_prf s p h'), (str_to_int (prf_bytes finished_msg_length [7; 8]%N server_finished_label [3]%N)).
  split; [exact E|]. split; [|reflexivity]. rewrite str_length, prf_bytes_length. reflexivity.
Qed.

(** ** C58 *)
(** The reconstruction step succeeds iff the prover's claimed pre-master secret minus its
    share is the verifier's share, and then yields the shared secret. *)
Theorem C58_reconstruction : forall s pms a, let q := hs_q s in
  (0 <= a < q)%Z -> hs_zk_pms s = share_int q a -> (0 <= hs_bnb s < q)%Z ->
  (forall s' k, zk_pms_addmod s pms = Ok (s', k) ->
     s' = set_bn s (hs_bnb s) (hs_bnb s) /\ k = str_to_int (pms_of q a (hs_bnb s)) /\
     BN_mod_sub pms (hs_bna s) q = hs_bnb s) /\
  (BN_mod_sub pms (hs_bna s) q = hs_bnb s ->
   zk_pms_addmod s pms = Ok (set_bn s (hs_bnb s) (hs_bnb s), str_to_int (pms_of q a (hs_bnb s)))).
Proof. exact zk_pms_iff. Qed.
Print Assumptions C58_reconstruction.
(** An honest run: garbled session, then proof phase with the true pre-master secret. *)
Theorem C58_honest_proof : forall q rounds pa pb rc rs sh tc ts, (0 <= pa < q)%Z -> (0 <= pb < q)%Z ->
  Forall byte8 rc -> Forall byte8 rs -> opt_wf sh -> Forall byte8 tc -> Forall byte8 ts ->
  exists s s' ms ks, session q rounds pa pb rc rs sh (fins tc ts) = Ok s /\
    prove_handshake s ((pa + pb) mod q) rc rs tc ts sh = Ok (s', ms, ks) /\ checks_hold s' /\
    ms = hs_ms s /\ ks = (hs_cwk s, hs_swk s, hs_civ s, hs_siv s).
Proof. exact prove_handshake_complete. Qed.
Print Assumptions C58_honest_proof.
Example C58_ex : (BN_mod_sub ((200 + 100) mod 251) 200 251 = 100)%Z /\
  match zk_pms_addmod (set_zk_pms (store_pms (hs_new 251 false) 200 100) (share_int 251 200)) 49 with
  | Ok (s, k) => k = str_to_int [49%N] /\ hs_bna s = 100%Z
  | _ => False
  end /\
  zk_pms_addmod (set_zk_pms (store_pms (hs_new 251 false) 200 100) (share_int 251 200)) 50 = Err.
Proof. vm_compute. repeat split. Qed.

(** ** C59 *)
(** prove_master_key subtracts the share in place, so a second call on the same object
    fails for every honest session with different shares. *)
Theorem C59_second_proof_fails : forall q rounds pa pb rc rs tc ts, (0 <= pa < q)%Z -> (0 <= pb < q)%Z -> pa <> pb ->
  Forall byte8 rc -> Forall byte8 rs -> Forall byte8 tc -> Forall byte8 ts ->
  exists s s1 ms, session q rounds pa pb rc rs None (fins tc ts) = Ok s /\
    prove_master_key s [] ((pa + pb) mod q) rc rs = Ok (s1, ms) /\ ms = hs_ms s /\
    prove_master_key s1 [] ((pa + pb) mod q) rc rs = Err.
Proof. exact prove_twice. Qed.
Print Assumptions C59_second_proof_fails.
Theorem C59_repeatable_refuted : exists s pms rc rs s1 ms,
  prove_master_key s [] pms rc rs = Ok (s1, ms) /\ prove_master_key s1 [] pms rc rs = Err.
Proof.
  destruct (prove_twice 251 false 200 100 [] [] [] []) as (s & s1 & ms & _ & A & _ & B);
    try (split; [discriminate|reflexivity]); try discriminate; try constructor.
  exists s, ((200 + 100) mod 251)%Z, [], [], s1, ms. split; assumption.
Qed.
Print Assumptions C59_repeatable_refuted.

(** ** C35 *)
(** Standard mode: a prover that inputs zeros instead of the inner digests, in the garbled
    and in the proof phase, passes every comparison with a key that is not the PRF of the
    agreed label and seed. *)
Theorem C35_standard_mode_refuted : exists feed key n seed r c,
  (forall d, length (feed d) = 8%nat) /\
  derive_and_prove feed key n seed = Ok (r, r, c) /\ c <> [] /\ cmp_hold c /\
  rev r <> p_hash n (rev key) (bits_of_bytes seed).
Proof. exact standard_unbound. Qed.
Print Assumptions C35_standard_mode_refuted.
(** Round-optimised mode: the key is the PRF of whatever label and seed the prover inputs,
    and there is nothing to compare. *)
Theorem C35_rounds_mode_unbound : forall key h r n seed seed', hinv key Fresh h -> length seed' = length seed ->
  exists h' r', rounds_phash_core (fun _ => seed') h r n seed true true = Ok (h', r') /\
    rev r' = rev r ++ p_hash n (rev key) (bits_of_bytes seed').
Proof. exact rounds_unbound_prf. Qed.
Print Assumptions C35_rounds_mode_unbound.

(** ** C61 *)
Theorem C61_proxy_key_schedule : forall q pms rc rs tc ts sh, (0 <= pms < q)%Z ->
  Forall byte8 rc -> Forall byte8 rs -> Forall byte8 tc -> Forall byte8 ts -> opt_wf sh ->
  let m := ms_spec (premaster (BN_num_bytes q) (Z.to_N pms)) rc rs sh in
  let kb := key_block m rc rs in
  pp_session q pms rc rs tc ts sh = Ok (str_to_int m,
    (str_to_int (tls_client_key kb), str_to_int (tls_server_key kb),
     str_to_int (tls_client_iv kb), str_to_int (tls_server_iv kb)),
    str_to_int (client_verify_data m tc), str_to_int (server_verify_data m ts)).
Proof. exact pp_session_ok. Qed.
Print Assumptions C61_proxy_key_schedule.
Example C61_ex : (0 <= 49 < 251)%Z /\ premaster (BN_num_bytes 65537) 49 = [0; 0; 49]%N.
Proof. vm_compute. repeat split; discriminate. Qed.

(** ** C62, C63 *)
(** A Finished value computed before the key expansion is keyed with the pre-master
    secret. *)
Theorem C62_finished_before_expansion : forall q rounds pa pb rc rs sh label tau, (0 <= pa < q)%Z -> (0 <= pb < q)%Z ->
  Forall byte8 rc -> Forall byte8 rs -> opt_wf sh -> Forall byte8 label -> Forall byte8 tau ->
  exists s, (let* s := compute_ms (store_pms (hs_new q rounds) pa pb) pa pb rc rs sh in
             compute_client_finished_msg s label tau)%res = Ok s /\
    hs_cufin s = Some (rev (verify_data (pms_of q pa pb) label tau)).
Proof. exact finished_before_expansion. Qed.
Print Assumptions C62_finished_before_expansion.
(** Deriving the master secret a second time appends to the member. *)
Theorem C63_master_key_twice : forall q rounds pa pb rc rs, (0 <= pa < q)%Z -> (0 <= pb < q)%Z ->
  Forall byte8 rc -> Forall byte8 rs ->
  let ms := str_to_int (master_secret (pms_of q pa pb) rc rs) in
  exists s, (let* s := compute_master_key (store_pms (hs_new q rounds) pa pb) pa pb rc rs in
             compute_master_key s pa pb rc rs)%res = Ok s /\ hs_ms s = ms ++ ms.
Proof. exact master_twice. Qed.
Print Assumptions C63_master_key_twice.
Theorem C63_replaced_refuted : exists q pa pb rc rs s,
  (let* s := compute_master_key (store_pms (hs_new q false) pa pb) pa pb rc rs in
   compute_master_key s pa pb rc rs)%res = Ok s /\
  length (hs_ms s) <> (8 * master_key_length)%nat.
Proof.
  destruct (master_twice 251 false 200 100 [] []) as (s & E & H); try (split; [discriminate|reflexivity]); try constructor.
  exists 251%Z, 200%Z, 100%Z, [], [], s. split; [exact E|]. rewrite H, app_length, !str_length.
  unfold master_secret. rewrite !prf_bytes_length. vm_compute. discriminate.
Qed.
Print Assumptions C63_replaced_refuted.
