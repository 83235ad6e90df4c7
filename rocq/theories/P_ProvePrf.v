(** Key derivation in proxy mode (C61) and what the checks do not bind (C35). *)
From Coq Require Import List NArith ZArith Bool Arith Lia.
From Verif Require Import L_Bits L_Res L_Str M_EmpInteger M_Trace M_Utils M_Sha256 M_Hmac M_Bn M_Handshake M_ProvePrf.
From Verif Require Import S_Sha256 S_Hmac S_Codec S_Tls P_Sha256 P_Sha256Msg P_Sha256Opt P_Hmac P_Prf P_PrfHist
  P_PrfZk P_Utils P_Bn P_Handshake.
Import ListNotations.
Local Opaque chunk_compress plain_chunk_compress compress prf_bytes ascii_bytes.

Definition honest (d : list N) : list N := d.

Lemma pp_call_ok s k m n label seed :
  hinv (str_to_int k) m (pp_hmac s) -> m <> UseRounds -> Forall byte8 label -> Forall byte8 seed ->
  exists p h, pp_call honest s [] n label seed = Ok (mkPp (pp_q s) h p, str_to_int (prf_bytes n k label seed)) /\
    hinv (str_to_int k) UseOpt h.
Proof.
  intros V Hm Hl Hs. unfold pp_call, honest. rewrite (Nat.mul_comm n 8).
  destruct (opt_phash_ok (str_to_int k) m (pp_prf s) (pp_hmac s) [] (8 * n) (label ++ seed) true true V)
    as (h & r' & E & V' & Q).
  { apply Forall_app; auto. }
  { intros _. exact Hm. }
  rewrite E. cbn [bind fst snd]. eexists _, h. split; [|exact V']. do 2 f_equal.
  apply rev_str. rewrite Q, prf_bytes_bits, str_to_int_bits. unfold prf. now rewrite bits_of_bytes_app.
Qed.

Lemma pp_init_call s k n label seed : pos_ok (pp_hmac s) -> Forall byte8 label -> Forall byte8 seed ->
  exists p h, (let* s := pp_init s (str_to_int k) in pp_call honest s [] n label seed)%res =
     Ok (mkPp (pp_q s) h p, str_to_int (prf_bytes n k label seed)) /\ hinv (str_to_int k) UseOpt h.
Proof.
  intros P Hl Hs. destruct (hinit_inv (pp_hmac s) (str_to_int k) P) as (h1 & E1 & V1).
  unfold pp_init, prf_init. rewrite E1. cbn [bind].
  apply (pp_call_ok (mkPp (pp_q s) h1 (pp_prf s)) k Fresh); try assumption. discriminate.
Qed.

Definition pp_ms (s : pp) (pms : Z) (rc rs : list N) (sh : option (list N)) : res (pp * Integer) :=
  match sh with
  | Some h => pp_extended_master_key honest s [] pms h
  | None => pp_master_key honest s [] pms rc rs
  end.

Definition pp_session (q pms : Z) (rc rs tc ts : list N) (sh : option (list N))
  : res (Integer * (Integer * Integer * Integer * Integer) * Integer * Integer) :=
  (let* (s, ms) := pp_ms (pp_new q) pms rc rs sh in
   let* (s, ks) := pp_expansion_keys honest s ms rc rs in
   let* (s, fc) := pp_client_finished honest s [] tc in
   let* (s, fs) := pp_server_finished honest s [] ts in
   Ok (ms, ks, fc, fs))%res.

Theorem pp_session_ok q pms rc rs tc ts sh : (0 <= pms < q)%Z ->
  Forall byte8 rc -> Forall byte8 rs -> Forall byte8 tc -> Forall byte8 ts -> opt_wf sh ->
  let m := ms_spec (premaster (BN_num_bytes q) (Z.to_N pms)) rc rs sh in
  let kb := key_block m rc rs in
  pp_session q pms rc rs tc ts sh = Ok (str_to_int m,
    (str_to_int (tls_client_key kb), str_to_int (tls_server_key kb),
     str_to_int (tls_client_iv kb), str_to_int (tls_server_iv kb)),
    str_to_int (client_verify_data m tc), str_to_int (server_verify_data m ts)).
Proof.
  intros Hp Hc Hs Htc Hts Hh m kb. unfold pp_session.
  assert (X : exists p h, pp_ms (pp_new q) pms rc rs sh = Ok (mkPp q h p, str_to_int m) /\
     hinv (str_to_int (premaster (BN_num_bytes q) (Z.to_N pms))) UseOpt h).
  { unfold pp_ms, pp_extended_master_key, pp_master_key. cbn [pp_new pp_q].
    destruct sh; rewrite pms_int_ok by exact Hp; cbn [bind];
      apply (pp_init_call (pp_new q) (premaster (BN_num_bytes q) (Z.to_N pms)));
      try reflexivity; try apply ascii_bytes_byte; try exact Hh. apply Forall_app; auto. }
  destruct X as (p & h & E & V). rewrite E. cbn [bind]. clear E. unfold pp_expansion_keys.
  destruct (pp_init_call (mkPp q h p) m expansion_key_length key_expansion_label (rs ++ rc) (hinv_pos _ _ _ V)
     (ascii_bytes_byte _) (proj2 (Forall_app _ _ _) (conj Hs Hc))) as (p2 & h2 & E2 & V2).
  destruct (pp_init (mkPp q h p) (str_to_int m)) as [s1| |]; [|discriminate|discriminate].
  cbn [bind] in E2 |- *. rewrite E2. cbn [bind]. clear E2.
  rewrite (split_keys_ok (prf_bytes expansion_key_length m key_expansion_label (rs ++ rc))) by apply prf_bytes_length.
  cbn [bind]. unfold pp_client_finished.
  destruct (pp_call_ok (mkPp q h2 p2) m UseOpt finished_msg_length client_finished_label tc V2 ltac:(discriminate)
    (ascii_bytes_byte _) Htc) as (p3 & h3 & E3 & V3).
  cbn [pp_q] in E3 |- *. rewrite E3. cbn [bind]. clear E3. unfold pp_server_finished.
  destruct (pp_call_ok (mkPp q h3 p3) m UseOpt finished_msg_length server_finished_label ts V3 ltac:(discriminate)
    (ascii_bytes_byte _) Hts) as (p4 & h4 & E4 & V4).
  cbn [pp_q] in E4 |- *. rewrite E4. cbn [bind]. reflexivity.
Qed.

(** * C35 *)
(** the round-optimised mode takes the seed from ALICE: whatever ALICE inputs of the same
    length is what the keys are derived from *)
Lemma rounds_unbound feed h r n seed ri ro : length (feed seed) = length seed ->
  rounds_phash_core feed h r n seed ri ro = rounds_phash_core (fun d => d) h r n (feed seed) ri ro.
Proof. intro L. unfold rounds_phash_core. now rewrite L. Qed.

Lemma rounds_unbound_prf key h r n seed seed' : hinv key Fresh h -> length seed' = length seed ->
  exists h' r', rounds_phash_core (fun _ => seed') h r n seed true true = Ok (h', r') /\
    rev r' = rev r ++ p_hash n (rev key) (bits_of_bytes seed').
Proof.
  intros V L. rewrite rounds_unbound by exact L.
  destruct (rounds_phash_ok key Fresh h r n seed' true true V) as (h' & r' & E & _ & R); [discriminate|]. eauto.
Qed.

(** a garbled derivation followed by its proof and the deferred comparisons *)
Definition derive_and_prove (feed : list N -> list N) (key : Integer) (n : nat) (seed : list N)
  : res (Integer * Integer * list (Integer * list N)) :=
  (let* h := prf_init hmac_init key in
   let* (x, r) := opt_phash_core feed prf_init0 h [] n seed true true false in
   let* h := prf_init (snd x) key in
   let* (x, r') := opt_phash_core feed (fst x) h [] n seed true true true in
   let* c1 := prf_check (fst x) in
   let* c2 := sha256_check (sha (snd x)) in
   Ok (r, r', c1 ++ c2))%res.

Definition cmp_holdb (l : list (Integer * list N)) : bool :=
  forallb (fun c => if list_eq_dec bool_dec (fst c) (int_of_array 256 32 (snd c)) then true else false) l.
Lemma cmp_holdb_ok l : cmp_holdb l = true -> cmp_hold l.
Proof.
  unfold cmp_holdb, cmp_hold. rewrite forallb_forall, Forall_forall. intros H x Hx. specialize (H x Hx).
  destruct list_eq_dec; [assumption|discriminate].
Qed.

Definition zeros8 (_ : list N) : list N := [0; 0; 0; 0; 0; 0; 0; 0]%N.
Lemma zeros8_length d : length (zeros8 d) = 8%nat.
Proof. reflexivity. Qed.
Definition ex35_key : Integer := str_to_int [1; 2; 3]%N.
Definition run_ok (x : res (Integer * Integer * list (Integer * list N))) : bool :=
  match x with
  | Ok (r, r', c) => cmp_holdb c && negb (length c =? 0)%nat &&
      (if list_eq_dec bool_dec r r' then true else false)
  | _ => false end.
Definition run_diff (x y : res (Integer * Integer * list (Integer * list N))) : bool :=
  match x, y with
  | Ok (r, _, _), Ok (r0, _, _) => if list_eq_dec bool_dec r r0 then false else true
  | _, _ => false end.
Lemma run_spec x y w : run_ok x = true -> run_diff x y = true ->
  (forall r0 r0' c0, y = Ok (r0, r0', c0) -> rev r0 = w) ->
  exists r c, x = Ok (r, r, c) /\ c <> [] /\ cmp_hold c /\ rev r <> w.
Proof.
  intros A B W. unfold run_ok, run_diff in *.
  destruct x as [[[r r'] c]| |]; try discriminate. destruct y as [[[r0 r0'] c0]| |]; try discriminate.
  specialize (W _ _ _ eq_refl).
  destruct (list_eq_dec bool_dec r r') as [<-|]; [|rewrite andb_false_r in A; discriminate].
  rewrite andb_true_r in A. apply andb_prop in A. destruct A as [A1 A2].
  exists r, c. split; [reflexivity|]. split; [intros ->; discriminate|].
  split; [now apply cmp_holdb_ok|]. rewrite <- W. intro X. apply (f_equal (@rev bool)) in X.
  rewrite !rev_involutive in X. destruct (list_eq_dec bool_dec r r0); [discriminate|contradiction].
Qed.

Local Transparent chunk_compress plain_chunk_compress compress.
Lemma ex35_run : run_ok (derive_and_prove zeros8 ex35_key 96 [7; 8]%N) = true.
Proof. vm_compute. reflexivity. Qed.
(** the honest result, by the model; equal to the PRF by opt_phash_ok *)
Lemma ex35_diff : run_diff (derive_and_prove zeros8 ex35_key 96 [7; 8]%N) (derive_and_prove honest ex35_key 96 [7; 8]%N) = true.
Proof. vm_compute. reflexivity. Qed.
Local Opaque chunk_compress plain_chunk_compress compress.

Lemma honest_derive key n seed r r' c : Forall byte8 seed -> derive_and_prove honest key n seed = Ok (r, r', c) ->
  rev r = p_hash n (rev key) (bits_of_bytes seed).
Proof.
  intros F E. unfold derive_and_prove, prf_init, honest in E.
  destruct (hinit_inv hmac_init key eq_refl) as (h1 & I1 & V1). rewrite I1 in E. cbn [bind] in E.
  destruct (opt_phash_ok key Fresh prf_init0 h1 [] n seed true true V1 F ltac:(discriminate)) as (h2 & r2 & E2 & _ & R).
  rewrite E2 in E. cbn [bind] in E.
  destruct (hinit _ key) as [h3| |]; try discriminate. cbn [bind] in E.
  destruct (opt_phash_core _ _ h3 _ _ _ _ _ true) as [[x3 r3]| |]; try discriminate. cbn [bind] in E.
  destruct (prf_check _) as [c1| |]; try discriminate. cbn [bind] in E.
  destruct (sha256_check _) as [c2| |]; try discriminate. cbn [bind] in E.
  injection E as -> _ _. exact R.
Qed.

Theorem standard_unbound : exists feed key n seed r c,
  (forall d, length (feed d) = 8%nat) /\
  derive_and_prove feed key n seed = Ok (r, r, c) /\ c <> [] /\ cmp_hold c /\
  rev r <> p_hash n (rev key) (bits_of_bytes seed).
Proof.
  exists zeros8, ex35_key, 96%nat, [7; 8]%N.
  destruct (run_spec _ _ (p_hash 96 (rev ex35_key) (bits_of_bytes [7; 8]%N)) ex35_run ex35_diff) as (r & c & H).
  { intros r0 r0' c0. apply honest_derive. repeat constructor. }
  exists r, c. split; [exact zeros8_length|exact H].
Qed.
