(** Model of class HandShake (/repo/protocol/handshake.h:39-532).  Both parties run the same call, so the state is
    the joint one: a wire is its cleartext value, and a plain member that the two parties
    hold with different contents (bn_pms) appears once per party.  Both parties construct
    the object with the same curve and the same ENABLE_ROUNDS_OPT.  The elliptic-curve
    members are in M_Group. *)
From Coq Require Import String List NArith ZArith Bool Arith.
From Verif Require Import L_Bits L_Res L_Str M_EmpInteger M_Trace M_Utils M_Sha256 M_Hmac M_Bn M_Addmod.
Import ListNotations.
Local Open Scope res_scope.

(** labels: /repo/protocol/handshake.h:15-25 (the terminating NUL is not part of them) *)
Definition master_key_label : list N := ascii_bytes "master secret".
(** same code: /repo/protocol/handshake.h:15-25 *)
Definition key_expansion_label : list N := ascii_bytes "key expansion".
(** same code: /repo/protocol/handshake.h:15-25 *)
Definition client_finished_label : list N := ascii_bytes "client finished".
(** same code: /repo/protocol/handshake.h:15-25 *)
Definition server_finished_label : list N := ascii_bytes "server finished".
(** same code: /repo/protocol/handshake.h:15-25 *)
Definition extended_master_key_label : list N := ascii_bytes "extended master secret".
(** lengths in bytes: /repo/protocol/handshake.h:27-37 *)
Definition master_key_length : nat := 48.
(** same code: /repo/protocol/handshake.h:27-37 *)
Definition expansion_key_length : nat := 40.
(** same code: /repo/protocol/handshake.h:27-37 *)
Definition finished_msg_length : nat := 12.
(** same code: /repo/protocol/handshake.h:27-37 *)
Definition iv_length : nat := 4.
(** same code: /repo/protocol/handshake.h:27-37 *)
Definition key_length : nat := 16.
(** same code: /repo/protocol/handshake.h:27-37 *)
Definition extended_master_key_length : nat := 48.
(** same code: /repo/protocol/handshake.h:27-37 *)
Definition random_length : nat := 32.
(** same code: /repo/protocol/handshake.h:27-37 *)
Definition session_hash_length : nat := 32.

(** members: /repo/protocol/handshake.h:42-73; hs_bna and hs_bnb are the two parties'
    bn_pms; the uninitialised arrays client_ufin and server_ufin are [None]; hs_zk
    collects the comparisons handed to check_zero (wires, expected bits) *)
Record hs := mkHs {
  hs_q : Z;
  hs_rounds : bool;
  hs_hmac : hmac_st;
  hs_prf : prf_st;
  hs_zk_pms : Integer;
  hs_bna : Z;
  hs_bnb : Z;
  hs_ms : Integer;
  hs_cwk : Integer;
  hs_swk : Integer;
  hs_civ : Integer;
  hs_siv : Integer;
  hs_cufin : option (list N);
  hs_sufin : option (list N);
  hs_zk : list (Integer * Integer)
}.

(** constructor: /repo/protocol/handshake.h:74-97 *)
Definition hs_new (q : Z) (rounds : bool) : hs :=
  mkHs q rounds hmac_init prf_init0 [] 0 0 [] [] [] [] [] None None [].

(** record update standing for an assignment to a member of /repo/protocol/handshake.h:42-73 *)
Definition set_prf (s : hs) (p : prf_st) (h : hmac_st) : hs :=
  mkHs (hs_q s) (hs_rounds s) h p (hs_zk_pms s) (hs_bna s) (hs_bnb s) (hs_ms s)
       (hs_cwk s) (hs_swk s) (hs_civ s) (hs_siv s) (hs_cufin s) (hs_sufin s) (hs_zk s).
(** record update standing for an assignment to a member of /repo/protocol/handshake.h:42-73 *)
Definition set_bn (s : hs) (a b : Z) : hs :=
  mkHs (hs_q s) (hs_rounds s) (hs_hmac s) (hs_prf s) (hs_zk_pms s) a b (hs_ms s)
       (hs_cwk s) (hs_swk s) (hs_civ s) (hs_siv s) (hs_cufin s) (hs_sufin s) (hs_zk s).
(** record update standing for an assignment to a member of /repo/protocol/handshake.h:42-73 *)
Definition set_zk_pms (s : hs) (z : Integer) : hs :=
  mkHs (hs_q s) (hs_rounds s) (hs_hmac s) (hs_prf s) z (hs_bna s) (hs_bnb s) (hs_ms s)
       (hs_cwk s) (hs_swk s) (hs_civ s) (hs_siv s) (hs_cufin s) (hs_sufin s) (hs_zk s).
(** record update standing for an assignment to a member of /repo/protocol/handshake.h:42-73 *)
Definition set_ms (s : hs) (m : Integer) : hs :=
  mkHs (hs_q s) (hs_rounds s) (hs_hmac s) (hs_prf s) (hs_zk_pms s) (hs_bna s) (hs_bnb s) m
       (hs_cwk s) (hs_swk s) (hs_civ s) (hs_siv s) (hs_cufin s) (hs_sufin s) (hs_zk s).
(** record update standing for an assignment to a member of /repo/protocol/handshake.h:42-73 *)
Definition set_keys (s : hs) (ck sk ci si : Integer) : hs :=
  mkHs (hs_q s) (hs_rounds s) (hs_hmac s) (hs_prf s) (hs_zk_pms s) (hs_bna s) (hs_bnb s)
       (hs_ms s) ck sk ci si (hs_cufin s) (hs_sufin s) (hs_zk s).
(** record update standing for an assignment to a member of /repo/protocol/handshake.h:42-73 *)
Definition set_cufin (s : hs) (u : list N) : hs :=
  mkHs (hs_q s) (hs_rounds s) (hs_hmac s) (hs_prf s) (hs_zk_pms s) (hs_bna s) (hs_bnb s)
       (hs_ms s) (hs_cwk s) (hs_swk s) (hs_civ s) (hs_siv s) (Some u) (hs_sufin s) (hs_zk s).
(** record update standing for an assignment to a member of /repo/protocol/handshake.h:42-73 *)
Definition set_sufin (s : hs) (u : list N) : hs :=
  mkHs (hs_q s) (hs_rounds s) (hs_hmac s) (hs_prf s) (hs_zk_pms s) (hs_bna s) (hs_bnb s)
       (hs_ms s) (hs_cwk s) (hs_swk s) (hs_civ s) (hs_siv s) (hs_cufin s) (Some u) (hs_zk s).
(** record update standing for an assignment to a member of /repo/protocol/handshake.h:42-73 *)
Definition add_check (s : hs) (c : list (Integer * Integer)) : hs :=
  mkHs (hs_q s) (hs_rounds s) (hs_hmac s) (hs_prf s) (hs_zk_pms s) (hs_bna s) (hs_bnb s)
       (hs_ms s) (hs_cwk s) (hs_swk s) (hs_civ s) (hs_siv s) (hs_cufin s) (hs_sufin s)
       (hs_zk s ++ c).

(** record update standing for an assignment to a member of /repo/protocol/handshake.h:42-73 *)
Definition hlog (h : hmac_st) (e : list event) : hmac_st := with_sha h (log (sha h) e).

(** the buffer holding a share, as the Integer built from it:
    /repo/protocol/handshake.h:192-198, 235-241, 380-390; writing a share longer than the
    field starts before the buffer *)
Definition pms_int (q : Z) (pms : Z) : res Integer :=
  let len := BN_num_bytes q in
  let pms_len := BN_num_bytes pms in
  if (len <? pms_len)%nat then UB
  else
    let buf := repeat 0%N (len - pms_len) ++ BN_bn2bin pms in
    Ok (int_of_array (len * 8) 8 (rev buf)).

(** the call of the PRF in one of its two modes, e.g. /repo/protocol/handshake.h:219-227 *)
Definition hs_prf_call (s : hs) (r : Integer) (n : nat) (label seed : list N) (zk : bool)
  : res (hs * Integer) :=
  if negb (hs_rounds s) then
    let* (x, r) := prf_opt_compute (hs_prf s) (hs_hmac s) r (n * 8) label seed true true zk in
    Ok (set_prf s (fst x) (snd x), r)
  else
    let* (h, r) := prf_opt_rounds_compute (hs_hmac s) r (n * 8) label seed true true in
    Ok (set_prf s (hs_prf s) h, r).

(** compute_pms_online, storing the share: /repo/protocol/handshake.h:182-183 (the share
    itself comes from E2F, M_E2f) *)
Definition store_pms (s : hs) (pa pb : Z) : hs := set_bn s pa pb.

(** the common first half of compute_master_key and compute_extended_master_key:
    /repo/protocol/handshake.h:192-211, 235-254 *)
Definition pms_addmod (s : hs) (pa pb : Z) : res (hs * Integer) :=
  let* a := pms_int (hs_q s) pa in
  let* b := pms_int (hs_q s) pb in
  let s := set_zk_pms s a in
  let s := set_prf s (hs_prf s) (hlog (hs_hmac s)
             [EvFeed ALICE (length a); EvFeed BOB (length b); EvAddmod (length a)]) in
  let* pmsbits := addmod_bn a b (hs_q s) in
  Ok (s, pmsbits).

(** compute_master_key: /repo/protocol/handshake.h:187-229; [pa] and [pb] are ALICE's and
    BOB's argument pms *)
Definition compute_master_key (s : hs) (pa pb : Z) (rc rs : list N) : res hs :=
  let* (s, pmsbits) := pms_addmod s pa pb in
  let seed := rc ++ rs in
  let* h := prf_init (hs_hmac s) pmsbits in
  let s := set_prf s (hs_prf s) h in
  let* (s, ms) := hs_prf_call s (hs_ms s) master_key_length master_key_label seed false in
  Ok (set_ms s ms).

(** compute_extended_master_key: /repo/protocol/handshake.h:232-266 *)
Definition compute_extended_master_key (s : hs) (pa pb : Z) (session_hash : list N) : res hs :=
  let* (s, pmsbits) := pms_addmod s pa pb in
  let* h := prf_init (hs_hmac s) pmsbits in
  let s := set_prf s (hs_prf s) h in
  let* (s, ms) := hs_prf_call s (hs_ms s) extended_master_key_length
                    extended_master_key_label session_hash false in
  Ok (set_ms s ms).

(** splitting the key block: /repo/protocol/handshake.h:290-295, 475-479 *)
Definition split_keys (key : Integer) : res (Integer * Integer * Integer * Integer) :=
  let* ck := extract_integer key 0 (key_length * 8) in
  let* sk := extract_integer key (key_length * 8) (key_length * 8) in
  let* ci := extract_integer key (key_length * 8 * 2) (iv_length * 8) in
  let* si := extract_integer key (key_length * 8 * 2 + iv_length * 8) (iv_length * 8) in
  Ok (ck, sk, ci, si).

(** compute_expansion_keys: /repo/protocol/handshake.h:268-296 *)
Definition compute_expansion_keys (s : hs) (rc rs : list N) : res hs :=
  let seed := rs ++ rc in
  let* h := prf_init (hs_hmac s) (hs_ms s) in
  let s := set_prf s (hs_prf s) h in
  let* (s, key) := hs_prf_call s [] expansion_key_length key_expansion_label seed false in
  let* (ck, sk, ci, si) := split_keys key in
  Ok (set_keys s ck sk ci si).

(** compute_client_finished_msg and compute_server_finished_msg:
    /repo/protocol/handshake.h:298-326; the 12-byte array receives the opened bits eight
    at a time, least significant first *)
Definition finished_bytes (s : hs) (label tau : list N) : res (hs * list N) :=
  let* (s, ufin_int) := hs_prf_call s [] finished_msg_length label tau false in
  let s := set_prf s (hs_prf s) (hlog (hs_hmac s) [EvReveal PUBLIC (length ufin_int)]) in
  Ok (s, reveal_as 8 ufin_int).
(** same code: /repo/protocol/handshake.h:298-326 *)
Definition compute_client_finished_msg (s : hs) (label tau : list N) : res hs :=
  let* (s, u) := finished_bytes s label tau in Ok (set_cufin s u).
(** same code: /repo/protocol/handshake.h:298-326 *)
Definition compute_server_finished_msg (s : hs) (label tau : list N) : res hs :=
  let* (s, u) := finished_bytes s label tau in Ok (set_sufin s u).

(** the comparison at the end of decrypt_and_check_server_finished_msg:
    /repo/protocol/handshake.h:355-370; [msg] and [res1] are the outputs of
    AEAD::decrypt (M_Aead) *)
Definition check_server_finished (s : hs) (msg : list N) (res1 : bool) : res bool :=
  let* u := read (hs_sufin s) in
  Ok (res1 && if list_eq_dec N.eq_dec (firstn finished_msg_length msg) (firstn finished_msg_length u)
              then true else false).

(** a PUBLIC input under the zk backend: the two parties supply the value; if they supply
    different ones the MAC relation of the wire is broken and the session is rejected when
    the batched check is opened (C43)
    (used for /repo/protocol/handshake.h:391, 430) *)
Definition zk_public (a b : Integer) : res Integer :=
  if list_eq_dec bool_dec a b then Ok a else Err.

(** the common first half of prove_master_key and prove_extended_master_key:
    /repo/protocol/handshake.h:380-394, 419-433; [pms] is ALICE's argument.  BN_mod_sub
    overwrites ALICE's bn_pms. *)
Definition zk_pms_addmod (s : hs) (pms : Z) : res (hs * Integer) :=
  let s := set_bn s (BN_mod_sub pms (hs_bna s) (hs_q s)) (hs_bnb s) in
  let* za := pms_int (hs_q s) (hs_bna s) in
  let* zb := pms_int (hs_q s) (hs_bnb s) in
  let* z1 := zk_public za zb in
  let* pmsbits := addmod_bn z1 (hs_zk_pms s) (hs_q s) in
  Ok (s, pmsbits).

(** prove_master_key: /repo/protocol/handshake.h:373-411; [ms] is the caller's result
    object *)
Definition prove_master_key (s : hs) (ms : Integer) (pms : Z) (rc rs : list N)
  : res (hs * Integer) :=
  let* (s, pmsbits) := zk_pms_addmod s pms in
  let seed := rc ++ rs in
  let* h := prf_init (hs_hmac s) pmsbits in
  let s := set_prf s (hs_prf s) h in
  hs_prf_call s ms master_key_length master_key_label seed true.

(** prove_extended_master_key: /repo/protocol/handshake.h:414-446 *)
Definition prove_extended_master_key (s : hs) (ms : Integer) (pms : Z) (session_hash : list N)
  : res (hs * Integer) :=
  let* (s, pmsbits) := zk_pms_addmod s pms in
  let* h := prf_init (hs_hmac s) pmsbits in
  let s := set_prf s (hs_prf s) h in
  hs_prf_call s ms extended_master_key_length extended_master_key_label session_hash true.

(** prove_expansion_keys: /repo/protocol/handshake.h:448-481 *)
Definition prove_expansion_keys (s : hs) (ms : Integer) (rc rs : list N)
  : res (hs * (Integer * Integer * Integer * Integer)) :=
  let seed := rs ++ rc in
  let* h := prf_init (hs_hmac s) ms in
  let s := set_prf s (hs_prf s) h in
  let* (s, key) := hs_prf_call s [] expansion_key_length key_expansion_label seed true in
  let* ks := split_keys key in
  Ok (s, ks).

(** check_zero of an Integer against a byte array: /repo/backend/check_zero.h:37-57 *)
Definition check_bytes (s : hs) (x : Integer) (data : list N) : res hs :=
  if (length x =? length data * 8)%nat
  then Ok (add_check s [(x, int_of_array (length data * 8) 8 data)])
  else Err.

(** prove_client_finished_msg, prove_server_finished_msg:
    /repo/protocol/handshake.h:483-515 *)
Definition prove_client_finished_msg (s : hs) (label tau : list N) : res hs :=
  let* (s, ufin) := hs_prf_call s [] finished_msg_length label tau true in
  let* u := read (hs_cufin s) in
  check_bytes s ufin u.
(** same code: /repo/protocol/handshake.h:483-515 *)
Definition prove_server_finished_msg (s : hs) (label tau : list N) : res hs :=
  let* (s, ufin) := hs_prf_call s [] finished_msg_length label tau true in
  let* u := read (hs_sufin s) in
  check_bytes s ufin u.

(** comparisons against arrays of eight uint32_t
    (/repo/backend/check_zero.h:37-57) *)
Definition word_checks (l : list (Integer * list N)) : list (Integer * Integer) :=
  map (fun c => (fst c, int_of_array 256 32 (snd c))) l.

(** handshake_check: /repo/protocol/handshake.h:528-531 *)
Definition handshake_check (s : hs) : res hs :=
  let* c1 := prf_check (hs_prf s) in
  let* c2 := sha256_check (sha (hs_hmac s)) in
  Ok (add_check s (word_checks c1 ++ word_checks c2)).

(** every comparison holds; what the batched zk check decides (C43)
    (/repo/backend/check_zero.h:9-57) *)
Definition checks_hold (s : hs) : Prop := Forall (fun c => fst c = snd c) (hs_zk s).

(** PostRecord::prove_and_check_handshake_step1 up to the AEAD_Proof objects, and
    handshake_check of step3: /repo/protocol/post_record.h:74-98, 119.  [None] selects
    the plain, [Some h] the extended master secret. *)
Definition prove_handshake (s : hs) (pms : Z) (rc rs tau_c tau_s : list N)
           (session_hash : option (list N))
  : res (hs * Integer * (Integer * Integer * Integer * Integer)) :=
  let* (s, ms) := match session_hash with
                  | Some h => prove_extended_master_key s [] pms h
                  | None => prove_master_key s [] pms rc rs
                  end in
  let* (s, ks) := prove_expansion_keys s ms rc rs in
  let* s := prove_client_finished_msg s client_finished_label tau_c in
  let* s := prove_server_finished_msg s server_finished_label tau_s in
  let* s := handshake_check s in
  Ok (s, ms, ks).
