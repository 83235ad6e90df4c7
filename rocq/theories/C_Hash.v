(** Properties C01-C07: SHA-256, HMAC and the TLS 1.2 PRF. *)
From Coq Require Import List NArith ZArith Bool Arith.
From Verif Require Import L_Bits L_Res M_EmpInteger M_Trace M_Utils M_Sha256 M_Hmac.
From Verif Require Import S_Sha256 S_Hmac P_Sha256 P_Sha256Msg P_Sha256Opt P_Hmac P_Prf P_PrfHist.
Import ListNotations.

(** the string "abc" and the key "key" *)
Definition ex_abc : list N := [97; 98; 99]%N.
Definition ex_key : list N := [107; 101; 121]%N.
Definition ex_sha_abc : list N :=
  [0xba7816bf; 0x8f01cfea; 0x414140de; 0x5dae2223; 0xb00361a3; 0x96177a9c; 0xb410ff61;
   0xf20015ad]%N.

(** ** C01 *)
Theorem C01_digest_is_sha256 : forall st x,
  exists st' d, digest st x false = Ok (st', d) /\
    length d = 8%nat /\ Forall (fun w => length w = 32%nat) d /\
    map N_of_bits d = sha256_words (rev x).
Proof. exact digest_correct. Qed.
Print Assumptions C01_digest_is_sha256.

Theorem C01_rounds_digest_is_sha256 : forall st x,
  exists st' d, opt_rounds_digest st x false = Ok (st', d) /\
    length d = 8%nat /\ Forall (fun w => length w = 32%nat) d /\
    map N_of_bits d = sha256_words (rev x).
Proof. exact rounds_digest_correct. Qed.
Print Assumptions C01_rounds_digest_is_sha256.

(** FIPS 180-4 test vector, on the specification and on the model *)
Example C01_ex_spec : sha256_words (bits_of_bytes ex_abc) = ex_sha_abc.
Proof. vm_compute. reflexivity. Qed.
Example C01_ex_model :
  match digest sha_init (str_to_int ex_abc) false with
  | Ok (_, d) => map N_of_bits d = ex_sha_abc
  | _ => False
  end.
Proof. vm_compute. reflexivity. Qed.
(** two chunks: 56 bytes force the extra block *)
Example C01_ex_two_blocks :
  match digest sha_init (str_to_int (repeat 97%N 56)) false with
  | Ok (_, d) => map N_of_bits d = sha256_words (bits_of_bytes (repeat 97%N 56)) /\
                 length (pad (bits_of_bytes (repeat 97%N 56))) = 1024%nat
  | _ => False
  end.
Proof. vm_compute. auto. Qed.

(** ** C02 *)
Theorem C02_opt_digest_is_sha256 : forall st sec pub zk,
  length sec = 512%nat -> Forall (fun b => (b < 256)%N) pub ->
  exists st' w, opt_digest st sec pub false zk = Ok (st', w) /\
    w = sha256_words (rev sec ++ bits_of_bytes pub).
Proof. exact opt_digest_correct. Qed.
Print Assumptions C02_opt_digest_is_sha256.

Example C02_ex :
  match opt_digest sha_init (str_to_int (repeat 98%N 64)) (repeat 97%N 60) false false with
  | Ok (_, w) => w = sha256_words (bits_of_bytes (repeat 98%N 64 ++ repeat 97%N 60))
  | _ => False
  end.
Proof. vm_compute. reflexivity. Qed.

(** ** C03 *)
Theorem C03_hmac_variants : forall key msg bytes ri ro, Forall (fun b => (b < 256)%N) bytes ->
  exists h, hinit hmac_init key = Ok h /\
   (exists h' d, hmac h msg = Ok (h', d) /\ flat_map (@rev bool) d = hmac_bits (rev key) (rev msg)) /\
   (exists h' d, opt_hmac h bytes ri ro false = Ok (h', d) /\
      flat_map (@rev bool) d = hmac_bits (rev key) (bits_of_bytes bytes)) /\
   (exists h' d, opt_rounds_hmac h msg ri ro = Ok (h', d) /\
      flat_map (@rev bool) d = hmac_bits (rev key) (rev msg)).
Proof. exact hmac_variants. Qed.
Print Assumptions C03_hmac_variants.

(** HMAC-SHA256("key", "abc") *)
Example C03_ex :
  hmac_sha256_bytes ex_key ex_abc =
  [0x9c; 0x19; 0x6e; 0x32; 0xdc; 0x01; 0x75; 0xf8; 0x6f; 0x4b; 0x1c; 0xb8; 0x92; 0x89; 0xd6; 0x61;
   0x9d; 0xe6; 0xbe; 0xe6; 0x99; 0xe4; 0xc3; 0x78; 0xe6; 0x83; 0x09; 0xed; 0x97; 0xa1; 0xa6; 0xab]%N.
Proof. vm_compute. reflexivity. Qed.

(** ** C04 *)
Theorem C04_hmac_histories : forall key os, hdisc Fresh os ->
  exists h' rs, hrun hmac_init (HInit key :: os) = Ok (h', None :: rs) /\
    map (option_map (fun d => flat_map (@rev bool) d)) rs = hspec (rev key) os.
Proof. exact hrun_from_new. Qed.
Print Assumptions C04_hmac_histories.

Example C04_ex_disc :
  hdisc Fresh [HOpt ex_abc true true; HPlain (str_to_int ex_abc); HOpt ex_key true false;
               HInit (str_to_int ex_abc); HRounds (str_to_int ex_key) true true;
               HOpt ex_abc false true].
Proof. cbn. repeat split; repeat constructor; discriminate. Qed.

(** ** C05: refuted.  Either the call reads an unset cache entry (undefined behaviour),
    or, with a re-initialisation in between, a stale one (a wrong MAC under the old key) *)
Theorem C05_mixed_modes_undefined_refuted : exists key m1 m2,
  hrun hmac_init [HInit key; HOpt m1 true true; HRounds m2 true true] = UB /\
  hrun hmac_init [HInit key; HRounds m2 true true; HOpt m1 true true] = UB.
Proof. exists (str_to_int ex_key), ex_abc, (str_to_int ex_abc). vm_compute. auto. Qed.
Print Assumptions C05_mixed_modes_undefined_refuted.

Theorem C05_mixed_modes_wrong_mac_refuted : exists k1 k2 m1 m2 h rs,
  let os := [HRounds m2 true true; HInit k2; HOpt m1 true true; HRounds m2 true true] in
  hrun hmac_init (HInit k1 :: os) = Ok (h, None :: rs) /\
  map (option_map (fun d => flat_map (@rev bool) d)) rs <> hspec (rev k1) os.
Proof.
  exists (str_to_int ex_key), (str_to_int ex_abc), ex_abc, (str_to_int ex_abc).
  match eval vm_compute in (hrun hmac_init
    [HInit (str_to_int ex_key); HRounds (str_to_int ex_abc) true true; HInit (str_to_int ex_abc);
     HOpt ex_abc true true; HRounds (str_to_int ex_abc) true true]) with
  | Ok (?h, None :: ?r) => exists h, r
  end.
  split; [vm_compute; reflexivity|].
  intro E. apply (f_equal (fun l => nth 3 l None)) in E. vm_compute in E. discriminate E.
Qed.
Print Assumptions C05_mixed_modes_wrong_mac_refuted.

(** ** C06 *)
Theorem C06_prf_histories : forall secret os, pdisc Fresh os ->
  exists p' h' rs, prun (prf_init0, hmac_init) (PInit secret :: os) = Ok (p', h', None :: rs) /\
    map (option_map (@rev bool)) rs = pspec (rev secret) os.
Proof. exact prun_from_new. Qed.
Print Assumptions C06_prf_histories.

(** the specification on a published P_SHA256 vector (100 bytes, first 8 checked) *)
Definition ex_prf_secret : list N :=
  [0x9b; 0xbe; 0x43; 0x6b; 0xa9; 0x40; 0xf0; 0x17; 0xb1; 0x76; 0x52; 0x84; 0x9a; 0x71; 0xdb; 0x35]%N.
Definition ex_prf_seed : list N :=
  [0xa0; 0xba; 0x9f; 0x93; 0x6c; 0xda; 0x31; 0x18; 0x27; 0xa6; 0xf7; 0x96; 0xff; 0xd5; 0x19; 0x8c]%N.
Definition ex_prf_label : list N := (* "test label" *)
  [0x74; 0x65; 0x73; 0x74; 0x20; 0x6c; 0x61; 0x62; 0x65; 0x6c]%N.
Example C06_ex_spec :
  firstn 8 (prf_bytes 100 ex_prf_secret ex_prf_label ex_prf_seed) =
  [0xe3; 0xf2; 0x29; 0xba; 0x72; 0x7b; 0xe1; 0x7b]%N.
Proof. vm_compute. reflexivity. Qed.
Example C06_ex_disc :
  pdisc Fresh [POpt 384 ex_prf_label ex_prf_seed true true; PInit (str_to_int ex_prf_secret);
               PRounds 256 ex_prf_label ex_prf_seed true true;
               PCompute 96 (str_to_int ex_prf_label) (str_to_int ex_prf_seed)].
Proof. cbn. repeat split; repeat constructor; discriminate. Qed.

(** ** C07: refuted; the result is appended to, for every secret, label, seed and length *)
Theorem C07_second_result_is_doubled : forall secret n label seed h,
  prf_init hmac_init secret = Ok h ->
  exists h1 r1 h2 r2,
    prf_compute h [] n label seed = Ok (h1, r1) /\
    prf_compute h1 r1 n label seed = Ok (h2, r2) /\
    rev r1 = prf n (rev secret) (rev label) (rev seed) /\
    rev r2 = rev r1 ++ rev r1.
Proof. exact prf_twice_append. Qed.
Print Assumptions C07_second_result_is_doubled.

Theorem C07_rederivation_refuted : exists secret label seed h h1 r1 h2 r2,
  prf_init hmac_init secret = Ok h /\
  prf_compute h [] 384 label seed = Ok (h1, r1) /\
  prf_compute h1 r1 384 label seed = Ok (h2, r2) /\
  r2 <> r1 /\ rev r2 <> prf 384 (rev secret) (rev label) (rev seed).
Proof. exact prf_twice_refuted. Qed.
Print Assumptions C07_rederivation_refuted.
