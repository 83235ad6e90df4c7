(** Model of class Record (/repo/protocol/record.h:8-43), of the wrappers of class HandShake
    around AEAD and AEAD_Proof (/repo/protocol/handshake.h:328-353, 517-526) and of class
    PostRecord (/repo/protocol/post_record.h:11-202).  Both parties make the same calls, so
    the state is the joint one of M_Aead, M_Handshake and M_AeadProof.  The comparisons of
    the key schedule stay in [hs_zk], those of the AEAD proofs in the transcripts of
    M_ItMac; both go into the one hash of emp-zk. *)
From Coq Require Import List NArith ZArith Bool Arith.
From Verif Require Import L_Bits L_Res M_EmpInteger M_Utils M_Bristol M_Block M_Shares M_Aead M_ItMac M_AeadProof M_Handshake.
Import ListNotations.
Local Open Scope res_scope.

(** * Record phase *)
(** the calls made on the two AEAD objects between the handshake and the proof; arguments as
    in M_Aead ([aop]):
    /repo/protocol/handshake.h:328-353, /repo/protocol/record.h:13-42 *)
Inductive rcall :=
| FinEnc (msga msgb aad iv : list N) (r : call_rand)
| FinDec (ctxt tag aad iv : list N) (r : call_rand) (rnda rndb : list N)
| RecEnc (msga msgb aad iv : list N) (r : call_rand)
| RecDec (ctxt tag aad iv : list N) (r : call_rand) (rnda rndb : list N).

Section Rec.
Variable aes_enc : bristol.
Variable gfr : N -> N -> N.
Variable hash : list N -> list N.

(** encrypt_client_finished_msg: /repo/protocol/handshake.h:328-339; the default sec_type of
    AEAD::encrypt is false *)
Definition encrypt_client_finished_msg (c : aead) (ma mb aad iv : list N) (r : call_rand) : res (aead * aout) :=
  aop_run aes_enc gfr hash c (OpEnc ma mb aad iv false r).
(** decrypt_server_finished_msg: /repo/protocol/handshake.h:342-353; the default sec_type of
    AEAD::decrypt is false *)
Definition decrypt_server_finished_msg (s : aead) (ctxt tag aad iv : list N) (r : call_rand) (ra rb : list N) : res (aead * aout) :=
  aop_run aes_enc gfr hash s (OpDec ctxt tag aad iv false r ra rb).
(** Record::encrypt: /repo/protocol/record.h:13-25 *)
Definition record_encrypt (c : aead) (ma mb aad iv : list N) (r : call_rand) : res (aead * aout) :=
  aop_run aes_enc gfr hash c (OpEnc ma mb aad iv true r).
(** Record::decrypt: /repo/protocol/record.h:29-42 *)
Definition record_decrypt (s : aead) (ctxt tag aad iv : list N) (r : call_rand) (ra rb : list N) : res (aead * aout) :=
  aop_run aes_enc gfr hash s (OpDec ctxt tag aad iv true r ra rb).

(** one call on the pair (aead_c, aead_s); encryption is on aead_c, decryption on aead_s, as
    in /repo/test/protocol.cpp:105-121 *)
Definition rcall_run (x : aead * aead) (o : rcall) : res (aead * aead * aout) :=
  let (c, s) := x in
  match o with
  | FinEnc ma mb aad iv r => let* (c, o) := encrypt_client_finished_msg c ma mb aad iv r in Ok (c, s, o)
  | FinDec ct tg aad iv r ra rb => let* (s, o) := decrypt_server_finished_msg s ct tg aad iv r ra rb in Ok (c, s, o)
  | RecEnc ma mb aad iv r => let* (c, o) := record_encrypt c ma mb aad iv r in Ok (c, s, o)
  | RecDec ct tg aad iv r ra rb => let* (s, o) := record_decrypt s ct tg aad iv r ra rb in Ok (c, s, o)
  end.
(** any sequence of them: /repo/protocol/handshake.h:328-353, /repo/protocol/record.h:13-42 *)
Fixpoint rcalls_run (x : aead * aead) (os : list rcall) : res (aead * aead * list aout) :=
  match os with
  | [] => Ok (x, [])
  | o :: os =>
      let* (x, r) := rcall_run x o in
      let* (x, rs) := rcalls_run x os in
      Ok (x, r :: rs)
  end.
End Rec.

(** * Proof phase *)
(** members of PostRecord that the code reads: /repo/protocol/post_record.h:13-30, with the
    transcripts and the members of aead_c and aead_s *)
Record prd := mkPrd {
  pr_hs : hs; pr_t : czst; pr_pc : proof; pr_zc : zaead; pr_ps : proof; pr_zs : zaead;
  pr_cz0 : Integer; pr_sz0 : Integer
}.

Section Post.
Variable aes_ks aes_enc : bristol.
Variable Delta : N.
Variable pub : bool -> N.

(** the key-schedule part of prove_and_check_handshake_step1:
    /repo/protocol/post_record.h:85-97 *)
Definition step1_hs (s : hs) (pms : Z) (rc rs tau_c tau_s : list N) (session_hash : option (list N))
  : res (hs * Integer * (Integer * Integer * Integer * Integer)) :=
  let* (s, ms) := match session_hash with
                  | Some h => prove_extended_master_key s [] pms h
                  | None => prove_master_key s [] pms rc rs
                  end in
  let* (s, ks) := prove_expansion_keys s ms rc rs in
  let* s := prove_client_finished_msg s client_finished_label tau_c in
  let* s := prove_server_finished_msg s server_finished_label tau_s in
  Ok (s, ms, ks).
(** prove_and_check_handshake_step1: /repo/protocol/post_record.h:74-103; [kHc], [kHs] are
    BOB's keys of the two values H.  [t] is the transcript before the call. *)
Definition step1 (s : hs) (t : czst) (zc zs : zaead) (pms : Z) (rc rs tau_c tau_s : list N)
  (session_hash : option (list N)) (kHc kHs : list N) : res prd :=
  let* (s, _, ks) := step1_hs s pms rc rs tau_c tau_s session_hash in
  let '(ck, sk, ci, si) := ks in
  let* (pc, t, zc) := proof_new aes_ks aes_enc Delta t zc ck ci kHc in
  let* (ps, t, zs) := proof_new aes_ks aes_enc Delta t zs sk si kHs in
  Ok (mkPrd s t pc zc ps zs [] []).

(** what the proof of one record is called with, and what finalize_check is later told about
    it; [rr_kz0], [rr_kz] are BOB's keys of Z0 and Z:
    /repo/protocol/post_record.h:122-149, 155-175 *)
Record rrec := { rr_iv : list N; rr_ctxt : list N; rr_tag : list N; rr_aad : list N; rr_kz0 : list N; rr_kz : list N }.

(** prove_aead on aead_proof_c, storing the members it changes:
    /repo/protocol/post_record.h:109-110, 128 *)
Definition prove_c (p : prd) (r : rrec) (sec : bool) : res (prd * (Integer * option Integer)) :=
  let* (pc, t, zc, z0, m) := prove_aead aes_enc Delta pub (pr_pc p) (pr_t p) (pr_zc p) (rr_ctxt r) (rr_iv r) sec (rr_kz0 r) (rr_kz r) in
  Ok (mkPrd (pr_hs p) t pc zc (pr_ps p) (pr_zs p) (pr_cz0 p) (pr_sz0 p), (z0, m)).
(** prove_aead on aead_proof_s: /repo/protocol/post_record.h:117-118, 138 *)
Definition prove_s (p : prd) (r : rrec) (sec : bool) : res (prd * (Integer * option Integer)) :=
  let* (ps, t, zs, z0, m) := prove_aead aes_enc Delta pub (pr_ps p) (pr_t p) (pr_zs p) (rr_ctxt r) (rr_iv r) sec (rr_kz0 r) (rr_kz r) in
  Ok (mkPrd (pr_hs p) t (pr_pc p) (pr_zc p) ps zs (pr_cz0 p) (pr_sz0 p), (z0, m)).

(** prove_and_check_handshake_step2 with prove_enc_dec_finished_msg:
    /repo/protocol/post_record.h:105-111, /repo/protocol/handshake.h:517-526 *)
Definition step2 (p : prd) (r : rrec) : res prd :=
  let* (p, o) := prove_c p r false in
  Ok (mkPrd (pr_hs p) (pr_t p) (pr_pc p) (pr_zc p) (pr_ps p) (pr_zs p) (fst o) (pr_sz0 p)).
(** prove_and_check_handshake_step3: /repo/protocol/post_record.h:113-120 *)
Definition step3 (p : prd) (r : rrec) : res prd :=
  let* (p, o) := prove_s p r false in
  let* s := handshake_check (pr_hs p) in
  Ok (mkPrd s (pr_t p) (pr_pc p) (pr_zc p) (pr_ps p) (pr_zs p) (pr_cz0 p) (fst o)).

(** the calls prove_record_client, prove_record_server, prove_record_server_last:
    /repo/protocol/post_record.h:122-149; the result is (z0, msg) *)
Inductive pop := PClient (r : rrec) | PServer (r : rrec) | PLast (r : rrec).
(** same code: /repo/protocol/post_record.h:122-149 *)
Definition pop_run (p : prd) (o : pop) : res (prd * (Integer * Integer)) :=
  match o with
  | PClient r => let* (p, x) := prove_c p r true in let* m := read (snd x) in Ok (p, (fst x, m))
  | PServer r => let* (p, x) := prove_s p r true in let* m := read (snd x) in Ok (p, (fst x, m))
  | PLast r =>
      let* (ps, z0, m) := prove_aead_last aes_enc (pr_ps p) (rr_ctxt r) (rr_iv r) in
      Ok (mkPrd (pr_hs p) (pr_t p) (pr_pc p) (pr_zc p) ps (pr_zs p) (pr_cz0 p) (pr_sz0 p), (z0, m))
  end.
(** same code: /repo/protocol/post_record.h:122-149 *)
Fixpoint pops_run (p : prd) (os : list pop) : res (prd * list (Integer * Integer)) :=
  match os with
  | [] => Ok (p, [])
  | o :: os =>
      let* (p, x) := pop_run p o in
      let* (p, xs) := pops_run p os in
      Ok (p, x :: xs)
  end.

(** the proof phase in the order of /repo/test/protocol.cpp:127-137, before finalize_check;
    [fc], [fs] are the two Finished records *)
Definition post_record (s : hs) (t : czst) (zc zs : zaead) (pms : Z) (rc rs tau_c tau_s : list N)
  (session_hash : option (list N)) (kHc kHs : list N) (fc fs : rrec) (os : list pop)
  : res (prd * list (Integer * Integer)) :=
  let* p := step1 s t zc zs pms rc rs tau_c tau_s session_hash kHc kHs in
  let* p := step2 p fc in
  let* p := step3 p fs in
  pops_run p os.
End Post.

(** the vectors handed to finalize_check by its caller, in the order of the calls:
    /repo/test/protocol.cpp:140-142 *)
Definition to_frec (r : rrec) : frec := {| fr_ctxt := rr_ctxt r; fr_tag := rr_tag r; fr_aad := rr_aad r |}.
(** same code: /repo/test/protocol.cpp:140-142 *)
Fixpoint encs_of (os : list pop) : list frec :=
  match os with [] => [] | PClient r :: os => to_frec r :: encs_of os | _ :: os => encs_of os end.
(** same code: /repo/test/protocol.cpp:140-142 *)
Fixpoint decs_of (os : list pop) : list frec :=
  match os with [] => [] | PClient _ :: os => decs_of os | PServer r :: os | PLast r :: os => to_frec r :: decs_of os end.
(** same code: /repo/test/protocol.cpp:140-142 *)
Fixpoint enc_z0s (os : list pop) (xs : list (Integer * Integer)) : list Integer :=
  match os, xs with
  | PClient _ :: os, x :: xs => fst x :: enc_z0s os xs
  | _ :: os, _ :: xs => enc_z0s os xs
  | _, _ => []
  end.
(** same code: /repo/test/protocol.cpp:140-142 *)
Fixpoint dec_z0s (os : list pop) (xs : list (Integer * Integer)) : list Integer :=
  match os, xs with
  | PClient _ :: os, _ :: xs => dec_z0s os xs
  | _ :: os, x :: xs => fst x :: dec_z0s os xs
  | _, _ => []
  end.
(** the call of finalize_check: /repo/protocol/post_record.h:155-201 *)
Definition finalize (p : prd) (fc fs : rrec) (os : list pop) (xs : list (Integer * Integer)) : res bool :=
  finalize_check (pf_H (pr_pc p)) (pf_H (pr_ps p)) (pr_cz0 p) (pr_sz0 p) (to_frec fc) (to_frec fs)
    (enc_z0s os xs) (encs_of os) (dec_z0s os xs) (decs_of os).
