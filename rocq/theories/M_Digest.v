(** Model of the one running hash of the proof phase: the calls of check_zero in
    /repo/protocol/handshake.h:497, 514, /repo/cipher/prf.h:223-235 and
    /repo/cipher/sha256.h:534-553 put their blocks between those of the AEAD proofs.
    M_Session runs the same functions but only lists the handshake comparisons; here their
    blocks enter the transcripts of M_ItMac, in the order of the calls. *)
From Coq Require Import List NArith ZArith Bool Arith.
From Verif Require Import L_Bits L_Res M_EmpInteger M_Utils M_Bristol M_Block M_Shares M_Aead M_ItMac M_AeadProof M_Handshake M_Session.
Import ListNotations.
Local Open Scope res_scope.

Section Digest.
Variable aes_ks aes_enc : bristol.
Variable Delta : N.
Variable pub : bool -> N.
(** BOB's key of bit [j] of the [i]-th Integer compared by the handshake: arbitrary, since
    the wires come out of circuits.  [own]: ALICE makes its own memcmp first
    (/repo/backend/check_zero.h:41-52); a prover that wants to go on leaves it out. *)
Variable kc : nat -> nat -> N.
Variable own : bool.

(** one call of check_zero against public data: /repo/backend/check_zero.h:34-58; [sz] is
    sizeof(T), the array is the memory image of the expected bits and the same at both
    parties *)
Definition cmp_put (t : czst) (sz i : nat) (c : Integer * Integer) : res czst :=
  let w := zauth Delta (map (kc i) (seq 0 (length (fst c)))) (fst c) in
  let img := reveal_as 8 (snd c) in
  let len := length img / sz in
  if own then check_zero_data Delta pub t w sz img img len
  else if negb (length w =? len * sz * 8)%nat then Err
  else if negb (length img =? len * sz)%nat then UB
  else
    let expected_input := zpublic Delta pub (int_of_array (len * sz * 8) 8 img) (int_of_array (len * sz * 8) 8 img) in
    Ok (check_zero t (zxor expected_input w)).
(** successive calls: the loops in /repo/cipher/prf.h:223-235, /repo/cipher/sha256.h:534-553,
    and the two calls in /repo/protocol/handshake.h:483-515 *)
Fixpoint cmp_puts (t : czst) (sz i : nat) (cs : list (Integer * Integer)) : res czst :=
  match cs with
  | [] => Ok t
  | c :: cs => let* t := cmp_put t sz i c in cmp_puts t sz (S i) cs
  end.
(** the comparisons that a call has added to the list of the handshake object
    (/repo/protocol/handshake.h:483-515, 528-531) *)
Definition put_new (t : czst) (sz : nat) (s s' : hs) : res czst :=
  cmp_puts t sz (length (hs_zk s)) (skipn (length (hs_zk s)) (hs_zk s')).

(** prove_and_check_handshake_step1: /repo/protocol/post_record.h:74-103; the Finished
    comparisons (unsigned char) come before the AEAD_Proof objects *)
Definition dstep1 (s : hs) (t : czst) (zc zs : zaead) (pms : Z) (rc rs tau_c tau_s : list N)
  (session_hash : option (list N)) (kHc kHs : list N) : res prd :=
  let* (s', _, ks) := step1_hs s pms rc rs tau_c tau_s session_hash in
  let '(ck, sk, ci, si) := ks in
  let* t := put_new t 1 s s' in
  let* (pc, t, zc) := proof_new aes_ks aes_enc Delta t zc ck ci kHc in
  let* (ps, t, zs) := proof_new aes_ks aes_enc Delta t zs sk si kHs in
  Ok (mkPrd s' t pc zc ps zs [] []).
(** prove_and_check_handshake_step3: /repo/protocol/post_record.h:113-120; handshake_check
    compares words (uint32_t) *)
Definition dstep3 (p : prd) (r : rrec) : res prd :=
  let* (p, o) := prove_s aes_enc Delta pub p r false in
  let* s := handshake_check (pr_hs p) in
  let* t := put_new (pr_t p) 4 (pr_hs p) s in
  Ok (mkPrd s t (pr_pc p) (pr_zc p) (pr_ps p) (pr_zs p) (pr_cz0 p) (fst o)).
(** the proof phase in the order of /repo/test/protocol.cpp:127-137, before finalize_check *)
Definition dpost_record (s : hs) (t : czst) (zc zs : zaead) (pms : Z) (rc rs tau_c tau_s : list N)
  (session_hash : option (list N)) (kHc kHs : list N) (fc fs : rrec) (os : list pop)
  : res (prd * list (Integer * Integer)) :=
  let* p := dstep1 s t zc zs pms rc rs tau_c tau_s session_hash kHc kHs in
  let* p := step2 aes_enc Delta pub p fc in
  let* p := dstep3 p fs in
  pops_run aes_enc Delta pub p os.
End Digest.
