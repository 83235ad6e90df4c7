(** Model of /repo/backend/commitment.h and of the Pedersen commitments in
    /repo/protocol/com_conv.h:10-72. *)
From Coq Require Import List NArith ZArith Bool Arith.
From Verif Require Import L_Bits L_Res L_Group M_Bn M_Ec.
Import ListNotations.
Local Open Scope Z_scope.

(** memcmp(a, b, n) == 0; reading past an array is undefined
    (used in /repo/protocol/com_conv.h:422 and /repo/backend/check_zero.h:37-57) *)
Fixpoint memcmp0 (n : nat) (a b : list N) : res bool :=
  match n with
  | O => Ok true
  | S k =>
      match a, b with
      | x :: a, y :: b =>
          (let* r := memcmp0 k a b in Ok ((x =? y)%N && r))%res
      | _, _ => UB
      end
  end.
(** strncmp((char* )a, (char* )b, n) == 0: stops at the first difference or at a zero byte
    (used in /repo/backend/commitment.h:26-39) *)
Fixpoint strncmp0 (n : nat) (a b : list N) : res bool :=
  match n with
  | O => Ok true
  | S k =>
      match a, b with
      | x :: a, y :: b =>
          if negb (x =? y)%N then Ok false
          else if (x =? 0)%N then Ok true
          else strncmp0 k a b
      | _, _ => UB
      end
  end.

(** Hash::DIGEST_SIZE of emp-tool
    (used in /repo/backend/commitment.h:13) *)
Definition DIGEST_SIZE : nat := 32.
(** rand_length: /repo/backend/commitment.h:14 *)
Definition rand_length : nat := 16.

Section HASHCOM.
(** emp-tool's Hash (SHA-256): the digest of everything put since the last digest *)
Variable hash : list N -> list N.

(** Commitment::commit: /repo/backend/commitment.h:17-25.  [pend] is what the member hash
    has absorbed so far, [rnd] the 16 random bytes; digest() empties the hash. *)
Definition hc_commit (pend rnd data : list N) : list N * list N :=
  let pend := pend ++ data in
  let pend := pend ++ firstn rand_length rnd in
  (hash pend, []).
(** Commitment::open: /repo/backend/commitment.h:26-39 *)
Definition hc_open (pend com rnd data : list N) : res (bool * list N) :=
  let pend := pend ++ data in
  let pend := pend ++ firstn rand_length rnd in
  (let* r := memcmp0 DIGEST_SIZE com (hash pend) in Ok (r, []))%res.
(** calls made one after another on one object
    (/repo/backend/commitment.h:17-39) *)
Inductive hc_op := HcCommit (rnd data : list N) | HcOpen (com rnd data : list N).
(** /repo/backend/commitment.h:17-39 *)
Inductive hc_out := HcCom (com : list N) | HcRes (b : bool).
(** /repo/backend/commitment.h:17-39 *)
Fixpoint hc_run (pend : list N) (ops : list hc_op) : res (list hc_out) :=
  match ops with
  | [] => Ok []
  | HcCommit rnd data :: t =>
      let (c, p) := hc_commit pend rnd data in
      (let* r := hc_run p t in Ok (HcCom c :: r))%res
  | HcOpen com rnd data :: t =>
      (let* (b, p) := hc_open pend com rnd data in
       let* r := hc_run p t in Ok (HcRes b :: r))%res
  end.
End HASHCOM.

Section PEDERSEN.
Context {C : Curve}.
Notation point := (pt (cgrp C)).
Variable h : point.

(** PedersenComm::commit: /repo/protocol/com_conv.h:31-34; [rnd] is the value drawn *)
Definition pc_commit (rnd msg : Z) : point := EC_POINT_mul (Some msg) (Some (h, rnd)).
(** open_check: /repo/protocol/com_conv.h:36-43 *)
Definition pc_open_check (com : point) (rnd msg : Z) : bool :=
  EC_POINT_cmp com (EC_POINT_mul (Some msg) (Some (h, rnd))) =? 0.
(** the loop of linear_comb_com: /repo/protocol/com_conv.h:52-55 *)
Fixpoint pc_comb_loop (r : point) (l : list (point * Z)) : point :=
  match l with
  | [] => r
  | (c, k) :: t => pc_comb_loop (padd r (EC_POINT_mul None (Some (c, k)))) t
  end.
(** linear_comb_com: /repo/protocol/com_conv.h:45-57; a failing assert is [Err] (with NDEBUG
    the loop would read past the shorter vector) *)
Definition pc_linear_comb_com (coms : list point) (coef : list Z) : res point :=
  if negb (length coms =? length coef)%nat then Err
  else Ok (pc_comb_loop pz (combine coms coef)).
(** the loop of linear_comb_rand: /repo/protocol/com_conv.h:66-69 *)
Fixpoint pc_rand_loop (r : Z) (l : list (Z * Z)) : Z :=
  match l with
  | [] => r
  | (x, k) :: t =>
      let tmp := BN_mod_mul x k (order (cgrp C)) in
      pc_rand_loop (BN_mod_add r tmp (order (cgrp C))) t
  end.
(** linear_comb_rand: /repo/protocol/com_conv.h:59-71 *)
Definition pc_linear_comb_rand (rnds coef : list Z) : res Z :=
  if negb (length rnds =? length coef)%nat then Err
  else Ok (pc_rand_loop 0 (combine rnds coef)).
End PEDERSEN.
