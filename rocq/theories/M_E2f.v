(** Model of /repo/protocol/e2f.h: conversion of two curve points held by the two parties
    into additive shares of the x-coordinate of their sum. *)
From Coq Require Import List NArith ZArith Bool Arith.
From Verif Require Import L_Bits L_Res M_Bn M_Ole.
Import ListNotations.
Local Open Scope Z_scope.

(** BN_rand(a, bits, top = 0, bottom = 0) (OpenSSL): a number of exactly [bits] bits, i.e.
    the most significant bit is one; [rnd] is the randomness drawn.  bits >= 1.
    (used in /repo/protocol/e2f.h:83-90) *)
Definition BN_rand0 (bits : nat) (rnd : Z) : Z :=
  2 ^ (Z.of_nat bits - 1) + rnd mod 2 ^ (Z.of_nat bits - 1).

(** members: /repo/protocol/e2f.h:12-30 *)
Record e2f : Type := { e_a : Z; e_b : Z; e_c : Z; e_bp : Z; e_cp : Z; e_r : Z; e_r2 : Z }.
(** the randomness a party draws in compute_offline
    (/repo/protocol/e2f.h:82-131) *)
Record e2f_rnd : Type := { rnd_a : Z; rnd_b : Z; rnd_bp : Z; rnd_r : Z }.

Section E2F.
Variable ccrh : N -> N.
Variable q : Z.
Variable bit_length : nat.

(** masks: /repo/protocol/e2f.h:83-90 *)
Definition e2f_mask (rnd : Z) : Z := BN_mod (BN_rand0 bit_length rnd) q.
(** local products: /repo/protocol/e2f.h:119-129 *)
Definition e2f_triples (a b bp r : Z) (out : list Z) : e2f :=
  let o i := nth i out 0 in
  {| e_a := a; e_b := b;
     e_c := BN_mod_add (BN_mod_add (BN_mod_mul a b q) (o 0%nat) q) (o 1%nat) q;
     e_bp := bp;
     e_cp := BN_mod_add (BN_mod_add (BN_mod_mul a bp q) (o 2%nat) q) (o 3%nat) q;
     e_r := r;
     e_r2 := BN_mod_add (BN_mod_add (BN_mod_sqr r q) (o 4%nat) q) (o 4%nat) q |}.
(** compute_offline on both sides: /repo/protocol/e2f.h:82-131; ALICE is the OLE sender
    (it holds the non-zero Delta) *)
Definition e2f_offline (ra rb : e2f_rnd) (Delta : N) (raw : list (list N)) : res (e2f * e2f) :=
  let a1 := e2f_mask (rnd_a ra) in let b1 := e2f_mask (rnd_b ra) in
  let bp1 := e2f_mask (rnd_bp ra) in let r1 := e2f_mask (rnd_r ra) in
  let a2 := e2f_mask (rnd_a rb) in let b2 := e2f_mask (rnd_b rb) in
  let bp2 := e2f_mask (rnd_bp rb) in let r2 := e2f_mask (rnd_r rb) in
  (let* (oab, _) := ole_compute ccrh q bit_length Delta raw [a1; b1; a1; bp1; r1] [b2; a2; bp2; a2; r2] in
   Ok (e2f_triples a1 b1 bp1 r1 (fst oab), e2f_triples a2 b2 bp2 r2 (snd oab)))%res.

(** open on both sides: /repo/protocol/e2f.h:55-75; the two directions use two channels *)
Definition e2f_open (va vb : list Z) : res (list Z * list Z) :=
  (let* sa := send_bns va in
   let* sb := send_bns vb in
   let* (ta, _) := recv_bns (length va) sb in
   let* (tb, _) := recv_bns (length vb) sa in
   Ok (map2 (fun v t => BN_mod_add v t q) va ta, map2 (fun v t => BN_mod_add v t q) vb tb))%res.

(** /repo/protocol/e2f.h:139-152 *)
Definition e2f_eps (alice : bool) (s : e2f) (x y : Z) : list Z :=
  let xbma := if alice then q - x else x in
  let ybma := if alice then q - y else y in
  [BN_mod_sub xbma (e_b s) q; BN_mod_sub ybma (e_bp s) q].
(** /repo/protocol/e2f.h:157-158 *)
Definition e2f_w (s : e2f) (eps1 : Z) : Z := BN_mod_add (BN_mod_mul eps1 (e_a s) q) (e_c s) q.
(** /repo/protocol/e2f.h:162-171; an inverse that does not exist leaves w unspecified *)
Definition e2f_eta (s : e2f) (w eps2 : Z) : res Z :=
  if w =? 0 then Err
  else let eta := BN_mod_add (BN_mod_mul eps2 (e_a s) q) (e_cp s) q in
       match BN_mod_inverse w q with
       | None => UB
       | Some wi => Ok (BN_mod_sub (BN_mod_mul wi eta q) (e_r s) q)
       end.
(** /repo/protocol/e2f.h:174-184 *)
Definition e2f_out (alice : bool) (s : e2f) (eps3 x : Z) : Z :=
  let out := BN_mod_mul eps3 (e_r s) q in
  let out := BN_mod_add out out q in
  let out := BN_mod_add out (e_r2 s) q in
  let out := BN_mod_sub out x q in
  let ybma := if alice then 0 else BN_mod_sqr eps3 q in
  BN_mod_add out ybma q.

(** compute_online on both sides: /repo/protocol/e2f.h:133-186 *)
Definition e2f_online (sa sb : e2f) (xa ya xb yb : Z) : res (Z * Z) :=
  (let* (ea, eb) := e2f_open (e2f_eps true sa xa ya) (e2f_eps false sb xb yb) in
   let* (wa, wb) := e2f_open [e2f_w sa (nth 0 ea 0)] [e2f_w sb (nth 0 eb 0)] in
   let* ta := e2f_eta sa (nth 0 wa 0) (nth 1 ea 0) in
   let* tb := e2f_eta sb (nth 0 wb 0) (nth 1 eb 0) in
   let* (za, zb) := e2f_open [ta] [tb] in
   Ok (e2f_out true sa (nth 0 za 0) xa, e2f_out false sb (nth 0 zb 0) xb))%res.
End E2F.
