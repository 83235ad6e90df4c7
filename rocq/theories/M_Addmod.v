(** Model of /repo/protocol/addmod.h. *)
From Coq Require Import List NArith ZArith Bool Arith.
From Verif Require Import L_Bits L_Res M_EmpInteger M_Bn.
Import ListNotations.

(** pop_back on the vector of bits; empty is undefined
    (used in /repo/protocol/addmod.h:15-24) *)
Definition pop_back (x : Integer) : res Integer :=
  match x with [] => UB | _ => Ok (removelast x) end.

(** addmod on a shared modulus: /repo/protocol/addmod.h:10-25.  Q is taken by reference:
    the result is (res, Q afterwards).  emp's operators require equal widths; different
    widths index past a vector. *)
Definition addmod (a b Q : Integer) : res (Integer * Integer) :=
  let aa := a ++ [false] in
  let bb := b ++ [false] in
  if negb (length aa =? length bb) then UB
  else
    let c := iadd aa bb ++ [false] in
    let Q := Q ++ [false] ++ [false] in
    if negb (length c =? length Q) then UB
    else
      let sel := igeq c Q in
      let r := iselect c sel (isub c Q) in
      (let* r := pop_back r in
       let* r := pop_back r in
       Ok (r, Q))%res.

(** addmod on a public modulus: /repo/protocol/addmod.h:28-38 *)
Definition addmod_bn (a b : Integer) (q : Z) : res Integer :=
  let intq := rev (BN_bn2bin q) in
  let Q := int_of_array (8 * BN_num_bytes q) 8 intq in
  (let* (r, _) := addmod a b Q in Ok r)%res.
