(** The AEAD programs on labels with the fields of the two objects at the end, and the random values
    of the records separated from the arguments: /repo/protocol/aead.h. *)
From Coq Require Import List NArith Bool.
From Verif Require Import L_Bits L_Res S_Sched.
From Verif Require S_Netlist.
From Verif Require Import M_Ole2k M_Shares M_Aead M_Exch M_View M_LabRec.
Import ListNotations.
Local Open Scope N_scope.

(** the random values of the records: r of the two objects and the strings of the random OTs of the
    two constructors and of each call (/repo/protocol/aead.h:61-63, 67, 74, 160) *)
Record rrand := { rr_c : N; rr_oc : ole_rand; rr_s : N; rr_os : ole_rand; rr_calls : list ole_rand }.
(** calls (which object, arguments) with their OT strings: /repo/protocol/aead.h:169-306, 309-492 *)
Definition lcalls (cs : list (bool * ain)) (os : list ole_rand) : list lcall :=
  map2 (fun c o => {| lc_srv := fst c; lc_in := snd c; lc_ole := o |}) cs os.

Section V.
Variable gfr : N -> N -> N.
Variable hash : list N -> list N.
(** l_calls of M_LabRec that also returns the two objects: /repo/protocol/handshake.h:328-353,
    /repo/protocol/record.h:13-42 *)
Fixpoint l_calls_st (alice : bool) (c s : party) (l : list (lcall * own)) : proc (res (party * party * list pout)) :=
  match l with
  | [] => Ret (Ok (c, s, []))
  | (o, w) :: l =>
      rbind (l_op gfr hash alice (if lc_srv o then s else c) (lc_in o) w (lc_ole o)) (fun '(p, x) =>
      rbind (l_calls_st alice (if lc_srv o then c else p) (if lc_srv o then p else s) l) (fun '(c, s, xs) => Ret (Ok (c, s, x :: xs))))
  end.
(** l_session of M_LabRec that also returns the two objects: /repo/protocol/aead.h:47-85, 169-306,
    309-492 in the order of /repo/test/protocol.cpp:95-121 *)
Definition l_run (alice : bool) (labels : list N) (opened : list (list bool)) (sh : list (list S_Netlist.wire))
    (cs : list (bool * ain)) (v : rrand) : proc (res (party * party * list pout)) :=
  let l := lcalls cs (rr_calls v) in
  match sh with
  | hc :: hs :: ws =>
      rbind (l_new gfr alice (low_bits labels hc) (rr_c v) (rr_oc v)) (fun c =>
      rbind (l_new gfr alice (low_bits labels hs) (rr_s v) (rr_os v)) (fun s =>
      l_calls_st alice c s (combine l (owns labels l ws (skipn (length opened - public_calls l) opened)))))
  | _ => Ret UB
  end.
End V.
(** what BOB gets from the random OTs of the records (/repo/backend/ole_f2k.h:45-48, called from
    /repo/protocol/aead.h:73, 160): with its shares of H as choice bits in the constructors, with the
    powers it holds in the calls, here taken from its objects [c] and [s] at the end *)
Definition lab_ots (c s : party) (cs : list (bool * ain)) (v : rrand) : list (list (list N)) :=
  rot_choose (raw0 (rr_oc v)) (raw1 (rr_oc v)) [p_gc_h c] :: rot_choose (raw0 (rr_os v)) (raw1 (rr_os v)) [p_gc_h s] ::
  map2 (fun (x : bool * ain) o => rot_choose (raw0 o) (raw1 o) (firstn (length (raw0 o)) (p_mul_hs (if fst x then s else c)))) cs (rr_calls v).
