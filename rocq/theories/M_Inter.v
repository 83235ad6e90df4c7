(** A session in the order of the code: every call first requests its gates from the backend, garbling,
    transferring and opening as it goes, and then exchanges the messages of the protocol itself
    (/repo/test/protocol.cpp:82-121 over /repo/protocol/handshake.h:187-353 and /repo/protocol/aead.h:47-492).
    M_LabRec runs the records on the labels of a finished circuit; here both use the same channel in turn. *)
From Coq Require Import List NArith ZArith Bool Arith.
From Verif Require Import L_Bits L_Res S_Circuit S_Sched S_Lower.
From Verif Require S_Netlist.
From Verif Require Import M_EmpInteger M_Utils M_Bristol M_Sym M_SymOn M_Block M_Ole2k M_Aead M_Exch M_View M_LabRec M_Garble M_GcProc.
Import ListNotations.
Local Open Scope N_scope.

(** a call of the session: a handshake call, an AEAD constructor with its random block and OT strings
    (/repo/protocol/aead.h:47-85), a record (/repo/protocol/aead.h:169-492) *)
Inductive icall : Type :=
| CPlain (c : on_call)
| CAead (srv : bool) (r : N) (ro : ole_rand)
| CRec (o : lcall).
(** what the call asks of the circuit (/repo/protocol/aead.h:47-53, 181-210, 320-352) *)
Definition on_of (c : icall) : on_call :=
  match c with
  | CPlain c => c
  | CAead srv _ _ => NAead srv
  | CRec o =>
      let k := if lc_srv o then 1%nat else 0%nat in
      match lc_in o with
      | InEnc ma _ _ iv sec => NEncrypt k iv (N.of_nat (length ma)) sec
      | InDec c _ _ iv sec _ _ => NDecrypt k iv (N.of_nat (length c)) sec
      end
  end.
(** a call with the gates it requests and the wires it turns into shares
    (/repo/protocol/aead.h:47-53, 181-210, 320-352) *)
Record item : Type := { it_seg : list instr; it_call : icall; it_ws : list (list S_Netlist.wire) }.

Section ITEMS.
Variable orc : list S_Netlist.nev -> nat -> bool.
Variable ks enc : bristol.
(** the requests of each call, in order: what the call adds to the trace
    (any sequence of calls of /repo/protocol/handshake.h:187-326 and /repo/protocol/aead.h:47-492) *)
Fixpoint items (cs : list icall) (x : on_sess) (s : cst) : res (list item) :=
  match cs with
  | [] => Ok []
  | c :: cs =>
      match on_do orc ks enc x (on_of c) s with
      | Ok (x', s') =>
          let seg := firstn (length (c_tr s') - length (c_tr s)) (c_tr s') in
          bind (items cs x' s') (fun t =>
          Ok ({| it_seg := map low (rev seg); it_call := c; it_ws := skipn (length (os_sh x)) (os_sh x') |} :: t))
      | Err => Err
      | UB => UB
      end
  end.
(** from the start of a session: /repo/protocol/handshake.h:62-83 *)
Definition session_items (q : Z) (rounds : bool) (cs : list icall) : res (list item) :=
  items cs (mkOnSess (on_hs_new q rounds) [] [] []) cst0.
End ITEMS.

Section RUN.
Variable gfr : N -> N -> N.
Variable hash : list N -> list N.
(** a backend as seen by one party: its state, how it executes requests, its labels and what it saw
    opened (/repo/backend/primus_party.h:15-37, offline_primus_party.h, online in /repo/backend/online_primus_gen.h) *)
Variable St : Type.
Variable run : St -> list instr -> proc (res St).
Variable labels : St -> list N.
Variable saws : St -> list (list bool).
Variable alice : bool.

(** the calls one after another; [objs] are the AEAD objects aead_c, aead_s made so far
    (/repo/test/protocol.cpp:95-121, /repo/protocol/record.h:13-42) *)
Fixpoint i_run (g : St) (objs : list party) (l : list item) : proc (res (St * list pout)) :=
  match l with
  | [] => Ret (Ok (g, []))
  | i :: l =>
      rbind (run g (it_seg i)) (fun g =>
      match it_call i, it_ws i with
      | CPlain _, [] => i_run g objs l
      | CAead _ r ro, [h] =>
          rbind (l_new gfr alice (low_bits (labels g) h) r ro) (fun p => i_run g (objs ++ [p]) l)
      | CRec o, [z0; z] =>
          let k := if lc_srv o then 1%nat else 0%nat in
          match nth_error objs k with
          | Some p =>
              let w := {| w_z0 := low_bits (labels g) z0; w_z := low_bits (labels g) z;
                          w_open := if in_sec (lc_in o) then [] else last (saws g) [] |} in
              rbind (l_op gfr hash alice p (lc_in o) w (lc_ole o)) (fun '(p, x) =>
              rbind (i_run g (firstn k objs ++ [p] ++ skipn (S k) objs) l) (fun '(g, xs) => Ret (Ok (g, x :: xs))))
          | None => Ret UB
          end
      | _, _ => Ret UB
      end)
  end.
(** the constants first, as in S_Lower: /repo/backend/opt_hg_gen.h:30-36, online_hg_gen.h:15-20 *)
Definition i_start (g : St) (l : list item) : proc (res (St * list pout)) :=
  rbind (run g [IPub false; IPub true]) (fun g => i_run g [] l).
End RUN.

Section TOP.
Variable gfr : N -> N -> N.
Variable hash : list N -> list N.
Variable sigma aes : N -> N.
Variable Hash : list N -> N.
Variable fixk Kc : nat -> N.
Variable rnd : nat -> bool.
Variable lab : nat -> N.
Variable delta : N.
(** ALICE on the streaming backend: /repo/backend/opt_hg_gen.h, primus_gen.h *)
Definition i_gen (bs : nat) (l : list item) : proc (res (gside * list pout)) :=
  i_start gfr hash gside (p_gen sigma aes Hash fixk Kc lab delta) gs_w gs_saw true (g0 Kc bs) l.
(** BOB on the streaming backend: /repo/backend/opt_hg_eva.h, primus_eva.h *)
Definition i_eva (bs : nat) (l : list item) : proc (res (eside * list pout)) :=
  i_start gfr hash eside (p_eva sigma aes Hash fixk Kc rnd lab delta) es_w es_saw false (e0 Kc rnd delta bs) l.
(** ALICE, circuits garbled in advance: /repo/backend/backend.h:18-63, offline_primus_gen.h, online_primus_gen.h *)
Definition i_gen2 (off : list instr) (l : list item) : proc (res (ngen * list pout)) :=
  rbind (p_fgen sigma aes fixk lab delta f_init_g off) (fun g =>
  i_start gfr hash ngen (p_ngen Hash fixk lab delta (fg_out g)) ngs_w ngs_saw true ng0 l).
(** BOB, circuits garbled in advance: /repo/backend/backend.h:18-63, offline_primus_eva.h, online_primus_eva.h *)
Definition i_eva2 (off : list instr) (l : list item) : proc (res (neva * list pout)) :=
  rbind (p_feva f_init_e off) (fun e =>
  i_start gfr hash neva (p_neva sigma aes Hash fixk lab delta (fe_GC e) (fe_pub e)) nes_w nes_saw false ne0 l).
End TOP.
