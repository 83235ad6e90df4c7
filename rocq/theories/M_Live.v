(** The programs of C101 without requests given in advance: each party computes its next request when it
    comes to it, from its own data and the values opened to it so far. *)
From Coq Require Import List NArith ZArith Bool Arith.
From Verif Require Import L_Bits L_Res S_Circuit S_Sched S_Lower S_Causal.
From Verif Require S_Netlist.
From Verif Require Import M_EmpInteger M_Utils M_Bristol M_Sym M_SymOn M_Block M_Ole2k M_Aead M_Exch M_View M_LabRec M_Garble M_GcProc M_Inter M_Causal.
Import ListNotations.

(** the arguments of a record as one party knows them: the peer's message, of which only the length is
    known, and the peer's commitment string left out (/repo/protocol/aead.h:169-179, 309-319) *)
Definition own_in (alice : bool) (i : ain) : ain :=
  match i with
  | InEnc ma mb aad iv sec => if alice then InEnc ma [] aad iv sec else InEnc (repeat 0%N (length ma)) mb aad iv sec
  | InDec c t aad iv sec ra rb => if alice then InDec c t aad iv sec ra [] else InDec c t aad iv sec [] rb
  end.
(** a call as one party knows it: without the peer's share (M_Causal), the random block of ALICE's
    constructor, the peer's arguments of a record; the strings of the random OTs belong to the library
    (/repo/protocol/handshake.h:187-326, /repo/protocol/aead.h:47-492) *)
Definition own_icall (alice : bool) (c : icall) : icall :=
  match c with
  | CPlain c => CPlain (own_call alice c)
  | CAead srv r ro => if alice then CAead srv r ro else CAead srv 0%N ro
  | CRec o => CRec {| lc_srv := lc_srv o; lc_in := own_in alice (lc_in o); lc_ole := lc_ole o |}
  end.

Section LIVE.
Variable ks enc : bristol.
Variable q : Z.
Variable rounds : bool.
(** the calls as the party knows them: its own data, anything in place of the peer's ([own_icall])
    (/repo/protocol/handshake.h:187-326, /repo/protocol/aead.h:47-492) *)
Variable cs : list icall.

(** the requests the party would make if [seen] were opened to it: the calls of
    /repo/protocol/handshake.h:187-326 and /repo/protocol/aead.h:47-492 run with these values *)
Definition requests (seen : list (list bool)) : list instr :=
  match on_session (replay seen) ks enc q rounds (map on_of cs) cst0 with
  | Ok (_, s) => lower (c_tr s)
  | _ => []
  end.

Variable St : Type.
Variable step : St -> instr -> proc (res St).
Variable saws : St -> list (list bool).
(** k requests from the n-th on, each computed when it is its turn; the code goes on from where it is,
    the model starts over with the values opened so far, with the same next request
    (/repo/backend/primus_gen.h:32-98, primus_eva.h:31-86, online_primus_gen.h:23-70, online_primus_eva.h:23-49) *)
Fixpoint live (k : nat) (g : St) (n : nat) : proc (res (St * nat)) :=
  match k with
  | O => Ret (Ok (g, n))
  | S k =>
      match nth_error (requests (saws g)) n with
      | Some c => rbind (step g c) (fun g => live k g (S n))
      | None => Ret UB
      end
  end.
(** as the [run] of M_Inter; of the requests of a call only their number is used
    (/repo/protocol/handshake.h:187-326, /repo/protocol/aead.h:47-492) *)
Definition live_run (x : St * nat) (seg : list instr) : proc (res (St * nat)) := live (length seg) (fst x) (snd x).

Variable gfr : N -> N -> N.
Variable hash : list N -> list N.
Variable labels : St -> list N.
Variable alice : bool.
(** a session, started with nothing opened: the number of requests per call and the wires turned into
    shares are read off a run without openings (/repo/test/protocol.cpp:82-121) *)
Definition l_start (g : St) : proc (res (St * nat * list pout)) :=
  match session_items (replay []) ks enc q rounds cs with
  | Ok its => i_start gfr hash (St * nat) live_run (fun x => labels (fst x)) (fun x => saws (fst x)) alice (g, 0) its
  | Err => Ret Err
  | UB => Ret UB
  end.
End LIVE.

Section TOP.
Variable ks enc : bristol.
Variable q : Z.
Variable rounds : bool.
Variable cs : list icall.
Variable gfr : N -> N -> N.
Variable hash : list N -> list N.
Variable sigma aes : N -> N.
Variable Hash : list N -> N.
Variable fixk Kc : nat -> N.
Variable rnd : nat -> bool.
Variable lab : nat -> N.
Variable delta : N.
(** ALICE on the streaming backend: /repo/backend/opt_hg_gen.h, primus_gen.h *)
Definition l_gen (bs : nat) : proc (res (gside * nat * list pout)) :=
  l_start ks enc q rounds cs gside (p_gen_step sigma aes Hash fixk Kc lab delta) gs_saw gfr hash gs_w true (g0 Kc bs).
(** BOB on the streaming backend: /repo/backend/opt_hg_eva.h, primus_eva.h *)
Definition l_eva (bs : nat) : proc (res (eside * nat * list pout)) :=
  l_start ks enc q rounds cs eside (p_eva_step sigma aes Hash fixk Kc rnd lab delta) es_saw gfr hash es_w false (e0 Kc rnd delta bs).
(** ALICE, circuits garbled in advance: /repo/backend/backend.h:18-63, offline_primus_gen.h, online_primus_gen.h *)
Definition l_gen2 (off : list instr) : proc (res (ngen * nat * list pout)) :=
  rbind (p_fgen sigma aes fixk lab delta f_init_g off) (fun g =>
  l_start ks enc q rounds cs ngen (p_ngen_step Hash fixk lab delta (fg_out g)) ngs_saw gfr hash ngs_w true ng0).
(** BOB, circuits garbled in advance: /repo/backend/backend.h:18-63, offline_primus_eva.h, online_primus_eva.h *)
Definition l_eva2 (off : list instr) : proc (res (neva * nat * list pout)) :=
  rbind (p_feva f_init_e off) (fun e =>
  l_start ks enc q rounds cs neva (p_neva_step sigma aes Hash fixk lab delta (fe_GC e) (fe_pub e)) nes_saw gfr hash nes_w false ne0).
End TOP.
