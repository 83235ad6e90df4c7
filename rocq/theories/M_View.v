(** The arguments of the calls of an AEAD session separated from the random values of the
    run: /repo/protocol/aead.h. *)
From Coq Require Import List NArith Bool.
From Verif Require Import L_Bits L_Res S_Sched M_EmpInteger M_Bristol M_Ole2k M_Shares M_Aead M_Exch.
Import ListNotations.
Local Open Scope N_scope.

(** what the parties pass to encrypt (msg of ALICE, msg of BOB, aad, iv, sec_type) or decrypt
    (ctxt, tag, aad, iv, sec_type and the strings drawn in Commitment::commit by ALICE and
    BOB): /repo/protocol/aead.h:169-179, 309-319, 435, 457 *)
Inductive ain :=
| InEnc (ma mb aad iv : list N) (sec : bool)
| InDec (c t aad iv : list N) (sec : bool) (ra rb : list N).
(** a call with its random values: /repo/protocol/aead.h:169-306, 309-492 *)
Definition with_rand (i : ain) (r : call_rand) : aop :=
  match i with
  | InEnc ma mb aad iv sec => OpEnc ma mb aad iv sec r
  | InDec c t aad iv sec ra rb => OpDec c t aad iv sec r ra rb
  end.
(** the random values of a session: ALICE's share bits of H (the label bits of
    integer_to_block, /repo/protocol/aead.h:56), r (:61-63), the strings of the random OTs (:67,
    74), and those of each call *)
Record arand := { ar_mh : list bool; ar_r : N; ar_ro : ole_rand; ar_calls : list call_rand }.

Section VIEW.
Variable aes_ks aes_enc : bristol.
Variable gfr : N -> N -> N.
Variable hash : list N -> list N.
(** a party's program for the constructor and the calls (/repo/protocol/aead.h:47-85, 169-306,
    309-492) *)
Definition p_run (alice : bool) (key iv : Integer) (ins : list ain) (u : arand) : proc (res (party * list pout)) :=
  p_session_st aes_ks aes_enc gfr hash alice key iv (ar_mh u) (ar_r u) (ar_ro u) (map2 with_rand ins (ar_calls u)).
End VIEW.
(** what BOB gets from the random OTs of a run (/repo/backend/ole_f2k.h:45-48, called from
    /repo/protocol/aead.h:73, 160): in the constructor with its share of H as choice bits,
    in each call with the powers it holds, here taken from its fields [b] at the end *)
Definition bob_ots (b : party) (u : arand) : list (list (list N)) :=
  rot_choose (raw0 (ar_ro u)) (raw1 (ar_ro u)) [p_gc_h b] ::
  map (fun c => rot_choose (raw0 (m_ole c)) (raw1 (m_ole c)) (firstn (length (raw0 (m_ole c))) (p_mul_hs b))) (ar_calls u).
