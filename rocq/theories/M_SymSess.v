(** Sessions: which offline calls announce which online calls
    (/repo/protocol/protocol.h drives both; the caller issues the calls), and the same
    session on cleartext values. *)
From Coq Require Import List NArith ZArith Bool Arith.
From Verif Require Import L_Bits L_Res S_Netlist M_EmpInteger M_Bristol M_Bn M_Sym M_SymOn M_SymOff.
From Verif Require Import M_Hmac M_Handshake M_Aead.
Import ListNotations.
Local Open Scope N_scope.

(** the offline call announcing an online call: /repo/protocol/handshake.h:564-649
    against 187-326, /repo/protocol/aead.h:548-643 against 169-491 *)
Definition announce (c : on_call) : off_call :=
  match c with
  | NMaster _ _ _ _ => FMaster
  | NExtMaster _ _ _ => FExtMaster
  | NExpand _ _ => FExpand
  | NClientFin _ _ => FClientFin
  | NServerFin _ _ => FServerFin
  | NAead srv => FAead srv
  | NEncrypt k _ len sec => FEncrypt k len sec
  | NDecrypt k _ len sec => FDecrypt k len sec
  end.
(** a share that fits the buffer of the field's size: /repo/protocol/handshake.h:192-198 *)
Definition share_ok (q p : Z) : Prop := (BN_num_bytes p <= BN_num_bytes q)%nat.
(** the sizes an online call must respect: shares of the field's size, 8-byte explicit
    nonces and, in rounds mode only, the seed lengths fixed by the offline class
    (/repo/protocol/handshake.h:27-37, 564-649) *)
Definition sizes_ok (q : Z) (rounds : bool) (c : on_call) : Prop :=
  match c with
  | NMaster pa pb rc rs => share_ok q pa /\ share_ok q pb /\
      (rounds = true -> length rc + length rs = 64)%nat
  | NExtMaster pa pb sh => share_ok q pa /\ share_ok q pb /\
      (rounds = true -> length sh = 32)%nat
  | NExpand rc rs => (rounds = true -> length rc + length rs = 64)%nat
  | NClientFin l t | NServerFin l t => (rounds = true -> length l + length t = 47)%nat
  | NAead _ => True
  | NEncrypt _ iv _ _ | NDecrypt _ iv _ _ => length iv = 8%nat
  end.

(** what an opening returns when both parties follow the protocol: the value of the wire
    (/repo/backend/online_primus_gen.h:43-70) *)
Definition honest (tr : list nev) (i : nat) : bool :=
  match tr with
  | EReveal _ ws :: t => wval (vals t) (nth i ws (WPub false))
  | _ => false
  end.

Section Values.
Variable aes_ks aes_enc : bristol.
(** a session on values: the handshake object, the garbled members of the AEAD objects,
    what was opened to the caller, and the values that become shares; the functions are those of M_Handshake and M_Aead
    (the calls of /repo/protocol/handshake.h:187-326 and /repo/protocol/aead.h:47-492) *)
Record v_sess := mkVSess { v_hs : hs; v_aeads : list gcst; v_out : list (list N); v_sh : list Integer }.
(** AEAD constructor, garbled part: /repo/protocol/aead.h:47-53, 89-92 *)
Definition v_aead_new (key iv : Integer) : res (gcst * Integer) :=
  (let* ek := computeKS aes_ks key in
   let* H := computeH aes_enc ek in
   Ok ({| g_key := ek; g_nonce := []; g_fixed := iv |}, H))%res.
(** encrypt and decrypt, garbled part: /repo/protocol/aead.h:181-210, 320-352 *)
Definition v_crypt_call (s : v_sess) (k : nat) (iv : list N) (len : N) (sec : bool) : res v_sess :=
  (let* g := read (nth_error (v_aeads s) k) in
   let* (Zz, Zr, n1) := key_material aes_enc g iv len in
   let g := {| g_key := g_key g; g_nonce := n1; g_fixed := g_fixed g |} in
   Ok (mkVSess (v_hs s) (firstn k (v_aeads s) ++ [g] ++ skipn (S k) (v_aeads s))
               (v_out s ++ [if negb sec then reveal_as 8 Zr else []]) (v_sh s ++ [Zz; Zr])))%res.
(** one call of the session
    (the calls of /repo/protocol/handshake.h:187-326 and /repo/protocol/aead.h:47-492) *)
Definition v_do (s : v_sess) (c : on_call) : res v_sess :=
  (match c with
   | NMaster pa pb rc rs =>
       let* h := compute_master_key (v_hs s) pa pb rc rs in Ok (mkVSess h (v_aeads s) (v_out s) (v_sh s))
   | NExtMaster pa pb sh =>
       let* h := compute_extended_master_key (v_hs s) pa pb sh in Ok (mkVSess h (v_aeads s) (v_out s) (v_sh s))
   | NExpand rc rs =>
       let* h := compute_expansion_keys (v_hs s) rc rs in Ok (mkVSess h (v_aeads s) (v_out s) (v_sh s))
   | NClientFin l t =>
       let* (h, u) := finished_bytes (v_hs s) l t in Ok (mkVSess (set_cufin h u) (v_aeads s) (v_out s ++ [u]) (v_sh s))
   | NServerFin l t =>
       let* (h, u) := finished_bytes (v_hs s) l t in Ok (mkVSess (set_sufin h u) (v_aeads s) (v_out s ++ [u]) (v_sh s))
   | NAead srv =>
       let h := v_hs s in
       let* (g, H) := v_aead_new (if srv then hs_swk h else hs_cwk h)
                                 (if srv then hs_siv h else hs_civ h) in
       Ok (mkVSess h (v_aeads s ++ [g]) (v_out s) (v_sh s ++ [H]))
   | NEncrypt k iv len sec => v_crypt_call s k iv len sec
   | NDecrypt k iv len sec => v_crypt_call s k iv len sec
   end)%res.
(** the calls of /repo/protocol/handshake.h:187-326 and /repo/protocol/aead.h:47-492 *)
Fixpoint v_calls (cs : list on_call) (s : v_sess) : res v_sess :=
  match cs with
  | [] => Ok s
  | c :: t => bind (v_do s c) (v_calls t)
  end.
(** the calls of /repo/protocol/handshake.h:187-326 and /repo/protocol/aead.h:47-492 *)
Definition v_session (q : Z) (rounds : bool) (cs : list on_call) : res v_sess :=
  v_calls cs (mkVSess (hs_new q rounds) [] [] []).
End Values.
