(** What a party does in the AEAD object with its own wire labels: /repo/protocol/aead.h with
    integer_to_block and integer_to_chars of /repo/cipher/utils.h.  The programs of M_Exch take the
    cleartext of the garbled values and a mask; here a party is given nothing but the low bits of
    its labels and what it saw opened.  Traffic of the libraries is left out as in M_Exch. *)
From Coq Require Import List NArith Bool Arith.
From Verif Require Import L_Bits L_Res S_Sched S_Lower.
From Verif Require S_Netlist M_Garble M_SymOn.
From Verif Require Import M_EmpInteger M_Utils M_Block M_Ole2k M_Shares M_Commit M_Aead M_Exch M_View.
Import ListNotations.
Local Open Scope N_scope.

(** a party's share bits of an Integer: the low bits of its labels, getLSB(x[i].bit) in
    /repo/cipher/utils.h:257-304 *)
Definition low_bits (labels : list N) (ws : list S_Netlist.wire) : list bool :=
  map (fun w => M_Garble.getLSB (M_Garble.lbl labels (low_wire w))) ws.
(** what a party has of the garbled values of one call: the low bits of its labels of Z0 and Z, and Z
    itself when it was opened: /repo/protocol/aead.h:190, 208, 226, 330, 351, 371 *)
Record own := { w_z0 : list bool; w_z : list bool; w_open : list bool }.
(** one call: on which of the two objects, the arguments, the strings of the random OTs
    (/repo/protocol/aead.h:169-179, 309-319, 160) *)
Record lcall := { lc_srv : bool; lc_in : ain; lc_ole : ole_rand }.

Section LAB.
Variable gfr : N -> N -> N.
Variable hash : list N -> list N.

(** constructor: /repo/protocol/aead.h:47-85; [h] are the label bits of H *)
Definition l_new (alice : bool) (h : list bool) (r : N) (ro : ole_rand) : proc (res party) :=
  rbind (local (integer_to_block h)) (fun h =>
  let mk hs := {| p_gc_h := h; p_mul_hs := hs; p_gc_z0 := []; p_gc_z := []; p_open_z := [] |} in
  if alice then
    pbind (p_ole2k_send gfr ro [r]) (fun o =>
    let rh := N.lxor (nth 0 o 0) (mulBlock r h) in
    Send IO (bytes_of_block rh) (Ret (Ok (mk [invBlock r]))))
  else
    pbind (p_ole2k_recv gfr ro [h]) (fun o =>
    Recv IO 16 (fun mh => Ret (Ok (mk [N.lxor (nth 0 o 0) (block_of_bytes mh)]))))).

(** encrypt from the shares on: /repo/protocol/aead.h:190-305 *)
Definition l_encrypt (alice : bool) (p : party) (msg_len : nat) (msg aad : list N) (sec : bool) (w : own) (ro : ole_rand)
  : proc (res (party * (list N * list N))) :=
  rbind (local (integer_to_block (w_z0 w))) (fun z0 =>
  let p := push_z0 p z0 in
  rbind (if negb sec then
           let z := reveal_as 8 (w_open w) in Ret (Ok (push_open p z, xor_arr msg (rev z)))
         else
           rbind (local (integer_to_chars (w_z w))) (fun z =>
           let p := push_gc_z p (rev z) in
           if alice then Send IO (xor_arr msg z) (Recv IO msg_len (fun c => Ret (Ok (p, c))))
           else Recv IO msg_len (fun x => Send IO (xor_arr x z) (Ret (Ok (p, xor_arr x z))))))
    (fun '(p, ctxt) =>
  rbind (p_ghash gfr alice p (tag_blocks aad ctxt) ro) (fun '(p, out) =>
  let out := N.lxor out z0 in
  let (mine, theirs) := if alice then (IO_OPT, IO) else (IO, IO_OPT) in
  Send mine (bytes_of_block out) (Flush mine (
  Recv theirs 16 (fun o =>
  Ret (Ok (p, (ctxt, rev (bytes_of_block (N.lxor out (block_of_bytes o)))))))))))).

(** decrypt from the shares on: /repo/protocol/aead.h:330-491 *)
Definition l_decrypt (alice : bool) (p : party) (ctxt tag aad : list N) (sec : bool) (rnd : list N) (w : own) (ro : ole_rand)
  : proc (res (party * (option (list N) * bool))) :=
  rbind (local (integer_to_block (w_z0 w))) (fun z0 =>
  let p := push_z0 p z0 in
  rbind (if negb sec then
           let z := reveal_as 8 (w_open w) in Ret (Ok (push_open p z, Some (xor_arr ctxt (rev z))))
         else
           rbind (local (integer_to_chars (w_z w))) (fun z =>
           let p := push_gc_z p (rev z) in
           if alice then Recv IO (length ctxt) (fun x => Ret (Ok (p, Some (xor_arr (xor_arr x z) ctxt))))
           else Send IO z (Ret (Ok (p, None)))))
    (fun '(p, msg) =>
  rbind (p_ghash gfr alice p (tag_blocks aad ctxt) ro) (fun '(p, out) =>
  let out := N.lxor out z0 in
  let (mine, theirs) := if alice then (IO, IO_OPT) else (IO_OPT, IO) in
  Send mine (dec_msg1 hash out rnd) (Flush mine (
  Recv theirs DIGEST_SIZE (fun com =>
  Send mine (bytes_of_block out) (Send mine rnd (Flush mine (
  Recv theirs 16 (fun o => Recv theirs rand_length (fun rn =>
  Ret (Ok (p, (msg, dec_verdict hash tag out com (block_of_bytes o, rn))))))))))))))).

(** one call: /repo/protocol/aead.h:169-306, 309-492 *)
Definition l_op (alice : bool) (p : party) (i : ain) (w : own) (ro : ole_rand) : proc (res (party * pout)) :=
  match i with
  | InEnc ma mb aad iv sec =>
      rbind (l_encrypt alice p (length ma) (if alice then ma else mb) aad sec w ro) (fun '(p, o) => Ret (Ok (p, PEnc o)))
  | InDec c t aad iv sec ra rb =>
      rbind (l_decrypt alice p c t aad sec (if alice then ra else rb) w ro) (fun '(p, o) => Ret (Ok (p, PDec o)))
  end.
(** any sequence of calls on the two objects aead_c and aead_s
    (/repo/protocol/handshake.h:328-353, /repo/protocol/record.h:13-42) *)
Fixpoint l_calls (alice : bool) (c s : party) (l : list (lcall * own)) : proc (res (list pout)) :=
  match l with
  | [] => Ret (Ok [])
  | (o, w) :: l =>
      rbind (l_op alice (if lc_srv o then s else c) (lc_in o) w (lc_ole o)) (fun '(p, x) =>
      rbind (l_calls alice (if lc_srv o then c else p) (if lc_srv o then p else s) l) (fun xs => Ret (Ok (x :: xs))))
  end.

(** sec_type of a call: /repo/protocol/aead.h:179, 319 *)
Definition in_sec (i : ain) : bool := match i with InEnc _ _ _ _ sec => sec | InDec _ _ _ _ sec _ _ => sec end.
(** what a party has for each call: the wires of Z0 and Z in the order of the calls, its labels, and
    the vectors it saw opened, one for each call with public content
    (/repo/protocol/aead.h:190, 208, 226, 330, 351, 371) *)
Fixpoint owns (labels : list N) (l : list lcall) (ws : list (list S_Netlist.wire)) (opened : list (list bool)) : list own :=
  match l, ws with
  | o :: l, z0 :: z :: ws =>
      let w v := {| w_z0 := low_bits labels z0; w_z := low_bits labels z; w_open := v |} in
      if in_sec (lc_in o) then w [] :: owns labels l ws opened
      else match opened with
           | v :: opened => w v :: owns labels l ws opened
           | [] => []
           end
  | _, _ => []
  end.
(** how many calls open their key stream: /repo/protocol/aead.h:206-208, 349-351 *)
Definition public_calls (l : list lcall) : nat := length (filter (fun o => negb (in_sec (lc_in o))) l).
(** the two constructors and the calls: [sh] are the wires that become shares (H of the two objects,
    then Z0 and Z of each call), [opened] everything this party saw opened in the session; the
    vectors opened by the calls come last.
    /repo/protocol/aead.h:47-85, 169-306, 309-492 in the order of /repo/test/protocol.cpp:95-121 *)
Definition l_session (alice : bool) (labels : list N) (opened : list (list bool)) (sh : list (list S_Netlist.wire))
    (rc : N) (roc : ole_rand) (rs : N) (ros : ole_rand) (l : list lcall) : proc (res (list pout)) :=
  match sh with
  | hc :: hs :: ws =>
      rbind (l_new alice (low_bits labels hc) rc roc) (fun c =>
      rbind (l_new alice (low_bits labels hs) rs ros) (fun s =>
      l_calls alice c s (combine l (owns labels l ws (skipn (length opened - public_calls l) opened)))))
  | _ => Ret UB
  end.
End LAB.
(** what ALICE, or BOB, saw in the openings of a session
    (/repo/backend/online_primus_gen.h:43-70, online_primus_eva.h:30-49) *)
Definition saw (alice : bool) (op : M_Garble.opened) : list (list bool) :=
  map (fun o => if alice then snd (fst o) else snd o) op.
