(** Model of what each party puts on and takes from its two channels, as one program per
    party: /repo/backend/bn_utils.h, /repo/backend/ole.h, /repo/backend/ole_f2k.h,
    /repo/protocol/e2f.h and /repo/protocol/aead.h.
    The traffic of the libraries is not modelled: the OT extension delivers its strings,
    reveal of a garbled Integer its cleartext bits and label bits, and the izk commitments
    (with sync_zk_gc) nothing, without using these programs' buffers.
    [proc] and its constructors are in S_Sched. *)
From Coq Require Import List NArith ZArith Bool Arith.
From Verif Require Import L_Bits L_Res S_Sched M_EmpInteger M_Utils M_Bristol M_Block M_Ole2k M_Shares M_Bn M_Ole M_E2f
  M_Commit M_Aead.
Import ListNotations.
Local Open Scope N_scope.

(** error() and undefined behaviour end the program at that point
    (/repo/protocol/e2f.h:162, /repo/backend/bn_utils.h:22, 33) *)
Definition rbind {A B} (p : proc (res A)) (f : A -> proc (res B)) : proc (res B) :=
  pbind p (fun r => match r with Ok a => f a | Err => Ret Err | UB => Ret UB end).
(** a local computation: no channel is touched (e.g. /repo/protocol/e2f.h:157-158) *)
Definition local {A} (r : res A) : proc (res A) := Ret r.

(** * Numbers *)
(** send_bn: /repo/backend/bn_utils.h:20-28 *)
Definition p_send_bn (c : chan) (x : Z) : proc (res unit) :=
  let arr := BN_bn2bin x in
  if (bn_buf <? length arr)%nat then Ret UB
  else Send c (u32_bytes (N.of_nat (length arr))) (Send c arr (Ret (Ok tt))).
(** recv_bn: /repo/backend/bn_utils.h:31-40 *)
Definition p_recv_bn (c : chan) : proc (res Z) :=
  Recv c 4 (fun h =>
    let len := u32_value h in
    if N.of_nat bn_buf <? len then Ret UB
    else Recv c (N.to_nat len) (fun arr => Ret (Ok (BN_bin2bn arr)))).
(** a loop of send_bn: /repo/protocol/e2f.h:59-60, 67-68 *)
Fixpoint p_send_bns (c : chan) (l : list Z) : proc (res unit) :=
  match l with
  | [] => Ret (Ok tt)
  | x :: t => rbind (p_send_bn c x) (fun _ => p_send_bns c t)
  end.
(** a loop of recv_bn: /repo/protocol/e2f.h:62-65, 70-73 *)
Fixpoint p_recv_bns (c : chan) (n : nat) : proc (res (list Z)) :=
  match n with
  | O => Ret (Ok [])
  | S k => rbind (p_recv_bn c) (fun x => rbind (p_recv_bns c k) (fun l => Ret (Ok (x :: l))))
  end.

(** * OLE over the prime field *)
Section P_OLE.
Variable ccrh : N -> N.
Variable q : Z.
Variable bit_length : nat.

(** sender: /repo/backend/ole.h:52-70; the sums do not depend on what is received, so they
    are computed by the function of M_Ole *)
Fixpoint p_ole_send (Delta : N) (raw : list (list N)) (ins : list Z) : proc (res (list Z)) :=
  match ins, raw with
  | [], _ => Ret (Ok [])
  | x :: ins, row :: raw =>
      let (o, ms) := ole_send_loop ccrh q Delta x (combine (ole_exp q bit_length) row) 0 in
      rbind (p_send_bns IO ms) (fun _ =>
      Flush IO (rbind (p_ole_send Delta raw ins) (fun os => Ret (Ok (o :: os)))))
  | _, _ => Ret UB
  end.
(** receiver, inner loop: /repo/backend/ole.h:81-90 *)
Fixpoint p_ole_recv_loop (l : list (Z * (N * bool))) (out : Z) : proc (res Z) :=
  match l with
  | [] => Ret (Ok out)
  | (e, (raw, bit)) :: t =>
      rbind (p_recv_bn IO) (fun tmp =>
      let msg := bn_H ccrh raw q in
      let msg := if bit then (tmp - msg)%Z else msg in
      p_ole_recv_loop t (BN_mod_add out (BN_mod_mul e msg q) q))
  end.
(** receiver, outer loop: /repo/backend/ole.h:79-91 *)
Fixpoint p_ole_recv (raw : list (list N)) (ins : list Z) : proc (res (list Z)) :=
  match ins, raw with
  | [], _ => Ret (Ok [])
  | x :: ins, row :: raw =>
      rbind (p_ole_recv_loop (combine (ole_exp q bit_length) (combine row (ole_bits bit_length x))) 0) (fun o =>
      rbind (p_ole_recv raw ins) (fun os => Ret (Ok (o :: os))))
  | _, _ => Ret UB
  end.

(** * E2F *)
(** open: /repo/protocol/e2f.h:55-75 *)
Definition p_open (alice : bool) (v : list Z) : proc (res (list Z)) :=
  let (mine, theirs) := if alice then (IO, IO_OPT) else (IO_OPT, IO) in
  rbind (p_send_bns mine v) (fun _ =>
  Flush mine (
  rbind (p_recv_bns theirs (length v)) (fun t =>
  Ret (Ok (map2 (fun v t => BN_mod_add v t q) v t))))).
(** compute_offline: /repo/protocol/e2f.h:82-131; ALICE holds the non-zero Delta *)
Definition p_e2f_offline (alice : bool) (r : e2f_rnd) (Delta : N) (raw : list (list N)) : proc (res e2f) :=
  let a := e2f_mask q bit_length (rnd_a r) in let b := e2f_mask q bit_length (rnd_b r) in
  let bp := e2f_mask q bit_length (rnd_bp r) in let r := e2f_mask q bit_length (rnd_r r) in
  rbind (if alice then p_ole_send Delta raw [a; b; a; bp; r]
         else p_ole_recv (map2 (fun row x => cot_recv Delta row (ole_bits bit_length x)) raw [b; a; bp; a; r])
                         [b; a; bp; a; r])
    (fun out => Ret (Ok (e2f_triples q a b bp r out))).
(** compute_online: /repo/protocol/e2f.h:133-186 *)
Definition p_e2f_online (alice : bool) (s : e2f) (x y : Z) : proc (res Z) :=
  rbind (p_open alice (e2f_eps q alice s x y)) (fun e =>
  rbind (p_open alice [e2f_w q s (nth 0 e 0%Z)]) (fun w =>
  rbind (local (e2f_eta q s (nth 0 w 0%Z) (nth 1 e 0%Z))) (fun t =>
  rbind (p_open alice [t]) (fun z =>
  Ret (Ok (e2f_out q alice s (nth 0 z 0%Z) x)))))).
(** both phases, one after the other: /repo/protocol/e2f.h:82-186 *)
Definition p_e2f (alice : bool) (r : e2f_rnd) (Delta : N) (raw : list (list N)) (x y : Z) : proc (res Z) :=
  rbind (p_e2f_offline alice r Delta raw) (fun s => p_e2f_online alice s x y).
End P_OLE.

(** * OLE over GF(2^128) *)
(** io->send_block in a loop: /repo/backend/ole_f2k.h:36-37 *)
Fixpoint p_send_blocks (c : chan) (l : list N) : proc unit :=
  match l with [] => Ret tt | x :: t => Send c (bytes_of_block x) (p_send_blocks c t) end.
(** io->recv_block(tmp, 128) for each i: /repo/backend/ole_f2k.h:51-52 *)
Fixpoint p_recv_rows (c : chan) (n : nat) : proc (list (list N)) :=
  match n with
  | O => Ret []
  | S k => Recv c (128 * 16) (fun bs =>
           pbind (p_recv_rows c k) (fun l => Ret (map block_of_bytes (chunks 16 bs) :: l)))
  end.

Section P_AEAD.
Variable aes_ks aes_enc : bristol.
Variable gfr : N -> N -> N.
Variable hash : list N -> list N.

(** compute, sender: /repo/backend/ole_f2k.h:30-40; there is no flush *)
Definition p_ole2k_send (r : ole_rand) (ins : list N) : proc (list N) :=
  pbind (p_send_blocks IO (concat (ole_send_msgs (raw0 r) (raw1 r) ins))) (fun _ =>
  Ret (ole_send_out gfr (raw0 r))).
(** compute, receiver: /repo/backend/ole_f2k.h:41-61 *)
Definition p_ole2k_recv (r : ole_rand) (ins : list N) : proc (list N) :=
  pbind (p_recv_rows IO (length ins)) (fun msgs =>
  Ret (ole_recv_out gfr (rot_choose (raw0 r) (raw1 r) ins) msgs ins)).

(** * AEAD *)
(** constructor: /repo/protocol/aead.h:47-85; h is the party's share of H.  ALICE's last
    message is not flushed here. *)
Definition p_new (alice : bool) (key iv : Integer) (mh : list bool) (r : N) (ro : ole_rand)
  : proc (res (gcst * party)) :=
  rbind (local (let* ek := computeKS aes_ks key in
                let* H := computeH aes_enc ek in
                let* h := integer_to_block (if alice then mh else bxor mh H) in Ok (ek, h))%res) (fun '(ek, h) =>
  let g := {| g_key := ek; g_nonce := []; g_fixed := iv |} in
  let mk hs := {| p_gc_h := h; p_mul_hs := hs; p_gc_z0 := []; p_gc_z := []; p_open_z := [] |} in
  if alice then
    pbind (p_ole2k_send ro [r]) (fun o =>
    let rh := N.lxor (nth 0 o 0) (mulBlock r h) in
    Send IO (bytes_of_block rh) (Ret (Ok (g, mk [invBlock r]))))
  else
    pbind (p_ole2k_recv ro [h]) (fun o =>
    Recv IO 16 (fun mh => Ret (Ok (g, mk [N.lxor (nth 0 o 0) (block_of_bytes mh)]))))).

(** obv_ghash: /repo/protocol/aead.h:144-166 *)
Definition p_ghash (alice : bool) (p : party) (ins : list N) (r : ole_rand) : proc (res (party * N)) :=
  match p_mul_hs p with
  | [] => Ret UB
  | _ :: _ =>
      let hs := hs_upto (p_mul_hs p) (length ins) in
      pbind (if alice then p_ole2k_send r (ghash_in_alice hs ins) else p_ole2k_recv r (ghash_in_bob hs (length ins)))
        (fun o =>
      Ret (Ok ({| p_gc_h := p_gc_h p; p_mul_hs := hs; p_gc_z0 := p_gc_z0 p; p_gc_z := p_gc_z p;
                  p_open_z := p_open_z p |}, xor_all o)))
  end.

(** the common beginning of encrypt and decrypt: /repo/protocol/aead.h:181-208, 321-353;
    nonce, state with z0 stored, z0 share, Z *)
Definition own_material (alice : bool) (g : gcst) (p : party) (iv : list N) (len : N) (r : call_rand)
  : res (gcst * party * N * Integer) :=
  (let* (Zz, Z, n1) := key_material aes_enc g iv len in
   let* z0 := integer_to_block (if alice then m_z0 r else bxor (m_z0 r) Zz) in
   Ok ({| g_key := g_key g; g_nonce := n1; g_fixed := g_fixed g |}, push_z0 p z0, z0, Z))%res.
(** this party's share of Z as bytes: /repo/protocol/aead.h:226, 371 *)
Definition own_z (alice : bool) (Z : Integer) (r : call_rand) : res (list N) :=
  integer_to_chars (if alice then m_z r else bxor (m_z r) Z).

(** encrypt: /repo/protocol/aead.h:169-306; result: state, ctxt, tag *)
Definition p_encrypt (alice : bool) (g : gcst) (p : party) (msg_len : nat) (msg aad iv : list N) (sec : bool)
    (r : call_rand) : proc (res (gcst * party * (list N * list N))) :=
  rbind (local (own_material alice g p iv (N.of_nat msg_len) r)) (fun '(g, p, z0, Z) =>
  rbind (if negb sec then
           let z := reveal_as 8 Z in Ret (Ok (push_open p z, xor_arr msg (rev z)))
         else
           rbind (local (own_z alice Z r)) (fun z =>
           let p := push_gc_z p (rev z) in
           if alice then Send IO (xor_arr msg z) (Recv IO msg_len (fun c => Ret (Ok (p, c))))
           else Recv IO msg_len (fun x => Send IO (xor_arr x z) (Ret (Ok (p, xor_arr x z))))))
    (fun '(p, ctxt) =>
  rbind (p_ghash alice p (tag_blocks aad ctxt) (m_ole r)) (fun '(p, out) =>
  let out := N.lxor out z0 in
  let (mine, theirs) := if alice then (IO_OPT, IO) else (IO, IO_OPT) in
  Send mine (bytes_of_block out) (Flush mine (
  Recv theirs 16 (fun o =>
  Ret (Ok (g, p, (ctxt, rev (bytes_of_block (N.lxor out (block_of_bytes o)))))))))))).

(** decrypt: /repo/protocol/aead.h:309-492; [rnd] is the randomness of Commitment::commit;
    result: state, msg ([None]: not written), verdict *)
Definition p_decrypt (alice : bool) (g : gcst) (p : party) (ctxt tag aad iv : list N) (sec : bool)
    (r : call_rand) (rnd : list N) : proc (res (gcst * party * (option (list N) * bool))) :=
  rbind (local (own_material alice g p iv (N.of_nat (length ctxt)) r)) (fun '(g, p, z0, Z) =>
  rbind (if negb sec then
           let z := reveal_as 8 Z in Ret (Ok (push_open p z, Some (xor_arr ctxt (rev z))))
         else
           rbind (local (own_z alice Z r)) (fun z =>
           let p := push_gc_z p (rev z) in
           if alice then Recv IO (length ctxt) (fun x => Ret (Ok (p, Some (xor_arr (xor_arr x z) ctxt))))
           else Send IO z (Ret (Ok (p, None)))))
    (fun '(p, msg) =>
  rbind (p_ghash alice p (tag_blocks aad ctxt) (m_ole r)) (fun '(p, out) =>
  let out := N.lxor out z0 in
  let (mine, theirs) := if alice then (IO, IO_OPT) else (IO_OPT, IO) in
  Send mine (dec_msg1 hash out rnd) (Flush mine (
  Recv theirs DIGEST_SIZE (fun com =>
  Send mine (bytes_of_block out) (Send mine rnd (Flush mine (
  Recv theirs 16 (fun o => Recv theirs rand_length (fun rn =>
  Ret (Ok (g, p, (msg, dec_verdict hash tag out com (block_of_bytes o, rn))))))))))))))).

(** one call, as made by one of the parties: /repo/protocol/aead.h:169-306, 309-492 *)
Inductive pout := PEnc (a : list N * list N) | PDec (a : option (list N) * bool).
(** same calls: /repo/protocol/aead.h:169-306, 309-492 *)
Definition p_op (alice : bool) (g : gcst) (p : party) (o : aop) : proc (res (gcst * party * pout)) :=
  match o with
  | OpEnc ma mb aad iv sec r =>
      rbind (p_encrypt alice g p (length ma) (if alice then ma else mb) aad iv sec r)
        (fun '(g, p, o) => Ret (Ok (g, p, PEnc o)))
  | OpDec c t aad iv sec r ra rb =>
      rbind (p_decrypt alice g p c t aad iv sec r (if alice then ra else rb))
        (fun '(g, p, o) => Ret (Ok (g, p, PDec o)))
  end.
(** any sequence of calls on one object, both parties making the same calls
    (/repo/protocol/aead.h:169-306, 309-492) *)
Fixpoint p_ops (alice : bool) (g : gcst) (p : party) (os : list aop) : proc (res (list pout)) :=
  match os with
  | [] => Ret (Ok [])
  | o :: os => rbind (p_op alice g p o) (fun '(g, p, x) =>
               rbind (p_ops alice g p os) (fun xs => Ret (Ok (x :: xs))))
  end.
(** the constructor and then the calls (/repo/protocol/aead.h:47-85 and the above) *)
Definition p_session (alice : bool) (key iv : Integer) (mh : list bool) (r : N) (ro : ole_rand) (os : list aop)
  : proc (res (list pout)) :=
  rbind (p_new alice key iv mh r ro) (fun '(g, p) => p_ops alice g p os).
(** as [p_ops], also returning the fields of the party's own object
    (/repo/protocol/aead.h:15-42) *)
Fixpoint p_ops_st (alice : bool) (g : gcst) (p : party) (os : list aop) : proc (res (party * list pout)) :=
  match os with
  | [] => Ret (Ok (p, []))
  | o :: os => rbind (p_op alice g p o) (fun '(g, p, x) =>
               rbind (p_ops_st alice g p os) (fun '(p, xs) => Ret (Ok (p, x :: xs))))
  end.
(** as [p_session], also returning the fields of the party's own object
    (/repo/protocol/aead.h:15-42, 47-85) *)
Definition p_session_st (alice : bool) (key iv : Integer) (mh : list bool) (r : N) (ro : ole_rand) (os : list aop)
  : proc (res (party * list pout)) :=
  rbind (p_new alice key iv mh r ro) (fun '(g, p) => p_ops_st alice g p os).
End P_AEAD.
