(** Model of /repo/protocol/aead.h.
    Garbled values (expanded_key, fixed_iv, nonce and what is computed from them) are
    their cleartext bits; that the garbling delivers those bits is C24-C26, C31.  Each
    party's XOR share of a garbled Integer is given by the least significant bits of its
    labels: ALICE (garbler) holds an arbitrary list [m], BOB (evaluator) holds [m] XOR the
    bits.  Values committed with izk (zk_h, zk_z0, zk_z) are ALICE's cleartext values.
    Message transport order is the subject of C57; here the values sent are passed
    directly.  Buffer lengths are below 2^60 bytes, so the size_t/uint64_t size
    computations do not wrap. *)
From Coq Require Import List NArith Bool Arith.
From Verif Require Import L_Bits L_Res M_EmpInteger M_Utils M_Bristol M_Block M_Ole2k M_Shares.
Import ListNotations.
Local Open Scope N_scope.

(** * Tag computation in the clear *)
(** u and v of /repo/protocol/aead.h:181, 260, 502-503, in bits *)
Definition pad_bits (len : N) : N := 128 * ((len * 8 + 128 - 1) / 128) - len * 8.
(** the eight length bytes: /repo/protocol/aead.h:267-271, 509-513; the cast to unsigned
    char keeps the low eight bits *)
Definition len_bytes (len : N) : list N :=
  map (fun i => N.shiftr ((8 * len) mod 2 ^ 64) ((7 - i) * 8) mod 256) [0; 1; 2; 3; 4; 5; 6; 7].
(** the buffer x: /repo/protocol/aead.h:273-278, 515-520 *)
Definition tag_buffer (aad ctxt : list N) : list N :=
  let v := pad_bits (N.of_nat (length aad)) in
  let u := pad_bits (N.of_nat (length ctxt)) in
  aad ++ repeat 0 (N.to_nat (v / 8)) ++ ctxt ++ repeat 0 (N.to_nat (u / 8)) ++
  len_bytes (N.of_nat (length aad)) ++ len_bytes (N.of_nat (length ctxt)).
(** reverse(x, x+len) and the cast to block*: /repo/protocol/aead.h:280-281, 522-523 *)
Definition tag_blocks (aad ctxt : list N) : list N :=
  map block_of_bytes (chunks 16 (rev (tag_buffer aad ctxt))).
(** compute_tag: /repo/protocol/aead.h:495-531 *)
Definition compute_tag (h z0 : N) (ctxt aad : list N) : list N :=
  let t := ghash h (rev (tag_blocks aad ctxt)) in
  let t := N.lxor t z0 in
  rev (bytes_of_block t).
(** memcmp(a, b, 16) == 0 on 16-byte arrays
    (/repo/protocol/aead.h:489, 543) *)
Definition bytes_eqb (a b : list N) : bool := if list_eq_dec N.eq_dec a b then true else false.
(** compare_tag: /repo/protocol/aead.h:533-546 *)
Definition compare_tag (tag : list N) (h z0 : N) (ctxt aad : list N) : bool :=
  bytes_eqb tag (compute_tag h z0 ctxt aad).

(** * State *)
(** the garbled members: /repo/protocol/aead.h:17-19 *)
Record gcst := { g_key : Integer; g_nonce : Integer; g_fixed : Integer }.
(** one party's cleartext members: /repo/protocol/aead.h:22, 26, 30, 36, 41; z_len and
    open_len are the lengths of the stored byte arrays *)
Record party := { p_gc_h : N; p_mul_hs : list N; p_gc_z0 : list N;
                  p_gc_z : list (list N); p_open_z : list (list N) }.
(** izk-committed members, ALICE's values: /repo/protocol/aead.h:23, 27, 32 *)
Record zkst := { k_h : Integer; k_z0 : list Integer; k_z : list Integer }.
(** both parties' members: /repo/protocol/aead.h:14-45 *)
Record aead := { st_gc : gcst; st_a : party; st_b : party; st_zk : zkst }.

(** randomness of one obv_ghash call: the random-OT strings
    (drawn inside /repo/backend/ole_f2k.h:27-60) *)
Record ole_rand := { raw0 : list (list N); raw1 : list (list N) }.

Section AEAD.
Variable aes_ks aes_enc : bristol.
Variable gfmul_reflect : N -> N -> N.

(** computeH: /repo/protocol/aead.h:89-92 *)
Definition computeH (key : Integer) : res Integer := computeAES_KS aes_enc key (int_of 128 0).

(** inc: /repo/protocol/aead.h:94-105 *)
Definition inc (counter : Integer) (s : nat) : res Integer :=
  if (length counter <? s)%nat then Err
  else
    let msb := skipn s counter in
    let lsb := firstn s counter in
    let lsb := iadd lsb (int_of s 1) in
    Ok (iconcat msb [lsb]).

(** gctr: /repo/protocol/aead.h:107-116; returns (res, nonce) *)
Fixpoint gctr (m : nat) (key r nonce : Integer) : res (Integer * Integer) :=
  match m with
  | O => Ok (r, nonce)
  | S k =>
      (let* tmp := computeAES_KS aes_enc key nonce in
       let* n' := inc nonce 32 in
       gctr k key (iconcat r [tmp]) n')%res
  end.

(** set_nonce: /repo/protocol/aead.h:121-141; the assert is modelled as an error.
    [Integer(64, riv, ALICE)] carries ALICE's bytes, and so does the PUBLIC variant when
    both parties pass the same iv. *)
Definition set_nonce (fixed : Integer) (iv : list N) : res Integer :=
  if (length iv =? 8)%nat then
    let variable_iv := int_of_array 64 8 (rev iv) in
    let ONE := int_of 32 1 in
    Ok (iconcat (iconcat fixed [variable_iv]) [ONE])
  else Err.

(** extension of mul_hs: /repo/protocol/aead.h:145-147 *)
Fixpoint extend_hs (fuel : nat) (h : N) (hs : list N) : list N :=
  match fuel with
  | O => hs
  | S f => extend_hs f h (hs ++ [mulBlock h (last hs 0)])
  end.
(** same code: /repo/protocol/aead.h:145-147 *)
Definition hs_upto (hs : list N) (len : nat) : list N :=
  extend_hs (len - length hs) (nth 0 hs 0) hs.
(** the OLE inputs: /repo/protocol/aead.h:149-157 *)
Definition ghash_in_alice (hs ins : list N) : list N := map2 mulBlock ins hs.
(** same code: /repo/protocol/aead.h:149-157 *)
Definition ghash_in_bob (hs : list N) (len : nat) : list N := firstn len hs.
(** /repo/protocol/aead.h:159-165 *)
Definition xor_all (l : list N) : N := fold_left N.lxor l 0.
(** obv_ghash, both parties: /repo/protocol/aead.h:144-166.  ALICE holds the non-zero
    Delta and is the OLE sender.  [mul_hs[0]] of an empty vector is undefined. *)
Definition obv_ghash (a b : party) (ins : list N) (r : ole_rand) : res (party * party * N * N) :=
  match p_mul_hs a, p_mul_hs b with
  | _ :: _, _ :: _ =>
      let len := length ins in
      let ha := hs_upto (p_mul_hs a) len in
      let hb := hs_upto (p_mul_hs b) len in
      let (oa, ob) := ole_run gfmul_reflect (raw0 r) (raw1 r)
                        (ghash_in_alice ha ins) (ghash_in_bob hb len) in
      Ok ({| p_gc_h := p_gc_h a; p_mul_hs := ha; p_gc_z0 := p_gc_z0 a; p_gc_z := p_gc_z a;
             p_open_z := p_open_z a |},
          {| p_gc_h := p_gc_h b; p_mul_hs := hb; p_gc_z0 := p_gc_z0 b; p_gc_z := p_gc_z b;
             p_open_z := p_open_z b |}, xor_all oa, xor_all ob)
  | _, _ => UB
  end.

(** Constructor: /repo/protocol/aead.h:47-85.  [mh] are ALICE's label bits of H, [r] its
    random block, [ro] the OLE randomness. *)
Definition aead_new (key iv : Integer) (mh : list bool) (r : N) (ro : ole_rand) : res aead :=
  (let* ek := computeKS aes_ks key in
   let* H := computeH ek in
   let* ha := integer_to_block mh in
   let* hb := integer_to_block (bxor mh H) in
   match ole_run gfmul_reflect (raw0 ro) (raw1 ro) [r] [hb] with
   | ([oa], [ob]) =>
       let rh := N.lxor oa (mulBlock r ha) in          (* sent to BOB *)
       let mulb := N.lxor ob rh in
       Ok {| st_gc := {| g_key := ek; g_nonce := []; g_fixed := iv |};
             st_a := {| p_gc_h := ha; p_mul_hs := [invBlock r]; p_gc_z0 := []; p_gc_z := []; p_open_z := [] |};
             st_b := {| p_gc_h := hb; p_mul_hs := [mulb]; p_gc_z0 := []; p_gc_z := []; p_open_z := [] |};
             st_zk := {| k_h := bits_of_N 128 ha; k_z0 := []; k_z := [] |} |}
   | _ => UB
   end)%res.

(** The keystream part common to encrypt and decrypt:
    /repo/protocol/aead.h:181-202, 321-346: returns (Z0, Z, nonce) *)
Definition key_material (g : gcst) (iv : list N) (len : N) : res (Integer * Integer * Integer) :=
  let u := N.to_nat (pad_bits len) in
  let ctr_len := N.to_nat ((len * 8 + 128 - 1) / 128) in
  (let* n0 := set_nonce (g_fixed g) iv in
   let* (Z, n1) := gctr (1 + ctr_len) (g_key g) [] n0 in
   let Zz := skipn (length Z - 128) Z in
   let Z := firstn (length Z - 128) Z in
   Ok (Zz, skipn u Z, n1))%res.

(** XOR of two byte arrays
    (/repo/protocol/aead.h:220-221, 242-243, 251-252) *)
Definition xor_arr (a b : list N) : list N := map2 N.lxor a b.

(** gc_z0.push_back, zk_z0.push_back: /repo/protocol/aead.h:192-199, 336-343 *)
Definition push_z0 (p : party) (z0 : N) : party :=
  {| p_gc_h := p_gc_h p; p_mul_hs := p_mul_hs p; p_gc_z0 := p_gc_z0 p ++ [z0];
     p_gc_z := p_gc_z p; p_open_z := p_open_z p |}.
(** /repo/protocol/aead.h:210-217, 355-363 *)
Definition push_open (p : party) (z : list N) : party :=
  {| p_gc_h := p_gc_h p; p_mul_hs := p_mul_hs p; p_gc_z0 := p_gc_z0 p;
     p_gc_z := p_gc_z p; p_open_z := p_open_z p ++ [z] |}.
(** /repo/protocol/aead.h:226-238 *)
Definition push_gc_z (p : party) (z : list N) : party :=
  {| p_gc_h := p_gc_h p; p_mul_hs := p_mul_hs p; p_gc_z0 := p_gc_z0 p;
     p_gc_z := p_gc_z p ++ [z]; p_open_z := p_open_z p |}.

(** per-call randomness: ALICE's label bits of Z0 and Z, and the OLE strings
    (for /repo/protocol/aead.h:190, 224, 284) *)
Record call_rand := { m_z0 : list bool; m_z : list bool; m_ole : ole_rand }.

(** encrypt, both parties: /repo/protocol/aead.h:169-306.  [msga], [msgb] are the two
    parties' [msg] arguments, [iv] ALICE's iv.  With sec_type = false both derive the
    ciphertext from their own [msg]; runs in which these differ are not modelled further
    ([Err]).  Result: state and each party's
    (ctxt, tag). *)
Definition encrypt (s : aead) (msga msgb aad iv : list N) (sec : bool) (r : call_rand)
  : res (aead * (list N * list N) * (list N * list N)) :=
  let msg_len := N.of_nat (length msga) in
  (let* (Zz, Z, n1) := key_material (st_gc s) iv msg_len in
   let* z0a := integer_to_block (m_z0 r) in
   let* z0b := integer_to_block (bxor (m_z0 r) Zz) in
   let a := push_z0 (st_a s) z0a in
   let b := push_z0 (st_b s) z0b in
   let zk := {| k_h := k_h (st_zk s); k_z0 := k_z0 (st_zk s) ++ [bits_of_N 128 z0a]; k_z := k_z (st_zk s) |} in
   let* (a, b, zk, ca, cb) :=
     (if negb sec then
        let z := reveal_as 8 Z in
        let zr := rev z in
        Ok (push_open a z, push_open b z, zk, xor_arr msga zr, xor_arr msgb zr)
      else
        let* za := integer_to_chars (m_z r) in
        let* zb := integer_to_chars (bxor (m_z r) Z) in
        let sent := xor_arr msga za in                 (* ALICE to BOB *)
        let ctxt := xor_arr sent zb in                 (* BOB to ALICE *)
        Ok (push_gc_z a (rev za), push_gc_z b (rev zb),
            {| k_h := k_h zk; k_z0 := k_z0 zk; k_z := k_z zk ++ [flat_map (bits_of_N 8) (rev za)] |},
            ctxt, ctxt)) in
   let* (a, b, outa, outb) :=
     (if list_eq_dec N.eq_dec ca cb then obv_ghash a b (tag_blocks aad ca) (m_ole r) else Err) in
   let outa := N.lxor outa z0a in
   let outb := N.lxor outb z0b in
   let ta := N.lxor outa outb in                       (* each receives the other's out *)
   let tb := N.lxor outb outa in
   Ok ({| st_gc := {| g_key := g_key (st_gc s); g_nonce := n1; g_fixed := g_fixed (st_gc s) |};
          st_a := a; st_b := b; st_zk := zk |},
       (ca, rev (bytes_of_block ta)), (cb, rev (bytes_of_block tb))))%res.

(** ** Commitment exchange at the end of decrypt *)
(** emp's Hash (SHA-256 of everything put): a parameter *)
Variable hash : list N -> list N.

(** Commitment::commit / open: /repo/backend/commitment.h:17-25, 26-39 *)
Definition com_commit (data rnd : list N) : list N := hash (data ++ rnd).
(** same code: /repo/backend/commitment.h:17-25, 26-39 *)
Definition com_open (com rnd data : list N) : bool := bytes_eqb com (hash (data ++ rnd)).

(** ALICE's first message, third message, and verdict, as functions of what ALICE receives:
    /repo/protocol/aead.h:427-446, 486-491; BOB's side 447-482 is the same code with the
    roles of the channels exchanged *)
Definition dec_msg1 (out : N) (rnd : list N) : list N := com_commit (bytes_of_block out) rnd.
(** /repo/protocol/aead.h:442-449, 466-475 *)
Definition dec_msg2 (out : N) (rnd : list N) : N * list N := (out, rnd).
(** /repo/protocol/aead.h:451-454, 480-491 *)
Definition dec_verdict (tag : list N) (out : N) (com_recv : list N) (open_recv : N * list N) : bool :=
  if com_open com_recv (snd open_recv) (bytes_of_block (fst open_recv))
  then bytes_eqb tag (rev (bytes_of_block (N.lxor out (fst open_recv))))
  else false.

(** decrypt up to the commitment exchange: /repo/protocol/aead.h:309-425: state, ALICE's
    and BOB's msg buffers ([None]: never written), and their tag shares [out] *)
Definition decrypt_shares (s : aead) (ctxt aad iv : list N) (sec : bool) (r : call_rand)
  : res (aead * list N * option (list N) * N * N) :=
  let ctxt_len := N.of_nat (length ctxt) in
  (let* (Zz, Z, n1) := key_material (st_gc s) iv ctxt_len in
   let* z0a := integer_to_block (m_z0 r) in
   let* z0b := integer_to_block (bxor (m_z0 r) Zz) in
   let a := push_z0 (st_a s) z0a in
   let b := push_z0 (st_b s) z0b in
   let zk := {| k_h := k_h (st_zk s); k_z0 := k_z0 (st_zk s) ++ [bits_of_N 128 z0a]; k_z := k_z (st_zk s) |} in
   let* (a, b, zk, ma, mb) :=
     (if negb sec then
        let z := reveal_as 8 Z in
        let zr := rev z in
        Ok (push_open a z, push_open b z, zk, xor_arr ctxt zr, Some (xor_arr ctxt zr))
      else
        let* za := integer_to_chars (m_z r) in
        let* zb := integer_to_chars (bxor (m_z r) Z) in
        Ok (push_gc_z a (rev za), push_gc_z b (rev zb),
            {| k_h := k_h zk; k_z0 := k_z0 zk; k_z := k_z zk ++ [flat_map (bits_of_N 8) (rev za)] |},
            xor_arr (xor_arr zb za) ctxt, None)) in
   let* (a, b, outa, outb) := obv_ghash a b (tag_blocks aad ctxt) (m_ole r) in
   Ok ({| st_gc := {| g_key := g_key (st_gc s); g_nonce := n1; g_fixed := g_fixed (st_gc s) |};
          st_a := a; st_b := b; st_zk := zk |},
       ma, mb, N.lxor outa z0a, N.lxor outb z0b))%res.

(** decrypt, both parties honest: /repo/protocol/aead.h:309-492; [rnda], [rndb] are the
    commitment randomness.  Result: state, (ALICE's msg, verdict), (BOB's msg, verdict). *)
Definition decrypt (s : aead) (ctxt tag aad iv : list N) (sec : bool) (r : call_rand) (rnda rndb : list N)
  : res (aead * (list N * bool) * (option (list N) * bool)) :=
  (let* (s', ma, mb, outa, outb) := decrypt_shares s ctxt aad iv sec r in
   let coma := dec_msg1 outa rnda in
   let comb := dec_msg1 outb rndb in
   Ok (s', (ma, dec_verdict tag outa comb (dec_msg2 outb rndb)),
           (mb, dec_verdict tag outb coma (dec_msg2 outa rnda))))%res.

(** * Sequences of calls on one object, made by both parties in the same order, as in
    /repo/test/aead.cpp *)
Inductive aop :=
| OpEnc (msga msgb aad iv : list N) (sec : bool) (r : call_rand)
| OpDec (ctxt tag aad iv : list N) (sec : bool) (r : call_rand) (rnda rndb : list N).
(** any sequence of calls to encrypt and decrypt of one object: /repo/protocol/aead.h:169-306, 309-492 *)
Inductive aout :=
| OutEnc (a b : list N * list N)
| OutDec (a : list N * bool) (b : option (list N) * bool).
(** any sequence of calls to encrypt and decrypt of one object: /repo/protocol/aead.h:169-306, 309-492 *)
Definition aop_run (s : aead) (o : aop) : res (aead * aout) :=
  match o with
  | OpEnc ma mb aad iv sec r =>
      (let* (s', a, b) := encrypt s ma mb aad iv sec r in Ok (s', OutEnc a b))%res
  | OpDec c t aad iv sec r ra rb =>
      (let* (s', a, b) := decrypt s c t aad iv sec r ra rb in Ok (s', OutDec a b))%res
  end.
(** any sequence of calls to encrypt and decrypt of one object: /repo/protocol/aead.h:169-306, 309-492 *)
Fixpoint aops_run (s : aead) (os : list aop) : res (aead * list aout) :=
  match os with
  | [] => Ok (s, [])
  | o :: t => (let* (s', x) := aop_run s o in let* (s'', xs) := aops_run s' t in Ok (s'', x :: xs))%res
  end.
End AEAD.
