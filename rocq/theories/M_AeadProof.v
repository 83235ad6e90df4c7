(** Model of class AEAD_Proof, /repo/protocol/aead_izk.h:48-216, and of
    PostRecord::finalize_check, /repo/protocol/post_record.h:151-201.
    Values computed inside izk are their cleartext bits; where the IT-MACs matter they
    become wires under verifier keys passed as arguments ([k*]: arbitrary).  The queues
    of the AEAD object are those of M_Aead; its izk members are wires here. *)
From Coq Require Import List NArith Bool Arith.
From Verif Require Import L_Bits L_Res M_EmpInteger M_Utils M_Bristol M_Block M_Shares M_Aead M_ItMac.
Import ListNotations.
Local Open Scope N_scope.

(** the members of AEAD read by the proof: /repo/protocol/aead.h:22-42 *)
Record zaead := { za_h : zint; za_z0 : list zint; za_z : list zint; za_a : party; za_b : party }.
(** AEAD_Proof members: /repo/protocol/aead_izk.h:51-56 *)
Record proof := { pf_key : Integer; pf_nonce : Integer; pf_H : Integer; pf_fixed : Integer }.

(** pop_front on the deques: /repo/protocol/aead_izk.h:146-147, 153-155, 161-162, 169-172 *)
Definition pop_z0 (p : party) : party :=
  {| p_gc_h := p_gc_h p; p_mul_hs := p_mul_hs p; p_gc_z0 := tl (p_gc_z0 p); p_gc_z := p_gc_z p; p_open_z := p_open_z p |}.
(** same code: /repo/protocol/aead_izk.h:146-147, 153-155, 161-162, 169-172 *)
Definition pop_open (p : party) : party :=
  {| p_gc_h := p_gc_h p; p_mul_hs := p_mul_hs p; p_gc_z0 := p_gc_z0 p; p_gc_z := p_gc_z p; p_open_z := tl (p_open_z p) |}.
(** same code: /repo/protocol/aead_izk.h:146-147, 153-155, 161-162, 169-172 *)
Definition pop_gc_z (p : party) : party :=
  {| p_gc_h := p_gc_h p; p_mul_hs := p_mul_hs p; p_gc_z0 := p_gc_z0 p; p_gc_z := tl (p_gc_z p); p_open_z := p_open_z p |}.

Section Proof.
Variable aes_ks aes_enc : bristol.
Variable Delta : N.
Variable pub : bool -> N.

(** the izk members after the garbled phase: ALICE's values under BOB's keys, as fed in
    /repo/protocol/aead.h:80-84, 195-199, 234-238 *)
Definition zk_enter (kh : list N) (kz0 kz : list (list N)) (s : aead) : zaead :=
  {| za_h := zauth Delta kh (k_h (st_zk s));
     za_z0 := map2 (zauth Delta) kz0 (k_z0 (st_zk s));
     za_z := map2 (zauth Delta) kz (k_z (st_zk s));
     za_a := st_a s; za_b := st_b s |}.

(** computeH: /repo/protocol/aead_izk.h:72-75 *)
Definition pf_computeH (key : Integer) : res Integer := computeAES_KS aes_enc key (int_of 128 0).
(** inc: /repo/protocol/aead_izk.h:77-88 *)
Definition pf_inc (counter : Integer) (s : nat) : res Integer :=
  if (length counter <? s)%nat then Err
  else
    let msb := skipn s counter in
    let lsb := firstn s counter in
    let lsb := iadd lsb (int_of s 1) in
    Ok (iconcat msb [lsb]).
(** gctr: /repo/protocol/aead_izk.h:90-99 *)
Fixpoint pf_gctr (m : nat) (key r nonce : Integer) : res (Integer * Integer) :=
  match m with
  | O => Ok (r, nonce)
  | S k =>
      (let* tmp := computeAES_KS aes_enc key nonce in
       let* n' := pf_inc nonce 32 in
       pf_gctr k key (iconcat r [tmp]) n')%res
  end.
(** set_nonce: /repo/protocol/aead_izk.h:101-118 *)
Definition pf_set_nonce (fixed : Integer) (iv : list N) : res Integer :=
  if (length iv =? 8)%nat then
    let variable_iv := int_of_array 64 8 (rev iv) in
    let ONE := int_of 32 1 in
    Ok (iconcat (iconcat fixed [variable_iv]) [ONE])
  else Err.

(** constructor: /repo/protocol/aead_izk.h:58-69; [kH]: BOB's keys of H *)
Definition proof_new (t : czst) (za : zaead) (key iv : Integer) (kH : list N) : res (proof * czst * zaead) :=
  (let* ek := computeKS aes_ks key in
   let* H := pf_computeH ek in
   let* (t, h') := hom_add_block Delta t (zauth Delta kH H) (za_h za) (p_gc_h (za_b za)) in
   Ok ({| pf_key := ek; pf_nonce := []; pf_H := H; pf_fixed := iv |}, t,
       {| za_h := h'; za_z0 := za_z0 za; za_z := za_z za; za_a := za_a za; za_b := za_b za |}))%res.

(** the key stream common to prove_aead and prove_aead_last:
    /repo/protocol/aead_izk.h:128-143, 193-208: (Z0, Z, nonce) *)
Definition pf_material (p : proof) (iv : list N) (ctxt_len : N) : res (Integer * Integer * Integer) :=
  let u := N.to_nat (pad_bits ctxt_len) in
  let ctr_len := N.to_nat ((ctxt_len * 8 + 128 - 1) / 128) in
  (let* n0 := pf_set_nonce (pf_fixed p) iv in
   let* (Z, n1) := pf_gctr (1 + ctr_len) (pf_key p) [] n0 in
   let Zz := skipn (length Z - 128) Z in
   let Z := firstn (length Z - 128) Z in
   Ok (Zz, skipn u Z, n1))%res.
(** record update for the assignment in /repo/protocol/aead_izk.h:115-117 *)
Definition with_nonce (p : proof) (n : Integer) : proof :=
  {| pf_key := pf_key p; pf_nonce := n; pf_H := pf_H p; pf_fixed := pf_fixed p |}.
(** Z ^ Integer(ctxt_len*8, reversed ctxt, PUBLIC): /repo/protocol/aead_izk.h:178-182, 210-214 *)
Definition unmask (Z : Integer) (ctxt : list N) : Integer :=
  ixor Z (int_of_array (length ctxt * 8) 8 (rev ctxt)).

(** the check of Z0 against the front of the queues: /repo/protocol/aead_izk.h:145-151,
    161-166; the assert on empty queues is an error *)
Definition check_z0 (t : czst) (za : zaead) (Z0 : Integer) (kz0 : list N) : res (czst * zaead) :=
  match za_z0 za, p_gc_z0 (za_a za), p_gc_z0 (za_b za) with
  | w :: ws, _ :: _, s :: _ =>
      (let* (t, _) := hom_add_block Delta t (zauth Delta kz0 Z0) w s in
       Ok (t, {| za_h := za_h za; za_z0 := ws; za_z := za_z za; za_a := pop_z0 (za_a za); za_b := pop_z0 (za_b za) |}))%res
  | _, _, _ => Err
  end.
(** the checks of Z: /repo/protocol/aead_izk.h:153-159 and 168-176 *)
Definition check_open (t : czst) (za : zaead) (Z : Integer) (kz : list N) : res (czst * zaead) :=
  match p_open_z (za_a za), p_open_z (za_b za) with
  | oa :: _, ob :: _ =>
      if (length oa =? length ob)%nat then
        (let* t := check_zero_data Delta pub t (zauth Delta kz Z) 1 oa ob (length oa) in
         Ok (t, {| za_h := za_h za; za_z0 := za_z0 za; za_z := za_z za; za_a := pop_open (za_a za); za_b := pop_open (za_b za) |}))%res
      else Err   (* the two size checks cannot both succeed *)
  | _, _ => Err
  end.
(** same code: /repo/protocol/aead_izk.h:153-159 *)
Definition check_z (t : czst) (za : zaead) (Z : Integer) (kz : list N) : res (czst * zaead) :=
  match za_z za, p_gc_z (za_a za), p_gc_z (za_b za) with
  | w :: ws, ga :: _, gb :: _ =>
      (let* (t, _) := hom_add_bytes Delta t (zauth Delta kz Z) w (length ga) gb (length gb) in
       Ok (t, {| za_h := za_h za; za_z0 := za_z0 za; za_z := ws; za_a := pop_gc_z (za_a za); za_b := pop_gc_z (za_b za) |}))%res
  | _, _, _ => Err
  end.

(** prove_aead: /repo/protocol/aead_izk.h:120-184; [kz0], [kz]: BOB's keys of Z0 and Z.
    Result: the object, transcripts, AEAD members, tag_z0 and (sec_type) msg *)
Definition prove_aead (p : proof) (t : czst) (za : zaead) (ctxt iv : list N) (sec : bool) (kz0 kz : list N)
  : res (proof * czst * zaead * Integer * option Integer) :=
  (let* (Zz, Z, n1) := pf_material p iv (N.of_nat (length ctxt)) in
   let* (t, za) := check_z0 t za Zz kz0 in
   if negb sec then
     let* (t, za) := check_open t za Z kz in
     Ok (with_nonce p n1, t, za, Zz, None)
   else
     let* (t, za) := check_z t za Z kz in
     Ok (with_nonce p n1, t, za, Zz, Some (unmask Z ctxt)))%res.
(** prove_aead_last: /repo/protocol/aead_izk.h:186-215; no checks *)
Definition prove_aead_last (p : proof) (ctxt iv : list N) : res (proof * Integer * Integer) :=
  (let* (Zz, Z, n1) := pf_material p iv (N.of_nat (length ctxt)) in
   Ok (with_nonce p n1, Zz, unmask Z ctxt))%res.

(** a sequence of prove_aead calls on one object
    (/repo/protocol/aead_izk.h:120-184, called from /repo/protocol/post_record.h:122-149) *)
Record pcall := { pc_iv : list N; pc_ctxt : list N; pc_sec : bool; pc_kz0 : list N; pc_kz : list N }.
(** /repo/protocol/aead_izk.h:120-184, called from /repo/protocol/post_record.h:122-149 *)
Fixpoint proves (p : proof) (t : czst) (za : zaead) (cs : list pcall)
  : res (czst * zaead * list (Integer * option Integer)) :=
  match cs with
  | [] => Ok (t, za, [])
  | c :: cs =>
      (let* (p, t, za, z0, m) := prove_aead p t za (pc_ctxt c) (pc_iv c) (pc_sec c) (pc_kz0 c) (pc_kz c) in
       let* (t, za, os) := proves p t za cs in
       Ok (t, za, (z0, m) :: os))%res
  end.
End Proof.

(** finalize_check: /repo/protocol/post_record.h:155-201.  A record is (ctxt, tag, aad);
    the length vectors are the lengths of these; enc_num / dec_num are the numbers of
    records, so an index outside the z0 vectors or the revealed blocks is undefined. *)
Record frec := { fr_ctxt : list N; fr_tag : list N; fr_aad : list N }.
(** indexing in /repo/protocol/post_record.h:155-201 *)
Definition read_blk (l : list N) (i : nat) : res N := read (nth_error l i).
(** same code: /repo/protocol/post_record.h:155-201 *)
Fixpoint finalize_loop (blks : list N) (h : N) (off : nat) (rs : list frec) (acc : bool) : res bool :=
  match rs with
  | [] => Ok acc
  | r :: rs =>
      (let* z0 := read_blk blks off in
       finalize_loop blks h (S off) rs (acc && compare_tag (fr_tag r) h z0 (fr_ctxt r) (fr_aad r)))%res
  end.
(** same code: /repo/protocol/post_record.h:155-201 *)
Definition finalize_check (Hc Hs cz0 sz0 : Integer) (finc fins : frec)
  (enc_z0s : list Integer) (encs : list frec) (dec_z0s : list Integer) (decs : list frec) : res bool :=
  if (length enc_z0s <? length encs)%nat || (length dec_z0s <? length decs)%nat then UB
  else
    let h := reverse_concat [] [Hc] in
    let h := reverse_concat h [Hs] in
    let h := reverse_concat h [cz0] in
    let h := reverse_concat h [sz0] in
    let h := reverse_concat h (firstn (length encs) enc_z0s) in
    let h := reverse_concat h (firstn (length decs) dec_z0s) in
    let blks_h := reveal_as 128 h in
    (let* b0 := read_blk blks_h 0 in
     let* b1 := read_blk blks_h 1 in
     let* b2 := read_blk blks_h 2 in
     let* b3 := read_blk blks_h 3 in
     let res := compare_tag (fr_tag finc) b0 b2 (fr_ctxt finc) (fr_aad finc) in
     let res := res && compare_tag (fr_tag fins) b1 b3 (fr_ctxt fins) (fr_aad fins) in
     let* res := finalize_loop blks_h b0 4 encs res in
     finalize_loop blks_h b1 (4 + length encs) decs res)%res.
