(** The AES prover of the proxy mode: /repo/protocol/prove_aes.h.  Values only: the
    zero-knowledge wires carry these values and [reveal] opens them authentically (the MAC
    check behind it is emp-zk's). *)
From Coq Require Import List NArith Bool Arith.
From Verif Require Import L_Bits L_Res M_EmpInteger M_Utils M_Bristol M_Block M_Aead M_AeadProof.
Import ListNotations.
Local Open Scope N_scope.

(** members: /repo/protocol/prove_aes.h:61-64 *)
Record aesprover := { ap_key : Integer; ap_fixed : Integer; ap_nonce : Integer }.
(** record update for the assignments in /repo/protocol/prove_aes.h:77-141 *)
Definition ap_with (p : aesprover) (n : Integer) : aesprover :=
  {| ap_key := ap_key p; ap_fixed := ap_fixed p; ap_nonce := n |}.

(** AESCounterInfo: /repo/protocol/prove_aes.h:51-54; [ci_id] is a size_t, [ci_mask] the 16
    mask bytes *)
Record ctrinfo := { ci_id : N; ci_mask : list N }.

Section Prover.
Variable aes_ks aes_enc : bristol.

(** constructor: /repo/protocol/prove_aes.h:68-74; the asserts are errors *)
Definition ap_new (key iv : Integer) : res aesprover :=
  if negb (length key =? 128)%nat then Err
  else (let* ek := computeKS aes_ks key in
        if negb (length iv =? 32)%nat then Err
        else Ok {| ap_key := ek; ap_fixed := iv; ap_nonce := [] |})%res.

(** inc: /repo/protocol/prove_aes.h:77-88, the same text as AEAD_Proof::inc *)
Definition ap_inc (counter : Integer) (s : nat) : res Integer :=
  if (length counter <? s)%nat then Err
  else
    let msb := skipn s counter in
    let lsb := firstn s counter in
    let lsb := iadd lsb (int_of s 1) in
    Ok (iconcat msb [lsb]).

(** the loop of gctr: /repo/protocol/prove_aes.h:94-100, the vector [tmp] and the nonce *)
Fixpoint ap_gctr_loop (m : nat) (key nonce : Integer) (tmp : list Integer) : res (list Integer * Integer) :=
  match m with
  | O => Ok (tmp, nonce)
  | S k =>
      (let* t := computeAES_KS aes_enc key nonce in
       let* n' := ap_inc nonce 32 in
       ap_gctr_loop k key n' (tmp ++ [t]))%res
  end.
(** gctr: /repo/protocol/prove_aes.h:90-102 *)
Definition ap_gctr (m : nat) (key r nonce : Integer) : res (Integer * Integer) :=
  (let* (tmp, n) := ap_gctr_loop m key nonce [] in Ok (concat_opt r tmp, n))%res.

(** the loop of gctr_opt: /repo/protocol/prove_aes.h:107-120.  [ids] is what is left from
    [index] on, [i] a size_t that wraps around, as does [ids[index] + 1].  The loop has no
    bound of its own: [None] means still running after [fuel] iterations. *)
Fixpoint gctr_opt_loop (fuel : nat) (key : Integer) (i : N) (ids : list N) (nonce : Integer) (r : list Integer)
  : option (res (list Integer * Integer)) :=
  match fuel with
  | O => None
  | S f =>
      match ids with
      | [] => Some UB
      | id :: rest =>
          let next ids r :=
            match ap_inc nonce 32 with
            | Ok n' => gctr_opt_loop f key ((i + 1) mod 2 ^ 64) ids n' r
            | Err => Some Err
            | UB => Some UB
            end in
          if i =? (id + 1) mod 2 ^ 64 then
            match computeAES_KS aes_enc key nonce with
            | Ok t => match rest with [] => Some (Ok (r ++ [t], nonce)) | _ => next rest (r ++ [t]) end
            | Err => Some Err
            | UB => Some UB
            end
          else next ids r
      end
  end.
(** gctr_opt: /repo/protocol/prove_aes.h:104-121 *)
Definition gctr_opt (fuel : nat) (key : Integer) (ids : list N) (nonce : Integer) : option (res (list Integer * Integer)) :=
  match ids with
  | [] => Some (Ok ([], nonce))
  | _ => gctr_opt_loop fuel key 0 ids nonce []
  end.

(** set_nonce: /repo/protocol/prove_aes.h:126-141 *)
Definition ap_set_nonce (fixed : Integer) (iv : list N) : res Integer :=
  if (length iv =? 8)%nat then
    let variable_iv := int_of_array 64 8 (rev iv) in
    let ONE := int_of 32 1 in
    Ok (iconcat (iconcat fixed [variable_iv]) [ONE])
  else Err.

(** computeCounter: /repo/protocol/prove_aes.h:143-155 *)
Definition computeCounter (p : aesprover) (iv : list N) (msg_len : N) : res (Integer * aesprover) :=
  let u := N.to_nat (pad_bits msg_len) in
  let ctr_len := N.to_nat ((msg_len * 8 + 128 - 1) / 128) in
  (let* n0 := ap_set_nonce (ap_fixed p) iv in
   let* (Z, n1) := ap_gctr (1 + ctr_len) (ap_key p) [] n0 in
   let Z := firstn (length Z - 128) Z in
   Ok (skipn u Z, ap_with p n1))%res.

(** the bits [end - j*8, end - begin*8) of one counter block:
    /repo/protocol/prove_aes.h:187-188, 196-197 *)
Definition run_bits (one : Integer) (begin_ j : nat) : Integer :=
  firstn (8 * (j - begin_)) (skipn (length one - 8 * j) one).
(** one iteration of the loop over j, and the run left open at the end:
    /repo/protocol/prove_aes.h:175-200; [begin_] is None for -1 *)
Definition run_step (one : Integer) (st : option nat * list Integer) (jm : nat * N) : option nat * list Integer :=
  let (begin_, vec) := st in
  let (j, m) := jm in
  if negb (m =? 0) then (match begin_ with None => Some j | Some b => Some b end, vec)
  else match begin_ with
       | None => (None, vec)
       | Some b => (None, vec ++ [run_bits one b j])
       end.
(** same code: /repo/protocol/prove_aes.h:175-200 *)
Definition mask_runs (one : Integer) (mask : list N) (vec : list Integer) : list Integer :=
  let (begin_, vec) := fold_left (run_step one) (combine (seq 0 16) mask) (None, vec) in
  match begin_ with None => vec | Some b => vec ++ [run_bits one b 16] end.
(** computeCounterOpt: /repo/protocol/prove_aes.h:157-206 (the clock call has no effect) *)
Definition computeCounterOpt (fuel : nat) (p : aesprover) (infos : list ctrinfo) (iv : list N)
  : option (res (Integer * aesprover)) :=
  match ap_set_nonce (ap_fixed p) iv with
  | Ok n0 =>
      match gctr_opt fuel (ap_key p) (map ci_id infos) n0 with
      | None => None
      | Some (Ok (counters, n1)) =>
          let vec := fold_left (fun vec oc => mask_runs (snd oc) (ci_mask (fst oc)) vec) (combine infos counters) [] in
          Some (Ok (concat_opt [] vec, ap_with p n1))
      | Some Err => Some Err
      | Some UB => Some UB
      end
  | Err => Some Err
  | UB => Some UB
  end.

(** reveal into a buffer of [len] bytes followed by memcmp over [len] bytes: writing more
    than the buffer holds, or comparing bytes that were not written, is undefined
    (/repo/protocol/prove_aes.h:224-230, 272-278) *)
Definition reveal_buf (c : Integer) (len : nat) : res (list N) :=
  if (length c =? 8 * len)%nat then Ok (reveal_as 8 c) else UB.
(** /repo/protocol/prove_aes.h:224-230, 272-278 *)
Definition memeq (a b : list N) : bool := if list_eq_dec N.eq_dec a b then true else false.
(** c_xor_m: /repo/protocol/prove_aes.h:218-222, 266-270 *)
Definition c_xor_m (msgs ctxts : list N) : list N := rev (map2 N.lxor msgs ctxts).

(** prove_public_msgs: /repo/protocol/prove_aes.h:211-231; msg_len is the length of both
    arrays *)
Definition prove_public_msgs (p : aesprover) (iv msgs ctxts : list N) : res (bool * aesprover) :=
  let msg_len := length msgs in
  if negb (length ctxts =? msg_len)%nat then UB
  else
  (let* (c, p) := computeCounter p iv (N.of_nat msg_len) in
   let* expected := reveal_buf c msg_len in
   Ok (memeq expected (c_xor_m msgs ctxts), p))%res.

(** prove_private_msgs: /repo/protocol/prove_aes.h:235-254; the assert is an error *)
Definition prove_private_msgs (p : aesprover) (iv : list N) (msgs : Integer) (ctxts : list N) : res (bool * aesprover) :=
  let msg_len := length ctxts in
  if negb (length msgs =? 8 * msg_len)%nat then Err
  else
  (let* (c, p) := computeCounter p iv (N.of_nat msg_len) in
   let* expected := reveal_buf (ixor c msgs) msg_len in
   Ok (memeq (rev expected) ctxts, p))%res.

(** the two selective variants: /repo/protocol/prove_aes.h:258-279, 283-303.  XOR of
    Integers indexes the right operand by the left one's length. *)
Definition opt_then {A B} (x : option (res A)) (f : A -> res B) : option (res B) :=
  match x with
  | None => None
  | Some (Ok a) => Some (f a)
  | Some Err => Some Err
  | Some UB => Some UB
  end.
(** same code: /repo/protocol/prove_aes.h:258-279, 283-303 *)
Definition prove_public_msgs_opt (fuel : nat) (p : aesprover) (infos : list ctrinfo) (iv msgs ctxts : list N)
  : option (res (bool * aesprover)) :=
  let msg_len := length msgs in
  if negb (length ctxts =? msg_len)%nat then Some UB
  else
  opt_then (computeCounterOpt fuel p infos iv) (fun cp =>
   let* expected := reveal_buf (fst cp) msg_len in
   Ok (memeq expected (c_xor_m msgs ctxts), snd cp))%res.
(** same code: /repo/protocol/prove_aes.h:258-279, 283-303 *)
Definition prove_private_msgs_opt (fuel : nat) (p : aesprover) (infos : list ctrinfo) (iv : list N) (msgs : Integer) (ctxts : list N)
  : option (res (bool * aesprover)) :=
  let msg_len := length ctxts in
  if negb (length msgs =? 8 * msg_len)%nat then Some Err
  else
  opt_then (computeCounterOpt fuel p infos iv) (fun cp =>
   if (length msgs <? length (fst cp))%nat then UB
   else
   let* expected := reveal_buf (ixor (fst cp) msgs) msg_len in
   Ok (memeq (rev expected) ctxts, snd cp))%res.
End Prover.
