(** Model of the OpenSSL elliptic-curve functions the code calls (external library: a
    commutative group with affine coordinates) and of the Diffie-Hellman steps in
    /repo/protocol/handshake.h and /repo/protocol/post_record.h. *)
From Coq Require Import List NArith ZArith Bool Arith.
From Verif Require Import L_Bits L_Res L_Group S_Ec M_Bn.
Import ListNotations.
Local Open Scope Z_scope.

(** EC_GROUP of a curve over the field of cp elements with a 32-byte field encoding, as
    NID_X9_62_prime256v1 (/repo/test/handshake.cpp:15); the laws are what is assumed of
    OpenSSL's point arithmetic.  Doubling is not constrained. *)
Record Curve : Type := MkCurve {
  cgrp :> Grp;
  cp : Z;
  coords : pt cgrp -> option (Z * Z);
  of_coords : Z -> Z -> option (pt cgrp);
  coords_pz : forall P, coords P = None <-> P = pz;
  of_coords_ok : forall x y P, of_coords x y = Some P <-> coords P = Some (x, y);
  coords_range : forall P x y, coords P = Some (x, y) -> 0 <= x < cp /\ 0 <= y < cp;
  coords_chord : forall P Q x1 y1 x2 y2, coords P = Some (x1, y1) -> coords Q = Some (x2, y2) -> x1 <> x2 ->
    exists x3 y3, coords (padd P Q) = Some (x3, y3) /\ chord_sum cp x1 y1 x2 y2 x3 y3;
  cp_size : cp < 2 ^ 256;
}.
Arguments coords {_}.
Arguments of_coords {_}.

Section EC.
Context {C : Curve}.
Notation point := (pt (cgrp C)).

(** EC_POINT_mul(group, r, n, q, m, ctx): n*G + m*q, absent (NULL) parts left out; OpenSSL,
    used in /repo/protocol/handshake.h:111, 120, 131, 141 and com_conv.h:33, 39, 53 *)
Definition EC_POINT_mul (n : option Z) (qm : option (point * Z)) : point :=
  padd (match n with Some k => smul k gen | None => pz end)
       (match qm with Some (P, k) => smul k P | None => pz end).
(** EC_POINT_cmp: 0 when equal, 1 when different
    (used in /repo/protocol/com_conv.h:36-43 and /repo/protocol/post_record.h:52-72) *)
Definition EC_POINT_cmp (P Q : point) : Z := if peqb P Q then 0 else 1.
(** EC_POINT_new: the point at infinity
    (used in /repo/protocol/handshake.h:109, 129, /repo/protocol/com_conv.h:348, 386) *)
Definition EC_POINT_new : point := pz.
(** EC_POINT_point2oct with POINT_CONVERSION_UNCOMPRESSED: one zero byte for infinity,
    otherwise 04 and the two coordinates
    (used in /repo/protocol/handshake.h:117, /repo/protocol/com_conv.h:511, 517) *)
Definition point2oct (P : point) : list N :=
  match coords P with
  | None => [0%N]
  | Some (x, y) => 4%N :: be_bytes 32 (Z.to_N x) ++ be_bytes 32 (Z.to_N y)
  end.
(** EC_POINT_oct2point on a 65-byte buffer: the uncompressed form, or the hybrid form with
    matching parity, of a point on the curve; None is the return value 0
    (used in /repo/protocol/handshake.h:138, /repo/protocol/com_conv.h:345, 352) *)
Definition oct2point (buf : list N) : option point :=
  match buf with
  | f :: l =>
      if negb (length l =? 64)%nat then None
      else
        let x := BN_bin2bn (firstn 32 l) in
        let y := BN_bin2bn (skipn 32 l) in
        if (f =? 4)%N || (f =? (if Z.odd y then 7 else 6))%N then of_coords x y else None
  | [] => None
  end.
(** EC_POINT_get_affine_coordinates: fails on infinity and then leaves the BIGNUMs (fresh
    zeros at the call sites) as they are
    (used in /repo/protocol/handshake.h:179) *)
Definition affine (P : point) : Z * Z := match coords P with Some c => c | None => (0, 0) end.

(** io->recv_data(buf, 65): blocks when fewer bytes arrive, modelled as [Err]
    (/repo/protocol/handshake.h:136, 160) *)
Definition recv65 (stream : list N) : res (list N * list N) :=
  if (length stream <? 65)%nat then Err else Ok (firstn 65 stream, skipn 65 stream).

(** compute_primus_VA: /repo/protocol/handshake.h:102-123; [t] is the value drawn by
    BN_rand_range; bytes sent, Va, and the stored scalar *)
Definition compute_primus_VA (t : Z) (Ts : point) : list N * point * Z :=
  let Ta := EC_POINT_mul (Some t) None in
  let Va := EC_POINT_mul None (Some (Ts, t)) in
  (point2oct Ta, Va, t).

(** compute_client_VB: /repo/protocol/handshake.h:127-145 (and 147-169, the same code with a
    caller-supplied scalar and a local Ta); result: Tc, Vb, the stored Ta_client, the rest *)
Definition compute_client_VB (t : Z) (Ts : point) (stream : list N) : res (point * point * point * list N) :=
  let Tb := EC_POINT_mul (Some t) None in
  (let* (buf, rest) := recv65 stream in
   match oct2point buf with
   | None => Err
   | Some Ta =>
       let Vb := EC_POINT_mul None (Some (Ts, t)) in
       let Tc := padd Ta Tb in
       Ok (Tc, Vb, Ta, rest)
   end)%res.

(** coordinates handed to e2f->compute_online: /repo/protocol/handshake.h:173-180 *)
Definition pms_input (V : point) : Z * Z := affine V.

(** reveal_pms, BOB: /repo/protocol/post_record.h:53-54 *)
Definition reveal_pms_bob (ta_primus : Z) : res (list N) := send_bn ta_primus.
(** reveal_pms, ALICE: /repo/protocol/post_record.h:55-71 *)
Definition reveal_pms_alice (Ta_client : point) (tb_client : Z) (Ts : point) (stream : list N)
  : res (Z * list N) :=
  (let* (t, rest) := recv_bn stream in
   let T := EC_POINT_mul (Some t) None in
   if negb (EC_POINT_cmp T Ta_client =? 0) then Err
   else
     let t := BN_mod_add t tb_client (order (cgrp C)) in
     let T := EC_POINT_mul None (Some (Ts, t)) in
     Ok (fst (affine T), rest))%res.

(** the exchange with both parties honest; [ta], [tb] are the scalars drawn.  Result: Tc, Va,
    Vb, Ta_client
    (/repo/protocol/handshake.h:102-145) *)
Definition dh_exchange (ta tb : Z) (Ts : point) : res (point * point * point * point) :=
  let '(bytes, Va, _) := compute_primus_VA ta Ts in
  (let* (Tc, Vb, Ta, _) := compute_client_VB tb Ts bytes in Ok (Tc, Va, Vb, Ta))%res.
(** and the later opening
    (/repo/protocol/post_record.h:52-72) *)
Definition dh_reveal (ta tb : Z) (Ts Ta_client : point) : res Z :=
  (let* bytes := reveal_pms_bob ta in
   let* (pms, _) := reveal_pms_alice Ta_client tb Ts bytes in Ok pms)%res.
End EC.
