(** Model of the garbled-circuit backends: /repo/backend/bn_utils.h (half gates),
    opt_hg_gen.h, opt_hg_eva.h, primus_party.h, primus_gen.h, primus_eva.h (streaming
    backend), offline_*.h and online_*.h (two-phase backend) and sync_offline_online of
    /repo/backend/backend.h.

    External code is abstract: AES under the fixed key of emp's PRP, emp's sigma, the
    hash, the PRG streams (k-th block of a stream) and the correlated OT (the sender gets
    K_k, the receiver K_k xor r_k*Delta).  A label is a 128-bit register as a number.
    Each party is a separate state transformer; what one sends is what the other reads, in
    order; reading from an empty channel blocks ([Err]), reading a message of another kind
    is reading garbage ([UB]). *)
From Coq Require Import List NArith Bool Arith.
From Verif Require Import L_Bits L_Res S_Circuit M_Block.
Import ListNotations.
Local Open Scope N_scope.

(** getLSB (emp-tool): least significant bit of the register
    (used in /repo/backend/bn_utils.h:53-54, 106-107) *)
Definition getLSB (x : N) : bool := N.testbit x 0.
(** select_mask[b] & x: select_mask is {zero_block, all_one_block} (emp-tool)
    (used in /repo/backend/bn_utils.h:43-131) *)
Definition sel (b : bool) (x : N) : N := if b then x else 0.
(** makeBlock(hi, lo) on uint64_t values (emp-tool)
    (used in /repo/backend/opt_hg_gen.h:28) *)
Definition makeBlock (hi lo : N) : N := N.lor (N.shiftl (hi mod 2 ^ 64) 64) (lo mod 2 ^ 64).
(** set_delta: /repo/backend/opt_hg_gen.h:27-29, offline_hg_gen.h:23-24, online_hg_gen.h:21-22 *)
Definition set_delta (d : N) : N := N.lor (makeBlock 0 1) d.

(** what travels over io->send_block/send_bool/send_data in /repo/backend/primus_gen.h:32-98, primus_eva.h:31-86, opt_hg_gen.h:36-50, online_primus_gen.h:23-70; typed messages instead of bytes *)
Inductive msg : Type :=
| MTable (t0 t1 : N)
| MBit (b : bool)
| MBits (l : list bool)
| MLabel (x : N)
| MHash (h : N).
(** what travels over io->send_block/send_bool/send_data in /repo/backend/primus_gen.h:32-98, primus_eva.h:31-86, opt_hg_gen.h:36-50, online_primus_gen.h:23-70; typed messages instead of bytes *)
Definition recv {A} (f : msg -> option A) (ch : list msg) : res (A * list msg) :=
  match ch with
  | [] => Err
  | m :: t => match f m with Some a => Ok (a, t) | None => UB end
  end.
(** what travels over io->send_block/send_bool/send_data in /repo/backend/primus_gen.h:32-98, primus_eva.h:31-86, opt_hg_gen.h:36-50, online_primus_gen.h:23-70; typed messages instead of bytes *)
Definition as_table (m : msg) := match m with MTable a b => Some (a, b) | _ => None end.
(** what travels over io->send_block/send_bool/send_data in /repo/backend/primus_gen.h:32-98, primus_eva.h:31-86, opt_hg_gen.h:36-50, online_primus_gen.h:23-70; typed messages instead of bytes *)
Definition as_bit (m : msg) := match m with MBit b => Some b | _ => None end.
(** what travels over io->send_block/send_bool/send_data in /repo/backend/primus_gen.h:32-98, primus_eva.h:31-86, opt_hg_gen.h:36-50, online_primus_gen.h:23-70; typed messages instead of bytes *)
Definition as_bits (m : msg) := match m with MBits l => Some l | _ => None end.
(** what travels over io->send_block/send_bool/send_data in /repo/backend/primus_gen.h:32-98, primus_eva.h:31-86, opt_hg_gen.h:36-50, online_primus_gen.h:23-70; typed messages instead of bytes *)
Definition as_label (m : msg) := match m with MLabel x => Some x | _ => None end.
(** what travels over io->send_block/send_bool/send_data in /repo/backend/primus_gen.h:32-98, primus_eva.h:31-86, opt_hg_gen.h:36-50, online_primus_gen.h:23-70; typed messages instead of bytes *)
Definition as_hash (m : msg) := match m with MHash h => Some h | _ => None end.

Section GC.
Variable sigma : N -> N.          (* emp-tool sigma *)
Variable aes : N -> N.            (* AES_ecb_encrypt_blks under prp.aes, one block *)
Variable Hash : list N -> N.      (* emp-tool Hash over blocks *)
Variable fixk : nat -> N.         (* k-th block of PRG(fix_key) *)

(** ** Half gates *)
(** the hash inside: /repo/backend/bn_utils.h:66-77, 117-126 *)
Definition hg_hash (x tweak : N) : N :=
  let key := N.lxor (sigma x) tweak in N.lxor (aes key) key.
(** garble_gate_garble_halfgates: /repo/backend/bn_utils.h:43-88; (out0, table[0], table[1]);
    out1 = out0 xor delta is not used by the callers *)
Definition garble_gate (LA0 A1 LB0 B1 delta idx : N) : N * N * N :=
  let pa := getLSB LA0 in
  let pb := getLSB LB0 in
  let tweak1 := makeBlock (2 * idx) 0 in
  let tweak2 := makeBlock (2 * idx + 1) 0 in
  let HLA0 := hg_hash LA0 tweak1 in
  let HA1 := hg_hash A1 tweak1 in
  let HLB0 := hg_hash LB0 tweak2 in
  let HB1 := hg_hash B1 tweak2 in
  let t0 := N.lxor HLA0 HA1 in
  let t0 := N.lxor t0 (sel pb delta) in
  let W0 := HLA0 in
  let W0 := N.lxor W0 (sel pa t0) in
  let tmp := N.lxor HLB0 HB1 in
  let t1 := N.lxor tmp LA0 in
  let W0 := N.lxor W0 HLB0 in
  let W0 := N.lxor W0 (sel pb tmp) in
  (W0, t0, t1).
(** garble_gate_eval_halfgates: /repo/backend/bn_utils.h:100-131 *)
Definition eval_gate (A B t0 t1 idx : N) : N :=
  let sa := getLSB A in
  let sb := getLSB B in
  let tweak1 := makeBlock (2 * idx) 0 in
  let tweak2 := makeBlock (2 * idx + 1) 0 in
  let W := N.lxor (hg_hash A tweak1) (hg_hash B tweak2) in
  let W := N.lxor W (sel sa t0) in
  let W := N.lxor W (sel sb t1) in
  N.lxor W (sel sb A).

(** isZero, isOne: /repo/backend/bn_utils.h:91-97 *)
Definition isZero (b : N) : bool := b =? 0.
(** same code: /repo/backend/bn_utils.h:91-97 *)
Definition isOne (b : N) : bool := b =? mask128.
(** public_label: /repo/backend/opt_hg_gen.h:30, opt_hg_eva.h:20 *)
Definition opt_public (b : bool) : N := if b then mask128 else 0.
(** fix_point: /repo/backend/opt_hg_gen.h:18-19, opt_hg_eva.h:16-17 *)
Definition fix_point : N := fixk 0.

(** ** Gates of the streaming backend *)
(** OptHalfGateGen::not_gate: /repo/backend/opt_hg_gen.h:70-77 *)
Definition og_not (delta a : N) : N :=
  if isZero a then mask128 else if isOne a then 0 else N.lxor a delta.
(** OptHalfGateGen::xor_gate: /repo/backend/opt_hg_gen.h:51-69 *)
Definition og_xor (delta a b : N) : N :=
  if isOne a then og_not delta b
  else if isOne b then og_not delta a
  else if isZero a then b
  else if isZero b then a
  else
    let r := N.lxor a b in
    if isZero r then fix_point
    else if r =? delta then N.lxor fix_point delta
    else r.
(** OptHalfGateGen::and_gate: /repo/backend/opt_hg_gen.h:36-50; (label, gid, messages) *)
Definition og_and (delta a b gid : N) : N * N * list msg :=
  if isZero a || isZero b then (0, gid, [])
  else if isOne a then (b, gid, [])
  else if isOne b then (a, gid, [])
  else
    let '(o, t0, t1) := garble_gate a (N.lxor a delta) b (N.lxor b delta) delta gid in
    (o, gid + 1, [MTable t0 t1]).
(** OptHalfGateEva::not_gate: /repo/backend/opt_hg_eva.h:48-55 *)
Definition oe_not (a : N) : N :=
  if isZero a then mask128 else if isOne a then 0 else a.
(** OptHalfGateEva::xor_gate: /repo/backend/opt_hg_eva.h:31-47 *)
Definition oe_xor (a b : N) : N :=
  if isOne a then oe_not b
  else if isOne b then oe_not a
  else if isZero a then b
  else if isZero b then a
  else
    let r := N.lxor a b in
    if isZero r then fix_point else r.
(** OptHalfGateEva::and_gate: /repo/backend/opt_hg_eva.h:21-30 *)
Definition oe_and (a b gid : N) (ch : list msg) : res (N * N * list msg) :=
  if isZero a || isOne a || isZero b || isOne b then Ok (N.land a b, gid, ch)
  else (let* (t, ch) := recv as_table ch in
        Ok (eval_gate a b (fst t) (snd t) gid, gid + 1, ch))%res.

(** ** Input labels of the streaming backend *)
(** A read of [n] entries at [off]; entries never written are [None].
    (memcpy in /repo/backend/primus_gen.h:45-61, primus_eva.h:40-59) *)
Definition copy {A} (l : list (option A)) (off n : nat) : res (list A) :=
  fold_right (fun o acc => (let* x := read o in let* t := acc in Ok (x :: t))%res) (Ok [])
    (map (fun i => match nth_error l (off + i) with Some o => o | None => None end) (seq 0 n)).

(** members of PrimusParty: /repo/backend/primus_party.h:15-22, and how much of the two
    PRG streams and of the OT stream has been used.  [f_buff] is unused by the garbler. *)
Record feeder : Type := {
  f_buf : list (option N); f_buff : list (option bool); f_top : nat; f_bs : nat;
  f_cot : nat;    (* correlated OTs consumed *)
  f_shared : nat; (* blocks drawn from shared_prg *)
  f_rnd : nat     (* bits drawn from the evaluator's own prg *)
}.

Variable Kc : nat -> N.           (* strings of the correlated OT, sender side *)
Variable rnd : nat -> bool.       (* the evaluator's random choice bits *)
Variable lab : nat -> N.          (* blocks of shared_prg *)
Variable delta : N.

(** in_ot->send_cot/recv_cot in /repo/backend/primus_gen.h:27-62, primus_eva.h:25-60 *)
Definition cot_s (c n : nat) : list N := map Kc (seq c n).
(** in_ot->send_cot/recv_cot in /repo/backend/primus_gen.h:27-62, primus_eva.h:25-60 *)
Definition cot_r (c : nat) (bits : list bool) : list N :=
  map2 (fun k (b : bool) => N.lxor (Kc k) (sel b delta)) (seq c (length bits)) bits.
(** in_ot->send_cot/recv_cot in /repo/backend/primus_gen.h:27-62, primus_eva.h:25-60 *)
Definition flip (l : list N) (bits : list bool) : list N :=
  map2 (fun x (b : bool) => if b then N.lxor x delta else x) l bits.

(** PrimusGen::refill: /repo/backend/primus_gen.h:27-30 *)
Definition gen_refill (s : feeder) : feeder :=
  {| f_buf := map Some (cot_s (f_cot s) (f_bs s)); f_buff := f_buff s; f_top := 0; f_bs := f_bs s;
     f_cot := f_cot s + f_bs s; f_shared := f_shared s; f_rnd := f_rnd s |}.
(** PrimusEva::refill: /repo/backend/primus_eva.h:25-29 *)
Definition eva_refill (s : feeder) : feeder :=
  let bits := map rnd (seq (f_rnd s) (f_bs s)) in
  {| f_buf := map Some (cot_r (f_cot s) bits); f_buff := map Some bits; f_top := 0; f_bs := f_bs s;
     f_cot := f_cot s + f_bs s; f_shared := f_shared s; f_rnd := f_rnd s + f_bs s |}.
(** the constructors up to the first refill: /repo/backend/primus_party.h:24-35,
    primus_gen.h:11-25, primus_eva.h:12-23; new[] leaves the buffers unwritten *)
Definition fresh (bs : nat) : feeder :=
  {| f_buf := repeat None bs; f_buff := repeat None bs; f_top := 0; f_bs := bs;
     f_cot := 0; f_shared := 0; f_rnd := 0 |}.
(** same code: /repo/backend/primus_party.h:24-35 *)
Definition gen_init (bs : nat) : feeder := gen_refill (fresh bs).
(** same code: /repo/backend/primus_party.h:24-35 *)
Definition eva_init (bs : nat) : feeder := eva_refill (fresh bs).
(** set_batch_size: /repo/backend/primus_party.h:36-44 *)
Definition set_batch_size (size : nat) (s : feeder) : feeder :=
  {| f_buf := repeat None size; f_buff := repeat None size; f_top := f_top s; f_bs := size;
     f_cot := f_cot s; f_shared := f_shared s; f_rnd := f_rnd s |}.

(** the evaluator-input branch of PrimusGen::feed up to line 54: the strings taken, and
    whether correction bits are expected: /repo/backend/primus_gen.h:40-55.  The sizes are
    signed ints: a negative batch_size - top makes memcpy copy a huge block. *)
Definition gen_take (n : nat) (s : feeder) : res (list N * bool * feeder) :=
  if (f_bs s <? n)%nat
  then Ok (cot_s (f_cot s) n, false,
           {| f_buf := f_buf s; f_buff := f_buff s; f_top := f_top s; f_bs := f_bs s;
              f_cot := f_cot s + n; f_shared := f_shared s; f_rnd := f_rnd s |})
  else if (f_bs s <? f_top s)%nat then UB
  else if (f_bs s - f_top s <? n)%nat
  then let filled := (f_bs s - f_top s)%nat in
       (let* a := copy (f_buf s) (f_top s) filled in
        let s := gen_refill s in
        let* b := copy (f_buf s) 0 (n - filled) in
        Ok (a ++ b, true,
            {| f_buf := f_buf s; f_buff := f_buff s; f_top := n - filled; f_bs := f_bs s;
               f_cot := f_cot s; f_shared := f_shared s; f_rnd := f_rnd s |}))%res
  else (let* a := copy (f_buf s) (f_top s) n in
        Ok (a, true,
            {| f_buf := f_buf s; f_buff := f_buff s; f_top := f_top s + n; f_bs := f_bs s;
               f_cot := f_cot s; f_shared := f_shared s; f_rnd := f_rnd s |}))%res.
(** PrimusGen::feed: /repo/backend/primus_gen.h:32-63; [bits] are the garbler's own inputs
    and give the length *)
Definition gen_feed (p : party) (bits : list bool) (s : feeder) (ch : list msg) : res (list N * feeder * list msg) :=
  match p with
  | ALICE =>
      let n := length bits in
      Ok (flip (map lab (seq (f_shared s) n)) bits,
          {| f_buf := f_buf s; f_buff := f_buff s; f_top := f_top s; f_bs := f_bs s;
             f_cot := f_cot s; f_shared := f_shared s + n; f_rnd := f_rnd s |}, ch)
  | _ =>
      (let* (ab, s) := gen_take (length bits) s in
       let (a, corr) := ab in
       if corr : bool
       then let* (d, ch) := recv as_bits ch in Ok (flip a d, s, ch)
       else Ok (a, s, ch))%res
  end.
(** PrimusEva::feed: /repo/backend/primus_eva.h:31-61; (labels, state, messages) *)
Definition eva_feed (p : party) (bits : list bool) (s : feeder) : res (list N * feeder * list msg) :=
  let n := length bits in
  match p with
  | ALICE =>
      Ok (map lab (seq (f_shared s) n),
          {| f_buf := f_buf s; f_buff := f_buff s; f_top := f_top s; f_bs := f_bs s;
             f_cot := f_cot s; f_shared := f_shared s + n; f_rnd := f_rnd s |}, [])
  | _ =>
      if (f_bs s <? n)%nat
      then Ok (cot_r (f_cot s) bits,
               {| f_buf := f_buf s; f_buff := f_buff s; f_top := f_top s; f_bs := f_bs s;
                  f_cot := f_cot s + n; f_shared := f_shared s; f_rnd := f_rnd s |}, [])
      else if (f_bs s <? f_top s)%nat then UB
      else if (f_bs s - f_top s <? n)%nat
      then let filled := (f_bs s - f_top s)%nat in
           (let* a := copy (f_buf s) (f_top s) filled in
            let* ra := copy (f_buff s) (f_top s) filled in
            let s := eva_refill s in
            let* b := copy (f_buf s) 0 (n - filled) in
            let* rb := copy (f_buff s) 0 (n - filled) in
            Ok (a ++ b,
                {| f_buf := f_buf s; f_buff := f_buff s; f_top := n - filled; f_bs := f_bs s;
                   f_cot := f_cot s; f_shared := f_shared s; f_rnd := f_rnd s |},
                [MBits (map2 xorb (ra ++ rb) bits)]))%res
      else (let* a := copy (f_buf s) (f_top s) n in
            let* ra := copy (f_buff s) (f_top s) n in
            Ok (a,
                {| f_buf := f_buf s; f_buff := f_buff s; f_top := f_top s + n; f_bs := f_bs s;
                   f_cot := f_cot s; f_shared := f_shared s; f_rnd := f_rnd s |},
                [MBits (map2 xorb ra bits)]))%res
  end.

(** ** Opening wires in the streaming backend *)
(** first loop of PrimusGen::reveal when nothing is received:
    /repo/backend/primus_gen.h:66-83, party BOB or PUBLIC; (b, messages) *)
Fixpoint og_reveal_send (labels : list N) : list bool * list msg :=
  match labels with
  | [] => ([], [])
  | l :: t =>
      let (b, m) := og_reveal_send t in
      if isOne l then (true :: b, m)
      else if isZero l then (false :: b, m)
      else (false :: b, MBit (getLSB l) :: m)
  end.
(** the same loop for party ALICE: /repo/backend/primus_gen.h:66-83 *)
Fixpoint og_reveal_recv (labels : list N) (ch : list msg) : res (list bool * list msg) :=
  match labels with
  | [] => Ok ([], ch)
  | l :: t =>
      if isOne l then (let* (b, ch) := og_reveal_recv t ch in Ok (true :: b, ch))%res
      else if isZero l then (let* (b, ch) := og_reveal_recv t ch in Ok (false :: b, ch))%res
      else (let* (tmp, ch) := recv as_bit ch in
            let* (b, ch) := og_reveal_recv t ch in Ok (xorb tmp (getLSB l) :: b, ch))%res
  end.
(** second part for PUBLIC: /repo/backend/primus_gen.h:84-98; the bits received replace b *)
Definition is_public (l : N) : bool := isZero l || isOne l.
(** same code: /repo/backend/primus_gen.h:84-98 *)
Definition og_reveal_check (labels : list N) (b : list bool) (h : N) : res (list bool) :=
  let blks := map2 (fun l (x : bool) => if is_public l then l else if x then N.lxor l delta else l) labels b in
  if Hash blks =? h then Ok b else Err.
(** first loop of PrimusEva::reveal, party BOB or PUBLIC: /repo/backend/primus_eva.h:63-79 *)
Fixpoint oe_reveal_recv (labels : list N) (ch : list msg) : res (list bool * list msg) :=
  match labels with
  | [] => Ok ([], ch)
  | l :: t =>
      if isOne l then (let* (b, ch) := oe_reveal_recv t ch in Ok (true :: b, ch))%res
      else if isZero l then (let* (b, ch) := oe_reveal_recv t ch in Ok (false :: b, ch))%res
      else (let* (tmp, ch) := recv as_bit ch in
            let* (b, ch) := oe_reveal_recv t ch in Ok (xorb tmp (getLSB l) :: b, ch))%res
  end.
(** the same loop, party ALICE: /repo/backend/primus_eva.h:63-79 *)
Fixpoint oe_reveal_send (labels : list N) : list bool * list msg :=
  match labels with
  | [] => ([], [])
  | l :: t =>
      let (b, m) := oe_reveal_send t in
      if isOne l then (true :: b, m)
      else if isZero l then (false :: b, m)
      else (false :: b, MBit (getLSB l) :: m)
  end.
(** second part for PUBLIC: /repo/backend/primus_eva.h:80-85 *)
Definition oe_reveal_report (labels : list N) (b : list bool) : list msg := [MBits b; MHash (Hash labels)].

(** ** One instruction executed by both parties of the streaming backend *)
(** /repo/backend/opt_hg_gen.h:30-77, opt_hg_eva.h:20-55, primus_gen.h:32-98, primus_eva.h:31-86 *)
Record ostate : Type := {
  og_w : list N; og_gid : N; og_f : feeder;   (* garbler *)
  oe_w : list N; oe_gid : N; oe_f : feeder;   (* evaluator *)
  o_ge : list msg; o_eg : list msg            (* channels garbler->evaluator, evaluator->garbler *)
}.
(** /repo/backend/opt_hg_gen.h:30-77, opt_hg_eva.h:20-55, primus_gen.h:32-98, primus_eva.h:31-86 *)
Definition lbl (w : list N) (i : nat) : N := nth i w 0.
(** the opened values as seen by the garbler and by the evaluator
    (reveal: /repo/backend/primus_gen.h:66-98, primus_eva.h:63-86) *)
Definition opened : Type := list (party * list bool * list bool).
(** /repo/backend/opt_hg_gen.h:30-77, opt_hg_eva.h:20-55, primus_gen.h:32-98, primus_eva.h:31-86 *)
Definition o_step (s : ostate) (c : instr) : res (ostate * opened) :=
  match c with
  | IPub b =>
      Ok ({| og_w := og_w s ++ [opt_public b]; og_gid := og_gid s; og_f := og_f s;
             oe_w := oe_w s ++ [opt_public b]; oe_gid := oe_gid s; oe_f := oe_f s; o_ge := o_ge s; o_eg := o_eg s |}, [])
  | IFeed p bits =>
      (let* (le, m) := eva_feed p bits (oe_f s) in
       let (le, fe) := le in
       let* (lg, ch) := gen_feed p bits (og_f s) (o_eg s ++ m) in
       let (lg, fg) := lg in
       Ok ({| og_w := og_w s ++ lg; og_gid := og_gid s; og_f := fg;
              oe_w := oe_w s ++ le; oe_gid := oe_gid s; oe_f := fe; o_ge := o_ge s; o_eg := ch |}, []))%res
  | IAnd i j =>
      let '(o, gid, m) := og_and delta (lbl (og_w s) i) (lbl (og_w s) j) (og_gid s) in
      (let* (oe, ch) := oe_and (lbl (oe_w s) i) (lbl (oe_w s) j) (oe_gid s) (o_ge s ++ m) in
       Ok ({| og_w := og_w s ++ [o]; og_gid := gid; og_f := og_f s;
              oe_w := oe_w s ++ [fst oe]; oe_gid := snd oe; oe_f := oe_f s; o_ge := ch; o_eg := o_eg s |}, []))%res
  | IXor i j =>
      Ok ({| og_w := og_w s ++ [og_xor delta (lbl (og_w s) i) (lbl (og_w s) j)]; og_gid := og_gid s; og_f := og_f s;
             oe_w := oe_w s ++ [oe_xor (lbl (oe_w s) i) (lbl (oe_w s) j)]; oe_gid := oe_gid s; oe_f := oe_f s;
             o_ge := o_ge s; o_eg := o_eg s |}, [])
  | INot i =>
      Ok ({| og_w := og_w s ++ [og_not delta (lbl (og_w s) i)]; og_gid := og_gid s; og_f := og_f s;
             oe_w := oe_w s ++ [oe_not (lbl (oe_w s) i)]; oe_gid := oe_gid s; oe_f := oe_f s;
             o_ge := o_ge s; o_eg := o_eg s |}, [])
  | IReveal p ws =>
      let lg := map (lbl (og_w s)) ws in
      let le := map (lbl (oe_w s)) ws in
      match p with
      | ALICE =>
          let (be, m) := oe_reveal_send le in
          (let* (bg, ch) := og_reveal_recv lg (o_eg s ++ m) in
           Ok ({| og_w := og_w s; og_gid := og_gid s; og_f := og_f s;
                  oe_w := oe_w s; oe_gid := oe_gid s; oe_f := oe_f s; o_ge := o_ge s; o_eg := ch |}, [(p, bg, be)]))%res
      | BOB =>
          let (bg, m) := og_reveal_send lg in
          (let* (be, ch) := oe_reveal_recv le (o_ge s ++ m) in
           Ok ({| og_w := og_w s; og_gid := og_gid s; og_f := og_f s;
                  oe_w := oe_w s; oe_gid := oe_gid s; oe_f := oe_f s; o_ge := ch; o_eg := o_eg s |}, [(p, bg, be)]))%res
      | PUBLIC =>
          let (_, m) := og_reveal_send lg in
          (let* (be, ch) := oe_reveal_recv le (o_ge s ++ m) in
           let* (bg, ch') := recv as_bits (o_eg s ++ oe_reveal_report le be) in
           let* (h, ch') := recv as_hash ch' in
           let* bg := og_reveal_check lg bg h in
           Ok ({| og_w := og_w s; og_gid := og_gid s; og_f := og_f s;
                  oe_w := oe_w s; oe_gid := oe_gid s; oe_f := oe_f s; o_ge := ch; o_eg := ch' |}, [(p, bg, be)]))%res
      end
  end.
(** /repo/backend/opt_hg_gen.h:30-77, opt_hg_eva.h:20-55, primus_gen.h:32-98, primus_eva.h:31-86 *)
Fixpoint o_run (s : ostate) (prog : list instr) : res (ostate * opened) :=
  match prog with
  | [] => Ok (s, [])
  | c :: t => (let* (s, o) := o_step s c in let* (s, o') := o_run s t in Ok (s, o ++ o'))%res
  end.
(** after setup_backend: /repo/backend/backend.h:65-78 *)
Definition o_init (bs : nat) : ostate :=
  {| og_w := []; og_gid := 0; og_f := gen_init bs; oe_w := []; oe_gid := 0; oe_f := eva_init bs; o_ge := []; o_eg := [] |}.

(** ** The two-phase backend *)
(** constants of the garbler: /repo/backend/offline_hg_gen.h:23-30, online_hg_gen.h:21-27 *)
Definition gen_const (b : bool) : N := if b then N.lxor (fixk 1) delta else fixk 0.
(** constants of the online evaluator: /repo/backend/online_hg_eva.h:15-19 *)
Definition eva_const (b : bool) : N := if b then fixk 1 else fixk 0.

(** offline garbler (OfflineHalfGateGen, OfflinePrimusGen)
    (/repo/backend/offline_hg_gen.h:10-45, offline_primus_gen.h:8-34) *)
Record fgen : Type := { fg_w : list N; fg_gid : N; fg_prg : nat; fg_out : list N }.
(** /repo/backend/offline_hg_gen.h:30-42, offline_primus_gen.h:22-32 *)
Definition fg_step (s : fgen) (c : instr) : fgen * list msg :=
  match c with
  | IPub b => ({| fg_w := fg_w s ++ [gen_const b]; fg_gid := fg_gid s; fg_prg := fg_prg s; fg_out := fg_out s |}, [])
  | IFeed _ bits =>
      ({| fg_w := fg_w s ++ map lab (seq (fg_prg s) (length bits)); fg_gid := fg_gid s;
          fg_prg := fg_prg s + length bits; fg_out := fg_out s |}, [])
  | IAnd i j =>
      let a := lbl (fg_w s) i in let b := lbl (fg_w s) j in
      let '(o, t0, t1) := garble_gate a (N.lxor a delta) b (N.lxor b delta) delta (fg_gid s) in
      ({| fg_w := fg_w s ++ [o]; fg_gid := fg_gid s + 1; fg_prg := fg_prg s; fg_out := fg_out s ++ [o] |}, [MTable t0 t1])
  | IXor i j =>
      ({| fg_w := fg_w s ++ [N.lxor (lbl (fg_w s) i) (lbl (fg_w s) j)]; fg_gid := fg_gid s; fg_prg := fg_prg s; fg_out := fg_out s |}, [])
  | INot i =>
      ({| fg_w := fg_w s ++ [N.lxor (lbl (fg_w s) i) delta]; fg_gid := fg_gid s; fg_prg := fg_prg s; fg_out := fg_out s |}, [])
  | IReveal p ws =>
      (s, match p with PUBLIC => map (fun i => MBit (getLSB (lbl (fg_w s) i))) ws | _ => [] end)
  end.
(** offline evaluator (OfflineHalfGateEva, OfflinePrimusEva): what it stores.
    /repo/backend/offline_hg_eva.h:15-26, offline_primus_eva.h:20-28 *)
Record feva : Type := { fe_GC : list N; fe_gid : N; fe_pub : list bool }.
(** /repo/backend/offline_primus_eva.h:20-28 *)
Fixpoint recv_bits (n : nat) (ch : list msg) : res (list bool * list msg) :=
  match n with
  | O => Ok ([], ch)
  | S k => (let* (b, ch) := recv as_bit ch in let* (l, ch) := recv_bits k ch in Ok (b :: l, ch))%res
  end.
(** same code: /repo/backend/offline_hg_eva.h:15-26 *)
Definition fe_step (s : feva) (c : instr) (ch : list msg) : res (feva * list msg) :=
  match c with
  | IAnd _ _ =>
      (let* (t, ch) := recv as_table ch in
       Ok ({| fe_GC := fe_GC s ++ [fst t] ++ [snd t]; fe_gid := fe_gid s + 1; fe_pub := fe_pub s |}, ch))%res
  | IReveal PUBLIC ws =>
      (let* (l, ch) := recv_bits (length ws) ch in
       Ok ({| fe_GC := fe_GC s; fe_gid := fe_gid s; fe_pub := fe_pub s ++ l |}, ch))%res
  | _ => Ok (s, ch)
  end.
(** offline phase: /repo/backend/backend.h:20-31 *)
Fixpoint f_run (g : fgen) (e : feva) (ch : list msg) (prog : list instr) : res (fgen * feva * list msg) :=
  match prog with
  | [] => Ok (g, e, ch)
  | c :: t =>
      let (g, m) := fg_step g c in
      (let* (e, ch) := fe_step e c (ch ++ m) in f_run g e ch t)%res
  end.
(** offline phase: /repo/backend/backend.h:20-31 *)
Definition f_init_g : fgen := {| fg_w := []; fg_gid := 0; fg_prg := 0; fg_out := [] |}.
(** offline phase: /repo/backend/backend.h:20-31 *)
Definition f_init_e : feva := {| fe_GC := []; fe_gid := 0; fe_pub := [] |}.

(** online parties.  The garbler's PRG is reseeded with the offline seed, so it yields the
    same blocks again; its out_labels and the evaluator's GC and pub_values are the offline
    ones (sync_offline_online: /repo/backend/backend.h:33-48). *)
Record nstate : Type := {
  ng_w : list N; ng_gid : nat; ng_prg : nat;             (* garbler *)
  ne_w : list N; ne_gid : nat; ne_cnt : nat;             (* evaluator *)
  n_ge : list msg; n_eg : list msg
}.
Variable out_labels : list N.
Variable GC : list N.
Variable pub : list bool.

(** OnlinePrimusGen::feed and OnlinePrimusEva::feed: /repo/backend/online_primus_gen.h:23-40,
    online_primus_eva.h:23-28; ot->send / ot->recv is an ideal oblivious transfer *)
Definition n_feed_msgs (p : party) (bits : list bool) (l : list N) : list msg :=
  map2 (fun x (b : bool) => MLabel (if b then N.lxor x delta else x)) l bits.
(** /repo/backend/online_primus_eva.h:23-28 *)
Fixpoint recv_labels (n : nat) (ch : list msg) : res (list N * list msg) :=
  match n with
  | O => Ok ([], ch)
  | S k => (let* (b, ch) := recv as_label ch in let* (l, ch) := recv_labels k ch in Ok (b :: l, ch))%res
  end.
(** OnlineHalfGateEva::and_gate: /repo/backend/online_hg_eva.h:20-26; reading past GC is undefined *)
Definition ne_and (a b : N) (gid : nat) : res N :=
  (let* t0 := read (nth_error GC (gid * 2)) in
   let* t1 := read (nth_error GC (gid * 2 + 1)) in
   Ok (eval_gate a b t0 t1 (N.of_nat gid)))%res.
(** OnlinePrimusEva::reveal to PUBLIC, first loop: /repo/backend/online_primus_eva.h:30-42 *)
Fixpoint ne_pub (cnt : nat) (labels : list N) : res (list bool) :=
  match labels with
  | [] => Ok []
  | l :: t => (let* v := read (nth_error pub cnt) in
               let* b := ne_pub (S cnt) t in Ok (xorb v (getLSB l) :: b))%res
  end.
(** OnlinePrimusGen::reveal to PUBLIC, second part: /repo/backend/online_primus_gen.h:55-69 *)
Definition ng_reveal_check (labels : list N) (b : list bool) (h : N) : res (list bool) :=
  let blks := map2 (fun l (x : bool) => if x then N.lxor l delta else l) labels b in
  if Hash blks =? h then Ok b else Err.

(** online phase: /repo/backend/online_hg_gen.h:27-30, online_hg_eva.h:19-28, online_primus_gen.h:23-70, online_primus_eva.h:23-49 *)
Definition n_step (s : nstate) (c : instr) : res (nstate * opened) :=
  match c with
  | IPub b =>
      Ok ({| ng_w := ng_w s ++ [gen_const b]; ng_gid := ng_gid s; ng_prg := ng_prg s;
             ne_w := ne_w s ++ [eva_const b]; ne_gid := ne_gid s; ne_cnt := ne_cnt s; n_ge := n_ge s; n_eg := n_eg s |}, [])
  | IFeed p bits =>
      let l := map lab (seq (ng_prg s) (length bits)) in
      (let* (le, ch) := recv_labels (length bits) (n_ge s ++ n_feed_msgs p bits l) in
       Ok ({| ng_w := ng_w s ++ l; ng_gid := ng_gid s; ng_prg := ng_prg s + length bits;
              ne_w := ne_w s ++ le; ne_gid := ne_gid s; ne_cnt := ne_cnt s; n_ge := ch; n_eg := n_eg s |}, []))%res
  | IAnd i j =>
      (let* o := read (nth_error out_labels (ng_gid s)) in
       let* e := ne_and (lbl (ne_w s) i) (lbl (ne_w s) j) (ne_gid s) in
       Ok ({| ng_w := ng_w s ++ [o]; ng_gid := S (ng_gid s); ng_prg := ng_prg s;
              ne_w := ne_w s ++ [e]; ne_gid := S (ne_gid s); ne_cnt := ne_cnt s; n_ge := n_ge s; n_eg := n_eg s |}, []))%res
  | IXor i j =>
      Ok ({| ng_w := ng_w s ++ [N.lxor (lbl (ng_w s) i) (lbl (ng_w s) j)]; ng_gid := ng_gid s; ng_prg := ng_prg s;
             ne_w := ne_w s ++ [N.lxor (lbl (ne_w s) i) (lbl (ne_w s) j)]; ne_gid := ne_gid s; ne_cnt := ne_cnt s;
             n_ge := n_ge s; n_eg := n_eg s |}, [])
  | INot i =>
      Ok ({| ng_w := ng_w s ++ [N.lxor (lbl (ng_w s) i) delta]; ng_gid := ng_gid s; ng_prg := ng_prg s;
             ne_w := ne_w s ++ [lbl (ne_w s) i]; ne_gid := ne_gid s; ne_cnt := ne_cnt s; n_ge := n_ge s; n_eg := n_eg s |}, [])
  | IReveal p ws =>
      let lg := map (lbl (ng_w s)) ws in
      let le := map (lbl (ne_w s)) ws in
      match p with
      | ALICE => (* online_primus_eva.h:36-38, online_primus_gen.h:49-53 *)
          (let* (r, ch) := recv_bits (length ws) (n_eg s ++ map (fun l => MBit (getLSB l)) le) in
           Ok ({| ng_w := ng_w s; ng_gid := ng_gid s; ng_prg := ng_prg s;
                  ne_w := ne_w s; ne_gid := ne_gid s; ne_cnt := ne_cnt s; n_ge := n_ge s; n_eg := ch |},
               [(p, map2 (fun t l => xorb t (getLSB l)) r lg, repeat false (length ws))]))%res
      | BOB => (* online_primus_gen.h:46-48, online_primus_eva.h:33-35 *)
          (let* (r, ch) := recv_bits (length ws) (n_ge s ++ map (fun l => MBit (getLSB l)) lg) in
           Ok ({| ng_w := ng_w s; ng_gid := ng_gid s; ng_prg := ng_prg s;
                  ne_w := ne_w s; ne_gid := ne_gid s; ne_cnt := ne_cnt s; n_ge := ch; n_eg := n_eg s |},
               [(p, repeat false (length ws), map2 (fun t l => xorb t (getLSB l)) r le)]))%res
      | PUBLIC =>
          (let* be := ne_pub (ne_cnt s) le in
           let* (bg, ch) := recv as_bits (n_eg s ++ [MBits be; MHash (Hash le)]) in
           let* (h, ch) := recv as_hash ch in
           let* bg := ng_reveal_check lg bg h in
           Ok ({| ng_w := ng_w s; ng_gid := ng_gid s; ng_prg := ng_prg s;
                  ne_w := ne_w s; ne_gid := ne_gid s; ne_cnt := ne_cnt s + length ws; n_ge := n_ge s; n_eg := ch |},
               [(p, bg, be)]))%res
      end
  end.
(** online phase: /repo/backend/online_hg_gen.h:27-30, online_hg_eva.h:19-28, online_primus_gen.h:23-70, online_primus_eva.h:23-49 *)
Fixpoint n_run (s : nstate) (prog : list instr) : res (nstate * opened) :=
  match prog with
  | [] => Ok (s, [])
  | c :: t => (let* (s, o) := n_step s c in let* (s, o') := n_run s t in Ok (s, o ++ o'))%res
  end.
(** /repo/backend/backend.h:35-63 *)
Definition n_init : nstate :=
  {| ng_w := []; ng_gid := 0; ng_prg := 0; ne_w := []; ne_gid := 0; ne_cnt := 0; n_ge := []; n_eg := [] |}.
End GC.

(** offline phase, sync, online phase: /repo/backend/backend.h:18-63 *)
Definition two_phase (sigma aes : N -> N) (Hash : list N -> N) (fixk : nat -> N) (lab : nat -> N) (delta : N)
    (off on_ : list instr) : res (nstate * opened) :=
  (let* (ge, _) := f_run sigma aes fixk lab delta f_init_g f_init_e [] off in
   let (g, e) := ge in
   n_run sigma aes Hash fixk lab delta (fg_out g) (fe_GC e) (fe_pub e) n_init on_)%res.
