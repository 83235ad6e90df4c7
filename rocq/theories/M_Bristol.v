(** emp-tool's BristolFormat evaluator (external library) and its use in
    /repo/cipher/utils.h:241-254. *)
From Coq Require Import List NArith Bool Arith.
From Verif Require Import L_Bits L_Res L_PTree M_EmpInteger.
Import ListNotations.
Local Open Scope N_scope.
Local Open Scope res_scope.

(** one line of a circuit file: "2 1 a b z AND|XOR" or "1 1 a z INV"
    (/repo/cipher/circuit_files/aes128_ks.txt:4-7236, aes128_with_ks.txt:4-29062) *)
Inductive gate :=
| GA (a b z : N)
| GX (a b z : N)
| GI (a z : N).

(** header of a circuit file (lines 1-2) and its gates
    (/repo/cipher/circuit_files/aes128_ks.txt:1-2, aes128_with_ks.txt:1-2) *)
Record bristol := mkBristol {
  num_wire : N; in1_len : N; in2_len : N; out_len : N;
  gates : list gate
}.

(** [wires[z] = op(wires[a], wires[b])] in file order.  Simplification: a wire read
    before it was written (an uninitialised Bit in emp-tool) is [UB].
    (part of emp-tool BristolFormat::compute, called in /repo/cipher/utils.h:244, 251) *)
Definition wire_read (w : ptree bool) (i : N) : res bool := read (nget i w).
(** part of emp-tool BristolFormat::compute, called in /repo/cipher/utils.h:244, 251 *)
Definition gate_step (w : ptree bool) (g : gate) : res (ptree bool) :=
  match g with
  | GA a b z => let* x := wire_read w a in let* y := wire_read w b in Ok (nset z (andb x y) w)
  | GX a b z => let* x := wire_read w a in let* y := wire_read w b in Ok (nset z (xorb x y) w)
  | GI a z => let* x := wire_read w a in Ok (nset z (negb x) w)
  end.
(** part of emp-tool BristolFormat::compute, called in /repo/cipher/utils.h:244, 251 *)
Definition run_gates (gs : list gate) (w : ptree bool) : res (ptree bool) :=
  fold_left (fun acc g => let* w := acc in gate_step w g) gs (Ok w).

(** copying an Integer's bits onto consecutive wires
    (part of emp-tool BristolFormat::compute, called in /repo/cipher/utils.h:244, 251) *)
Fixpoint load_wires (start : N) (bits : list bool) (w : ptree bool) : ptree bool :=
  match bits with
  | [] => w
  | b :: t => load_wires (N.succ start) t (nset start b w)
  end.

(** part of emp-tool BristolFormat::compute, called in /repo/cipher/utils.h:244, 251 *)
Definition nseq (start : N) (len : nat) : list N := map (fun i => start + N.of_nat i) (seq 0 len).

(** part of emp-tool BristolFormat::compute, called in /repo/cipher/utils.h:244, 251 *)
Fixpoint read_wires (w : ptree bool) (l : list N) : res (list bool) :=
  match l with
  | [] => Ok []
  | i :: t => let* b := wire_read w i in let* bs := read_wires w t in Ok (b :: bs)
  end.

(** BristolFormat::compute(out, in1, in2).  Reading fewer input bits than the header
    declares is [UB]; out is taken from the last out_len wires.
    (part of emp-tool BristolFormat::compute, called in /repo/cipher/utils.h:244, 251) *)
Definition bristol_compute (c : bristol) (in1 in2 : list bool) : res (list bool) :=
  if negb ((N.of_nat (length in1) =? in1_len c) && (N.of_nat (length in2) =? in2_len c)) then UB
  else
    let w := load_wires (in1_len c) in2 (load_wires 0 in1 PLeaf) in
    let* w := run_gates (gates c) w in
    read_wires w (nseq (num_wire c - out_len c) (N.to_nat (out_len c))).

(** [BristolFormat* aes_ks, * aes_enc_ks] (/repo/cipher/utils.cpp:3-9,19-27) are the two
    parsed circuit files; they are parameters here and instantiated with D_AesKs,
    D_AesEnc. *)
Section AES.
Variable aes_ks aes_enc_ks : bristol.
(** computeKS: /repo/cipher/utils.h:242-246 (in2 is nullptr, length 0) *)
Definition computeKS (key : Integer) : res Integer := bristol_compute aes_ks key [].
(** computeAES_KS: /repo/cipher/utils.h:249-254 *)
Definition computeAES_KS (key msg : Integer) : res Integer :=
  let* o := bristol_compute aes_enc_ks key msg in Ok (rev o).
End AES.
