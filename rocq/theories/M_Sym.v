(** Gate-level view of the emp-tool Integer operations used by the offline and online
    classes: each operation issues requests to the backend instead of computing a value.
    Whatever backend is installed (/repo/backend/offline_hg_gen.h:32-39,
    online_hg_gen.h:28, online_hg_eva.h:20-26, offline_hg_eva.h:17-24) sees these requests
    one after the other.  XOR gates are recorded left to right; C++ leaves the order of
    the two operands of one [^] open, but XOR gates use no table. *)
From Coq Require Import List NArith ZArith Bool Arith.
From Verif Require Import L_Bits L_Res L_PTree S_Netlist M_EmpInteger M_Bristol M_Bn.
Import ListNotations.
Local Open Scope N_scope.

(** backend state: number of wires created so far and the requests so far, newest first
    (/repo/backend/offline_hg_gen.h:10-45, online_hg_gen.h:10-33) *)
Record cst := mkC { c_next : N; c_tr : list nev }.
(** /repo/backend/offline_hg_gen.h:10-45, online_hg_gen.h:10-33 *)
Definition cst0 : cst := mkC 0 [].
(** a program issuing requests; [res] as everywhere
    (notation for the sequence of calls made on circ_exec/prot_exec of /repo/backend/primus_party.h:22) *)
Definition M (A : Type) : Type := cst -> res (A * cst).
(** notation for the sequence of calls made on circ_exec/prot_exec of /repo/backend/primus_party.h:22 *)
Definition mret {A} (a : A) : M A := fun s => Ok (a, s).
(** notation for the sequence of calls made on circ_exec/prot_exec of /repo/backend/primus_party.h:22 *)
Definition mbind {A B} (m : M A) (k : A -> M B) : M B :=
  fun s => bind (m s) (fun x => k (fst x) (snd x)).
(** notation for the sequence of calls made on circ_exec/prot_exec of /repo/backend/primus_party.h:22 *)
Definition lift {A} (r : res A) : M A := fun s => bind r (fun a => Ok (a, s)).
Declare Scope sym_scope.
Delimit Scope sym_scope with sym.
Notation "'do' x '<-' m ';' k" := (mbind m (fun x => k))
  (at level 200, x pattern, m at level 100, k at level 200) : sym_scope.
Local Open Scope sym_scope.

(** an Integer is a vector of wires, least significant first
    (/repo/backend/offline_hg_gen.h:32-42, online_hg_gen.h:28-30) *)
Definition sint : Type := list wire.

(** Bit operators &, ^, ! (emp-tool, one gate each)
    (/repo/backend/offline_hg_gen.h:32-42, online_hg_gen.h:28-30) *)
Definition gand (a b : wire) : M wire :=
  fun s => Ok (WId (c_next s), mkC (N.succ (c_next s)) (EAnd a b :: c_tr s)).
(** /repo/backend/offline_hg_gen.h:32-42, online_hg_gen.h:28-30 *)
Definition gxor (a b : wire) : M wire :=
  fun s => Ok (WId (c_next s), mkC (N.succ (c_next s)) (EXor a b :: c_tr s)).
(** /repo/backend/offline_hg_gen.h:32-42, online_hg_gen.h:28-30 *)
Definition gnot (a : wire) : M wire :=
  fun s => Ok (WId (c_next s), mkC (N.succ (c_next s)) (ENot a :: c_tr s)).

(** Integer(n, data, ALICE or BOB): one feed of all bits (emp-tool Integer constructor,
    e.g. /repo/protocol/handshake.h:207-208) *)
Definition gfeed (p : owner) (bs : list bool) : M sint :=
  fun s => Ok (map WId (nseq (c_next s) (length bs)),
               mkC (c_next s + N.of_nat (length bs)) (EFeed p bs :: c_tr s)).
(** Integer(n, v, PUBLIC): emp-tool's constructor takes public labels from the circuit
    executor (/repo/backend/offline_hg_gen.h:30), nothing is fed *)
Definition spub (n : nat) (v : N) : sint := map WPub (int_of n v).
(** [reveal(PUBLIC)]: what the program gets back is decided by [orc] from the requests so
    far, so that a theorem for every [orc] covers every value the peer could open
    (/repo/backend/offline_primus_gen.h:26-32, online_primus_gen.h:43-70) *)
Definition greveal (orc : list nev -> nat -> bool) (p : owner) (ws : sint) : M (list bool) :=
  fun s => let tr := EReveal p ws :: c_tr s in
           Ok (map (orc tr) (seq 0 (length ws)), mkC (c_next s) tr).

(** [a ^ b], [a & b] bitwise; equal widths as in M_EmpInteger
    (used in /repo/cipher/sha256.h:422-467) *)
Fixpoint szip (g : wire -> wire -> M wire) (a b : sint) : M sint :=
  match a, b with
  | x :: ta, y :: tb => do z <- g x y; do r <- szip g ta tb; mret (z :: r)
  | _, _ => mret []
  end.
(** used in /repo/cipher/sha256.h:422-467 *)
Definition sxor := szip gxor.
(** used in /repo/cipher/sha256.h:422-467 *)
Definition sand := szip gand.

(** [a + b]: emp-tool add_full without carry in and carry out: the last position needs no
    AND
    (used in /repo/cipher/sha256.h:422-467, /repo/protocol/addmod.h:10-25) *)
Fixpoint sadd_c (c : wire) (a b : sint) : M sint :=
  match a, b with
  | x :: ta, y :: tb =>
      match ta, tb with
      | _ :: _, _ :: _ =>
          do axc <- gxor x c; do bxc <- gxor y c; do d <- gxor x bxc;
          do t <- gand axc bxc; do c' <- gxor c t;
          do r <- sadd_c c' ta tb; mret (d :: r)
      | _, _ => do t <- gxor c y; do d <- gxor t x; mret [d]
      end
  | _, _ => mret []
  end.
(** used in /repo/cipher/sha256.h:422-467, /repo/protocol/addmod.h:10-25 *)
Definition sadd (a b : sint) : M sint := sadd_c (WPub false) a b.

(** [a - b]: emp-tool sub_full without borrow in and borrow out
    (used in /repo/protocol/addmod.h:10-25) *)
Fixpoint ssub_c (c : wire) (a b : sint) : M sint :=
  match a, b with
  | x :: ta, y :: tb =>
      match ta, tb with
      | _ :: _, _ :: _ =>
          do bxa <- gxor x y; do bxc <- gxor c y; do d <- gxor bxa c;
          do t <- gand bxa bxc; do c' <- gxor c t;
          do r <- ssub_c c' ta tb; mret (d :: r)
      | _, _ => do t <- gxor x y; do d <- gxor t c; mret [d]
      end
  | _, _ => mret []
  end.
(** used in /repo/protocol/addmod.h:10-25 *)
Definition ssub (a b : sint) : M sint := ssub_c (WPub false) a b.

(** [a.geq(b)]: negation of the last bit of a - b
    (used in /repo/protocol/addmod.h:10-25) *)
Definition sgeq (a b : sint) : M wire := do d <- ssub a b; gnot (last d (WPub false)).
(** [a.select(s, b)]: per bit, a ^ (s & (a ^ b))
    (used in /repo/protocol/addmod.h:10-25) *)
Definition sselect (a : sint) (s : wire) (b : sint) : M sint :=
  szip (fun x y => do t <- gxor x y; do t <- gand t s; gxor x t) a b.

(** shifts: zero filled, no gate
    (used in /repo/cipher/utils.h:29-31) *)
Definition sshl (a : sint) (s : nat) : sint := firstn (length a) (repeat (WPub false) s ++ a).
(** used in /repo/cipher/utils.h:29-31 *)
Definition sshr (a : sint) (s : nat) : sint :=
  skipn s a ++ repeat (WPub false) (Nat.min s (length a)).

(** rrot: /repo/cipher/utils.h:29-31 *)
Definition srrot (x : sint) (s : nat) : M sint := sxor (sshr x s) (sshl x (length x - s)).
(** concat: /repo/cipher/utils.h:124-127; reverse_concat: /repo/cipher/utils.h:143-146 *)
Definition sconcat (r : sint) (ins : list sint) : sint := fold_left (fun r i => i ++ r) ins r.
(** /repo/cipher/utils.h:143-146 *)
Definition sreverse_concat (r : sint) (ins : list sint) : sint :=
  fold_left (fun r i => r ++ i) ins r.
(** extract_integer: /repo/cipher/utils.h:332-335 *)
Definition sextract (src : sint) (offset size : nat) : res sint :=
  if (offset + size <=? length src)%nat
  then Ok (firstn size (skipn (length src - offset - size) src))
  else UB.

(** addmod on a shared modulus: /repo/protocol/addmod.h:10-25 *)
Definition spop (x : sint) : res sint := match x with [] => UB | _ => Ok (removelast x) end.
(** same code: /repo/protocol/addmod.h:10-25 *)
Definition saddmod (a b Q : sint) : M sint :=
  let aa := a ++ [WPub false] in
  let bb := b ++ [WPub false] in
  if negb (length aa =? length bb)%nat then lift UB
  else
    do c <- sadd aa bb;
    let c := c ++ [WPub false] in
    let Q := Q ++ [WPub false] ++ [WPub false] in
    if negb (length c =? length Q)%nat then lift UB
    else
      do sel <- sgeq c Q;
      do d <- ssub c Q;
      do r <- sselect c sel d;
      do r <- lift (spop r);
      lift (spop r).
(** addmod on a public modulus: /repo/protocol/addmod.h:28-38 *)
Definition saddmod_bn (a b : sint) (q : Z) : M sint :=
  saddmod a b (map WPub (int_of_array (8 * BN_num_bytes q) 8 (rev (BN_bn2bin q)))).

(** BristolFormat::compute on wires (emp-tool, as in M_Bristol)
    (called in /repo/cipher/utils.h:244, 251) *)
Definition sgate_step (w : ptree wire) (g : gate) : M (ptree wire) :=
  match g with
  | GA a b z => do x <- lift (read (nget a w)); do y <- lift (read (nget b w));
                do o <- gand x y; mret (nset z o w)
  | GX a b z => do x <- lift (read (nget a w)); do y <- lift (read (nget b w));
                do o <- gxor x y; mret (nset z o w)
  | GI a z => do x <- lift (read (nget a w)); do o <- gnot x; mret (nset z o w)
  end.
(** called in /repo/cipher/utils.h:244, 251 *)
Fixpoint srun_gates (gs : list gate) (w : ptree wire) : M (ptree wire) :=
  match gs with
  | [] => mret w
  | g :: t => do w <- sgate_step w g; srun_gates t w
  end.
(** called in /repo/cipher/utils.h:244, 251 *)
Fixpoint sload (start : N) (ws : sint) (w : ptree wire) : ptree wire :=
  match ws with
  | [] => w
  | b :: t => sload (N.succ start) t (nset start b w)
  end.
(** called in /repo/cipher/utils.h:244, 251 *)
Fixpoint sread_wires (w : ptree wire) (l : list N) : res sint :=
  match l with
  | [] => Ok []
  | i :: t => bind (read (nget i w)) (fun b => bind (sread_wires w t) (fun bs => Ok (b :: bs)))
  end.
(** called in /repo/cipher/utils.h:244, 251 *)
Definition sbristol (c : bristol) (in1 in2 : sint) : M sint :=
  if negb ((N.of_nat (length in1) =? in1_len c) && (N.of_nat (length in2) =? in2_len c))
  then lift UB
  else
    do w <- srun_gates (gates c) (sload (in1_len c) in2 (sload 0 in1 PLeaf));
    lift (sread_wires w (nseq (num_wire c - out_len c) (N.to_nat (out_len c)))).

Section AES.
Variable aes_ks aes_enc : bristol.
(** computeKS: /repo/cipher/utils.h:242-246 *)
Definition scomputeKS (key : sint) : M sint := sbristol aes_ks key [].
(** computeAES_KS: /repo/cipher/utils.h:249-254 *)
Definition scomputeAES (key msg : sint) : M sint :=
  do o <- sbristol aes_enc key msg; mret (rev o).
End AES.

(** loops
    (the for loops of /repo/cipher/sha256.h:422-467, prf.h:86-125) *)
Fixpoint sfold {S A} (f : S -> A -> M S) (l : list A) (s : S) : M S :=
  match l with
  | [] => mret s
  | a :: t => do s <- f s a; sfold f t s
  end.
(** the for loops of /repo/cipher/sha256.h:422-467, prf.h:86-125 *)
Fixpoint siter {S} (n : nat) (f : S -> M S) (s : S) : M S :=
  match n with
  | O => mret s
  | Datatypes.S k => do s <- f s; siter k f s
  end.
