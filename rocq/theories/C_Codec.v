(** Properties C54-C56: byte order, concatenation and string helpers. *)
From Coq Require Import List NArith Bool Arith.
From Verif Require Import L_Bits L_Res M_EmpInteger M_Utils S_Codec S_Sha256 P_Utils.
Import ListNotations.
Local Open Scope N_scope.

(** ** C54 *)
Theorem C54_block_to_hex_big_endian : forall ins, block_to_hex ins = flat_map (be_enc 16) ins.
Proof. exact block_to_hex_be. Qed.
Print Assumptions C54_block_to_hex_big_endian.

Theorem C54_hex_to_block_big_endian : forall ins, Forall (fun b => b < 2 ^ 128) ins ->
  hex_to_block (flat_map (be_enc 16) ins) = Ok ins.
Proof. exact hex_to_block_be. Qed.
Print Assumptions C54_hex_to_block_big_endian.

Theorem C54_block_round_trip : forall bytes,
  (length bytes mod 16 = 0)%nat -> Forall (fun b => b < 256) bytes ->
  exists bl, hex_to_block bytes = Ok bl /\ block_to_hex bl = bytes /\
    Forall (fun b => b < 2 ^ 128) bl /\ length bl = (length bytes / 16)%nat.
Proof. exact hex_round_trip. Qed.
Print Assumptions C54_block_round_trip.

Theorem C54_bad_length_rejected : forall bytes,
  (length bytes mod 16 <> 0)%nat -> hex_to_block bytes = Err.
Proof. exact hex_to_block_err. Qed.
Print Assumptions C54_bad_length_rejected.

Example C54_ex :
  block_to_hex [0x000102030405060708090a0b0c0d0e0f; 0x10] =
  [0; 1; 2; 3; 4; 5; 6; 7; 8; 9; 10; 11; 12; 13; 14; 15;
   0; 0; 0; 0; 0; 0; 0; 0; 0; 0; 0; 0; 0; 0; 0; 16] /\
  Forall (fun b => b < 2 ^ 128) [0x000102030405060708090a0b0c0d0e0f; 0x10].
Proof. split; [vm_compute; reflexivity|]. repeat constructor. Qed.

(** ** C55 *)
Theorem C55_concat_bits : forall res ins,
  rev (iconcat res ins) = rev res ++ flat_map (@rev bool) ins.
Proof. exact P_Hmac.rev_iconcat. Qed.
Print Assumptions C55_concat_bits.

Theorem C55_concat_value : forall res ins,
  N_of_bits (iconcat res ins) =
  fold_left (fun acc x => acc * 2 ^ N.of_nat (length x) + N_of_bits x) ins (N_of_bits res).
Proof. exact iconcat_value. Qed.
Print Assumptions C55_concat_value.

Theorem C55_concat_opt_agrees : forall res ins, concat_opt res ins = iconcat res ins.
Proof. exact concat_opt_eq. Qed.
Print Assumptions C55_concat_opt_agrees.

Theorem C55_move_concat_agrees : forall res ins, move_concat res ins = iconcat res ins.
Proof. exact move_concat_eq. Qed.
Print Assumptions C55_move_concat_agrees.

Theorem C55_reverse_concat : forall res ins, reverse_concat res ins = res ++ concat ins.
Proof. exact reverse_concat_eq. Qed.
Print Assumptions C55_reverse_concat.

Theorem C55_intvec_to_int_agrees : forall w ins, ins <> [] ->
  Forall (fun x => length x = w) ins ->
  exists ins', intvec_to_int ins = Ok (iconcat [] ins, ins').
Proof. exact intvec_to_int_ok. Qed.
Print Assumptions C55_intvec_to_int_agrees.

Theorem C55_extract_inverts_concat : forall ins res i x, nth_error ins i = Some x ->
  extract_integer (iconcat res ins) (length res + length (concat (firstn i ins))) (length x) = Ok x.
Proof. exact extract_concat. Qed.
Print Assumptions C55_extract_inverts_concat.

Example C55_ex :
  iconcat [] [int_of 8 0x12; int_of 8 0x34] = int_of 16 0x1234 /\
  concat_opt [] [int_of 8 0x12; int_of 8 0x34] = int_of 16 0x1234 /\
  reverse_concat [] [int_of 8 0x12; int_of 8 0x34] = int_of 16 0x3412 /\
  extract_integer (int_of 24 0x123456) 8 8 = Ok (int_of 8 0x34) /\
  extract_integer (int_of 24 0x123456) 20 8 = UB /\
  (exists l, intvec_to_int [int_of 8 0x12; int_of 8 0x34] = Ok (int_of 16 0x1234, l)).
Proof. vm_compute. repeat split. eexists. reflexivity. Qed.

(** ** C56 *)
Theorem C56_str_to_int_value : forall str, Forall (fun b => b < 256) str ->
  N_of_bits (str_to_int str) = be_val str /\ length (str_to_int str) = (8 * length str)%nat.
Proof. exact str_to_int_value. Qed.
Print Assumptions C56_str_to_int_value.

Theorem C56_int_to_hex32 : forall ws, int_to_hex32 ws = hex_text (flat_map (be_enc 4) ws).
Proof. exact int_to_hex32_ok. Qed.
Print Assumptions C56_int_to_hex32.

Theorem C56_int_to_hex64 : forall ws, int_to_hex64 ws = hex_text (flat_map (be_enc 8) ws).
Proof. exact int_to_hex64_ok. Qed.
Print Assumptions C56_int_to_hex64.

Theorem C56_int_to_hex32_injective : forall ws1 ws2,
  Forall (fun w => w < 2 ^ 32) ws1 -> Forall (fun w => w < 2 ^ 32) ws2 ->
  int_to_hex32 ws1 = int_to_hex32 ws2 -> ws1 = ws2.
Proof. exact int_to_hex32_inj. Qed.
Print Assumptions C56_int_to_hex32_injective.

Theorem C56_int_to_hex64_injective : forall ws1 ws2,
  Forall (fun w => w < 2 ^ 64) ws1 -> Forall (fun w => w < 2 ^ 64) ws2 ->
  int_to_hex64 ws1 = int_to_hex64 ws2 -> ws1 = ws2.
Proof. exact int_to_hex64_inj. Qed.
Print Assumptions C56_int_to_hex64_injective.

Example C56_ex :
  N_of_bits (str_to_int [97; 98; 99]) = 0x616263 /\
  int_to_hex32 [0xdeadbe0f] = [100; 101; 97; 100; 98; 101; 48; 102].
Proof. vm_compute. auto. Qed.
