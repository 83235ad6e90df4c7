(** Property C102: the verdicts of the conversion of bits into commitments, and of the client on the opened
    scalar, whatever the peer sends. *)
From Coq Require Import List NArith ZArith Bool Arith Lia.
From Verif Require Import L_Bits L_Res L_Modq L_Group S_Sched S_Eat S_Cmp D_Toy.
From Verif Require Import M_Utils M_Bn M_Ole M_Ec M_Commit M_ComConv M_Exch M_ExchCc M_ExchDh.
From Verif Require Import P_Commit P_ComConv P_ComProps P_CcVerdict P_RevVerdict C_ViewCom.
Import ListNotations.
Local Open Scope Z_scope.

(** ** C102 *)
(** The holder of the MACs, given any bytes: if its program returns, its verdict is true exactly if the key
    holder's opening fits the first commitment and the numbers it sent (both up to a common zero byte, C40). *)
Theorem C102_mac_holder : forall (C : Curve) ccrh ccrh_o hash prg (h : pt (cgrp C)) q, (forall m, length (hash m) = DIGEST_SIZE) ->
  forall bs r0 rnds rnd_r yseed buf0 sends Delta rows bMACs s coms b r,
  eat (p_cc_recv (C := C) ccrh ccrh_o hash prg h q bs r0 rnds rnd_r yseed buf0 sends Delta rows bMACs) s = Some (Ok (coms, b), r) ->
  exists rMAC s1 arrs s2 sb t1 db t2 aDelta,
    (DIGEST_SIZE <= length s)%nat /\
    eat (p_cc_ole ccrh_o q (negb sends) Delta rows r0) (skipn DIGEST_SIZE s) = Some (Ok rMAC, s1) /\
    eat (p_recv_arrs IO (length bMACs)) s1 = Some (Ok arrs, s2) /\
    recv_data 16 s2 = Ok (sb, t1) /\ recv_data 16 t1 = Ok (db, t2) /\ recv_bn t2 = Ok (aDelta, r) /\
    let arr := BN_bn2bin aDelta in
    let bDelta := block_of_bytes db in
    (b = true <->
     nul_equal DIGEST_SIZE (hash (bytes_of_block (block_of_bytes sb) ++ bytes_of_block bDelta ++ u32_bytes (N.of_nat (length arr)) ++ arr)) (firstn DIGEST_SIZE s) /\
     nul_equal DIGEST_SIZE (hash (flat_map (fun m => BN_bn2bin ((bn_H ccrh m q + bn_H ccrh (N.lxor m bDelta) q + aDelta) mod q)) bMACs)) (hash (concat arrs))).
Proof. exact @recv_verdict. Qed.
Print Assumptions C102_mac_holder.
(** The holder of the keys, given any bytes: its verdict is true exactly if the combination of the received
    points is opened by the received numbers, the committed MAC is the one opened afterwards, and it is the
    right one; the points it returns are the received ones. *)
Theorem C102_key_holder : forall (C : Curve) ccrh ccrh_o hash prg (h : pt (cgrp C)) q, (forall m, length (hash m) = DIGEST_SIZE) ->
  forall bs seed bDelta aDelta sends Delta rows com0 bKEYs s coms b r, 0 < q ->
  eat (p_cc_send (C := C) ccrh ccrh_o hash prg h q bs seed bDelta aDelta sends Delta rows com0 bKEYs) s = Some (Ok (coms, b), r) ->
  exists com oa s1 keys Ps hs s2 rnd_y s3 msg_y s4 yMAC,
    cc_hash hash seed bDelta aDelta = Ok com /\
    eat (p_cc_ole ccrh_o q sends Delta rows aDelta) s = Some (Ok oa, s1) /\
    cc_batches q (map snd (cc_convert ccrh q bDelta aDelta bKEYs)) bs (length com0) = Ok keys /\
    eat (p_recv_points (com0 ++ [EC_POINT_new])) s1 = Some (Ok (Ps, hs), s2) /\ (DIGEST_SIZE <= length s2)%nat /\
    recv_bn (skipn DIGEST_SIZE s2) = Ok (rnd_y, s3) /\ recv_bn s3 = Ok (msg_y, s4) /\ (16 <= length s4)%nat /\
    recv_bn (skipn 16 s4) = Ok (yMAC, r) /\ coms = firstn (length com0) Ps /\
    let chi := cc_chi prg q (hash ((com ++ hash (bn_hashed (map fst (cc_convert ccrh q bDelta aDelta bKEYs)))) ++ hs)) (length com0) in
    (b = true <->
     lincomb (chi ++ [1]) Ps = padd (smul msg_y gen) (smul rnd_y h) /\
     firstn DIGEST_SIZE s2 = hash (bytes_of_block (block_of_bytes (firstn 16 s4)) ++ BN_bn2bin yMAC) /\
     yMAC = (dot chi keys + msg_y * aDelta - oa) mod q).
Proof. exact @send_verdict. Qed.
Print Assumptions C102_key_holder.

(** reveal_pms of the client, given any bytes: with a number t that fits the announced point the secret is
    the x-coordinate of t Ts + tb Ts, with another it stops; more than 1000 bytes are undefined (C42). *)
Theorem C102_reveal : forall (C : Curve) (Ta : pt (cgrp C)) tb Ts s o r, annihilates C ->
  eat (p_reveal_alice (C := C) Ta tb Ts) s = Some (o, r) ->
  (o = UB /\ recv_bn s = UB) \/
  exists t, recv_bn s = Ok (t, r) /\ (smul t gen = Ta -> o = Ok (fst (affine (padd (smul t Ts) (smul tb Ts))))) /\ (smul t gen <> Ta -> o = Err).
Proof. exact reveal_verdict. Qed.
Print Assumptions C102_reveal.
Example C102_reveal_ex : annihilates toy /\
  eat (p_reveal_alice (smul 4 (@gen toy)) 3 (toy_pt 6)) [1; 0; 0; 0; 4]%N = Some (Ok (fst (affine (padd (smul 4 (toy_pt 6)) (smul 3 (toy_pt 6 : pt toy))))), []) /\
  eat (p_reveal_alice (smul 4 (@gen toy)) 3 (toy_pt 6)) [1; 0; 0; 0; 5]%N = Some (Err, []) /\
  eat (p_reveal_alice (smul 4 (@gen toy)) 3 (toy_pt 6)) [233; 3; 0; 0; 5]%N = Some (UB, [5%N]).
Proof. split; [exact toy_annihilates|]. vm_compute. repeat split. Qed.

(** an example: the bytes of an honest run over the toy group, taken by running the two programs in turn *)
Fixpoint dialog {A B} (fuel : nat) (p : proc A) (q : proc B) (ab ba ra rb : list N) : list N * list N :=
  match fuel with
  | O => (ra, rb)
  | S f =>
      match p, q with
      | Send _ bs p, q => dialog f p q (ab ++ bs) ba ra rb
      | Flush _ p, q => dialog f p q ab ba ra rb
      | p, Send _ bs q => dialog f p q ab (ba ++ bs) ra rb
      | p, Flush _ q => dialog f p q ab ba ra rb
      | Recv c n k, q =>
          if (n <=? length ba)%nat then dialog f (k (firstn n ba)) q ab (skipn n ba) (ra ++ firstn n ba) rb
          else match q with
               | Recv _ m j => if (m <=? length ab)%nat then dialog f (Recv c n k) (j (firstn m ab)) (skipn m ab) ba ra (rb ++ firstn m ab) else (ra, rb)
               | _ => (ra, rb)
               end
      | Ret a, Recv _ m j => if (m <=? length ab)%nat then dialog f (Ret a) (j (firstn m ab)) (skipn m ab) ba ra (rb ++ firstn m ab) else (ra, rb)
      | Ret _, Ret _ => (ra, rb)
      end
  end.
Definition ex_hash2 (m : list N) : list N := (N.of_nat (length m) + 1)%N :: (fold_left N.add m 1 mod 256)%N :: repeat 9%N 30.
Definition ex_key := key_holder (C := toy) ex_ccrh ex_ccrh ex_hash2 ex_prg (toy_pt 6) (ex_pa true).
Definition ex_mac := mac_holder (C := toy) ex_ccrh ex_ccrh ex_hash2 ex_prg (toy_pt 6) (ex_pa true) ex_pb [true; true; false; true; true; false; true].
Definition ex_views := dialog 400 ex_key ex_mac [] [] [] [].
(** changing the byte at one place *)
Definition touch (i : nat) (l : list N) : list N := firstn i l ++ [(nth i l 0 + 1)%N] ++ skipn (S i) l.
Definition verdict {A} (x : option (res (A * bool) * list N)) : option bool :=
  match x with Some (Ok (_, b), []) => Some b | _ => None end.
(** the honest bytes are accepted, and changed in one place they are rejected: for the MAC holder the first
    commitment and the opened values, for the key holder the opened MAC *)
Example C102_ex :
  verdict (eat ex_mac (snd ex_views)) = Some true /\ verdict (eat ex_key (fst ex_views)) = Some true /\
  verdict (eat ex_mac (touch 1 (snd ex_views))) = Some false /\ verdict (eat ex_mac (touch (length (snd ex_views) - 22) (snd ex_views))) = Some false /\
  verdict (eat ex_key (touch (length (fst ex_views) - 1) (fst ex_views))) = Some false.
Proof. vm_compute. repeat split. Qed.
