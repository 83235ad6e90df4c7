(** Property C107: the conversion of bits into commitments against a peer that sends any bytes. *)
From Coq Require Import List NArith ZArith Bool Arith Lia.
From Verif Require Import L_Bits L_Res S_Sched S_Feed L_Group S_Ec M_Bn M_Ec M_Ole M_Commit M_ComConv M_Exch M_ExchCc D_Toy.
From Verif Require Import P_Ole P_FeedCc.
Import ListNotations.
Local Open Scope Z_scope.

(** ** C107 *)
(** Whatever bytes the other side sends, the key holder (compute_com_send) and the MAC holder
    (compute_com_recv) come to undefined behaviour only if the last thing received is a four-byte length
    above 1000.  The numbers received are at most as long as the buffer they are later written to. *)
Theorem C107_only_overrun : forall (C : Curve) ccrh ccrh_o hash prg (h : pt (cgrp C)) q, bound1000 q -> bound1000 (order (cgrp C)) -> (forall m, length (hash m) = DIGEST_SIZE) ->
  forall bs sends Delta rows ins, (0 < bs)%nat -> length rows = 1%nat -> Forall (Forall (fun b => (b < 256)%N)) ins ->
  (forall seed bDelta aDelta com0 bKEYs, 0 <= aDelta < q -> length com0 = ((length bKEYs + bs - 1) / bs)%nat ->
     fed (p_cc_send (C := C) ccrh ccrh_o hash prg h q bs seed bDelta aDelta sends Delta rows com0 bKEYs) ins UB -> exists pre h, ins = pre ++ [h] /\ oversized h) /\
  (forall r0 rnds rnd_r yseed buf0 bMACs, length rnds = ((length bMACs + bs - 1) / bs)%nat ->
     fed (p_cc_recv (C := C) ccrh ccrh_o hash prg h q bs r0 rnds rnd_r yseed buf0 sends Delta rows bMACs) ins UB -> exists pre h, ins = pre ++ [h] /\ oversized h).
Proof. exact cc_only. Qed.
Print Assumptions C107_only_overrun.
(** That it cannot be reached is false: the party that receives in the OLE is led there by the first length,
    before any commitment is made. *)
Theorem C107_overrun_refuted : forall (C : Curve) ccrh ccrh_o hash prg (h : pt (cgrp C)) q, bound1000 q ->
  forall bs Delta row hd, cc_size_ok q bs = true -> length row = BN_num_bits q -> oversized hd ->
  (forall seed bDelta aDelta com0 bKEYs, 0 <= aDelta < q ->
     fed (p_cc_send (C := C) ccrh ccrh_o hash prg h q bs seed bDelta aDelta false Delta [row] com0 bKEYs) [hd] UB) /\
  (forall r0 rnds rnd_r yseed buf0 bMACs com, length com = DIGEST_SIZE ->
     fed (p_cc_recv (C := C) ccrh ccrh_o hash prg h q bs r0 rnds rnd_r yseed buf0 true Delta [row] bMACs) [com; hd] UB).
Proof. exact cc_over. Qed.
Print Assumptions C107_overrun_refuted.

(** over the toy group, with its order for q, three bits in chunks of two *)
Example C107_ex :
  let hash := fun _ : list N => repeat 7%N 32 in let prg := fun _ _ n => repeat 1%N n in
  bound1000 19 /\ bound1000 (order (cgrp toy)) /\ cc_size_ok 19 2 = true /\ BN_num_bits 19 = 5%nat /\
  (forall ins, Forall (Forall (fun b => (b < 256)%N)) ins ->
     fed (p_cc_recv (C := toy) (fun x => x) (fun x => x) hash prg (toy_pt 6) 19 2 3 [4; 5] 6 8%N (repeat 0%N 65) true 33%N [[1; 2; 3; 4; 5]%N] [2; 3; 4]%N) ins UB ->
     exists pre h, ins = pre ++ [h] /\ oversized h) /\
  fed (p_cc_recv (C := toy) (fun x => x) (fun x => x) hash prg (toy_pt 6) 19 2 3 [4; 5] 6 8%N (repeat 0%N 65) true 33%N [[1; 2; 3; 4; 5]%N] [2; 3; 4]%N)
    [repeat 1%N 32; [233; 3; 0; 0]%N] UB.
Proof.
  intros hash prg. assert (B19 : bound1000 19).
  { split; [reflexivity|]. apply Z.le_trans with (256 ^ 1); [discriminate|]. apply Z.pow_le_mono_r; [reflexivity|discriminate]. }
  split; [exact B19|]. split; [exact B19|]. split; [reflexivity|]. split; [reflexivity|]. split.
  - intros ins BI F. eapply (proj2 (C107_only_overrun toy (fun x => x) (fun x => x) hash prg (toy_pt 6) 19 B19 B19 (fun _ => eq_refl) 2%nat true 33%N [[1; 2; 3; 4; 5]%N] ins ltac:(repeat constructor) eq_refl BI));
      [|exact F]. reflexivity.
  - exact (proj2 (C107_overrun_refuted toy (fun x => x) (fun x => x) hash prg (toy_pt 6) 19 B19 2%nat 33%N [1; 2; 3; 4; 5]%N [233; 3; 0; 0]%N eq_refl eq_refl
      (ex_intro _ 233%N (ex_intro _ 3%N (ex_intro _ 0%N (ex_intro _ 0%N (conj eq_refl eq_refl)))))) 3 [4; 5] 6 8%N (repeat 0%N 65) [2; 3; 4]%N (repeat 1%N 32) eq_refl).
Qed.
