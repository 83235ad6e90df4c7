(** Properties C24-C29 and C31: the garbled-circuit backends. *)
From Coq Require Import List NArith Bool Arith.
From Verif Require Import L_Bits L_Res S_Circuit S_Codec S_HalfGate M_Block M_Garble M_GarbleTr M_Shares
  P_Shares P_Garble P_GarbleFeed P_GarbleOpt P_GarbleTr.
From Verif Require Import P_Tight P_Misuse.
Import ListNotations.
Local Open Scope N_scope.

(** toy instances for the concrete cases *)
Definition toy_aes (x : N) : N := (x * x * 340282366920938463 + x * 987654321 + 77) mod 2 ^ 128.
Definition toy_sigma (x : N) : N := (x * 5 + 3) mod 2 ^ 128.
Definition toy_hash (l : list N) : N := fold_left (fun a x => (a * 1000003 + x) mod 2 ^ 128) l 1.
Definition toy_stream (seed : N) (i : nat) : N := toy_aes (seed + N.of_nat i).

(** ** C24: half gates *)
Theorem C24_half_gate : forall (sigma aes : N -> N) delta a b (va vb : bool) idx o t0 t1, getLSB delta = true ->
  garble_gate sigma aes a (N.lxor a delta) b (N.lxor b delta) delta idx = (o, t0, t1) ->
  eval_gate sigma aes (N.lxor a (sel va delta)) (N.lxor b (sel vb delta)) t0 t1 idx
    = N.lxor o (sel (va && vb) delta).
Proof. exact half_gate_ok. Qed.
Print Assumptions C24_half_gate.
Theorem C24_delta_is_odd : forall d, getLSB (set_delta d) = true.
Proof. exact set_delta_lsb. Qed.
Print Assumptions C24_delta_is_odd.
Example C24_ex :
  let d := set_delta 1234567890 in
  let '(o, t0, t1) := garble_gate toy_sigma toy_aes 1001 (N.lxor 1001 d) 2002 (N.lxor 2002 d) d 5 in
  eval_gate toy_sigma toy_aes (N.lxor 1001 d) (N.lxor 2002 d) t0 t1 5 = N.lxor o d /\
  eval_gate toy_sigma toy_aes (N.lxor 1001 d) 2002 t0 t1 5 = o /\ o <> N.lxor o d.
Proof. vm_compute. repeat split; discriminate. Qed.

(** ** C25: circuits garbled in advance *)
Theorem C25_offline_online : forall sigma aes Hash fixk lab delta, getLSB delta = true ->
  forall off on_, map shape off = map shape on_ -> wf 0 on_ = true ->
  exists s op, two_phase sigma aes Hash fixk lab delta off on_ = Ok (s, op) /\
    Forall2 seen (snd (spec_run [] on_)) op /\
    length (ng_w s) = length (fst (spec_run [] on_)) /\
    (forall i, lbl (ne_w s) i = N.lxor (lbl (ng_w s) i) (sel (wire (fst (spec_run [] on_)) i) delta)) /\
    n_ge s = [] /\ n_eg s = [].
Proof. exact two_phase_ok. Qed.
Print Assumptions C25_offline_online.
(** The order matters: if the offline pass does not issue the same sequence, the tables no
    longer belong to the gates and a public opening can be rejected. *)
Definition c25_on : list instr :=
  [IFeed ALICE [true; false]; IFeed BOB [true]; IPub true; IAnd 0 2; IXor 4 1; INot 5; IAnd 5 3; IReveal PUBLIC [4; 5; 6; 7]%nat; IReveal ALICE [7]%nat; IReveal BOB [0; 6]%nat].
Definition c25_off : list instr := map shape c25_on.
Definition c25_delta := set_delta 998877665544332211.
Example C25_ex : exists s, two_phase toy_sigma toy_aes toy_hash (toy_stream 1000) (toy_stream 5) c25_delta c25_off c25_on
  = Ok (s, [(PUBLIC, [true; true; false; true], [true; true; false; true]); (ALICE, [true], [false]); (BOB, [false; false], [true; false])]) /\
  wf 0 c25_on = true /\ length (ng_w s) = 8%nat.
Proof. eexists. split; [vm_compute; reflexivity|]. split; vm_compute; reflexivity. Qed.
Example C25_misaligned :
  two_phase toy_sigma toy_aes toy_hash (toy_stream 1000) (toy_stream 5) c25_delta
    [IFeed ALICE [false]; IFeed BOB [false]; IXor 0 1; IAnd 0 1; IAnd 0 2; IReveal PUBLIC [3; 4]%nat]
    [IFeed ALICE [true]; IFeed BOB [true]; IXor 0 1; IAnd 0 2; IAnd 0 1; IReveal PUBLIC [3; 4]%nat] = Err.
Proof. vm_compute. reflexivity. Qed.

(** ** C26: the streaming backend *)
Theorem C26_streaming : forall sigma aes Hash fixk Kc rnd lab delta, getLSB delta = true -> blk delta ->
  (forall x, blk (sigma x)) -> (forall x, blk (aes x)) -> (forall i, blk (fixk i)) -> (forall i, blk (Kc i)) -> (forall i, blk (lab i)) ->
  forall bs prog, wf 0 prog = true ->
  clean_run sigma aes Hash fixk Kc rnd lab delta (o_init Kc rnd delta bs) [] [] prog ->
  exists s op, o_run sigma aes Hash fixk Kc rnd lab delta (o_init Kc rnd delta bs) prog = Ok (s, op) /\
    Forall2 seen (snd (spec_run [] prog)) op /\
    og_gid s = N.of_nat (live_ands [] prog) /\ oe_gid s = og_gid s /\ o_ge s = [] /\ o_eg s = [] /\
    length (og_w s) = length (fst (spec_run [] prog)) /\
    (forall i, (i < length (og_w s))%nat ->
       match kind (fold_left kind_step prog []) i with
       | Some b => wire (fst (spec_run [] prog)) i = b /\ lbl (og_w s) i = opt_public b /\ lbl (oe_w s) i = opt_public b
       | None => lbl (oe_w s) i = N.lxor (lbl (og_w s) i) (sel (wire (fst (spec_run [] prog)) i) delta)
       end).
Proof. exact streaming_ok. Qed.
Print Assumptions C26_streaming.
(** a circuit with constant wires, equal wires (x xor x, x xor not x) and buffered inputs *)
Definition c26_prog : list instr :=
  [IFeed ALICE [true; false]; IFeed BOB [true; true; false]; IPub true; IPub false;
   IAnd 0 5; IAnd 2 6; IAnd 0 2; IXor 9 9; INot 9; IXor 9 11; IXor 1 5; IAnd 12 3; IFeed BOB [false; true; true];
   IAnd 14 15; IReveal PUBLIC [5; 6; 8; 9; 10; 11; 12; 13; 14; 18]%nat; IReveal ALICE [2; 5]%nat; IReveal BOB [0; 16]%nat].
Example C26_ex :
  clean_runb toy_sigma toy_aes toy_hash (toy_stream 77) (toy_stream 900) (fun i => N.testbit (toy_stream 3 i) 4) (toy_stream 500) c25_delta
    (o_init (toy_stream 900) (fun i => N.testbit (toy_stream 3 i) 4) c25_delta 4) [] [] c26_prog = true /\
  exists s op, o_run toy_sigma toy_aes toy_hash (toy_stream 77) (toy_stream 900) (fun i => N.testbit (toy_stream 3 i) 4) (toy_stream 500) c25_delta
    (o_init (toy_stream 900) (fun i => N.testbit (toy_stream 3 i) 4) c25_delta 4) c26_prog = Ok (s, op) /\
    og_gid s = 3 /\ wf 0 c26_prog = true /\
    nth 0 op (BOB, [], []) = (PUBLIC, [true; false; false; true; false; false; true; true; true; false], [true; false; false; true; false; false; true; true; true; false]).
Proof. split; [vm_compute; reflexivity|]. eexists _, _. split; [vm_compute; reflexivity|]. vm_compute. repeat split; reflexivity. Qed.
(** opening to one party only: the other gets the values of the constant wires and false
    for all the rest, whatever the labels are *)
Theorem C26_not_receiving : forall labels,
  fst (og_reveal_send labels) = map isOne labels /\ fst (oe_reveal_send labels) = map isOne labels.
Proof. exact not_receiving. Qed.
Print Assumptions C26_not_receiving.
Example C26_not_receiving_ex : fst (og_reveal_send [opt_public true; opt_public false; 77; 76]) = [true; false; false; false].
Proof. vm_compute. reflexivity. Qed.
Theorem C26_checker : forall sigma aes Hash fixk Kc rnd lab delta prog s w k,
  clean_runb sigma aes Hash fixk Kc rnd lab delta s w k prog = true -> clean_run sigma aes Hash fixk Kc rnd lab delta s w k prog.
Proof. exact clean_runb_ok. Qed.
Print Assumptions C26_checker.

(** ** C27: input labels *)
Theorem C27_feed_histories : forall bs (ps : list (party * nat)), exists src ridx, NoDup src /\ NoDup ridx /\
  forall Kc rnd lab delta h, lens h = ps ->
    forallb (fun x => match fst x with PUBLIC => false | _ => true end) h = true ->
    exists lg ms ds fg fe,
      feeds Kc rnd lab delta (gen_init Kc bs) (eva_init Kc rnd delta bs) h = Ok (lg, evl delta lg (values h), ms, fg, fe) /\
      lg = evl delta (map (src_val Kc lab) src) ds /\ length ds = length src /\ length lg = length (values h) /\
      concat (map msg_bits ms) = map2 xorb (map rnd ridx) (buffered bs h) /\ length ridx = length (buffered bs h) /\
      f_top fg = f_top fe /\ (f_top fg <= bs)%nat.
Proof. exact feed_histories. Qed.
Print Assumptions C27_feed_histories.
(** sizes below, across and above the buffer of 4 *)
Example C27_ex : exists lg le ms fg fe,
  feeds (toy_stream 900) (fun i => N.testbit (toy_stream 3 i) 4) (toy_stream 500) c25_delta
    (gen_init (toy_stream 900) 4) (eva_init (toy_stream 900) (fun i => N.testbit (toy_stream 3 i) 4) c25_delta 4)
    [(BOB, [true; false; true]); (ALICE, [true; true]); (BOB, [true; true]); (BOB, [true; false; true; true; false]); (BOB, [false; true; true; true])]
    = Ok (lg, le, ms, fg, fe) /\ length ms = 3%nat /\ length lg = 16%nat /\ f_top fg = 1%nat /\ f_cot fg = 17%nat /\
    map2 N.lxor lg le = map (fun b : bool => sel b c25_delta) [true; false; true; true; true; true; true; true; false; true; true; false; false; true; true; true].
Proof. eexists _, _, _, _, _. split; [vm_compute; reflexivity|]. vm_compute. repeat split; reflexivity. Qed.

(** ** C28: after set_batch_size the buffers are not filled *)
Theorem C28_set_batch_size_refuted : exists Kc lab delta bs size bits ch,
  gen_feed Kc lab delta BOB bits (gen_init Kc bs) ch <> UB /\
  gen_feed Kc lab delta BOB bits (set_batch_size size (gen_init Kc bs)) ch = UB.
Proof.
  exists (toy_stream 900), (toy_stream 500), c25_delta, 8%nat, 8%nat, [true], [MBits [true]].
  split; [vm_compute; discriminate | apply set_batch_size_feed_ub; [discriminate | apply Nat.leb_le; reflexivity]].
Qed.
Print Assumptions C28_set_batch_size_refuted.
Theorem C28_every_buffered_feed : forall Kc lab delta bs size bits ch, bits <> [] -> (length bits <= size)%nat ->
  gen_feed Kc lab delta BOB bits (set_batch_size size (gen_init Kc bs)) ch = UB.
Proof. exact set_batch_size_feed_ub. Qed.
Print Assumptions C28_every_buffered_feed.

(** ** C29: opening to both parties *)
Theorem C29_honest : forall Hash delta lg v, length lg = length v -> Forall (fun l => ~ special l) lg ->
  og_reveal_check Hash delta lg v (Hash (evl delta lg v)) = Ok v.
Proof. exact reveal_honest. Qed.
Print Assumptions C29_honest.
Theorem C29_online_honest : forall Hash delta lg v, length lg = length v ->
  ng_reveal_check Hash delta lg v (Hash (evl delta lg v)) = Ok v.
Proof. exact online_reveal_honest. Qed.
Print Assumptions C29_online_honest.
Theorem C29_cheating_evaluator : forall Hash delta lg b h L v i b', og_reveal_check Hash delta lg b h = Ok b' -> h = Hash L ->
  length b = length lg -> (i < length lg)%nat -> is_public (lbl lg i) = false -> nth i b false = negb v ->
  (exists L', L' <> L /\ Hash L' = Hash L) \/
  lbl L i = N.lxor (N.lxor (lbl lg i) (sel v delta)) delta.
Proof. exact reveal_lie. Qed.
Print Assumptions C29_cheating_evaluator.
Theorem C29_online_cheating_evaluator : forall Hash delta lg b h L b', ng_reveal_check Hash delta lg b h = Ok b' -> h = Hash L ->
  length b = length lg ->
  b' = b /\
  let blks := map2 (fun l (x : bool) => if x then N.lxor l delta else l) lg b in
  (L <> blks /\ Hash L = Hash blks) \/
  (length L = length lg /\
   forall i, (i < length lg)%nat -> lbl L i = N.lxor (lbl lg i) (sel (nth i b false) delta)).
Proof. exact online_reveal_sound. Qed.
Print Assumptions C29_online_cheating_evaluator.
Example C29_ex : og_reveal_check toy_hash c25_delta [1001; 2002] [true; false] (toy_hash [N.lxor 1001 c25_delta; 2002]) = Ok [true; false] /\
  og_reveal_check toy_hash c25_delta [1001; 2002] [true; true] (toy_hash [N.lxor 1001 c25_delta; 2002]) = Err.
Proof. vm_compute. split; reflexivity. Qed.
(** For a constant wire the streaming garbler overwrites the value it knows by the bit the
    evaluator sends and hashes a label that does not depend on that bit. *)
Theorem C29_public_wire_lie_refuted : exists b l, forall Hash delta,
  l = [opt_public true] /\ b = [false] /\ og_reveal_check Hash delta l b (Hash l) = Ok b.
Proof.
  exists [false], [opt_public true]. intros Hash delta. split; [reflexivity|]. split; [reflexivity|].
  unfold og_reveal_check. cbn [map2]. change (is_public (opt_public true)) with true. cbn iota. rewrite N.eqb_refl. reflexivity.
Qed.
Print Assumptions C29_public_wire_lie_refuted.

(** ** C31: XOR shares of garbled wires *)
Theorem C31_block_shares : forall delta lg v, getLSB delta = true -> length lg = 128%nat -> length v = 128%nat ->
  exists a b, integer_to_block (map getLSB lg) = Ok a /\ integer_to_block (map getLSB (evl delta lg v)) = Ok b /\
    N.lxor a b = N_of_bits v.
Proof.
  intros delta lg v Hd Hl Hv. rewrite lsb_evl by (assumption || congruence).
  destruct (itb_share (map getLSB lg) v) as (a & b & H1 & H2 & H3 & _); [rewrite map_length; exact Hl | exact Hv |].
  exists a, b. split; [exact H1|]. split; [exact H2 | exact H3].
Qed.
Print Assumptions C31_block_shares.
Theorem C31_block_vector_shares : forall delta lg v k, getLSB delta = true -> length lg = (128 * k)%nat -> length v = (128 * k)%nat ->
  exists a b, integer_to_blocks (map getLSB lg) = Ok a /\ integer_to_blocks (map getLSB (evl delta lg v)) = Ok b /\
    map2 N.lxor a b = map (fun i => N_of_bits (firstn 128 (skipn (128 * (k - (i + 1))) v))) (seq 0 k).
Proof.
  intros delta lg v k Hd Hl Hv. rewrite lsb_evl by (assumption || congruence).
  apply itbs_share; [rewrite map_length; exact Hl | exact Hv].
Qed.
Print Assumptions C31_block_vector_shares.
Theorem C31_char_shares : forall delta lg n x, getLSB delta = true -> length lg = (8 * n)%nat ->
  exists a b, integer_to_chars (map getLSB lg) = Ok a /\
    integer_to_chars (map getLSB (evl delta lg (bits_of_N (8 * n) x))) = Ok b /\ map2 N.lxor a b = be_enc n x.
Proof.
  intros delta lg n x Hd Hl. rewrite lsb_evl by (rewrite ?bits_of_N_length; assumption).
  destruct (itc_share (map getLSB lg) (bits_of_N (8 * n) x) n) as (a & b & H1 & H2 & H3 & _);
    [rewrite map_length; exact Hl | apply bits_of_N_length |].
  exists a, b. rewrite <- bytes_be_bits. split; [exact H1|]. split; [exact H2 | exact H3].
Qed.
Print Assumptions C31_char_shares.
Example C31_ex : let lg := map (toy_stream 40) (seq 0 16) in
  match integer_to_chars (map getLSB lg), integer_to_chars (map getLSB (evl c25_delta lg (bits_of_N 16 51966))) with
  | Ok a, Ok b => map2 N.lxor a b = [202; 254] /\ a <> [0; 0]
  | _, _ => False
  end.
Proof. vm_compute. split; [reflexivity | discriminate]. Qed.
(** Other sizes: the two block conversions report them, integer_to_chars reads past the labels. *)
Theorem C31_sizes : forall lsb,
  (length lsb <> 128%nat -> integer_to_block lsb = Err) /\
  (Nat.modulo (length lsb) 128 <> 0%nat -> integer_to_blocks lsb = Err) /\
  (Nat.modulo (length lsb) 8 <> 0%nat -> integer_to_chars lsb = UB).
Proof. exact share_sizes. Qed.
Print Assumptions C31_sizes.
Example C31_sizes_ex : length (repeat true 100) <> 128%nat /\ Nat.modulo (length (repeat true 100)) 128 <> 0%nat /\ Nat.modulo (length (repeat true 100)) 8 <> 0%nat.
Proof. repeat split; discriminate. Qed.
(** A constant wire of the streaming backend has the same label on both sides, so its
    shares always XOR to zero. *)
Theorem C31_public_wire_refuted : exists v, N_of_bits v <> 0 /\ length v = 128%nat /\
  let l := map opt_public v in
  exists a, integer_to_block (map getLSB l) = Ok a /\ N.lxor a a = 0.
Proof.
  exists (true :: repeat false 127). split; [vm_compute; discriminate|]. split; [reflexivity|]. cbn zeta.
  eexists. split; [vm_compute; reflexivity | apply N.lxor_nilpotent].
Qed.
Print Assumptions C31_public_wire_refuted.

(** ** C67: every gate has its own two hash numbers *)
(** The k-th table sent is the half gate with the hash numbers 2k and 2k+1, so no number is
    used for two halves as long as there are at most 2^63 gates. *)
Theorem C67_streaming : forall sigma aes Hash fixk Kc rnd lab delta bs prog, N.of_nat (length prog) <= 2 ^ 63 ->
  forall k m, nth_error (o_tables sigma aes Hash fixk Kc rnd lab delta (o_init Kc rnd delta bs) prog) k = Some m ->
  exists a b, m = MTable (garbler_half (label_hash sigma aes) delta a b (2 * N.of_nat k))
                         (evaluator_half (label_hash sigma aes) delta a b (2 * N.of_nat k)).
Proof. exact (fun sigma aes Hash fixk Kc rnd lab delta bs prog => streaming_tables sigma aes Hash fixk Kc rnd lab delta prog (o_init Kc rnd delta bs)). Qed.
Print Assumptions C67_streaming.
Theorem C67_offline : forall sigma aes fixk lab delta prog, N.of_nat (length prog) <= 2 ^ 63 ->
  forall g e ch, f_run sigma aes fixk lab delta f_init_g f_init_e [] prog = Ok (g, e, ch) ->
  length (fg_out g) = ands prog /\
  forall k, (k < length (fg_out g))%nat -> exists a b, nth k (fg_out g) 0 = gate_out (label_hash sigma aes) delta a b (2 * N.of_nat k) /\
    nth_error (tables (f_sent sigma aes fixk lab delta f_init_g prog)) k
      = Some (garbler_half (label_hash sigma aes) delta a b (2 * N.of_nat k), evaluator_half (label_hash sigma aes) delta a b (2 * N.of_nat k)).
Proof. exact (fun sigma aes fixk lab delta prog L g e ch R => offline_labels sigma aes fixk lab delta prog f_init_g (fg_out g) L f_init_e [] g e ch R eq_refl). Qed.
Print Assumptions C67_offline.
Example C67_ex : length (o_tables toy_sigma toy_aes toy_hash (toy_stream 77) (toy_stream 900) (fun i => N.testbit (toy_stream 3 i) 4) (toy_stream 500) c25_delta
    (o_init (toy_stream 900) (fun i => N.testbit (toy_stream 3 i) 4) c25_delta 4) c26_prog) = 3%nat /\
  length (tables (f_sent toy_sigma toy_aes (toy_stream 1000) (toy_stream 5) c25_delta f_init_g c25_off)) = 2%nat /\
  (match f_run toy_sigma toy_aes (toy_stream 1000) (toy_stream 5) c25_delta f_init_g f_init_e [] c25_off with Ok (g, _, _) => length (fg_out g) = 2%nat | _ => False end).
Proof. vm_compute. repeat split. Qed.
