(** Properties C78-C82: the exchange that converts authenticated bits into commitments, what it
    shows to the key holder, and what the commitments of its test set-up are worth. *)
From Coq Require Import List NArith ZArith Bool Arith Lia Znumtheory.
From Verif Require Import L_Bits L_Res L_Modq L_Group S_Sched S_View S_OleView D_Toy.
From Verif Require Import M_Utils M_Bn M_Ole M_Ec M_Commit M_ComConv M_Exch M_ExchCc M_CheatCc.
From Verif Require Import P_Ole P_Commit P_ComConv P_ExchCc P_ViewCom P_ComProps P_OleHide P_Tight.
Import ListNotations.
Local Open Scope Z_scope.

(** the example: seven keys in chunks of four over the toy group of order 19 *)
Definition ex_hash (m : list N) : list N := 0%N :: N.of_nat (length m) :: repeat 9%N 30.
Definition ex_prg (s : N) (i n : nat) : list N := repeat (N.of_nat i + 2)%N n.
Definition ex_ccrh (x : N) : N := (x * x + 3)%N.
Definition ex_pa (sends : bool) : pa_vals :=
  {| pa_bs := 4; pa_seed := 77; pa_bDelta := 12345; pa_aDelta := 11; pa_sends := sends; pa_Delta := 1001;
     pa_row := [4; 8; 12; 16; 20]%N; pa_keys := [2; 40; 600; 8; 10; 12; 1400]%N |}.
Definition ex_pb : pb_vals := {| pb_r := 5; pb_rnds := [8; 2]; pb_rnd_r := 13; pb_yseed := 99; pb_buf := repeat 0%N 65 |}.
Lemma toy_bound : bound1000 (order toy).
Proof.
  change (order toy) with 19. split; [lia|]. change 256 with (2 ^ 8). rewrite <- Z.pow_mul_r by lia.
  transitivity (2 ^ 5); [lia|]. apply Z.pow_le_mono_r; [lia|]. Local Transparent bn_buf. unfold bn_buf. lia.
Qed.
Lemma toy_prime : prime (order toy).
Proof.
  change (order toy) with 19. apply prime_intro; [lia|]. intros n Hn. apply Zgcd_1_rel_prime.
  assert (n = 1 \/ n = 2 \/ n = 3 \/ n = 4 \/ n = 5 \/ n = 6 \/ n = 7 \/ n = 8 \/ n = 9 \/ n = 10 \/ n = 11 \/ n = 12 \/ n = 13 \/ n = 14 \/
          n = 15 \/ n = 16 \/ n = 17 \/ n = 18) as H by lia.
  repeat (destruct H as [H | H]; [subst; reflexivity|]). subst. reflexivity.
Qed.
Lemma ex_pa_ok b : pa_ok toy (ex_pa b).
Proof.
  unfold pa_ok. cbn [ex_pa pa_bs pa_seed pa_bDelta pa_aDelta pa_sends pa_Delta pa_row pa_keys]. change (order toy) with 19.
  repeat split; try (vm_compute; congruence); try reflexivity; try lia. repeat constructor.
Qed.
Lemma ex_pb_drawn b : pb_drawn toy (ex_pa b) ex_pb.
Proof.
  unfold pb_drawn. cbn [ex_pb pb_r pb_rnds pb_rnd_r pb_yseed pb_buf]. change (order toy) with 19.
  repeat split; try lia; try reflexivity. repeat constructor; lia.
Qed.

(** ** C78: the exchange ends with the commitments on both sides, if its last message leaves *)
Theorem C78_completes : forall ccrh ccrh_o hash prg (C : Curve) (h : pt C), annihilates C -> bound1000 (order C) ->
  (forall m, length (hash m) = DIGEST_SIZE) -> forall a, pa_ok C a -> forall v bits, pb_drawn C a v -> length bits = length (pa_keys a) ->
  always_completes (key_holder ccrh ccrh_o hash prg h a) (mac_holder ccrh ccrh_o hash prg h a v bits)
    (Ok (commitments h a bits v, true)) (Ok (commitments h a bits v, true)).
Proof. exact completes_prop. Qed.
Print Assumptions C78_completes.
(** the challenge: reduced coefficients that depend on the first half of the digest only *)
Theorem C78_challenge : forall prg q digest n, 0 < q ->
  length (cc_chi prg q digest n) = n /\ Forall (fun c => 0 <= c < q) (cc_chi prg q digest n) /\
  forall d', firstn 16 d' = firstn 16 digest -> cc_chi prg q d' n = cc_chi prg q digest n.
Proof. exact chi_shape. Qed.
Print Assumptions C78_challenge.
Example C78_challenge_ex : cc_chi ex_prg 19 (ex_hash [1%N]) 3 = [2; 3; 4] /\
  firstn 16 (ex_hash [1%N]) = firstn 16 (firstn 16 (ex_hash [1%N]) ++ [200%N]).
Proof. vm_compute. split; reflexivity. Qed.
(** the numbers of convert_recv: a length prefix above 1000 overruns the buffer here as well *)
Theorem C42_hashed_recv : forall c, exists k, p_recv_arr c = Recv c 4 k /\
  forall hd, (k hd = Ret UB <-> (1000 < u32_value hd)%N) /\
    ((u32_value hd <= 1000)%N -> k hd = Recv c (N.to_nat (u32_value hd)) (fun arr => Ret (Ok arr))).
Proof. exact recv_arr_len. Qed.
Print Assumptions C42_hashed_recv.
Example C42_hashed_recv_ex : u32_value [233; 3; 0; 0]%N = 1001%N /\ u32_value [232; 3; 0; 0]%N = 1000%N.
Proof. vm_compute. split; reflexivity. Qed.
(** compute_com_recv ends without a flush: the key holder can wait for the opening for ever *)
Theorem C78_unflushed_refuted : exists ccrh ccrh_o hash prg (C : Curve) (h : pt C) a v bits,
  annihilates C /\ pa_ok C a /\ pb_drawn C a v /\ length bits = length (pa_keys a) /\
  can_deadlock (key_holder ccrh ccrh_o hash prg h a) (mac_holder_unflushed ccrh ccrh_o hash prg h a v bits).
Proof.
  exists ex_ccrh, ex_ccrh, ex_hash, ex_prg, toy, (toy_pt 6), (ex_pa false), ex_pb, [true; true; false; true; true; false; true].
  split; [exact toy_annihilates|]. split; [apply ex_pa_ok|]. split; [apply ex_pb_drawn|]. split; [reflexivity|].
  apply unflushed_prop; [exact toy_annihilates|exact toy_bound|reflexivity|apply ex_pa_ok|apply ex_pb_drawn|reflexivity].
Qed.
Print Assumptions C78_unflushed_refuted.
(** and this is so whatever the values *)
Theorem C78_unflushed : forall ccrh ccrh_o hash prg (C : Curve) (h : pt C), annihilates C -> bound1000 (order C) ->
  (forall m, length (hash m) = DIGEST_SIZE) -> forall a, pa_ok C a -> forall v bits, pb_drawn C a v -> length bits = length (pa_keys a) ->
  can_deadlock (key_holder ccrh ccrh_o hash prg h a) (mac_holder_unflushed ccrh ccrh_o hash prg h a v bits).
Proof. exact unflushed_prop. Qed.
Print Assumptions C78_unflushed.
Example C78_ex : let bits := [true; true; false; true; true; false; true] in
  numbers (ex_pa true) bits = [11; 5] /\ map (coords (c := toy)) (commitments (toy_pt 6) (ex_pa true) bits ex_pb) = map (coords (c := toy)) [toy_pt 2; toy_pt 17] /\
  always_completes (key_holder (C := toy) ex_ccrh ex_ccrh ex_hash ex_prg (toy_pt 6) (ex_pa true))
    (mac_holder ex_ccrh ex_ccrh ex_hash ex_prg (toy_pt 6) (ex_pa true) ex_pb bits)
    (Ok (commitments (toy_pt 6) (ex_pa true) bits ex_pb, true)) (Ok (commitments (toy_pt 6) (ex_pa true) bits ex_pb, true)).
Proof.
  intro bits. split; [vm_compute; reflexivity|]. split; [|].
  - vm_compute. reflexivity.
  - apply C78_completes; [exact toy_annihilates|exact toy_bound|reflexivity|apply ex_pa_ok|apply ex_pb_drawn|reflexivity].
Qed.

(** ** C79: an honest key holder sees nothing of the bits *)
Theorem C79_hides_sender : forall ccrh ccrh_o hash prg (C : Curve) (h : pt C), annihilates C -> bound1000 (order C) ->
  (forall m, length (hash m) = DIGEST_SIZE) -> forall k, @gen C = smul k h ->
  forall a, pa_ok C a -> pa_sends a = true -> forall bits bits', length bits = length (pa_keys a) -> length bits' = length (pa_keys a) ->
  exists F G : pb_vals -> pb_vals,
    (forall v, pb_drawn C a v -> pb_drawn C a (F v) /\ G (F v) = v) /\
    (forall v, pb_drawn C a v -> pb_drawn C a (G v) /\ F (G v) = v) /\
    forall v, pb_drawn C a v -> exists coms va vb vb',
      runs_with_views (key_holder ccrh ccrh_o hash prg h a) (mac_holder ccrh ccrh_o hash prg h a v bits) (Ok (coms, true)) (Ok (coms, true)) va vb /\
      runs_with_views (key_holder ccrh ccrh_o hash prg h a) (mac_holder ccrh ccrh_o hash prg h a (F v) bits') (Ok (coms, true)) (Ok (coms, true)) va vb'.
Proof. exact hides_sender_prop. Qed.
Print Assumptions C79_hides_sender.
(** with the key holder as receiver of the OLE, up to the hash at the points it cannot compute *)
Theorem C79_hides_receiver : forall ccrh ccrh_o hash prg (C : Curve) (h : pt C), annihilates C -> bound1000 (order C) -> order C <= 2 ^ 256 ->
  (forall m, length (hash m) = DIGEST_SIZE) -> forall k, @gen C = smul k h ->
  forall a, pa_ok C a -> pa_sends a = false ->
  let unknown := points (withheld (pa_Delta a)) (BN_num_bits (order C)) [pa_row a] [pa_aDelta a] in
  NoDup unknown -> (forall p, In p unknown -> ~ In p (points (held (pa_Delta a)) (BN_num_bits (order C)) [pa_row a] [pa_aDelta a])) ->
  forall bits bits', length bits = length (pa_keys a) -> length bits' = length (pa_keys a) ->
  exists F G : pb_vals -> pb_vals,
    (forall v, pb_drawn C a v -> pb_drawn C a (F v) /\ G (F v) = v) /\
    (forall v, pb_drawn C a v -> pb_drawn C a (G v) /\ F (G v) = v) /\
    forall v, pb_drawn C a v -> exists ccrh_o' coms va vb vb', (forall p, ~ In p unknown -> ccrh_o' p = ccrh_o p) /\
      runs_with_views (key_holder ccrh ccrh_o hash prg h a) (mac_holder ccrh ccrh_o hash prg h a v bits) (Ok (coms, true)) (Ok (coms, true)) va vb /\
      runs_with_views (key_holder ccrh ccrh_o' hash prg h a) (mac_holder ccrh ccrh_o' hash prg h a (F v) bits') (Ok (coms, true)) (Ok (coms, true)) va vb'.
Proof. exact hides_receiver_prop. Qed.
Print Assumptions C79_hides_receiver.
Example C79_ex : let a := ex_pa false in let unknown := points (withheld (pa_Delta a)) (BN_num_bits (order toy)) [pa_row a] [pa_aDelta a] in
  @gen toy = smul 16 (toy_pt 6 : pt toy) /\ order toy <= 2 ^ 256 /\ pa_ok toy a /\ pb_drawn toy a ex_pb /\
  unknown = [5; 6; 9; 10; 996; 999; 17; 18; 1020; 1023]%N /\ NoDup unknown /\
  (forall p, In p unknown -> ~ In p (points (held (pa_Delta a)) (BN_num_bits (order toy)) [pa_row a] [pa_aDelta a])).
Proof.
  intros a unknown.
  assert (E : unknown = [5; 6; 9; 10; 996; 999; 17; 18; 1020; 1023]%N) by (vm_compute; reflexivity).
  split; [apply (Zn_eq 19); vm_compute; reflexivity|]. split; [vm_compute; congruence|]. split; [apply ex_pa_ok|]. split; [apply ex_pb_drawn|].
  split; [exact E|]. rewrite E. split.
  - repeat constructor; cbn [In]; lia.
  - set (l := points (held _) _ _ _).
    assert (E' : forallb (fun p => negb (existsb (N.eqb p) l)) [5; 6; 9; 10; 996; 999; 17; 18; 1020; 1023]%N = true) by (vm_compute; reflexivity).
    rewrite forallb_forall in E'. intros p Hp Hl. specialize (E' p Hp). apply negb_true_iff in E'.
    assert (existsb (N.eqb p) l = true) by (apply existsb_exists; exists p; split; [exact Hl|apply N.eqb_refl]). congruence.
Qed.

(** ** C80: the accepting opening does not protect the bits from a deviating key holder *)
Theorem C80_combination : forall ccrh ccrh_o hash prg (C : Curve) (h : pt C), bound1000 (order C) ->
  (forall m, length (hash m) = DIGEST_SIZE) -> forall a, pa_ok C a -> exists x, 0 <= x < order C /\
  forall v bits, pb_drawn C a v -> length bits = length (pa_keys a) ->
  exists chi va vb, length chi = n_coms a /\
    runs_with_views (cheater ccrh ccrh_o hash prg h x pair a) (mac_holder ccrh ccrh_o hash prg h a v bits)
      (Ok (chi, dot chi (numbers a bits) mod order C)) (Ok (commitments h a bits v, true)) va vb.
Proof. exact combination_prop. Qed.
Print Assumptions C80_combination.
Theorem C80_all_bits : forall ccrh ccrh_o hash prg (C : Curve) (h : pt C), bound1000 (order C) -> prime (order C) ->
  (forall m, length (hash m) = DIGEST_SIZE) -> (forall s, BN_bin2bn (prg s 0%nat (BN_num_bytes (order C))) mod order C <> 0) ->
  forall a, pa_ok C a -> (1 <= length (pa_keys a) <= pa_bs a)%nat ->
  exists x, 0 <= x < order C /\ exists dec : list Z -> Z -> list bool,
  forall v bits, pb_drawn C a v -> length bits = length (pa_keys a) ->
  exists va vb, runs_with_views (cheater ccrh ccrh_o hash prg h x dec a) (mac_holder ccrh ccrh_o hash prg h a v bits)
      (Ok bits) (Ok (commitments h a bits v, true)) va vb.
Proof. exact all_bits_prop. Qed.
Print Assumptions C80_all_bits.
(** four keys in one chunk: the deviating key holder ends with the four bits, whatever they are *)
Definition ex_one (sends : bool) : pa_vals :=
  {| pa_bs := 4; pa_seed := 77; pa_bDelta := 12345; pa_aDelta := 11; pa_sends := sends; pa_Delta := 1001;
     pa_row := [4; 8; 12; 16; 20]%N; pa_keys := [2; 40; 600; 8]%N |}.
Definition ex_pb1 : pb_vals := {| pb_r := 5; pb_rnds := [8]; pb_rnd_r := 13; pb_yseed := 99; pb_buf := repeat 0%N 65 |}.
Theorem C80_accepted_safe_refuted : exists (dec : list Z -> Z -> list bool) (x : Z), forall b0 b1 b2 b3, exists va vb, runs_with_views
    (cheater ex_ccrh ex_ccrh ex_hash ex_prg (toy_pt 6 : pt toy) x dec (ex_one false))
    (mac_holder ex_ccrh ex_ccrh ex_hash ex_prg (toy_pt 6) (ex_one false) ex_pb1 [b0; b1; b2; b3])
    (Ok [b0; b1; b2; b3]) (Ok (commitments (toy_pt 6) (ex_one false) [b0; b1; b2; b3] ex_pb1, true)) va vb.
Proof.
  assert (OK : pa_ok toy (ex_one false)).
  { unfold pa_ok. cbn [ex_one pa_bs pa_seed pa_bDelta pa_aDelta pa_sends pa_Delta pa_row pa_keys]. change (order toy) with 19.
    repeat split; try (vm_compute; congruence); try reflexivity; try lia. repeat constructor. }
  assert (DR : pb_drawn toy (ex_one false) ex_pb1).
  { unfold pb_drawn. cbn [ex_pb1 pb_r pb_rnds pb_rnd_r pb_yseed pb_buf]. change (order toy) with 19.
    repeat split; try lia; try reflexivity. repeat constructor; lia. }
  destruct (C80_all_bits ex_ccrh ex_ccrh ex_hash ex_prg toy (toy_pt 6) toy_bound toy_prime (fun m => eq_refl)) with (a := ex_one false)
    as (x & X & dec & H); [intro s; vm_compute; congruence|exact OK|cbn; lia|].
  exists dec, x. intros b0 b1 b2 b3. now apply H.
Qed.
Print Assumptions C80_accepted_safe_refuted.

(** ** C81: the OLE hides the sender's numbers from its receiver *)
Theorem C81_ole_hides_sender : forall q, bound1000 q -> q <= 2 ^ 256 ->
  forall bl Delta ccrh rows in_r ins ins',
  length in_r = length rows -> length ins = length rows -> length ins' = length rows ->
  Forall (fun r => length r = bl) rows -> Forall (fun y => 0 <= y) in_r ->
  NoDup (points (withheld Delta) bl rows in_r) ->
  (forall p, In p (points (withheld Delta) bl rows in_r) -> ~ In p (points (held Delta) bl rows in_r)) ->
  exists ccrh' os os' bytes or_, (forall p, ~ In p (points (withheld Delta) bl rows in_r) -> ccrh' p = ccrh p) /\
    ole_send ccrh q bl Delta rows ins = Ok (os, bytes) /\ ole_send ccrh' q bl Delta rows ins' = Ok (os', bytes) /\
    ole_recv ccrh q bl (map2 (fun row x => cot_recv Delta row (ole_bits bl x)) rows in_r) in_r bytes = Ok (or_, []) /\
    ole_recv ccrh' q bl (map2 (fun row x => cot_recv Delta row (ole_bits bl x)) rows in_r) in_r bytes = Ok (or_, []).
Proof. exact ole_hides. Qed.
Print Assumptions C81_ole_hides_sender.

Example C81_ex : let rows := [[4; 8; 12; 16; 20]; [100; 200; 300; 400; 500]]%N in
  let unknown := points (withheld 4001) 5 rows [11; 18] in
  bound1000 19 /\ 19 <= 2 ^ 256 /\ Forall (fun r => length r = 5%nat) rows /\ NoDup unknown /\
  (forall p, In p unknown -> ~ In p (points (held 4001) 5 rows [11; 18])) /\
  match ole_send ex_ccrh 19 5 4001 rows [7; 3] with
  | Ok (os, bytes) => match ole_recv ex_ccrh 19 5 (map2 (fun row x => cot_recv 4001 row (ole_bits 5 x)) rows [11; 18]) [11; 18] bytes with
                      | Ok (os', []) => map2 (fun a b => (a + b) mod 19) os os' = [(7 * 11) mod 19; (3 * 18) mod 19]
                      | _ => False end
  | _ => False end.
Proof.
  intros rows unknown. split; [exact toy_bound|]. split; [vm_compute; congruence|]. split; [repeat constructor|].
  split; [|split].
  - set (l := unknown). vm_compute in l. unfold l. repeat constructor; cbn [In]; lia.
  - set (l := points (held _) _ _ _).
    assert (E' : forallb (fun p => negb (existsb (N.eqb p) l)) unknown = true) by (vm_compute; reflexivity).
    rewrite forallb_forall in E'. intros p Hp Hl. specialize (E' p Hp). apply negb_true_iff in E'.
    assert (existsb (N.eqb p) l = true) by (apply existsb_exists; exists p; split; [exact Hl|apply N.eqb_refl]). congruence.
  - vm_compute. reflexivity.
Qed.

(** ** C82: Pedersen commitments hide; with the base of the test set-up they do not bind *)
Theorem C82_hides : forall (C : Curve), annihilates C -> forall (h : pt C) k msg msg', gen = smul k h ->
  exists F G : Z -> Z,
    (forall r, 0 <= r < order C -> 0 <= F r < order C /\ G (F r) = r) /\
    (forall r, 0 <= r < order C -> 0 <= G r < order C /\ F (G r) = r) /\
    forall r, 0 <= r < order C -> pc_commit h (F r) msg' = pc_commit h r msg.
Proof. exact @commitment_hides. Qed.
Print Assumptions C82_hides.
Theorem C82_base_known : forall (C : Curve) sa sb, bound1000 (order C) -> 0 <= sa < order C -> 0 <= sb < order C ->
  exists va vb, let s := (sa + sb) mod order C in
    runs_with_views (p_base_alice (C := C) sa) (p_base_bob_flushed (C := C) sb) (Ok (s, smul s (@gen C))) (Ok (s, smul s gen)) va vb.
Proof. exact @base_runs. Qed.
Print Assumptions C82_base_known.
Theorem C82_equivocates : forall C : Curve, annihilates C -> prime (order C) ->
  exists e : Z -> Z -> Z -> Z -> Z, forall sa sb rnd msg msg', ~ cong (order C) (sa + sb) 0 ->
    let s := fst (cc_base (C := C) sa sb) in let h := snd (cc_base (C := C) sa sb) in
    0 <= e s rnd msg msg' < order C /\ pc_open_check h (pc_commit h rnd msg) (e s rnd msg msg') msg' = true.
Proof. exact @equivocates. Qed.
Print Assumptions C82_equivocates.
(** either party of the test set-up, knowing s, opens a commitment to any number it likes *)
Theorem C82_binding_refuted : exists (C : Curve) (e : Z -> Z -> Z -> Z -> Z), annihilates C /\ prime (order C) /\
  forall sa sb rnd msg msg', ~ cong (order C) (sa + sb) 0 ->
    let s := fst (cc_base (C := C) sa sb) in let h := snd (cc_base (C := C) sa sb) in
    0 <= e s rnd msg msg' < order C /\ pc_open_check h (pc_commit h rnd msg) (e s rnd msg msg') msg' = true.
Proof.
  destruct (C82_equivocates toy toy_annihilates toy_prime) as (e & H).
  exists toy, e. exact (conj toy_annihilates (conj toy_prime H)).
Qed.
Print Assumptions C82_binding_refuted.
Example C82_ex : annihilates toy /\ prime (order toy) /\ ~ cong (order toy) (7 + 18) 0 /\ fst (cc_base (C := toy) 7 18) = 6 /\ coords (c := toy) (snd (cc_base (C := toy) 7 18)) = coords (c := toy) (toy_pt 6) /\
  pc_open_check (toy_pt 6 : pt toy) (pc_commit (toy_pt 6) 3 4) 3 4 = true /\
  pc_open_check (toy_pt 6 : pt toy) (pc_commit (toy_pt 6) 3 4) 3 5 = false /\
  pc_open_check (toy_pt 6 : pt toy) (pc_commit (toy_pt 6) 3 4) 6 5 = true.
Proof.
  split; [exact toy_annihilates|]. split; [exact toy_prime|]. split; [intros [k H]; change (order toy) with 19 in H; lia|].
  repeat split; vm_compute; reflexivity.
Qed.
