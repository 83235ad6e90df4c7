(** Properties C36-C40 and C64: Diffie-Hellman composition, hash commitments, Pedersen
    commitments, the conversion of authenticated bits into commitments, and the whole
    handshake. *)
From Coq Require Import List NArith ZArith Bool Arith Znumtheory.
From Verif Require Import L_Bits L_Res L_Group S_Ec S_Codec S_Cmp S_Tls D_Toy.
From Verif Require Import M_EmpInteger M_Utils M_Bn M_Ole M_E2f M_Ec M_Commit M_ComConv M_Handshake.
From Verif Require Import P_Ole P_Dh P_Commit P_ComConv P_Handshake P_HandshakeZk P_FullHs.
Import ListNotations.
Local Open Scope Z_scope.

(** a toy hash with 32-byte digests whose first byte is zero *)
Definition zero_hash (m : list N) : list N := 0%N :: N.of_nat (length m) :: repeat 9%N 30.

Lemma zero_hash_ne m : zero_hash m <> repeat 0%N 32.
Proof. intro H. apply (f_equal (fun l => nth 2 l 0%N)) in H. discriminate. Qed.

(** ** C36: Diffie-Hellman composition and opening of the pre-master secret *)
Theorem C36_exchange : forall (C : Curve) ta tb (Ts : pt C), smul ta (@gen C) <> pz ->
  dh_exchange ta tb Ts = Ok (padd (smul ta gen) (smul tb gen), smul ta Ts, smul tb Ts, smul ta gen) /\
  padd (smul ta Ts) (smul tb Ts) = smul (ta + tb) Ts.
Proof. intros C ta tb Ts H. exact (conj (dh_exchange_ok ta tb Ts H) (dh_sum ta tb Ts)). Qed.
Print Assumptions C36_exchange.
(** what the server computes from the combined share is the sum of the two partial points *)
Theorem C36_server_agrees : forall (C : Curve) ta tb s, let Ts := smul s (@gen C) in
  smul s (padd (smul ta gen) (smul tb gen)) = padd (smul ta Ts) (smul tb Ts).
Proof. exact (fun C => @dh_server C). Qed.
Print Assumptions C36_server_agrees.
(** reveal_pms: the honest scalar is accepted and gives the x-coordinate; another is refused *)
Theorem C36_reveal : forall (C : Curve) (Ta : pt C) tb Ts t rest, annihilates C -> 0 <= t ->
  (Z.abs_N t < 256 ^ 1000)%N ->
  exists bytes, reveal_pms_bob t = Ok bytes /\
    (smul t gen = Ta ->
     reveal_pms_alice Ta tb Ts (bytes ++ rest) = Ok (fst (affine (smul (t + tb) Ts)), rest)) /\
    (smul t gen <> Ta -> reveal_pms_alice Ta tb Ts (bytes ++ rest) = Err).
Proof. exact (fun C => @reveal_iff C). Qed.
Print Assumptions C36_reveal.
(** whatever bytes arrive, acceptance means the announced scalar modulo the order *)
Theorem C36_reveal_sound : forall (C : Curve) ta tb (Ts : pt C) stream pms rest t, annihilates C -> exact_order C ->
  recv_bn stream = Ok (t, rest) -> reveal_pms_alice (smul ta gen) tb Ts stream = Ok (pms, rest) ->
  t mod order C = ta mod order C /\ pms = fst (affine (padd (smul ta Ts) (smul tb Ts))).
Proof. exact (fun C => @reveal_unique C). Qed.
Print Assumptions C36_reveal_sound.
(** a zero scalar (probability 1/order) is sent as one byte, and the client waits for 65 *)
Theorem C36_zero_scalar_refuted : exists (C : Curve) ta tb (Ts : pt C), annihilates C /\ exact_order C /\
  0 <= ta < order C /\ Ts <> pz /\ dh_exchange ta tb Ts = Err.
Proof.
  exists toy, 0, 5, (toy_pt 3). split; [exact toy_annihilates|]. split; [exact toy_exact|].
  split; [split; discriminate || reflexivity|]. split; [discriminate|]. apply dh_exchange_zero. reflexivity.
Qed.
Print Assumptions C36_zero_scalar_refuted.
Example C36_ex : annihilates toy /\ exact_order toy /\ smul 4 (@gen toy) <> pz /\
  match dh_exchange (C := toy) 4 7 (toy_pt 3) with
  | Ok (Tc, Va, Vb, Ta) => coords (c := toy) Tc = Some (13, 10) /\ Va = toy_pt 12 /\ Vb = toy_pt 2 /\
                           coords (c := toy) (padd Va Vb) = Some (9, 1) /\
                           dh_reveal (C := toy) 4 7 (toy_pt 3) Ta = Ok 9 /\
                           dh_reveal (C := toy) 5 7 (toy_pt 3) Ta = Err
  | _ => False
  end.
Proof.
  split; [exact toy_annihilates|]. split; [exact toy_exact|]. split; [discriminate|].
  rewrite dh_exchange_ok by discriminate. split; [reflexivity|]. split; [apply Zn_eq; reflexivity|].
  split; [apply Zn_eq; reflexivity|]. vm_compute. repeat split.
Qed.

(** ** C64: the whole handshake *)
(** From the scalars and the server's key share: the exchange succeeds, the converted shares
    add up to the x-coordinate of the point the server computes, the garbled key schedule
    yields the TLS 1.2 keys for that secret, and the later opening and proof succeed. *)
Theorem C64_full_handshake : forall (C : Curve) ccrh bl ra rb Delta raw ta tb s rounds rc rs sh tc ts xa ya xb yb,
  annihilates C -> prime (cp C) -> cp C < 2 ^ Z.of_nat bl -> order C <= 256 ^ Z.of_nat bn_buf ->
  length raw = 5%nat -> Forall (fun r => length r = bl) raw -> 0 <= ta < order C ->
  Forall byte8 rc -> Forall byte8 rs -> opt_wf sh -> Forall byte8 tc -> Forall byte8 ts ->
  let Ts := smul s (@gen C) in
  smul ta (@gen C) <> pz ->
  coords (smul tb Ts) = Some (xa, ya) -> coords (smul ta Ts) = Some (xb, yb) -> xa <> xb ->
  exists Tc Va Vb Ta sa sb, dh_exchange ta tb Ts = Ok (Tc, Va, Vb, Ta) /\
    e2f_offline ccrh (cp C) bl ra rb Delta raw = Ok (sa, sb) /\
    ((e_a sa + e_a sb) mod cp C <> 0 ->
     exists x y pa pb S S' ms ks,
       coords (smul s Tc) = Some (x, y) /\
       e2f_online (cp C) sa sb (fst (affine Vb)) (snd (affine Vb)) (fst (affine Va)) (snd (affine Va)) = Ok (pa, pb) /\
       session (cp C) rounds pa pb rc rs sh (fins tc ts) = Ok S /\
       (let m := ms_spec (premaster (BN_num_bytes (cp C)) (Z.to_N x)) rc rs sh in
        let kb := key_block m rc rs in
        hs_ms S = str_to_int m /\
        hs_cwk S = str_to_int (tls_client_key kb) /\ hs_swk S = str_to_int (tls_server_key kb) /\
        hs_civ S = str_to_int (tls_client_iv kb) /\ hs_siv S = str_to_int (tls_server_iv kb)) /\
       dh_reveal ta tb Ts Ta = Ok x /\
       prove_handshake S x rc rs tc ts sh = Ok (S', ms, ks) /\ checks_hold S' /\
       ms = hs_ms S /\ ks = (hs_cwk S, hs_swk S, hs_civ S, hs_siv S)).
Proof. exact full_handshake. Qed.
Print Assumptions C64_full_handshake.
(** the hypotheses are met on the toy curve, the server's share being 3 * G *)
Example C64_ex : prime (cp toy) /\ cp toy < 2 ^ 5 /\ order toy <= 256 ^ Z.of_nat bn_buf /\
  smul 4 (@gen toy) <> pz /\
  coords (c := toy) (smul 7 (smul 3 (@gen toy))) = Some (6, 3) /\
  coords (c := toy) (smul 4 (smul 3 (@gen toy))) = Some (0, 11) /\
  match e2f_offline (fun x => x + 1)%N 17 5 {| rnd_a := 3; rnd_b := 5; rnd_bp := 7; rnd_r := 1 |}
          {| rnd_a := 2; rnd_b := 4; rnd_bp := 6; rnd_r := 8 |} 33 (repeat [1; 2; 3; 4; 5]%N 5) with
  | Ok (sa, sb) => (e_a sa + e_a sb) mod 17 <> 0 /\
      match e2f_online 17 sa sb 6 3 0 11 with Ok (pa, pb) => (pa + pb) mod 17 = 9 | _ => False end
  | _ => False
  end.
Proof.
  split.
  - apply prime_intro; [reflexivity|]. intros n [H1 H2]. change (cp toy) with 17 in *.
    assert (X : In n (map Z.of_nat (seq 1 16))).
    { apply in_map_iff. exists (Z.to_nat n). split; [now apply Z2Nat.id, (Z.le_trans _ 1)|]. apply in_seq.
      split; [apply (Z2Nat.inj_le 1 n); auto; discriminate || now apply (Z.le_trans _ 1)|].
      change (1 + 16)%nat with (Z.to_nat 17). apply Z2Nat.inj_lt; auto; discriminate || now apply (Z.le_trans _ 1). }
    cbn in X. repeat (destruct X as [<-|X]; [now apply Zgcd_1_rel_prime|]). destruct X.
  - split; [reflexivity|]. split; [discriminate|]. split; [discriminate|]. split; [reflexivity|]. split; [reflexivity|].
    vm_compute. split; [discriminate|reflexivity].
Qed.

(** ** C37: hash commitments *)
Theorem C37_complete : forall hash, (forall m, length (hash m) = DIGEST_SIZE) -> forall rnd data,
  let (com, p) := hc_commit hash [] rnd data in p = [] /\ hc_open hash [] com rnd data = Ok (true, []).
Proof. exact hc_complete. Qed.
Print Assumptions C37_complete.
Theorem C37_binding : forall hash, (forall m, length (hash m) = DIGEST_SIZE) -> forall com r1 d1 r2 d2,
  length com = DIGEST_SIZE -> length r1 = 16%nat -> length r2 = 16%nat -> d1 <> d2 ->
  hc_open hash [] com r1 d1 = Ok (true, []) -> hc_open hash [] com r2 d2 = Ok (true, []) ->
  exists m1 m2, m1 <> m2 /\ hash m1 = hash m2 /\ m1 = d1 ++ r1 /\ m2 = d2 ++ r2.
Proof. exact hc_binding. Qed.
Print Assumptions C37_binding.
(** one object may be used for any sequence of commitments and openings *)
Theorem C37_sequence : forall hash, (forall m, length (hash m) = DIGEST_SIZE) -> forall ops, Forall hc_wf ops ->
  hc_run hash [] ops = Ok (map (hc_one hash) ops).
Proof. exact hc_sequence. Qed.
Print Assumptions C37_sequence.
Example C37_ex : (forall m, length (zero_hash m) = DIGEST_SIZE) /\
  hc_open zero_hash [] (fst (hc_commit zero_hash [] (repeat 3%N 16) [1; 2]%N)) (repeat 3%N 16) [1; 2]%N = Ok (true, []) /\
  hc_open zero_hash [] (fst (hc_commit zero_hash [] (repeat 3%N 16) [1; 2]%N)) (repeat 3%N 16) [1]%N = Ok (false, []) /\
  hc_open zero_hash [] (fst (hc_commit zero_hash [] (repeat 3%N 16) [1; 2]%N)) (repeat 3%N 16) [2; 2]%N = Ok (true, []).
Proof. split; [reflexivity|]. vm_compute. repeat split. Qed.

(** ** C38: Pedersen commitments *)
Theorem C38_complete : forall (C : Curve) (h : pt C) rnd msg, pc_open_check h (pc_commit h rnd msg) rnd msg = true.
Proof. exact (fun C => @pc_complete C). Qed.
Print Assumptions C38_complete.
Theorem C38_homomorphic : forall (C : Curve) (h : pt C) rnds msgs coef, annihilates C ->
  length rnds = length coef -> length msgs = length coef ->
  exists com r m, pc_linear_comb_com (map2 (pc_commit h) rnds msgs) coef = Ok com /\
    @pc_linear_comb_rand C rnds coef = Ok r /\ @pc_linear_comb_rand C msgs coef = Ok m /\
    r = dot coef rnds mod order C /\ m = dot coef msgs mod order C /\ pc_open_check h com r m = true.
Proof. exact (fun C => @pc_homomorphic C). Qed.
Print Assumptions C38_homomorphic.
Theorem C38_extract : forall (C : Curve) (h : pt C) com r1 m1 r2 m2,
  pc_open_check h com r1 m1 = true -> pc_open_check h com r2 m2 = true ->
  smul (m1 - m2) gen = smul (r2 - r1) h.
Proof. exact (fun C => @pc_extract C). Qed.
Print Assumptions C38_extract.
Theorem C38_open_iff : forall (C : Curve) (h : pt C) com rnd msg,
  pc_open_check h com rnd msg = true <-> com = padd (smul msg gen) (smul rnd h).
Proof. exact (fun C => @pc_open_iff C). Qed.
Print Assumptions C38_open_iff.
Example C38_ex : dot [2; 3; 5] [7; 1; 4] = 37 /\
  pc_linear_comb_com (C := toy) (map2 (pc_commit (toy_pt 6)) [7; 1; 4] [9; 8; 18]) [2; 3; 5] = Ok (pc_commit (C := toy) (toy_pt 6) 18 18) /\
  @pc_linear_comb_rand toy [7; 1; 4] [2; 3; 5] = Ok 18 /\ @pc_linear_comb_rand toy [9; 8; 18] [2; 3; 5] = Ok 18 /\
  pc_open_check (C := toy) (toy_pt 6) (pc_commit (toy_pt 6) 3 4) 3 5 = false.
Proof.
  split; [reflexivity|]. split; [|vm_compute; repeat split].
  rewrite linear_com_ok by reflexivity. f_equal. apply Zn_eq. reflexivity.
Qed.

(** ** C39: conversion of authenticated bits into Pedersen commitments *)
Theorem C39_complete : forall ccrh hash prg (C : Curve) (h : pt C), annihilates C -> bound1000 (order C) ->
  (forall m, length (hash m) = DIGEST_SIZE) -> forall bs bDelta bKEYs bits r,
  (1 <= bs)%nat -> 2 ^ Z.of_nat bs - 1 < order C ->
  (bDelta < 2 ^ 128)%N -> N.odd bDelta = true -> Forall (fun k => N.odd k = false) bKEYs ->
  length bits = length bKEYs ->
  0 <= cr_aDelta r < order C -> (cr_seed r < 2 ^ 128)%N -> 0 <= cr_r r < order C -> (cr_yseed r < 2 ^ 128)%N ->
  let cl := ((length bKEYs + bs - 1) / bs)%nat in
  length (cr_rnds r) = cl -> length (cr_buf r) = 65%nat ->
  length (cr_raw r) = 1%nat -> Forall (fun l => length l = BN_num_bits (order C)) (cr_raw r) ->
  let com := map2 (pc_commit h) (cr_rnds r) (map (chunk_val bits bs) (seq 0 cl)) in
  cc_run ccrh hash prg h (order C) bs bDelta (repeat pz cl) bKEYs (map2 (mac_of bDelta) bKEYs bits) r
    = Ok (com, true, com, true).
Proof. exact cc_complete. Qed.
Print Assumptions C39_complete.
(** the verdict of the key holder is exactly its three checks, whatever arrives *)
Theorem C39_verdict : forall hash (C : Curve) (h com_y : pt C) q yKEY aDelta s1 s2 b,
  (forall m, length (hash m) = DIGEST_SIZE) -> cc_pa_end hash h q com_y yKEY aDelta s1 s2 = Ok b ->
  exists ycom t1 rnd_y t2 msg_y t3 sb t4 yMAC t5,
    recv_data DIGEST_SIZE s1 = Ok (ycom, t1) /\ recv_bn t1 = Ok (rnd_y, t2) /\ recv_bn t2 = Ok (msg_y, t3) /\
    recv_data 16 s2 = Ok (sb, t4) /\ recv_bn t4 = Ok (yMAC, t5) /\
    (b = true <-> com_y = padd (smul msg_y gen) (smul rnd_y h) /\
                  ycom = hash (bytes_of_block (block_of_bytes sb) ++ BN_bn2bin yMAC) /\
                  yMAC = (yKEY + msg_y * aDelta) mod q).
Proof. exact (fun hash C => @pa_end_iff hash C). Qed.
Print Assumptions C39_verdict.
(** the verdict of the MAC holder on the opened Deltas is exactly its two comparisons, whatever
    arrives: the commitment, and the digest of the conversion messages its own MACs imply *)
Theorem C39_opening_verdict : forall ccrh hash q com msg_com bMACs s b rest,
  (forall m, length (hash m) = DIGEST_SIZE) -> length com = DIGEST_SIZE -> length msg_com = DIGEST_SIZE ->
  cc_open_recv ccrh hash q com msg_com bMACs s = Ok (b, rest) ->
  exists sb t1 db t2 aDelta,
    recv_data 16 s = Ok (sb, t1) /\ recv_data 16 t1 = Ok (db, t2) /\ recv_bn t2 = Ok (aDelta, rest) /\
    let arr := BN_bn2bin aDelta in
    let bDelta := block_of_bytes db in
    (b = true <->
     nul_equal DIGEST_SIZE (hash (bytes_of_block (block_of_bytes sb) ++ bytes_of_block bDelta ++ u32_bytes (N.of_nat (length arr)) ++ arr)) com /\
     nul_equal DIGEST_SIZE (hash (flat_map (fun m => BN_bn2bin ((bn_H ccrh m q + bn_H ccrh (N.lxor m bDelta) q + aDelta) mod q)) bMACs)) msg_com).
Proof. exact open_recv_iff. Qed.
Print Assumptions C39_opening_verdict.
(** seven bits in chunks of four over the toy group; the second commitment has the value 5 *)
Definition ex_rand (rnds : list Z) : cc_rand :=
  {| cr_aDelta := 11; cr_seed := 77; cr_r := 4; cr_rnds := rnds; cr_rnd_r := 9; cr_yseed := 5;
     cr_pa_sends := false; cr_Delta := 1001; cr_raw := [[3; 4; 5; 6; 7]%N]; cr_buf := repeat 200%N 65 |}.
Definition ex_bits : list bool := [true; true; false; true; true; false; true].
Definition ex_keys : list N := [2; 40; 600; 8; 10; 12; 1400]%N.
Example C39_ex : BN_num_bits (order toy) = 5%nat /\ 2 ^ Z.of_nat 4 - 1 < order toy /\
  map (chunk_val ex_bits 4) (seq 0 2) = [11; 5] /\
  match cc_run (fun x => x * x + 3)%N zero_hash (fun s i n => repeat (N.of_nat i + 2)%N n) (toy_pt 6 : pt toy) 19 4 12345
          (repeat pz 2) ex_keys (map2 (mac_of 12345) ex_keys ex_bits) (ex_rand [8; 2]) with
  | Ok (coma, true, comb, true) =>
      forallb (fun x => x) (map2 (fun c rm => pc_open_check (C := toy) (toy_pt 6) c (fst rm) (snd rm)) coma [(8, 11); (2, 5)])
        = true /\ length coma = 2%nat
  | _ => False
  end /\
  match cc_run (fun x => x * x + 3)%N zero_hash (fun s i n => repeat (N.of_nat i + 2)%N n) (toy_pt 6 : pt toy) 19 4 12345
          (repeat pz 2) ex_keys (map2 (mac_of 12345) (2 :: 40 :: 600 :: 16 :: [10; 12; 1400])%N ex_bits) (ex_rand [8; 2]) with
  | Ok (_, resa, _, resb) => resa && resb = false
  | _ => False
  end.
Proof. split; [reflexivity|]. split; [reflexivity|]. vm_compute. repeat split. Qed.
(** a zero batch size divides by zero; a batch size that is too large is refused *)
Theorem C39_batch_size : forall ccrh hash prg (C : Curve) (h : pt C) q bs bDelta com0 bKEYs bMACs r,
  q <= 2 ^ Z.of_nat bs - 1 -> cc_run ccrh hash prg h q bs bDelta com0 bKEYs bMACs r = Err.
Proof.
  intros. unfold cc_run, cc_size_ok. rewrite (proj2 (Z.ltb_ge _ _)); [reflexivity|assumption].
Qed.
Print Assumptions C39_batch_size.

(** ** C40: the comparison of digests *)
(** strncmp accepts exactly when the digests agree up to and including a first zero byte *)
Theorem C40_comparison : forall a b, length a = DIGEST_SIZE -> length b = DIGEST_SIZE ->
  (strncmp0 DIGEST_SIZE a b = Ok true <->
   a = b \/ exists k, (k < DIGEST_SIZE)%nat /\ nth k a 0%N = 0%N /\ firstn (S k) a = firstn (S k) b).
Proof. exact (strncmp0_iff DIGEST_SIZE). Qed.
Print Assumptions C40_comparison.
(** so an opening with other digests than the committed ones is accepted *)
Theorem C40_binding_refuted : exists hash com msg_com bMACs stream aDelta ccrh,
  (forall m, length (hash m) = DIGEST_SIZE) /\ length com = DIGEST_SIZE /\ length msg_com = DIGEST_SIZE /\
  cc_open_recv ccrh hash 19 com msg_com bMACs stream = Ok (true, []) /\
  (forall seed bDelta, cc_hash hash seed bDelta aDelta <> Ok com) /\
  stream = repeat 0%N 32 ++ [1; 0; 0; 0; 5]%N /\ aDelta = 5 /\
  hash (bn_hashed (map fst (cc_convert ccrh 19 0 aDelta bMACs))) <> msg_com.
Proof.
  exists zero_hash, (repeat 0%N 32), (repeat 0%N 32), [2; 4]%N, (repeat 0%N 32 ++ [1; 0; 0; 0; 5]%N), 5, (fun x => x + 1)%N.
  split; [reflexivity|]. split; [reflexivity|]. split; [reflexivity|]. split; [vm_compute; reflexivity|].
  split; [|split; [reflexivity|split; [reflexivity|apply zero_hash_ne]]].
  intros seed bDelta. unfold cc_hash. change (length (BN_bn2bin 5)) with 1%nat.
  destruct (bn_buf <? 1)%nat; [discriminate|]. intro H. apply ok_inj in H. now apply zero_hash_ne in H.
Qed.
Print Assumptions C40_binding_refuted.
