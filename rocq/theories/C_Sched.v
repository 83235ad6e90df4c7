(** Properties C57 and C66: the exchanges between the two parties under any scheduling. *)
From Coq Require Import List NArith ZArith Bool Arith Znumtheory Lia.
From Verif Require Import L_Bits L_Res L_Group S_Sched S_Codec S_Gcm S_Ec S_Aes M_EmpInteger M_Utils M_Bristol M_Ole2k M_Bn M_Ec M_Ole M_E2f.
From Verif Require Import M_Commit M_Shares M_Aead M_Exch M_ExchDh D_AesKs D_AesEnc D_Toy.
From Verif Require Import P_Gf128 P_Aead P_AeadInst P_Exch P_ExchAead P_ExchDh P_ExchSess P_ExchRef P_Misuse.
Import ListNotations.
Local Open Scope nat_scope.
Local Opaque aes_ks_file aes_enc_file aesE str_to_int gf_mul.

(** ** C57: OLE, E2F *)
(** outside the bounds below: a number of more than 1000 bytes overruns the sender's buffer, an
    announced length above 1000 the receiver's *)
Theorem C57_buffers : forall c x h, ((256 ^ 1000 <= Z.abs_N x)%N -> p_send_bn c x = Ret UB) /\
  ((1000 < u32_value h)%N -> exists k, p_recv_bn c = Recv c 4 k /\ k h = Ret UB).
Proof. intros c x h. split; [exact (p_send_bn_big c x)|exact (p_recv_bn_big c h)]. Qed.
Print Assumptions C57_buffers.
Example C57_buffers_ex : (256 ^ 1000 <= Z.abs_N (-(2 ^ 8000)))%N /\ (1000 < u32_value [233; 3; 0; 0]%N)%N.
Proof. split; [vm_compute; discriminate|reflexivity]. Qed.
Theorem C57_ole : forall ccrh q, (1 < q <= 256 ^ 1000)%Z -> forall bl Delta in_s in_r raw,
  length in_r = length in_s -> length raw = length in_s -> Forall (fun r => length r = bl) raw ->
  exists os or_, ole_compute ccrh q bl Delta raw in_s in_r = Ok (os, or_, []) /\
    always_completes (p_ole_send ccrh q bl Delta raw in_s)
      (p_ole_recv ccrh q bl (map2 (fun row x => cot_recv Delta row (ole_bits bl x)) raw in_r) in_r) (Ok os) (Ok or_).
Proof. exact ole_completes. Qed.
Print Assumptions C57_ole.
Theorem C57_e2f : forall ccrh q, (1 < q <= 256 ^ 1000)%Z -> forall bl ra rb Delta raw xa ya xb yb,
  (q < 2 ^ Z.of_nat bl)%Z -> length raw = 5 -> Forall (fun r => length r = bl) raw ->
  exists s t oa ob, e2f_offline ccrh q bl ra rb Delta raw = Ok (s, t) /\
    match e2f_online q s t xa ya xb yb with
    | Ok (a, b) => oa = Ok a /\ ob = Ok b
    | Err => oa = Err /\ ob = Err
    | UB => oa = UB /\ ob = UB
    end /\
    always_completes (p_e2f ccrh q bl true ra Delta raw xa ya) (p_e2f ccrh q bl false rb Delta raw xb yb) oa ob.
Proof. exact e2f_completes. Qed.
Print Assumptions C57_e2f.
(** the key agreement in the two orders used by the programs *)
Theorem C57_key_agreement : forall (C : Curve) ccrh bl ra rb Delta raw ta tb s xa ya xb yb,
  prime (cp C) -> (cp C < 2 ^ Z.of_nat bl)%Z -> length raw = 5 -> Forall (fun r => length r = bl) raw ->
  let Ts := smul s (@gen C) in let Tc := padd (smul ta (@gen C)) (smul tb gen) in
  smul ta (@gen C) <> pz ->
  coords (smul tb Ts) = Some (xa, ya) -> coords (smul ta Ts) = Some (xb, yb) -> xa <> xb ->
  exists sa sb, e2f_offline ccrh (cp C) bl ra rb Delta raw = Ok (sa, sb) /\
    (((e_a sa + e_a sb) mod cp C)%Z <> 0%Z ->
     exists x y pa pb, coords (smul s Tc) = Some (x, y) /\ ((pa + pb) mod cp C)%Z = x /\ (0 <= pa < cp C)%Z /\ (0 <= pb < cp C)%Z /\
       always_completes (p_pms_alice ccrh (cp C) bl tb Ts ra Delta raw) (p_pms_bob ccrh (cp C) bl ta Ts rb Delta raw)
         (Ok (Tc, pa)) (Ok (smul ta Ts, pb)) /\
       always_completes (p_pms_off_alice ccrh (cp C) bl tb Ts ra Delta raw) (p_pms_off_bob ccrh (cp C) bl ta Ts rb Delta raw)
         (Ok (Tc, pa)) (Ok (smul ta Ts, pb))).
Proof. exact pms_sched. Qed.
Print Assumptions C57_key_agreement.

(** ** C57: AEAD, the constructor and any non-empty sequence of calls; the results are those of
    GCM with AES-128 ([aop_spec], also used for C14) *)
Theorem C57_aead : forall gfr hash, gfr_ok gfr -> (forall l, length (hash l) = DIGEST_SIZE) ->
  forall key fiv mh r ro o os, length key = 16 -> Forall (fun b => (b < 256)%N) key ->
  length fiv = 4 -> Forall (fun b => (b < 256)%N) fiv -> length mh = 128 -> (r < 2 ^ 128)%N -> r <> 0%N ->
  ole_rand_ok ro 1 -> ole_blk ro -> Forall aop_wf (o :: os) -> Forall aop_blk (o :: os) ->
  always_completes (p_session aes_ks_file aes_enc_file gfr hash true (str_to_int key) (str_to_int fiv) mh r ro (o :: os))
                   (p_session aes_ks_file aes_enc_file gfr hash false (str_to_int key) (str_to_int fiv) mh r ro (o :: os))
    (Ok (map (fun o => out_alice (aop_spec (aesE key) fiv o)) (o :: os)))
    (Ok (map (fun o => out_bob (aop_spec (aesE key) fiv o)) (o :: os))).
Proof. exact session_completes_files. Qed.
Print Assumptions C57_aead.

(** the hypotheses are met: one secret encryption, one decryption *)
Definition ex_rand (bits n : nat) : call_rand := {| m_z0 := repeat true 128; m_z := repeat true bits; m_ole := ex_ro n |}.
Definition ex_ops : list aop :=
  [OpEnc [1; 2; 3]%N [] [7]%N (repeat 5%N 8) true (ex_rand 24 3);
   OpDec [9; 8]%N (repeat 0%N 16) [] (repeat 6%N 8) false (ex_rand 16 2) (repeat 1%N 16) (repeat 2%N 16)].
Lemma ex_ro_blk n : ole_blk (ex_ro n).
Proof. split; apply Forall_forall; intros x Hx; apply repeat_spec in Hx; subst; apply Forall_forall; intros y Hy; apply repeat_spec in Hy; subst; reflexivity. Qed.
Example C57_aead_ex : gfr_ok gf_mul /\ Forall aop_wf ex_ops /\ Forall aop_blk ex_ops /\ ole_rand_ok (ex_ro 1) 1 /\ ole_blk (ex_ro 1) /\ length ex_ops = 2.
Proof.
  split; [exact gfr_gf_mul|].
  assert (W : Forall aop_wf ex_ops).
  { constructor; [|constructor; [|constructor]]; cbn [aop_wf].
    - split; [repeat constructor|]. split; [repeat constructor|]. split; [reflexivity|]. split; [repeat constructor|].
      split; [split; [reflexivity|split; [reflexivity|apply (ex_ro_ok 3)]]|discriminate].
    - split; [repeat constructor|]. split; [constructor|]. split; [reflexivity|]. split; [repeat constructor|].
      split; [reflexivity|split; [reflexivity|apply (ex_ro_ok 2)]]. }
  split; [exact W|]. split.
  { constructor; [|constructor; [|constructor]]; cbn [aop_blk].
    - apply ex_ro_blk.
    - split; [apply ex_ro_blk|]. split; reflexivity. }
  split; [apply ex_ro_ok|]. split; [apply ex_ro_blk|reflexivity].
Qed.
(** a schedule exists: both programs of a small E2F do finish *)
Example C57_e2f_ex : exists s t oa ob,
  e2f_offline (fun x => x * x + 7)%N 17 5 {| rnd_a := 3; rnd_b := 5; rnd_bp := 11; rnd_r := 2 |}
    {| rnd_a := 9; rnd_b := 1; rnd_bp := 4; rnd_r := 8 |} 12345 (map (fun i => map N.of_nat (seq i 5)) (seq 2 5)) = Ok (s, t) /\
  e2f_online 17 s t 5 1 6 3 = Ok (oa, ob) /\ ((oa + ob) mod 17 = 10)%Z /\ (1 < 17 <= 256 ^ 1000)%Z /\ (17 < 2 ^ Z.of_nat 5)%Z.
Proof.
  eexists _, _, _, _. split; [vm_compute; reflexivity|]. split; [vm_compute; reflexivity|]. split; [vm_compute; reflexivity|].
  split; [split; [reflexivity|]|reflexivity]. apply Z.leb_le. reflexivity.
Qed.

(** ** C66: an exchange on its own *)
(** the receiver of the last message can wait for ever, because it is left in the sender's
    buffer; with a flush after it the same exchange always completes *)
Theorem C66_points_waits : forall (C : Curve) ta tb (Ts : pt C), smul ta (@gen C) <> pz ->
  can_deadlock (p_client_VB tb Ts) (p_primus_VA ta Ts) /\
  always_completes (p_client_VB tb Ts) (rbind (p_primus_VA ta Ts) (fun v => Flush IO (Ret (Ok v))))
    (Ok (padd (smul ta gen) (smul tb gen), smul tb Ts, smul ta gen)) (Ok (smul ta Ts)).
Proof. exact @points_alone. Qed.
Print Assumptions C66_points_waits.
Theorem C66_reveal_pms_waits : forall (C : Curve) (Ta : pt C) ta tb (Ts : pt C),
  annihilates C -> (0 <= ta)%Z -> (Z.abs_N ta < 256 ^ N.of_nat bn_buf)%N -> smul ta gen = Ta ->
  can_deadlock (p_reveal_alice Ta tb Ts) (p_reveal_bob ta) /\
  always_completes (p_reveal_alice Ta tb Ts) (rbind (p_reveal_bob ta) (fun _ => Flush IO (Ret (Ok tt))))
    (Ok (fst (affine (smul (ta + tb) Ts)))) (Ok tt).
Proof. exact @reveal_alone. Qed.
Print Assumptions C66_reveal_pms_waits.
Theorem C66_aead_constructor_waits : forall gfr key fiv mh r ro, length key = 16 -> Forall (fun b => (b < 256)%N) key -> length mh = 128 ->
  can_deadlock (p_new aes_ks_file aes_enc_file gfr true (str_to_int key) (str_to_int fiv) mh r ro)
               (p_new aes_ks_file aes_enc_file gfr false (str_to_int key) (str_to_int fiv) mh r ro).
Proof. exact new_alone_files. Qed.
Print Assumptions C66_aead_constructor_waits.
(** hypotheses met on the toy curve *)
Example C66_ex : smul 4 (@gen toy) <> pz /\ annihilates toy /\ (Z.abs_N 4 < 256 ^ N.of_nat bn_buf)%N.
Proof. split; [discriminate|]. split; [exact toy_annihilates|]. apply N.ltb_lt. reflexivity. Qed.

(** the expectation that such an exchange, started in both programs, always completes is false *)
Theorem C66_points_refuted : exists (C : Curve) ta tb (Ts : pt C), smul ta (@gen C) <> pz /\
  ~ exists oa ob, always_completes (p_client_VB tb Ts) (p_primus_VA ta Ts) oa ob.
Proof. exact points_refuted. Qed.
Print Assumptions C66_points_refuted.
Theorem C66_reveal_pms_refuted : exists (C : Curve) (Ta : pt C) ta tb (Ts : pt C), smul ta gen = Ta /\
  ~ exists oa ob, always_completes (p_reveal_alice Ta tb Ts) (p_reveal_bob ta) oa ob.
Proof. exact reveal_refuted. Qed.
Print Assumptions C66_reveal_pms_refuted.
Theorem C66_aead_constructor_refuted : exists gfr key fiv mh r ro, length key = 16 /\ length mh = 128 /\
  ~ exists oa ob, always_completes (p_new aes_ks_file aes_enc_file gfr true (str_to_int key) (str_to_int fiv) mh r ro)
                                   (p_new aes_ks_file aes_enc_file gfr false (str_to_int key) (str_to_int fiv) mh r ro) oa ob.
Proof. exact new_refuted. Qed.
Print Assumptions C66_aead_constructor_refuted.
