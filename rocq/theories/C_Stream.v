(** Property C91: TLS sessions on the streaming backends, which setup_protocol installs by default.
    A label of a constant wire carries no share (C31_constant); no wire of a session that becomes a
    share is constant, so the shares, and with them the records, are right. *)
From Coq Require Import List NArith ZArith Znumtheory Bool Arith.
From Verif Require Import L_Bits L_Res L_Xor L_Group S_Sched S_Ec S_Lower S_Codec S_Aes S_Gcm S_Tls.
From Verif Require S_Netlist S_Circuit.
From Verif Require Import M_EmpInteger M_Utils M_Bristol M_Bn M_Sym M_SymOn M_SymSess M_Block M_Ole2k M_Shares M_Commit M_Garble M_Handshake.
From Verif Require Import M_Ec M_Ole M_E2f M_ExchDh M_Aead M_Exch M_View M_LabRec D_AesKs D_AesEnc D_Toy.
From Verif Require Import P_GarbleOpt P_Gf128 P_Aead P_AeadInst P_ExchAead P_ExchSess P_Sha256Opt P_Handshake P_Session2 P_SymTls P_SymGcm P_LabRec P_LabSess P_Live P_Live2 P_Stream C_Garble.
Import ListNotations.
Local Open Scope N_scope.
Local Opaque aes_ks_file aes_enc_file aesE str_to_int gf_mul ms_spec key_block on_session klist lower.

(** ** C91 *)
(** Constant propagation over the whole circuit of a session finds no constant among the wires of H,
    Z0 and Z.  The session is any sequence of calls that begins with a master secret over a field of
    at least 32 bytes; the opened values are arbitrary ([orc]). *)
Theorem C91_never_constant : forall orc q rounds c cs x s, (32 <= BN_num_bytes q)%nat -> sets_master c ->
  on_session orc aes_ks_file aes_enc_file q rounds (c :: cs) cst0 = Ok (x, s) ->
  forall ws w, In ws (os_sh x) -> In w ws ->
    let k := fold_left S_Circuit.kind_step (lower (c_tr s)) [] in
    (low_wire w < length k)%nat /\ S_Circuit.kind k (low_wire w) = None.
Proof. exact never_constant. Qed.
Print Assumptions C91_never_constant.
(** So the low bits of the two parties' labels are shares of the values ([ev]) of these wires, and
    what is opened on the way is what the circuit computes. *)
Theorem C91_shares : forall (sigma aes : N -> N) (Hash : list N -> N) (fixk Kc : nat -> N) (rnd : nat -> bool) (lab : nat -> N) (delta : N),
  getLSB delta = true -> delta < 2 ^ 128 -> (forall x, sigma x < 2 ^ 128) -> (forall x, aes x < 2 ^ 128) ->
  (forall i, fixk i < 2 ^ 128) -> (forall i, Kc i < 2 ^ 128) -> (forall i, lab i < 2 ^ 128) ->
  forall bs q rounds c cs x s, (32 <= BN_num_bytes q)%nat -> sets_master c ->
  on_session honest aes_ks_file aes_enc_file q rounds (c :: cs) cst0 = Ok (x, s) ->
  clean_run sigma aes Hash fixk Kc rnd lab delta (o_init Kc rnd delta bs) [] [] (lower (c_tr s)) ->
  exists o op, o_run sigma aes Hash fixk Kc rnd lab delta (o_init Kc rnd delta bs) (lower (c_tr s)) = Ok (o, op) /\
    Forall2 S_Circuit.seen (map low_open (S_Netlist.openings (c_tr s))) op /\
    Forall (fun ws => low_bits (oe_w o) ws = bxor (low_bits (og_w o) ws) (ev s ws)) (os_sh x) /\ o_ge o = [] /\ o_eg o = [].
Proof. exact stream_shares. Qed.
Print Assumptions C91_shares.
(** The records of a TLS session, as in C90_records. *)
Theorem C91_records : forall (sigma aes : N -> N) (Hash : list N -> N) (fixk Kc : nat -> N) (rnd : nat -> bool) (lab : nat -> N) (delta : N),
  getLSB delta = true -> delta < 2 ^ 128 -> (forall x, sigma x < 2 ^ 128) -> (forall x, aes x < 2 ^ 128) ->
  (forall i, fixk i < 2 ^ 128) -> (forall i, Kc i < 2 ^ 128) -> (forall i, lab i < 2 ^ 128) ->
  forall gfr, gfr_ok gfr -> forall hash, (forall l, length (hash l) = DIGEST_SIZE) ->
  forall bs q rounds pa pb rc rs sh os l rdc roc rds ros, (32 <= BN_num_bytes q)%nat -> (0 <= pa < q)%Z -> (0 <= pb < q)%Z ->
  Forall byte8 rc -> Forall byte8 rs -> opt_wf sh -> Forall fin_wf os -> (rounds = true -> tls_sizes rc rs sh os) ->
  rdc < 2 ^ 128 -> rdc <> 0 -> ole_rand_ok roc 1 -> ole_blk roc -> rds < 2 ^ 128 -> rds <> 0 -> ole_rand_ok ros 1 -> ole_blk ros ->
  l <> [] -> Forall lcall_wf l ->
  let ms := ms_spec (pms_of q pa pb) rc rs sh in
  let kb := key_block ms rc rs in
  let spec := lspec (tls_client_key kb) (tls_server_key kb) (tls_client_iv kb) (tls_server_iv kb) in
  exists x s, on_session honest aes_ks_file aes_enc_file q rounds (gcm_calls pa pb rc rs sh os (map gcall_of l)) cst0 = Ok (x, s) /\
  (clean_run sigma aes Hash fixk Kc rnd lab delta (o_init Kc rnd delta bs) [] [] (lower (c_tr s)) ->
   exists o op, o_run sigma aes Hash fixk Kc rnd lab delta (o_init Kc rnd delta bs) (lower (c_tr s)) = Ok (o, op) /\
    always_completes (l_session gfr hash true (og_w o) (saw true op) (os_sh x) rdc roc rds ros l)
                     (l_session gfr hash false (oe_w o) (saw false op) (os_sh x) rdc roc rds ros l)
      (Ok (map (fun o => out_alice (spec o)) l)) (Ok (map (fun o => out_bob (spec o)) l))).
Proof. exact stream_records. Qed.
Print Assumptions C91_records.
(** From the key agreement, as in C90_whole_session. *)
Theorem C91_whole_session : forall (sigma aes : N -> N) (Hash : list N -> N) (fixk Kc : nat -> N) (rnd : nat -> bool) (lab : nat -> N) (delta : N),
  getLSB delta = true -> delta < 2 ^ 128 -> (forall x, sigma x < 2 ^ 128) -> (forall x, aes x < 2 ^ 128) ->
  (forall i, fixk i < 2 ^ 128) -> (forall i, Kc i < 2 ^ 128) -> (forall i, lab i < 2 ^ 128) ->
  forall gfr, gfr_ok gfr -> forall hash, (forall l, length (hash l) = DIGEST_SIZE) ->
  forall (C : Curve) ccrh bl ra rb Delta raw ta tb sv xa ya xb yb bs rounds rc rs sh os l rdc roc rds ros, (32 <= BN_num_bytes (cp C))%nat ->
  prime (cp C) -> (cp C < 2 ^ Z.of_nat bl)%Z -> length raw = 5%nat -> Forall (fun r => length r = bl) raw ->
  let Ts := smul sv (@gen C) in let Tc := padd (smul ta (@gen C)) (smul tb gen) in
  smul ta (@gen C) <> pz ->
  coords (smul tb Ts) = Some (xa, ya) -> coords (smul ta Ts) = Some (xb, yb) -> xa <> xb ->
  Forall byte8 rc -> Forall byte8 rs -> opt_wf sh -> Forall fin_wf os -> (rounds = true -> tls_sizes rc rs sh os) ->
  rdc < 2 ^ 128 -> rdc <> 0 -> ole_rand_ok roc 1 -> ole_blk roc -> rds < 2 ^ 128 -> rds <> 0 -> ole_rand_ok ros 1 -> ole_blk ros ->
  l <> [] -> Forall lcall_wf l ->
  exists sa sb, e2f_offline ccrh (cp C) bl ra rb Delta raw = Ok (sa, sb) /\
  (((e_a sa + e_a sb) mod cp C)%Z <> 0%Z ->
   exists x y pa pb, coords (smul sv Tc) = Some (x, y) /\
     always_completes (p_pms_off_alice ccrh (cp C) bl tb Ts ra Delta raw) (p_pms_off_bob ccrh (cp C) bl ta Ts rb Delta raw)
       (Ok (Tc, pa)) (Ok (smul ta Ts, pb)) /\
     let ms := ms_spec (premaster (BN_num_bytes (cp C)) (Z.to_N x)) rc rs sh in
     let kb := key_block ms rc rs in
     let spec := lspec (tls_client_key kb) (tls_server_key kb) (tls_client_iv kb) (tls_server_iv kb) in
     exists r s,
      on_session honest aes_ks_file aes_enc_file (cp C) rounds (gcm_calls pa pb rc rs sh os (map gcall_of l)) cst0 = Ok (r, s) /\
      (clean_run sigma aes Hash fixk Kc rnd lab delta (o_init Kc rnd delta bs) [] [] (lower (c_tr s)) ->
       exists o op, o_run sigma aes Hash fixk Kc rnd lab delta (o_init Kc rnd delta bs) (lower (c_tr s)) = Ok (o, op) /\
        always_completes (l_session gfr hash true (og_w o) (saw true op) (os_sh r) rdc roc rds ros l)
                         (l_session gfr hash false (oe_w o) (saw false op) (os_sh r) rdc roc rds ros l)
          (Ok (map (fun o => out_alice (spec o)) l)) (Ok (map (fun o => out_bob (spec o)) l)))).
Proof. exact stream_whole. Qed.
Print Assumptions C91_whole_session.
(** a session with two AEADs exists over the 256-bit field, and its share wires, of which there are,
    are live *)
Definition p256 : Z := (2 ^ 256 - 2 ^ 224 + 2 ^ 192 + 2 ^ 96 - 1)%Z.
Example C91_ex : exists x s,
  on_session honest aes_ks_file aes_enc_file p256 true (gcm_calls 5 7 (repeat 1 32) (repeat 2 32) None [] []) cst0 = Ok (x, s) /\
  (exists ws t, os_sh x = ws :: t /\ length ws = 128%nat /\ forall w, In w ws -> S_Circuit.kind (fold_left S_Circuit.kind_step (lower (c_tr s)) []) (low_wire w) = None).
Proof.
  assert (B : (32 <= BN_num_bytes p256)%nat) by (apply Nat.leb_le; vm_compute; reflexivity).
  assert (Bc : forall n x, x < 256 -> Forall byte8 (repeat x n)).
  { intros n x Hx. apply Forall_forall. intros y Hy. apply repeat_spec in Hy. subst y. exact Hx. }
  destruct (gcm_wires (fun _ _ => false) (fun _ => false) p256 true 5 7 (repeat 1 32) (repeat 2 32) None [] []) as (x & s & _ & _ & E & _ & _ & _ & V).
  - split; [discriminate|reflexivity].
  - split; [discriminate|reflexivity].
  - apply Bc. reflexivity.
  - apply Bc. reflexivity.
  - exact I.
  - constructor.
  - constructor.
  - intros _. repeat (split || constructor).
  - exists x, s. split; [exact E|]. destruct (os_sh x) as [|ws t] eqn:Os; [apply (f_equal (@length _)) in V; discriminate V|]. exists ws, t. split; [reflexivity|]. split.
    + cbn [map] in V. apply (f_equal (hd [])) in V. cbn [hd] in V. rename V into V1. apply (f_equal (@length bool)) in V1. unfold ev in V1. rewrite map_length, bits_of_N_length in V1. exact V1.
    + intros w Hw. eapply (C91_never_constant honest p256 true _ _ x s B); [|exact E| |exact Hw]; [exact I|]. rewrite Os. now left.
Qed.
(** the label condition on the addition of the two shares of the premaster secret (here 8 bits wide),
    where x xor not x occurs *)
Definition ex91_tr : list S_Netlist.nev :=
  match (mbind (gfeed S_Netlist.OA (bits_of_N 8 200)) (fun a => mbind (gfeed S_Netlist.OB (bits_of_N 8 100)) (fun b => saddmod_bn a b 251))) cst0 with
  | Ok (_, s) => c_tr s | _ => [] end.
Example C91_clean_ex :
  clean_runb toy_sigma toy_aes toy_hash (toy_stream 77) (toy_stream 900) (fun i => N.testbit (toy_stream 3 i) 4) (toy_stream 500) (set_delta 998877665544332211)
    (o_init (toy_stream 900) (fun i => N.testbit (toy_stream 3 i) 4) (set_delta 998877665544332211) 4) [] [] (lower ex91_tr) = true /\ length ex91_tr = 169%nat.
Proof. split; vm_compute; reflexivity. Qed.
