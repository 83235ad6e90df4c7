(** Property C90: a TLS session carried through by the two parties from their own data.  The circuit
    is garbled and evaluated on labels; each party then works with the low bits of its labels, what it
    saw opened, and the messages of the other, in any interleaving. *)
From Coq Require Import List NArith ZArith Znumtheory Bool Arith.
From Verif Require Import L_Bits L_Res L_Group S_Sched S_Lower S_Codec S_Aes S_Gcm S_Tls S_Ec.
From Verif Require Import M_EmpInteger M_Utils M_Bristol M_Bn M_Sym M_SymOn M_SymOff M_SymSess M_Block M_Ole2k M_Shares M_Commit M_Garble M_Handshake.
From Verif Require Import M_Ec M_Ole M_E2f M_ExchDh M_Aead M_Exch M_View M_LabRec D_AesKs D_AesEnc D_Toy.
From Verif Require Import P_Gf128 P_Aead P_AeadInst P_ExchAead P_ExchSess P_ExchRef P_Sha256Opt P_Handshake P_Session2 P_Sym P_SymTls P_SymGcm P_LabRec P_LabSess.
Import ListNotations.
Local Open Scope N_scope.
Local Opaque aes_ks_file aes_enc_file aesE str_to_int gf_mul.

(** ** C90 *)
(** From shares of the premaster secret: however the two record programs are interleaved they end,
    and each party has for every record what GCM with the TLS keys gives ([lspec]: the ciphertext and
    tag for an encryption; for a decryption the plaintext, at BOB only if the content is public, and
    whether the tag is right). *)
Theorem C90_records : forall gfr, gfr_ok gfr -> forall hash, (forall l, length (hash l) = DIGEST_SIZE) ->
  forall (sigma aes : N -> N) (Hash : list N -> N) (fixk lab : nat -> N) (delta : N), getLSB delta = true ->
  forall orc' junk q rounds pa pb rc rs sh os l rdc roc rds ros, (0 <= pa < q)%Z -> (0 <= pb < q)%Z ->
  Forall byte8 rc -> Forall byte8 rs -> opt_wf sh -> Forall fin_wf os -> (rounds = true -> tls_sizes rc rs sh os) ->
  rdc < 2 ^ 128 -> rdc <> 0 -> ole_rand_ok roc 1 -> ole_blk roc -> rds < 2 ^ 128 -> rds <> 0 -> ole_rand_ok ros 1 -> ole_blk ros ->
  l <> [] -> Forall lcall_wf l ->
  let ms := ms_spec (pms_of q pa pb) rc rs sh in
  let kb := key_block ms rc rs in
  let spec := lspec (tls_client_key kb) (tls_server_key kb) (tls_client_iv kb) (tls_server_iv kb) in
  exists x s y s' n op,
    on_session honest aes_ks_file aes_enc_file q rounds (gcm_calls pa pb rc rs sh os (map gcall_of l)) cst0 = Ok (x, s) /\
    off_session orc' junk aes_ks_file aes_enc_file q rounds (map announce (gcm_calls pa pb rc rs sh os (map gcall_of l))) cst0 = Ok (y, s') /\
    two_phase sigma aes Hash fixk lab delta (lower (c_tr s')) (lower (c_tr s)) = Ok (n, op) /\
    always_completes (l_session gfr hash true (ng_w n) (saw true op) (os_sh x) rdc roc rds ros l)
                     (l_session gfr hash false (ne_w n) (saw false op) (os_sh x) rdc roc rds ros l)
      (Ok (map (fun o => out_alice (spec o)) l)) (Ok (map (fun o => out_bob (spec o)) l)).
Proof. exact label_records. Qed.
Print Assumptions C90_records.
(** From the key agreement: the shares are those the two parties get from their curve points, and the
    records are those of the premaster secret the server computes, the x-coordinate of s Tc. *)
Theorem C90_whole_session : forall gfr, gfr_ok gfr -> forall hash, (forall l, length (hash l) = DIGEST_SIZE) ->
  forall (sigma aes : N -> N) (Hash : list N -> N) (fixk lab : nat -> N) (delta : N), getLSB delta = true ->
  forall (C : Curve) ccrh bl ra rb Delta raw ta tb sv xa ya xb yb orc' junk rounds rc rs sh os l rdc roc rds ros,
  prime (cp C) -> (cp C < 2 ^ Z.of_nat bl)%Z -> length raw = 5%nat -> Forall (fun r => length r = bl) raw ->
  let Ts := smul sv (@gen C) in let Tc := padd (smul ta (@gen C)) (smul tb gen) in
  smul ta (@gen C) <> pz ->
  coords (smul tb Ts) = Some (xa, ya) -> coords (smul ta Ts) = Some (xb, yb) -> xa <> xb ->
  Forall byte8 rc -> Forall byte8 rs -> opt_wf sh -> Forall fin_wf os -> (rounds = true -> tls_sizes rc rs sh os) ->
  rdc < 2 ^ 128 -> rdc <> 0 -> ole_rand_ok roc 1 -> ole_blk roc -> rds < 2 ^ 128 -> rds <> 0 -> ole_rand_ok ros 1 -> ole_blk ros ->
  l <> [] -> Forall lcall_wf l ->
  exists sa sb, e2f_offline ccrh (cp C) bl ra rb Delta raw = Ok (sa, sb) /\
  (((e_a sa + e_a sb) mod cp C)%Z <> 0%Z ->
   exists x y pa pb, coords (smul sv Tc) = Some (x, y) /\
     always_completes (p_pms_off_alice ccrh (cp C) bl tb Ts ra Delta raw) (p_pms_off_bob ccrh (cp C) bl ta Ts rb Delta raw)
       (Ok (Tc, pa)) (Ok (smul ta Ts, pb)) /\
     let ms := ms_spec (premaster (BN_num_bytes (cp C)) (Z.to_N x)) rc rs sh in
     let kb := key_block ms rc rs in
     let spec := lspec (tls_client_key kb) (tls_server_key kb) (tls_client_iv kb) (tls_server_iv kb) in
     exists r s r' s' n op,
      on_session honest aes_ks_file aes_enc_file (cp C) rounds (gcm_calls pa pb rc rs sh os (map gcall_of l)) cst0 = Ok (r, s) /\
      off_session orc' junk aes_ks_file aes_enc_file (cp C) rounds (map announce (gcm_calls pa pb rc rs sh os (map gcall_of l))) cst0 = Ok (r', s') /\
      two_phase sigma aes Hash fixk lab delta (lower (c_tr s')) (lower (c_tr s)) = Ok (n, op) /\
      always_completes (l_session gfr hash true (ng_w n) (saw true op) (os_sh r) rdc roc rds ros l)
                       (l_session gfr hash false (ne_w n) (saw false op) (os_sh r) rdc roc rds ros l)
        (Ok (map (fun o => out_alice (spec o)) l)) (Ok (map (fun o => out_bob (spec o)) l))).
Proof. exact whole_session. Qed.
Print Assumptions C90_whole_session.
(** the hypotheses hold of records of each kind on both objects; those on the curve and the
    conversion hold of the toy curve (C64_ex) *)
Definition ex90 : list lcall :=
  [{| lc_srv := false; lc_in := InEnc [1; 2; 3] [] [7] (repeat 5 8) true; lc_ole := ex_ro 3 |};
   {| lc_srv := false; lc_in := InEnc [4; 200] [4; 200] [] (repeat 6 8) false; lc_ole := ex_ro 2 |};
   {| lc_srv := true; lc_in := InDec [9; 8] (repeat 0 16) [] (repeat 6 8) false (repeat 1 16) (repeat 2 16); lc_ole := ex_ro 2 |};
   {| lc_srv := true; lc_in := InDec [] (repeat 3 16) [255] (repeat 7 8) true (repeat 3 16) (repeat 4 16); lc_ole := ex_ro 2 |}].
Lemma ex90_blk n : ole_blk (ex_ro n).
Proof. split; apply Forall_forall; intros x Hx; apply repeat_spec in Hx; subst; apply Forall_forall; intros y Hy; apply repeat_spec in Hy; subst; reflexivity. Qed.
Example C90_ex : gfr_ok gf_mul /\ ex90 <> [] /\ Forall lcall_wf ex90 /\ ole_rand_ok (ex_ro 1) 1 /\ ole_blk (ex_ro 1) /\
  getLSB 5 = true /\ tls_sizes (repeat 1 32) (repeat 2 32) None [] /\ public_calls ex90 = 2%nat /\
  (* what the specification gives for the second record is the GCM encryption under the client's key *)
  (forall kc ks fc fs, map (fun o => out_alice (lspec kc ks fc fs o)) (firstn 1 (skipn 1 ex90)) =
     [PEnc (gcm_ae (aesE kc) (fc ++ repeat 6 8) [4; 200] [])]).
Proof.
  split; [exact gfr_gf_mul|]. split; [discriminate|]. split.
  { repeat (apply Forall_cons || apply Forall_nil); unfold lcall_wf; cbn [lc_in lc_ole];
      repeat (apply conj); try (repeat constructor); try apply ex90_blk; try exact (ex_ro_ok _); discriminate. }
  split; [apply ex_ro_ok|]. split; [apply ex90_blk|]. split; [reflexivity|]. split; [repeat (split || constructor)|].
  split; [reflexivity|]. reflexivity.
Qed.
