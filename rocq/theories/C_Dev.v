(** Property C95: what a BOB that does not keep to the protocol can change in ALICE's records. *)
From Coq Require Import List NArith ZArith Bool Arith.
From Verif Require Import L_Bits L_Res S_Sched S_Lower S_Codec S_Aes S_Gcm S_Tls.
From Verif Require Import M_EmpInteger M_Utils M_Bristol M_Bn M_Sym M_SymOn M_SymOff M_SymSess M_Block M_Ole2k M_Shares M_Commit M_Garble M_Handshake.
From Verif Require Import M_Aead M_Exch M_View M_LabRec M_Dev D_AesKs D_AesEnc.
From Verif Require Import P_Gf128 P_Aead P_AeadInst P_ExchAead P_ExchSess P_Sched P_Sha256Opt P_Handshake P_Session2 P_Sym P_SymTls P_SymGcm P_LabRec P_LabSess P_Dev.
Import ListNotations.
Local Open Scope N_scope.
Local Opaque aes_ks_file aes_enc_file aesE str_to_int gf_mul.

(** ** C95 *)
(** Two things in one session, for every session and every choice of changes, one string for each call.
    (1) BOB changes its share of the key stream of each call with secret content and otherwise runs its
    program: every schedule ends, no party notices, a sent record is the valid GCM encryption of the
    message with the change added, and a received one with the right tag is accepted and read with the
    change added ([dev_alice]).
    (2) Whatever process takes BOB's place: a record with public content has the right ciphertext,
    or the right plaintext, at ALICE whenever ALICE's program returns. *)
Theorem C95_changed_records : forall gfr, gfr_ok gfr -> forall hash, (forall l, length (hash l) = DIGEST_SIZE) ->
  forall (sigma aes : N -> N) (Hash : list N -> N) (fixk lab : nat -> N) (delta : N), getLSB delta = true ->
  forall orc' junk q rounds pa pb rc rs sh os l ds rdc roc rds ros, (0 <= pa < q)%Z -> (0 <= pb < q)%Z ->
  Forall byte8 rc -> Forall byte8 rs -> opt_wf sh -> Forall fin_wf os -> (rounds = true -> tls_sizes rc rs sh os) ->
  rdc < 2 ^ 128 -> rdc <> 0 -> ole_rand_ok roc 1 -> ole_blk roc -> rds < 2 ^ 128 -> rds <> 0 -> ole_rand_ok ros 1 -> ole_blk ros ->
  l <> [] -> Forall lcall_wf l -> Forall2 shifts l ds ->
  let ms := ms_spec (pms_of q pa pb) rc rs sh in
  let kb := key_block ms rc rs in
  let kc := tls_client_key kb in let ksv := tls_server_key kb in let fc := tls_client_iv kb in let fs := tls_server_iv kb in
  exists x s y s' n op,
    on_session honest aes_ks_file aes_enc_file q rounds (gcm_calls pa pb rc rs sh os (map gcall_of l)) cst0 = Ok (x, s) /\
    off_session orc' junk aes_ks_file aes_enc_file q rounds (map announce (gcm_calls pa pb rc rs sh os (map gcall_of l))) cst0 = Ok (y, s') /\
    two_phase sigma aes Hash fixk lab delta (lower (c_tr s')) (lower (c_tr s)) = Ok (n, op) /\
    always_completes (l_session gfr hash true (ng_w n) (saw true op) (os_sh x) rdc roc rds ros l)
                     (dev_bob gfr hash ds (ne_w n) (saw false op) (os_sh x) rdc roc rds ros l)
      (Ok (map2 (dev_alice kc ksv fc fs) l ds)) (Ok (map2 (dev_bob_out kc ksv fc fs) l ds)) /\
    (forall B (q : proc B) xs z, reach (start (l_session gfr hash true (ng_w n) (saw true op) (os_sh x) rdc roc rds ros l) q) z ->
      prog (fst z) = Ret (Ok xs) ->
      Forall2 (fun o x => in_sec (lc_in o) = false -> text_of x = Some (right_text kc ksv fc fs o)) l xs).
Proof. exact dev_records. Qed.
Print Assumptions C95_changed_records.
(** The expectation that a BOB cannot make ALICE send or read another text without being noticed
    fails in every session: the server accepts, as the record ALICE made for the message 1 2 3, one with
    another message; and ALICE accepts the server's record 9 8 but does not read its plaintext. *)
Theorem C95_own_text_refuted : forall gfr, gfr_ok gfr -> forall hash, (forall l, length (hash l) = DIGEST_SIZE) ->
  forall (sigma aes : N -> N) (Hash : list N -> N) (fixk lab : nat -> N) (delta : N), getLSB delta = true ->
  forall orc' junk q rounds pa pb rc rs sh os rdc roc rds ros, (0 <= pa < q)%Z -> (0 <= pb < q)%Z ->
  Forall byte8 rc -> Forall byte8 rs -> opt_wf sh -> Forall fin_wf os -> (rounds = true -> tls_sizes rc rs sh os) ->
  rdc < 2 ^ 128 -> rdc <> 0 -> ole_rand_ok roc 1 -> ole_blk roc -> rds < 2 ^ 128 -> rds <> 0 -> ole_rand_ok ros 1 -> ole_blk ros ->
  let ms := ms_spec (pms_of q pa pb) rc rs sh in
  let kb := key_block ms rc rs in
  let kc := tls_client_key kb in let ksv := tls_server_key kb in let fc := tls_client_iv kb in let fs := tls_server_iv kb in
  let tag := gcm_tag (aesE ksv) (fs ++ repeat 6 8) [] [9; 8] in
  let l := [dev_enc; dev_dec tag] in
  exists x s y s' n op c t m' p',
    on_session honest aes_ks_file aes_enc_file q rounds (gcm_calls pa pb rc rs sh os (map gcall_of l)) cst0 = Ok (x, s) /\
    off_session orc' junk aes_ks_file aes_enc_file q rounds (map announce (gcm_calls pa pb rc rs sh os (map gcall_of l))) cst0 = Ok (y, s') /\
    two_phase sigma aes Hash fixk lab delta (lower (c_tr s')) (lower (c_tr s)) = Ok (n, op) /\
    always_completes (l_session gfr hash true (ng_w n) (saw true op) (os_sh x) rdc roc rds ros l)
                     (dev_bob gfr hash [[255; 0; 1]; [0; 16]] (ne_w n) (saw false op) (os_sh x) rdc roc rds ros l)
      (Ok [PEnc (c, t); PDec (Some p', true)]) (Ok [PEnc (c, t); PDec (None, true)]) /\
    gcm_ad (aesE kc) (fc ++ repeat 5 8) c [7] t = Some m' /\ m' <> [1; 2; 3] /\
    gcm_ad (aesE ksv) (fs ++ repeat 6 8) [9; 8] [] tag <> None /\ gcm_ad (aesE ksv) (fs ++ repeat 6 8) [9; 8] [] tag <> Some p'.
Proof. exact dev_attack. Qed.
Print Assumptions C95_own_text_refuted.
(** the hypotheses on calls and changes hold of a call of each kind, and the outcome is as told *)
Example C95_ex : let l := [dev_enc; dev_dec (repeat 0 16);
    {| lc_srv := false; lc_in := InEnc [4; 200] [4; 200] [] (repeat 6 8) false; lc_ole := ex_ro 2 |}] in
  let ds := [[255; 0; 1]; [0; 16]; [3; 3]] in
  gfr_ok gf_mul /\ Forall lcall_wf l /\ Forall2 shifts l ds /\ getLSB 5 = true /\
  (forall kc ks fc fs, nth_error (map2 (dev_alice kc ks fc fs) l ds) 0 = Some (PEnc (gcm_ae (aesE kc) (fc ++ repeat 5 8) [254; 2; 2] [7]))) /\
  (forall kc ks fc fs, nth_error (map2 (dev_alice kc ks fc fs) l ds) 2 = Some (PEnc (gcm_ae (aesE kc) (fc ++ repeat 6 8) [4; 200] []))).
Proof.
  split; [exact gfr_gf_mul|]. split.
  { constructor; [exact dev_enc_wf|]. constructor; [apply dev_dec_wf|]. constructor; [|constructor].
    unfold lcall_wf. cbn [lc_in lc_ole]. repeat (apply conj); try (repeat constructor); try discriminate; try apply ex_ro_ok;
    apply Forall_forall; intros x Hx; apply repeat_spec in Hx; subst; apply Forall_forall; intros y Hy; apply repeat_spec in Hy; subst; reflexivity. }
  split.
  { constructor; [split; [reflexivity|repeat constructor]|]. constructor; [split; [reflexivity|repeat constructor]|].
    constructor; [split; [reflexivity|repeat constructor]|constructor]. }
  split; [reflexivity|]. split; reflexivity.
Qed.
