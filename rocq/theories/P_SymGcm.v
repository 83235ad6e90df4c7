(** A TLS 1.2 session at gate level: handshake, then any sequence of record calls on the two
    AEAD objects.  The wires that are turned into shares carry H, E(J0) and the GCM key
    stream. *)
From Coq Require Import List NArith ZArith Bool Arith Lia.
From Verif Require Import L_Bits L_Res S_Netlist S_Codec S_Aes S_Gcm S_Tls M_EmpInteger M_Utils M_Bristol M_Bn M_Sym M_SymOn M_SymOff M_SymSess.
From Verif Require Import M_Block M_Shares M_Handshake M_Aead D_AesKs D_AesEnc P_Utils P_Shares P_Gcm P_Aead P_AeadInst P_AeadProof.
From Verif Require Import P_Sha256Opt P_Handshake P_Sym P_SymVal P_SymTls P_Session2.
Import ListNotations.
Local Open Scope N_scope.
Local Opaque aes_ks_file aes_enc_file computeKS computeAES_KS aesE str_to_int key_material gcm_ctext key_block ms_spec.

(** a record call: which AEAD object, explicit nonce, length, secret or open, direction
    (/repo/protocol/aead.h:169-175, 308-314) *)
Record gcall := { ga_srv : bool; ga_iv : list N; ga_len : nat; ga_sec : bool; ga_enc : bool }.
Definition gcall_wf (c : gcall) : Prop := length (ga_iv c) = 8%nat /\ bytes_ok (ga_iv c).
Definition to_call (c : gcall) : on_call :=
  (if ga_enc c then NEncrypt else NDecrypt) (if ga_srv c then 1 else 0)%nat (ga_iv c) (N.of_nat (ga_len c)) (ga_sec c).
Definition record_calls (cs : list gcall) : list on_call := NAead false :: NAead true :: map to_call cs.

Section Spec.
Variable Ec Es : N -> N.
Variable fivc fivs : list N.
(** the key stream of the record, as the encryption of zeros *)
Definition gc_ks (c : gcall) : list N :=
  if ga_srv c then gcm_ctext Es (fivs ++ ga_iv c) (repeat 0 (ga_len c)) else gcm_ctext Ec (fivc ++ ga_iv c) (repeat 0 (ga_len c)).
Definition gc_ej0 (c : gcall) : N :=
  if ga_srv c then Es (j0_of (fivs ++ ga_iv c)) else Ec (j0_of (fivc ++ ga_iv c)).
(** what the call opens, and the values of the wires it shares *)
Definition gc_out (c : gcall) : list N := if ga_sec c then [] else rev (gc_ks c).
Definition gc_sh (c : gcall) : list Integer := [bits_of_N 128 (gc_ej0 c); str_to_int (gc_ks c)].
End Spec.

Lemma xor_zeros : forall n l, (n <= length l)%nat -> xor_arr (repeat 0 n) l = firstn n l.
Proof.
  induction n as [|n IH]; intros [|x l] H; cbn [length] in H; try lia; try reflexivity. cbn [repeat firstn].
  unfold xor_arr in *. cbn [map2]. rewrite IH by lia. reflexivity.
Qed.
Lemma ks_zeros E fiv iv n sec : call_ks E fiv (mk_call iv n sec) = gcm_ctext E (fiv ++ iv) (repeat 0 n).
Proof.
  rewrite <- (ctext_xor E fiv iv (repeat 0 n) sec), repeat_length.
  rewrite xor_zeros by (rewrite call_ks_length; cbn; lia). rewrite firstn_all2; [reflexivity|]. rewrite call_ks_length. cbn. lia.
Qed.
Lemma ks_bytes key fiv iv n : Forall byte8 (gcm_ctext (aesE key) (fiv ++ iv) (repeat 0 n)).
Proof. rewrite <- (ks_zeros _ _ _ _ false). apply call_ks_bytes. Qed.
Lemma v_calls_app ks enc : forall a b s, v_calls ks enc (a ++ b) s = bind (v_calls ks enc a s) (v_calls ks enc b).
Proof.
  induction a as [|c a IH]; intros b s; cbn [app v_calls]; [reflexivity|].
  destruct (v_do ks enc s c); cbn [bind]; [apply IH|reflexivity|reflexivity].
Qed.
Lemma aead_files key iv : key_ok key -> v_aead_new aes_ks_file aes_enc_file (str_to_int key) iv =
  Ok ({| g_key := EK key; g_nonce := []; g_fixed := iv |}, bits_of_N 128 (aesE key 0)).
Proof.
  intros [L B]. unfold v_aead_new. rewrite files_ks by assumption. cbn [bind]. unfold computeH, int_of.
  rewrite (proj1 (files_cipher_ok key L B)). reflexivity.
Qed.
Lemma material_files key fiv g iv n : key_ok key -> iv_ok fiv -> length iv = 8%nat -> bytes_ok iv ->
  g_key g = EK key -> g_fixed g = str_to_int fiv ->
  exists n1, key_material aes_enc_file g iv (N.of_nat n) =
    Ok (bits_of_N 128 (aesE key (j0_of (fiv ++ iv))), str_to_int (gcm_ctext (aesE key) (fiv ++ iv) (repeat 0 n)), n1).
Proof.
  intros [L B] [V1 V2] L8 B8 K F.
  destruct (key_material_ok aes_enc_file (EK key) (aesE key) (proj1 (files_cipher_ok key L B)) g fiv iv n K F V1 V2 L8 B8) as (Z & n1 & EZ & LZ & BZ).
  exists n1. rewrite EZ. repeat f_equal. rewrite <- (ks_zeros (aesE key) fiv iv n false), str_bits8.
  rewrite <- (bits8_reveal n Z LZ). f_equal.
  unfold reveal_as. rewrite <- (rev_involutive (map N_of_bits _)), (bytes_be_rev_reveal _ _ LZ), BZ. reflexivity.
Qed.

(** ** The record calls on values *)
Definition aead_of (key fiv : list N) (g : gcst) : Prop := g_key g = EK key /\ g_fixed g = str_to_int fiv.
Lemma v_recs kc ks fc fs : key_ok kc -> key_ok ks -> iv_ok fc -> iv_ok fs -> forall cs h gc gs o w, Forall gcall_wf cs ->
  aead_of kc fc gc -> aead_of ks fs gs ->
  exists gc' gs', v_calls aes_ks_file aes_enc_file (map to_call cs) (mkVSess h [gc; gs] o w) =
    Ok (mkVSess h [gc'; gs'] (o ++ map (gc_out (aesE kc) (aesE ks) fc fs) cs)
      (w ++ flat_map (gc_sh (aesE kc) (aesE ks) fc fs) cs)).
Proof.
  intros KC KS IC IS. induction cs as [|c cs IH]; intros h gc gs o w W AC AS.
  - exists gc, gs. cbn [map flat_map v_calls]. now rewrite !app_nil_r.
  - inversion W as [|? ? [L8 B8] W']; subst. cbn [map flat_map v_calls].
    assert (X : exists gc' gs', v_do aes_ks_file aes_enc_file (mkVSess h [gc; gs] o w) (to_call c) =
        Ok (mkVSess h [gc'; gs'] (o ++ [gc_out (aesE kc) (aesE ks) fc fs c]) (w ++ gc_sh (aesE kc) (aesE ks) fc fs c)) /\
        aead_of kc fc gc' /\ aead_of ks fs gs').
    { unfold to_call, gc_out, gc_sh, gc_ks, gc_ej0. destruct c as [srv iv n sec enc]; cbn [ga_srv ga_iv ga_len ga_sec ga_enc] in *.
      assert (E : forall k, v_do aes_ks_file aes_enc_file (mkVSess h [gc; gs] o w) ((if enc then NEncrypt else NDecrypt) k iv (N.of_nat n) sec) =
        v_crypt_call aes_enc_file (mkVSess h [gc; gs] o w) k iv (N.of_nat n) sec) by (intro k; destruct enc; reflexivity).
      rewrite E. clear E. unfold v_crypt_call. cbn [v_hs v_aeads v_out v_sh].
      destruct srv; cbn [nth_error read bind firstn skipn app].
      - destruct (material_files ks fs gs iv n KS IS L8 B8 (proj1 AS) (proj2 AS)) as (n1 & E). rewrite E. cbn [bind].
        exists gc, {| g_key := g_key gs; g_nonce := n1; g_fixed := g_fixed gs |}.
        split; [|split; [exact AC|exact AS]]. rewrite reveal_str by apply (ks_bytes ks). destruct sec; reflexivity.
      - destruct (material_files kc fc gc iv n KC IC L8 B8 (proj1 AC) (proj2 AC)) as (n1 & E). rewrite E. cbn [bind].
        exists {| g_key := g_key gc; g_nonce := n1; g_fixed := g_fixed gc |}, gs.
        split; [|split; [exact AC|exact AS]]. rewrite reveal_str by apply (ks_bytes kc). destruct sec; reflexivity. }
    destruct X as (gc1 & gs1 & E & A1 & A2). rewrite E. cbn [bind].
    destruct (IH h gc1 gs1 (o ++ [gc_out (aesE kc) (aesE ks) fc fs c]) (w ++ gc_sh (aesE kc) (aesE ks) fc fs c) W' A1 A2) as (gc' & gs' & E').
    exists gc', gs'. rewrite E', <- !app_assoc. reflexivity.
Qed.

(** ** The whole session at gate level *)
(** handshake, both AEAD constructors, record calls: the order of /repo/test/protocol.cpp:82-121 *)
Definition gcm_calls pa pb rc rs sh os cs : list on_call := tls_calls pa pb rc rs sh os ++ record_calls cs.
Lemma v_gcm q rounds pa pb rc rs sh os cs : (0 <= pa < q)%Z -> (0 <= pb < q)%Z ->
  Forall byte8 rc -> Forall byte8 rs -> opt_wf sh -> Forall fin_wf os -> Forall gcall_wf cs ->
  let ms := ms_spec (pms_of q pa pb) rc rs sh in
  let kb := key_block ms rc rs in
  let Ec := aesE (tls_client_key kb) in let Es := aesE (tls_server_key kb) in
  let fc := tls_client_iv kb in let fs := tls_server_iv kb in
  exists v, v_session aes_ks_file aes_enc_file q rounds (gcm_calls pa pb rc rs sh os cs) = Ok v /\
    v_out v = map (fun f => rev (fin_vd ms f)) os ++ map (gc_out Ec Es fc fs) cs /\
    v_sh v = bits_of_N 128 (Ec 0) :: bits_of_N 128 (Es 0) :: flat_map (gc_sh Ec Es fc fs) cs.
Proof.
  intros Ha Hb Hc Hs Hh Ho W ms kb Ec Es fc fs.
  destruct (v_tls aes_ks_file aes_enc_file q rounds pa pb rc rs sh os Ha Hb Hc Hs Hh Ho) as (h & E & _ & R2 & R3 & R4 & R5).
  fold ms in E, R2, R3, R4, R5. fold kb in R2, R3, R4, R5.
  destruct (tls_keys_ok ms rc rs) as (KC & KS & IC & IS). fold kb in KC, KS, IC, IS.
  unfold v_session in *. unfold gcm_calls. rewrite v_calls_app, E. clear E. cbn [bind]. unfold record_calls. cbn [v_calls v_do v_hs].
  rewrite R2, R4, (aead_files _ (str_to_int (tls_client_iv kb)) KC). cbn [bind v_hs v_aeads v_out v_sh app].
  rewrite R3, R5, (aead_files _ (str_to_int (tls_server_iv kb)) KS). cbn [bind v_hs v_aeads v_out v_sh app].
  match goal with |- context[mkVSess h [?gc; ?gs] ?o ?w] =>
    destruct (v_recs (tls_client_key kb) (tls_server_key kb) fc fs KC KS IC IS cs h gc gs o w W) as (gc' & gs' & E') end;
    [split; reflexivity|split; reflexivity|].
  rewrite E'. eexists. split; [reflexivity|]. split; reflexivity.
Qed.
Lemma gcm_sizes_ok q rounds pa pb rc rs sh os cs : (0 <= pa < q)%Z -> (0 <= pb < q)%Z ->
  (rounds = true -> tls_sizes rc rs sh os) -> Forall gcall_wf cs -> Forall (sizes_ok q rounds) (gcm_calls pa pb rc rs sh os cs).
Proof.
  intros Ha Hb Hz W. apply Forall_app. split; [now apply tls_sizes_ok|].
  apply Forall_cons; [exact I|]. apply Forall_cons; [exact I|]. apply Forall_map.
  revert W. apply Forall_impl. intros [srv iv n sec enc] [L _]. destruct enc; exact L.
Qed.
Theorem gcm_wires orc' junk q rounds pa pb rc rs sh os cs : (0 <= pa < q)%Z -> (0 <= pb < q)%Z ->
  Forall byte8 rc -> Forall byte8 rs -> opt_wf sh -> Forall fin_wf os -> Forall gcall_wf cs ->
  (rounds = true -> tls_sizes rc rs sh os) ->
  let ms := ms_spec (pms_of q pa pb) rc rs sh in
  let kb := key_block ms rc rs in
  let Ec := aesE (tls_client_key kb) in let Es := aesE (tls_server_key kb) in
  let fc := tls_client_iv kb in let fs := tls_server_iv kb in
  exists x s y s',
    on_session honest aes_ks_file aes_enc_file q rounds (gcm_calls pa pb rc rs sh os cs) cst0 = Ok (x, s) /\
    off_session orc' junk aes_ks_file aes_enc_file q rounds (map announce (gcm_calls pa pb rc rs sh os cs)) cst0 = Ok (y, s') /\
    shape (c_tr s) = shape (c_tr s') /\
    os_out x = map (fun f => rev (fin_vd ms f)) os ++ map (gc_out Ec Es fc fs) cs /\
    map (ev s) (os_sh x) = bits_of_N 128 (Ec 0) :: bits_of_N 128 (Es 0) :: flat_map (gc_sh Ec Es fc fs) cs.
Proof.
  intros Ha Hb Hc Hs Hh Ho W Hz ms kb Ec Es fc fs.
  destruct (v_gcm q rounds pa pb rc rs sh os cs Ha Hb Hc Hs Hh Ho W) as (v & E & V1 & V2).
  fold ms in V1, V2. fold kb in V1, V2. fold Ec Es fc fs in V1, V2.
  pose proof (online_values aes_ks_file aes_enc_file q rounds (gcm_calls pa pb rc rs sh os cs)) as T. rewrite E in T. clear E.
  pose proof (sim_session honest orc' junk aes_ks_file aes_enc_file q rounds _ (gcm_sizes_ok q rounds pa pb rc rs sh os cs Ha Hb Hz W)
                cst0 cst0 eq_refl eq_refl) as S.
  destruct (on_session _ _ _ _ _ _ _) as [[x s]| |]; try contradiction.
  destruct T as (_ & _ & _ & _ & _ & T1 & T2).
  destruct (off_session _ _ _ _ _ _ _ _) as [[y s']| |]; try contradiction.
  destruct S as (_ & S & _). cbn [fst snd] in *.
  exists x, s, y, s'. split; [reflexivity|]. split; [reflexivity|]. split; [exact S|].
  rewrite <- V1, <- V2. split; assumption.
Qed.
