(** A session run through wire labels: the circuit of the offline classes garbled, the requests of
    the online classes evaluated, and the shares read from the labels. *)
From Coq Require Import List NArith ZArith Bool Arith Lia.
From Verif Require Import L_Bits L_Res S_Circuit S_Lower.
From Verif Require S_Netlist.
From Verif Require Import S_Codec S_Aes S_Gcm S_Tls M_EmpInteger M_Utils M_Bristol M_Bn M_Sym M_SymOn M_SymOff M_SymSess.
From Verif Require Import M_Block M_Shares M_Garble M_Handshake M_LabRec D_AesKs D_AesEnc.
From Verif Require Import P_Lower P_Garble P_Utils P_Shares P_Gcm P_Aead P_AeadInst P_Sha256Opt P_Handshake P_Sym P_SymTls P_SymGcm P_Session2.
From Verif Require P_SymVal P_AesNet.
Import ListNotations.
Local Open Scope N_scope.
Local Opaque aes_ks_file aes_enc_file aesE str_to_int gcm_ctext key_block ms_spec.

Lemma bytes_be_str v : Forall (fun b => b < 256) v -> bytes_be (str_to_int v) = v.
Proof. intro B. rewrite <- (be_enc_val v B) at 1. rewrite str_to_int_be, bytes_be_bits. apply be_enc_val, B. Qed.
Lemma low_bits_xor delta wg we V ws : getLSB delta = true ->
  (forall i, lbl we i = N.lxor (lbl wg i) (sel (wire (consts V) i) delta)) ->
  low_bits we ws = bxor (low_bits wg ws) (map (S_Netlist.wval V) ws).
Proof.
  intros Hd H. unfold low_bits, bxor. induction ws as [|w ws IH]; [reflexivity|]. cbn [map map2]. rewrite IH. f_equal.
  rewrite H, lsb_xor, lsb_sel, low_wire_val by exact Hd. reflexivity.
Qed.
Lemma session_sound ks enc q rounds cs x s : on_session honest ks enc q rounds cs cst0 = Ok (x, s) -> S_Netlist.sound_trace (c_tr s).
Proof.
  intro E. pose proof (P_SymVal.tri_session ks enc q rounds cs) as T. unfold P_SymVal.tri in T. rewrite E in T.
  destruct (v_session ks enc q rounds cs) as [v| |]; try contradiction. exact (proj2 (proj1 T)).
Qed.

Section G.
Variables (sigma aes : N -> N) (Hash : list N -> N) (fixk lab : nat -> N) (delta : N).
Hypothesis Hd : getLSB delta = true.
Theorem label_session orc' junk ks enc q rounds cs x s : Forall (sizes_ok q rounds) cs ->
  on_session honest ks enc q rounds cs cst0 = Ok (x, s) ->
  exists y s' n op, off_session orc' junk ks enc q rounds (map announce cs) cst0 = Ok (y, s') /\
    two_phase sigma aes Hash fixk lab delta (lower (c_tr s')) (lower (c_tr s)) = Ok (n, op) /\
    Forall2 seen (map low_open (S_Netlist.openings (c_tr s))) op /\
    (forall ws, low_bits (ne_w n) ws = bxor (low_bits (ng_w n) ws) (ev s ws)) /\ n_ge n = [] /\ n_eg n = [].
Proof.
  intros Z E. pose proof (session_sound _ _ _ _ _ _ _ E) as S.
  pose proof (sim_session honest orc' junk ks enc q rounds cs Z cst0 cst0 eq_refl eq_refl) as C. rewrite E in C.
  destruct (off_session _ _ _ _ _ _ _ _) as [[y s']| |]; try contradiction. destruct C as (_ & C & _). cbn [snd fst] in C.
  destruct (two_phase_ok sigma aes Hash fixk lab delta Hd (lower (c_tr s')) (lower (c_tr s))) as (n & op & R & O & _ & L & G1 & G2).
  - apply lower_shape. symmetry. exact C.
  - apply lower_wf, S.
  - exists y, s', n, op. rewrite lower_run in O, L. cbn [fst snd] in O, L.
    split; [reflexivity|]. split; [exact R|]. split; [exact O|]. split; [|split; assumption].
    intro ws. apply low_bits_xor with (delta := delta); assumption.
Qed.
(** the two parties' shares of a block, and of a string *)
Definition block_shares (n : nstate) (ws : list S_Netlist.wire) (v : N) : Prop :=
  exists a b, integer_to_block (low_bits (ng_w n) ws) = Ok a /\ integer_to_block (low_bits (ne_w n) ws) = Ok b /\ N.lxor a b = v.
Definition char_shares (n : nstate) (ws : list S_Netlist.wire) (v : list N) : Prop :=
  exists a b, integer_to_chars (low_bits (ng_w n) ws) = Ok a /\ integer_to_chars (low_bits (ne_w n) ws) = Ok b /\ map2 N.lxor a b = v.
Lemma low_bits_length w ws : length (low_bits w ws) = length ws.
Proof. apply map_length. Qed.
Lemma block_share_ok n s ws v : (forall ws, low_bits (ne_w n) ws = bxor (low_bits (ng_w n) ws) (ev s ws)) ->
  v < 2 ^ 128 -> ev s ws = bits_of_N 128 v -> block_shares n ws v.
Proof.
  intros H B E. assert (L : length ws = 128%nat).
  { apply (f_equal (@length bool)) in E. unfold ev in E. rewrite map_length, bits_of_N_length in E. exact E. }
  destruct (itb_share (low_bits (ng_w n) ws) (ev s ws)) as (a & b & H1 & H2 & H3 & _).
  - now rewrite low_bits_length.
  - rewrite E. apply bits_of_N_length.
  - exists a, b. rewrite H. split; [exact H1|]. split; [exact H2|]. rewrite H3, E. apply N_of_bits_of_N_small. exact B.
Qed.
Lemma char_share_ok n s ws v : (forall ws, low_bits (ne_w n) ws = bxor (low_bits (ng_w n) ws) (ev s ws)) ->
  Forall (fun b => b < 256) v -> ev s ws = str_to_int v -> char_shares n ws v.
Proof.
  intros H B E. assert (L : length ws = (8 * length v)%nat).
  { apply (f_equal (@length bool)) in E. unfold ev in E. rewrite map_length, P_AesNet.str_to_int_length in E. exact E. }
  destruct (itc_share (low_bits (ng_w n) ws) (ev s ws) (length v)) as (a & b & H1 & H2 & H3 & _).
  - now rewrite low_bits_length.
  - rewrite E. apply P_AesNet.str_to_int_length.
  - exists a, b. rewrite H. split; [exact H1|]. split; [exact H2|]. rewrite H3, E. 
    apply bytes_be_str. exact B.
Qed.
Lemma shares_split V Ec Es fc fs cs : forall wl, map (map (S_Netlist.wval V)) wl = flat_map (gc_sh Ec Es fc fs) cs ->
  exists l, wl = flat_map (fun p => [fst p; snd p]) l /\
    Forall2 (fun c p => map (S_Netlist.wval V) (fst p) = bits_of_N 128 (gc_ej0 Ec Es fc fs c) /\
                        map (S_Netlist.wval V) (snd p) = str_to_int (gc_ks Ec Es fc fs c)) cs l.
Proof.
  induction cs as [|c cs IH]; intros wl H.
  - destruct wl; [|discriminate]. exists []. split; [reflexivity|constructor].
  - cbn [flat_map gc_sh app] in H. destruct wl as [|w0 [|w1 wl]]; try discriminate. cbn [map] in H. injection H as H0 H1 H2.
    destruct (IH _ H2) as (l & -> & F). exists ((w0, w1) :: l). split; [reflexivity|]. constructor; [split; assumption|exact F].
Qed.
Theorem gcm_labels orc' junk q rounds pa pb rc rs sh os cs : (0 <= pa < q)%Z -> (0 <= pb < q)%Z ->
  Forall byte8 rc -> Forall byte8 rs -> opt_wf sh -> Forall fin_wf os -> Forall gcall_wf cs ->
  (rounds = true -> tls_sizes rc rs sh os) ->
  let ms := ms_spec (pms_of q pa pb) rc rs sh in
  let kb := key_block ms rc rs in
  let Ec := aesE (tls_client_key kb) in let Es := aesE (tls_server_key kb) in
  let fc := tls_client_iv kb in let fs := tls_server_iv kb in
  exists x s y s' n op,
    on_session honest aes_ks_file aes_enc_file q rounds (gcm_calls pa pb rc rs sh os cs) cst0 = Ok (x, s) /\
    off_session orc' junk aes_ks_file aes_enc_file q rounds (map announce (gcm_calls pa pb rc rs sh os cs)) cst0 = Ok (y, s') /\
    two_phase sigma aes Hash fixk lab delta (lower (c_tr s')) (lower (c_tr s)) = Ok (n, op) /\
    Forall2 seen (map low_open (S_Netlist.openings (c_tr s))) op /\
    os_out x = map (fun f => rev (fin_vd ms f)) os ++ map (gc_out Ec Es fc fs) cs /\
    exists hc hs l, os_sh x = hc :: hs :: flat_map (fun p => [fst p; snd p]) l /\
      block_shares n hc (Ec 0) /\ block_shares n hs (Es 0) /\
      Forall2 (fun c p => block_shares n (fst p) (gc_ej0 Ec Es fc fs c) /\ char_shares n (snd p) (gc_ks Ec Es fc fs c)) cs l.
Proof.
  intros Ha Hb Hc Hs Hh Ho W Hz ms kb Ec Es fc fs.
  destruct (gcm_wires orc' junk q rounds pa pb rc rs sh os cs Ha Hb Hc Hs Hh Ho W Hz) as (x & s & _ & _ & E & _ & _ & O & V).
  fold ms in O, V. fold kb in O, V. fold Ec Es fc fs in O, V.
  destruct (label_session orc' junk _ _ q rounds _ x s (gcm_sizes_ok q rounds pa pb rc rs sh os cs Ha Hb Hz W) E) as (y & s' & n & op & E' & R & S & L & _ & _).
  destruct (tls_keys_ok ms rc rs) as (KC & KS & IC & IS). fold kb in KC, KS, IC, IS.
  assert (Bc : forall z, Ec z < 2 ^ 128) by (intro; apply aesE_blk; apply KC).
  assert (Bs : forall z, Es z < 2 ^ 128) by (intro; apply aesE_blk; apply KS).
  exists x, s, y, s', n, op. split; [exact E|]. split; [exact E'|]. split; [exact R|]. split; [exact S|]. split; [exact O|].
  destruct (os_sh x) as [|hc [|hs wl]]; try discriminate. cbn [map] in V. injection V as V1 V2 V3.
  destruct (shares_split _ _ _ _ _ _ _ V3) as (l & -> & F). exists hc, hs, l. split; [reflexivity|].
  split; [exact (block_share_ok n s hc _ L (Bc 0) V1)|]. split; [exact (block_share_ok n s hs _ L (Bs 0) V2)|].
  clear - F L Bc Bs. induction F as [|c p cs l [F1 F2] F IH]; constructor; auto. split.
  - apply (block_share_ok n s); [exact L| |exact F1]. unfold gc_ej0. destruct (ga_srv c); auto.
  - apply (char_share_ok n s); [exact L| |exact F2]. unfold gc_ks. destruct (ga_srv c); apply ks_bytes.
Qed.
End G.
