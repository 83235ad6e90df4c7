(** What whole sessions open on the garbled circuit. *)
From Coq Require Import List NArith ZArith Bool Arith Lia String.
Import ListNotations.
From Coq Require Import List.
From Verif Require Import L_Bits L_Str L_Res S_Netlist S_Open S_Codec S_Tls S_Sha256 S_Hmac M_EmpInteger M_Utils M_Bristol M_Bn M_Sym M_SymOn M_SymSess.
From Verif Require Import M_Sha256 M_Hmac M_Handshake M_Aead D_AesKs D_AesEnc.
From Verif Require Import P_Utils P_Sha256Opt P_Hmac P_Prf P_Handshake P_Aead P_AeadInst P_Session2 P_SymVal P_SymTls P_SymGcm P_Open.
Local Open Scope N_scope.
Local Open Scope list_scope.
Local Opaque on_compress on_h sha256_h compress H256 on_digest on_padding hmac_bits opt_hmac_core ipad words chunk_compress
  on_opt_hmac on_opt_update on_open8 A_i on_phash_step siter on_hinit on_pms str_to_int sadd on_rounds_compute on_opt_compute
  prf_bytes ascii_bytes scomputeAES scomputeKS on_gctr on_set_nonce aes_ks_file aes_enc_file.

Definition opened_flag (a : on_hs) : bool := on_in_open (onh_sha (on_hm a)).
Lemma open_prf s a b key m r n l sd a' r' s' : wf s -> vhs s a b -> hinv (str_to_int key) m (hs_hmac b) ->
  m <> (if on_rounds a then UseOpt else UseRounds) -> Forall byte8 (l ++ sd) ->
  on_prf honest a r n l sd s = Ok (a', r', s') ->
  opn s' = opn s ++ (if on_rounds a then [] else prf_opened (negb (opened_flag a)) key (l ++ sd) (prf_blks (n * 8))) /\
  (on_rounds a = false -> opened_flag a' = true) /\ on_rounds a' = on_rounds a.
Proof.
  intros W Hv Hi Hm B E. unfold on_prf in E. destruct (on_rounds a) eqn:R; cbn [negb] in E.
  - mi E. destruct x as [h r1]. injection E as <- _ <-. rewrite app_nil_r.
    split; [exact (q_rounds_compute _ _ _ _ _ _ _ _ _ _ E0)|]. split; [discriminate|exact R].
  - mi E. destruct x as [h r1]. injection E as <- _ <-. 
    Local Transparent on_opt_compute. unfold on_opt_compute in E0. mi E0. destruct x as [[h1 A1] r2]. injection E0 as <- _ <-.
    Local Opaque on_opt_compute.
    unfold prf_blks in E. rewrite Nat.add_1_r in E.
    assert (A0 : bits_of_bytes (l ++ sd) = A_i (rev (str_to_int key)) (bits_of_bytes (l ++ sd)) 0).
    { Local Transparent A_i. reflexivity. Local Opaque A_i. }
    destruct (open_phash (str_to_int key) (l ++ sd) _ B 0 _ _ _ m (l ++ sd) _ _ _ W (vhm _ _ _ Hv) Hi Hm B A0 E) as [O F].
    cbn [fst] in F. split; [|split; [intros _; exact F|exact R]].
    rewrite O. unfold prf_opened, opened_flag, prf_blks. rewrite Nat.add_1_r, str_to_int_bits.
    f_equal. destruct (on_in_open (onh_sha (on_hm a))); reflexivity.
Qed.
Lemma hinit_closed h k s h' s' : on_hinit h k s = Ok (h', s') -> on_in_open (onh_sha h') = false.
Proof.
  Local Transparent on_hinit. unfold on_hinit. cbv zeta. intro E. mi E. destruct x as [st pk]. mi E. destruct x as [o i].
  mi E. mi E. injection E as <- _. cbn [onh_sha]. clear E1 E2 E3. destruct (_ <? _)%nat.
  - mi E0. destruct x1 as [st1 t1']. injection E0 as <- _ _. 
    Local Transparent on_digest. unfold on_digest in E. rewrite (keep_update _ _ _ _ _ _ _ E). reflexivity. Local Opaque on_digest.
  - injection E0 as <- _ _. reflexivity.
Qed.
Local Opaque on_hinit.
Lemma open_master_gen s a b pa pb n l sd a' s' : wf s -> vhs s a b ->
  (0 <= pa < hs_q b)%Z -> (0 <= pb < hs_q b)%Z -> pos_ok (hs_hmac b) -> Forall byte8 (l ++ sd) ->
  (do pms <- on_pms a pa pb; do h <- on_hinit (on_hm a) pms;
   do (s, ms) <- on_prf honest (on_set_hm a h) (on_ms a) n l sd; mret (on_set_ms s ms))%sym s = Ok (a', s') ->
  opn s' = opn s ++ (if on_rounds a then [] else prf_opened true (pms_of (hs_q b) pa pb) (l ++ sd) (prf_blks (n * 8))) /\
  on_rounds a' = on_rounds a.
Proof.
  intros W Hv Ha Hb Hp B E. mi E. mi E. mi E. destruct x1 as [a2 ms]. injection E as <- <-.
  destruct (pms_addmod_ok b pa pb Ha Hb) as (h0 & A0 & P0).
  pose proof (tri_pms s a b pa pb W Hv) as T. rewrite A0 in T.
  destruct (tri_okv _ _ _ _ _ _ T E0) as (W1 & _ & V1 & R1). cbn [fst snd] in V1, R1.
  destruct (hinit_inv h0 (str_to_int (pms_of (hs_q b) pa pb)) (P0 Hp)) as (h1 & A1 & I1).
  pose proof (tri_hinit _ _ _ _ _ W1 (vhm _ _ _ V1) R1) as T1. cbn [after_pms set_prf set_zk_pms hs_hmac] in T1. rewrite A1 in T1.
  destruct (tri_okv _ _ _ _ _ _ T1 E1) as (W2 & X2 & V2).
  apply (vhs_mono _ _ _ _ W1 W2 X2) in V1.
  assert (Hm : Fresh <> (if on_rounds (on_set_hm a x0) then UseOpt else UseRounds)) by (destruct (on_rounds _); discriminate).
  destruct (open_prf _ _ _ (pms_of (hs_q b) pa pb) Fresh _ _ _ _ _ _ _ W2 (vhs_hm _ _ _ _ _ (hs_prf b) V1 V2) I1 Hm B E2) as (O & _ & R).
  split; [|exact R]. rewrite O, (q_hinit _ _ _ _ _ E1), (q_pms _ _ _ _ _ _ E0).
  unfold opened_flag. cbn [on_set_hm on_rounds on_hm]. rewrite (hinit_closed _ _ _ _ _ E1). reflexivity.
Qed.
Lemma open_expand s a b ms rc rs a' s' : wf s -> vhs s a b -> hs_ms b = str_to_int ms -> pos_ok (hs_hmac b) ->
  Forall byte8 rc -> Forall byte8 rs -> on_expand honest a rc rs s = Ok (a', s') ->
  opn s' = opn s ++ (if on_rounds a then [] else prf_opened true ms (ascii_bytes "key expansion" ++ rs ++ rc) 2) /\
  (on_rounds a = false -> opened_flag a' = true) /\ on_rounds a' = on_rounds a.
Proof.
  intros W Hv Em Hp Hc Hs E. unfold on_expand in E. mi E. mi E. destruct x0 as [a2 k]. mi E. li E2. mi E. li E2. mi E. li E2. mi E. li E2.
  injection E as <- <-.
  destruct (hinit_inv (hs_hmac b) (str_to_int ms) Hp) as (h1 & A1 & I1).
  pose proof (tri_hinit _ _ _ _ _ W (vhm _ _ _ Hv) (vms _ _ _ Hv)) as T1. rewrite Em, A1 in T1.
  destruct (tri_okv _ _ _ _ _ _ T1 E0) as (W2 & X2 & V2).
  apply (vhs_mono _ _ _ _ W W2 X2) in Hv.
  assert (Hm : Fresh <> (if on_rounds (on_set_hm a x) then UseOpt else UseRounds)) by (destruct (on_rounds _); discriminate).
  assert (B : Forall byte8 (key_expansion_label ++ rs ++ rc)).
  { apply Forall_app; split; [apply ascii_bytes_byte|apply Forall_app; auto]. }
  destruct (open_prf _ _ _ ms Fresh _ _ _ _ _ _ _ W2 (vhs_hm _ _ _ _ _ (hs_prf b) Hv V2) I1 Hm B E1) as (O & F & R).
  split; [|split; [exact F|exact R]]. rewrite O, (q_hinit _ _ _ _ _ E0).
  unfold opened_flag. cbn [on_set_hm on_rounds on_hm]. rewrite (hinit_closed _ _ _ _ _ E0). reflexivity.
Qed.
Lemma open_finished s a b ms l t a' u s' : wf s -> vhs s a b -> hinv (str_to_int ms) (hs_mode b) (hs_hmac b) ->
  Forall byte8 l -> Forall byte8 t -> (on_rounds a = false -> opened_flag a = true) ->
  on_finished honest a l t s = Ok (a', u, s') ->
  opn s' = opn s ++ (if on_rounds a then [] else prf_opened false ms (l ++ t) 1) ++ [open_bytes (verify_data ms l t)] /\
  (on_rounds a = false -> opened_flag a' = true) /\ on_rounds a' = on_rounds a.
Proof.
  intros W Hv Hi Hl Ht F E. unfold on_finished in E. mi E. destruct x as [a1 u1]. mi E. injection E as <- _ <-.
  assert (Hm : hs_mode b <> (if on_rounds a then UseOpt else UseRounds)).
  { unfold hs_mode. rewrite <- (vr _ _ _ Hv). destruct (on_rounds a); discriminate. }
  destruct (open_prf _ _ _ ms _ _ _ _ _ _ _ _ W Hv Hi Hm (proj2 (Forall_app _ _ _) (conj Hl Ht)) E0) as (O & F1 & R).
  destruct (hs_prf_call_str b ms (hs_mode b) finished_msg_length l t Hi (or_intror eq_refl) Hl Ht) as (p & h & A & _).
  pose proof (tri_prf s a b [] [] finished_msg_length l t W Hv (Forall2_nil _)) as T. rewrite A in T.
  destruct (tri_okv _ _ _ _ _ _ T E0) as (W1 & _ & _ & R1). cbn [fst snd] in R1.
  split; [|split; [exact F1|exact R]].
  rewrite (open_reveal _ _ _ _ _ W1 R1 E1), O, <- app_assoc. f_equal. f_equal.
  - destruct (on_rounds a); [reflexivity|]. rewrite (F eq_refl). reflexivity.
  - unfold open_bytes. rewrite <- str_to_int_bits, rev_involutive. reflexivity.
Qed.
Section Enc.
Variable aes_ks aes_enc : bristol.
Lemma open_crypt s a iv len sec a' y s' : on_crypt honest aes_enc a iv len sec s = Ok (a', y, s') ->
  opn s' = opn s ++ (if sec then [] else [(OPub, map (wval (V s')) (snd (fst y)))]) /\
  snd y = (if sec then [] else map N_of_bits (chunks 8 (map (wval (V s')) (snd (fst y))))).
Proof.
  unfold on_crypt. cbv zeta. intro E. mi E. mi E. destruct x0 as [Z n1]. mi E. injection E as _ <- <-. cbn [fst snd].
  assert (Q : opn t0 = opn s) by (rewrite (q_gctr _ _ _ _ _ _ _ _ E1); exact (q_set_nonce _ _ _ _ _ _ E0)).
  destruct sec; cbn [negb] in E2.
  - injection E2 as <- <-. rewrite app_nil_r. auto.
  - mi E2. unfold greveal in E. injection E as <- <-. injection E2 as <- <-.
    set (ws := skipn _ _) in *. clearbody ws. unfold opn, V in *. cbn [c_tr openings vals outs]. rewrite Q, app_nil_r.
    split; [reflexivity|]. do 2 f_equal. unfold honest. apply nth_ext with (d := false) (d' := false); rewrite !map_length, seq_length; [reflexivity|].
    intros i Hi. rewrite (nth_indep _ false (wval (vals (c_tr t0)) (nth (length ws) ws (WPub false)))) by (rewrite map_length, seq_length; exact Hi).
    rewrite (map_nth (fun j => wval (vals (c_tr t0)) (nth j ws (WPub false)))).
    rewrite seq_nth by exact Hi. rewrite (nth_indep (map _ ws) false (wval (vals (c_tr t0)) (WPub false))) by (rewrite map_length; exact Hi).
    rewrite map_nth. reflexivity.
Qed.
Lemma open_crypt_call s a k iv len sec a' s' : on_crypt_call honest aes_enc a k iv len sec s = Ok (a', s') ->
  exists Z0 Z, os_hs a' = os_hs a /\ os_sh a' = os_sh a ++ [Z0; Z] /\
    os_out a' = os_out a ++ [if sec then [] else map N_of_bits (chunks 8 (map (wval (V s')) Z))] /\
    opn s' = opn s ++ (if sec then [] else [(OPub, map (wval (V s')) Z)]).
Proof.
  unfold on_crypt_call. intro E. mi E. li E0. mi E. destruct x0 as [a1 [[Z0 Z] z]]. injection E as <- <-.
  destruct (open_crypt _ _ _ _ _ _ _ _ E0) as [O U]. cbn [fst snd] in O, U. rewrite U. exists Z0, Z. auto.
Qed.

(** ** Any session in rounds mode *)
(** the calls that append an entry to the outputs: Finished and record calls
    (/repo/protocol/handshake.h:298-326, /repo/protocol/aead.h:169-240, 308-370) *)
Definition produces (c : on_call) : bool :=
  match c with NClientFin _ _ | NServerFin _ _ | NEncrypt _ _ _ _ | NDecrypt _ _ _ _ => true | _ => false end.
(** those whose output is opened to both parties: record calls only without the flag
    sec_type (/repo/protocol/handshake.h:310, 325, /repo/protocol/aead.h:207-208, 352-353) *)
Definition is_open (c : on_call) : bool :=
  match c with NClientFin _ _ | NServerFin _ _ => true | NEncrypt _ _ _ sec | NDecrypt _ _ _ sec => negb sec | _ => false end.
(** an opened vector as bytes, least significant byte first *)
Definition bytes_open (o : owner * list bool) : list N := map N_of_bits (chunks 8 (snd o)).
(** the outputs of the calls that open them *)
Definition handed (cs : list on_call) (out : list (list N)) : list (list N) :=
  map snd (filter (fun p => is_open (fst p)) (combine (filter produces cs) out)).
Lemma rounds_prf a r n l sd s a' r' s' : on_rounds a = true -> on_prf honest a r n l sd s = Ok (a', r', s') ->
  opn s' = opn s /\ on_rounds a' = true.
Proof.
  intros R E. unfold on_prf in E. rewrite R in E. cbn [negb] in E. mi E. destruct x. injection E as <- _ <-.
  split; [exact (q_rounds_compute _ _ _ _ _ _ _ _ _ _ E0)|exact R].
Qed.
Lemma honest_reveal w s v s' : greveal honest OPub w s = Ok (v, s') -> opn s' = opn s ++ [(OPub, v)].
Proof.
  unfold greveal. intro E. injection E as <- <-. unfold opn. cbn [c_tr openings]. do 3 f_equal.
  unfold honest. apply nth_ext with (d := false) (d' := false); rewrite !map_length, ?seq_length; [reflexivity|].
  intros i Hi. rewrite (nth_indep (map _ (seq _ _)) false (wval (vals (c_tr s)) (nth (length w) w (WPub false)))) by (rewrite map_length, seq_length; exact Hi).
  rewrite (map_nth (fun j => wval (vals (c_tr s)) (nth j w (WPub false)))).
  rewrite seq_nth by exact Hi. rewrite (nth_indep (map _ w) false (wval (vals (c_tr s)) (WPub false))) by (rewrite map_length; exact Hi).
  rewrite map_nth. reflexivity.
Qed.
Lemma rounds_do a c s a' s' : on_rounds (os_hs a) = true -> on_do honest aes_ks aes_enc a c s = Ok (a', s') ->
  on_rounds (os_hs a') = true /\
  exists o, os_out a' = os_out a ++ (if produces c then [o] else []) /\
    exists l, opn s' = opn s ++ l /\ map bytes_open l = (if is_open c then [o] else []).
Proof.
  intros R E.
  destruct c as [pa pb rc rs|pa pb sh|rc rs|l t|l t|srv|k iv len sec|k iv len sec]; cbn [on_do produces is_open] in *.
  - mi E. injection E as <- <-. cbn [os_hs os_out]. unfold on_master in E0. mi E0. mi E0. mi E0. destruct x2. injection E0 as <- <-.
    destruct (rounds_prf (on_set_hm (os_hs a) x1) _ _ _ _ _ _ _ _ R E2) as [O R']. split; [exact R'|]. exists []. rewrite app_nil_r. split; [reflexivity|].
    exists []. rewrite app_nil_r. split; [|reflexivity]. rewrite O, (q_hinit _ _ _ _ _ E1). exact (q_pms _ _ _ _ _ _ E).
  - mi E. injection E as <- <-. cbn [os_hs os_out]. unfold on_ext_master in E0. mi E0. mi E0. mi E0. destruct x2. injection E0 as <- <-.
    destruct (rounds_prf (on_set_hm (os_hs a) x1) _ _ _ _ _ _ _ _ R E2) as [O R']. split; [exact R'|]. exists []. rewrite app_nil_r. split; [reflexivity|].
    exists []. rewrite app_nil_r. split; [|reflexivity]. rewrite O, (q_hinit _ _ _ _ _ E1). exact (q_pms _ _ _ _ _ _ E).
  - mi E. injection E as <- <-. cbn [os_hs os_out]. unfold on_expand in E0. mi E0. mi E0. destruct x1 as [a2 kk].
    mi E0. li E2. mi E0. li E2. mi E0. li E2. mi E0. li E2. injection E0 as <- <-.
    destruct (rounds_prf (on_set_hm (os_hs a) x0) _ _ _ _ _ _ _ _ R E1) as [O R']. split; [exact R'|]. exists []. rewrite app_nil_r. split; [reflexivity|].
    exists []. rewrite app_nil_r. split; [|reflexivity]. rewrite O. exact (q_hinit _ _ _ _ _ E).
  - mi E. destruct x as [h u]. injection E as <- <-. cbn [os_hs os_out]. unfold on_finished in E0. mi E0. destruct x as [a2 w]. mi E0. injection E0 as <- <- <-.
    destruct (rounds_prf _ _ _ _ _ _ _ _ _ R E) as [O R']. split; [exact R'|]. eexists. split; [reflexivity|].
    exists [(OPub, x)]. rewrite (honest_reveal _ _ _ _ E1), O. split; reflexivity.
  - mi E. destruct x as [h u]. injection E as <- <-. cbn [os_hs os_out]. unfold on_finished in E0. mi E0. destruct x as [a2 w]. mi E0. injection E0 as <- <- <-.
    destruct (rounds_prf _ _ _ _ _ _ _ _ _ R E) as [O R']. split; [exact R'|]. eexists. split; [reflexivity|].
    exists [(OPub, x)]. rewrite (honest_reveal _ _ _ _ E1), O. split; reflexivity.
  - mi E. destruct x as [h u]. injection E as <- <-. cbn [os_hs os_out]. split; [exact R|]. exists []. rewrite app_nil_r. split; [reflexivity|].
    exists []. rewrite app_nil_r. split; [|reflexivity]. exact (q_aead_new _ _ _ _ _ _ _ E0).
  - destruct (open_crypt_call _ _ _ _ _ _ _ _ E) as (Z0 & Z & H1 & _ & H2 & H3). rewrite H1. split; [exact R|]. eexists. split; [exact H2|].
    eexists. split; [exact H3|]. destruct sec; reflexivity.
  - destruct (open_crypt_call _ _ _ _ _ _ _ _ E) as (Z0 & Z & H1 & _ & H2 & H3). rewrite H1. split; [exact R|]. eexists. split; [exact H2|].
    eexists. split; [exact H3|]. destruct sec; reflexivity.
Qed.
Lemma rounds_calls cs : forall a s a' s', on_rounds (os_hs a) = true -> sfold (on_do honest aes_ks aes_enc) cs a s = Ok (a', s') ->
  exists out l, os_out a' = os_out a ++ out /\ opn s' = opn s ++ l /\ map bytes_open l = handed cs out.
Proof.
  induction cs as [|c cs IH]; intros a s a' s' R E; cbn [sfold] in E.
  - injection E as <- <-. exists [], []. rewrite !app_nil_r. auto.
  - mi E. destruct (rounds_do _ _ _ _ _ R E0) as (R1 & o & H1 & l & H2 & H3).
    destruct (IH _ _ _ _ R1 E) as (out & l' & G1 & G2 & G3).
    exists ((if produces c then [o] else []) ++ out), (l ++ l'). rewrite G1, G2, H1, H2, !app_assoc. split; [reflexivity|]. split; [reflexivity|].
    rewrite map_app, G3, H3. unfold handed. cbn [filter]. destruct (produces c) eqn:P; cbn [combine filter fst snd app map].
    + destruct (is_open c); reflexivity.
    + destruct c; try discriminate P; reflexivity.
Qed.
Theorem rounds_opened q cs x s : on_session honest aes_ks aes_enc q true cs cst0 = Ok (x, s) ->
  map bytes_open (openings (c_tr s)) = handed cs (os_out x).
Proof.
  intro E. unfold on_session in E.
  destruct (rounds_calls cs _ _ _ _ (eq_refl : on_rounds (os_hs (mkOnSess (on_hs_new q true) [] [] [])) = true) E) as (out & l & H1 & H2 & H3).
  cbn [os_out app] in H1. unfold opn in H2. cbn [cst0 c_tr openings app] in H2. rewrite H1, H2. exact H3.
Qed.
End Enc.
