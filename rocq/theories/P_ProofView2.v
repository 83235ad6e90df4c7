(** What is opened at the end of the proof phase, and what it is worth. *)
From Coq Require Import List NArith ZArith Bool Arith Lia.
From Verif Require Import L_Bits L_Res M_EmpInteger M_Utils M_Bn M_Bristol M_Block M_Shares M_Aead M_ItMac M_AeadProof M_Handshake M_Session M_Digest M_Final.
From Verif Require Import S_Hmac S_Codec S_Aes S_Gcm S_Tls D_AesKs D_AesEnc P_Shares P_Gcm P_Aead P_AeadInst P_ItMac P_AeadProof P_AeadProof2.
From Verif Require Import P_Handshake P_HandshakeZk P_Session P_Session2 P_Session3 P_Digest P_Digest2 P_ProofView.
Import ListNotations.
Local Open Scope N_scope.
Local Opaque aesE gcm_tag gcm_ctext key_block ms_spec bits_of_N.

(** the explicit ivs of the records of each direction, in the order of the calls *)
Definition c_ivs (os : list pop) : list (list N) := flat_map (fun o => match o with PClient r => [rr_iv r] | _ => [] end) os.
Definition s_ivs (os : list pop) : list (list N) := flat_map (fun o => match o with PClient _ => [] | PServer r | PLast r => [rr_iv r] end) os.
(** H of both directions and E(J0) of every record *)
Definition final_spec (Ec Es : N -> N) (fivc fivs : list N) (fc fs : rrec) (os : list pop) : list N :=
  [Ec 0; Es 0; Ec (j0_of (fivc ++ rr_iv fc)); Es (j0_of (fivs ++ rr_iv fs))] ++
  map (fun iv => Ec (j0_of (fivc ++ iv))) (c_ivs os) ++ map (fun iv => Es (j0_of (fivs ++ iv))) (s_ivs os).

Lemma final_check_split Hc Hs z1 z2 finc fins ez encs dz decs :
  finalize_check Hc Hs z1 z2 finc fins ez encs dz decs =
  if (length ez <? length encs)%nat || (length dz <? length decs)%nat then UB
  else final_verdict (final_open Hc Hs z1 z2 ez (length encs) dz (length decs)) finc fins encs decs.
Proof. reflexivity. Qed.
Lemma z0s_length : forall os xs, length xs = length os ->
  length (enc_z0s os xs) = length (encs_of os) /\ length (dec_z0s os xs) = length (decs_of os).
Proof.
  induction os as [|[r|r|r] os IH]; intros [|x xs] L; try discriminate; cbn [enc_z0s dec_z0s encs_of decs_of length]; [auto| | |];
    (destruct (IH xs) as [A B]; [now injection L|]); split; congruence.
Qed.
Lemma pops_length enc Delta pub : forall os p q xs, pops_run enc Delta pub p os = Ok (q, xs) -> length xs = length os.
Proof.
  induction os as [|o os IH]; intros p q xs H; cbn [pops_run] in H; [injection H as _ <-; reflexivity|].
  apply bind_inv in H as ([p1 x1] & _ & H). apply bind_inv in H as ([p2 x2] & H2 & H). injection H as _ <-. cbn [length]. f_equal. eapply IH; exact H2.
Qed.
Lemma verdict_split p fc fs os xs : length xs = length os ->
  finalize p fc fs os xs = final_verdict (final_blocks p os xs) (to_frec fc) (to_frec fs) (encs_of os) (decs_of os).
Proof. intro L. destruct (z0s_length os xs L) as [A B]. unfold finalize. rewrite final_check_split, A, B, !Nat.ltb_irrefl. reflexivity. Qed.

Section V.
Variable Delta : N.
Variable pub : bool -> N.
Variable ks enc : bristol.
Variable kc : nat -> nat -> N.
Theorem verifier_view own own' s t zc zs pms s' t' zc' zs' pms' rc rs tc ts sh rc' rs' tc' ts' sh' kHc kHs fc fs os p xs p' xs' :
  length (hs_zk s) = length (hs_zk s') -> vt t t' -> vlike zc zc' -> vlike zs zs' ->
  dpost_record ks enc Delta pub kc own s t zc zs pms rc rs tc ts sh kHc kHs fc fs os = Ok (p, xs) ->
  dpost_record ks enc Delta pub kc own' s' t' zc' zs' pms' rc' rs' tc' ts' sh' kHc kHs fc fs os = Ok (p', xs') ->
  compared s p = compared s' p' ->
  cz_b (pr_t p) = cz_b (pr_t p') /\
  (forall h, cz_accept h (pr_t p) = true -> cz_accept h (pr_t p') = true ->
     h (flat_map bytes_of_block (cz_a (pr_t p))) = h (flat_map bytes_of_block (cz_a (pr_t p')))) /\
  (final_blocks p os xs = final_blocks p' os xs' -> finalize p fc fs os xs = finalize p' fc fs os xs').
Proof.
  intros L T C S H H' E.
  destruct (verifier_blocks _ _ _ _ _ _ _ _ _ _ _ _ _ _ _ _ _ _ _ _ _ _ _ _ _ _ _ _ _ _ _ _ _ _ _ _ L T C S H H' E) as (V & _ & _).
  split; [exact V|]. split.
  - intros h A B. unfold cz_accept in A, B. apply bytes_eqb_spec in A, B. rewrite A, B. unfold vt in V. now rewrite V.
  - intro F. unfold dpost_record in H, H'.
    apply bind_inv in H as (p1 & _ & H). apply bind_inv in H as (p2 & _ & H). apply bind_inv in H as (p3 & _ & H).
    apply bind_inv in H' as (q1 & _ & H'). apply bind_inv in H' as (q2 & _ & H'). apply bind_inv in H' as (q3 & _ & H').
    rewrite (verdict_split p), (verdict_split p') by (eapply pops_length; eassumption). now rewrite F.
Qed.
End V.

(** members recorded with the same keys and the same data at BOB look the same to BOB *)
Lemma zk_enter_vlike Delta kh kz0 kz a a' : st_b a = st_b a' -> length (k_h (st_zk a)) = length (k_h (st_zk a')) ->
  map (@length bool) (k_z0 (st_zk a)) = map (@length bool) (k_z0 (st_zk a')) -> map (@length bool) (k_z (st_zk a)) = map (@length bool) (k_z (st_zk a')) ->
  vlike (zk_enter Delta kh kz0 kz a) (zk_enter Delta kh kz0 kz a').
Proof.
  intros B H1 H2 H3. unfold vlike, zk_enter. cbn [za_h za_z0 za_z za_b].
  assert (A : forall k x y, length x = length y -> vz (zauth Delta k x) (zauth Delta k y)).
  { intros k x y L. apply vz_auth. unfold zauth. revert x y L. induction k as [|a0 k IH]; intros [|u x] [|v y] L; try discriminate; [reflexivity..|].
    cbn [map2 length]. f_equal. apply IH. now injection L. }
  assert (M : forall ks x y, map (@length bool) x = map (@length bool) y -> Forall2 vz (map2 (zauth Delta) ks x) (map2 (zauth Delta) ks y)).
  { induction ks as [|k ks IH]; intros [|u x] [|v y] L; try discriminate; try constructor; cbn [map] in L; injection L as L1 L2; auto. }
  auto.
Qed.

Lemma final_spec_open kc ksv fivc fivs p fc fs os : key_ok kc -> key_ok ksv ->
  pf_H (pr_pc p) = bits_of_N 128 (aesE kc 0) -> pf_H (pr_ps p) = bits_of_N 128 (aesE ksv 0) ->
  pr_cz0 p = fst (rec_out (aesE kc) fivc fc) -> pr_sz0 p = fst (rec_out (aesE ksv) fivs fs) ->
  final_blocks p os (map (pop_out (aesE kc) (aesE ksv) fivc fivs) os) = final_spec (aesE kc) (aesE ksv) fivc fivs fc fs os.
Proof.
  intros [K1 K2] [K3 K4] H1 H2 H3 H4. unfold final_blocks. rewrite H1, H2, H3, H4, encs_encp, decs_decp, enc_z0s_encp, dec_z0s_decp. unfold rec_out. cbn [fst].
  assert (EE : forall os, map fst (encp os) = c_ivs os).
  { unfold c_ivs, s_ivs. induction os0 as [|[r|r|r] l IH]; cbn [encp decp map flat_map app fst]; congruence. }
  assert (DD : forall os, map fst (decp os) = s_ivs os).
  { unfold c_ivs, s_ivs. induction os0 as [|[r|r|r] l IH]; cbn [encp decp map flat_map app fst]; congruence. }
  set (f := fun iv => aesE kc (j0_of (fivc ++ iv))). set (g := fun iv => aesE ksv (j0_of (fivs ++ iv))).
  assert (Bc : forall x, aesE kc x < 2 ^ 128) by (intro; now apply aesE_blk).
  assert (Bs : forall x, aesE ksv x < 2 ^ 128) by (intro; now apply aesE_blk).
  unfold final_open. cbv zeta. rewrite !firstn_all2 by (rewrite !map_length; lia). rewrite !reverse_concat_flat. cbn [concat]. rewrite !app_nil_r, app_nil_l.
  assert (A : forall (F : list N -> N) (l : list (list N * frec)), map (fun r => bits_of_N 128 (F (fst r))) l = map (bits_of_N 128) (map F (map fst l))).
  { intros F l. now rewrite !map_map. }
  change (fun r : list N * frec => bits_of_N 128 (aesE kc (j0_of (fivc ++ fst r)))) with (fun r : list N * frec => bits_of_N 128 (f (fst r))).
  change (fun r : list N * frec => bits_of_N 128 (aesE ksv (j0_of (fivs ++ fst r)))) with (fun r : list N * frec => bits_of_N 128 (g (fst r))).
  rewrite !A, EE, DD.
  transitivity (reveal_as 128 (concat (map (bits_of_N 128) (final_spec (aesE kc) (aesE ksv) fivc fivs fc fs os)))).
  { f_equal. unfold final_spec. fold f g. rewrite !map_app, !concat_app. cbn [map concat]. rewrite app_nil_r, <- !app_assoc. reflexivity. }
  rewrite reveal128_concat by (apply Forall_forall; intros x H; apply in_map_iff in H as (y & <- & _); apply bits_of_N_length).
  rewrite map_map. transitivity (map (fun x => x) (final_spec (aesE kc) (aesE ksv) fivc fivs fc fs os)); [|apply map_id].
  apply map_ext_Forall. unfold final_spec.
  repeat (constructor; [apply N_of_bits_of_N_small; apply Bc || apply Bs|]). apply Forall_app.
  split; apply Forall_map, Forall_forall; intros; apply N_of_bits_of_N_small; unfold f, g; auto.
Qed.

(** the opened blocks of an accepted handshake *)
Theorem final_opened S pms rc rs tc ts sh a t zc zs khc khs K0c Kzc K0s Kzs Delta pub kc own kHc kHs fc fs os p outs : let q := hs_q S in
  (0 <= a < q)%Z -> hs_zk_pms S = share_int q a -> (0 <= hs_bnb S < q)%Z ->
  zst S -> opt_bytes (hs_cufin S) -> opt_bytes (hs_sufin S) ->
  Forall byte8 rc -> Forall byte8 rs -> Forall byte8 tc -> Forall byte8 ts -> opt_wf sh ->
  Delta <> 0 -> N.odd Delta = true -> pub true <> pub false -> N.lxor (pub true) (pub false) <> Delta -> cz_a t = cz_b t ->
  Forall2 (carries Delta) (za_h zc) khc -> length khc = 128%nat -> length kHc = 128%nat ->
  Forall2 (carries Delta) (za_h zs) khs -> length khs = 128%nat -> length kHs = 128%nat ->
  let csc := to_pcall false fc :: pops_c os in let css := to_pcall false fs :: pops_s os in
  pcall_wf (to_pcall false fc) -> pcall_wf (to_pcall false fs) -> Forall pop_wf os ->
  queues_fit Delta zc K0c Kzc csc -> queues_fit Delta zs K0s Kzs css ->
  dpost_record aes_ks_file aes_enc_file Delta pub kc own S t zc zs pms rc rs tc ts sh kHc kHs fc fs os = Ok (p, outs) ->
  checks_hold (pr_hs p) ->
  let kb := key_block (ms_spec (pms_of q a (hs_bnb S)) rc rs sh) rc rs in
  final_blocks p os outs = final_spec (aesE (tls_client_key kb)) (aesE (tls_server_key kb)) (tls_client_iv kb) (tls_server_iv kb) fc fs os.
Proof.
  intros q Ha Hz Hb Z HC HS Hrc Hrs Htc Hts Hsh D0 DO P1 P2 ST Cc Lc1 Lc2 Cs Ls1 Ls2 csc css Wc Ws W Qc Qs R0 CK kb.
  destruct (one_digest aes_ks_file aes_enc_file Delta pub kc own D0 P1 P2 _ _ _ _ _ _ _ _ _ _ _ _ _ _ _ _ _ R0) as (p0 & R & EP & _).
  assert (EB : final_blocks p os outs = final_blocks p0 os outs) by (rewrite EP; reflexivity). rewrite EB. clear EB.
  assert (EH : pr_hs p = pr_hs p0) by (rewrite EP; reflexivity). rewrite EH in CK. clear EH EP R0 p. rename p0 into p.
  destruct (post_hs _ _ _ _ _ _ _ _ _ _ _ _ _ _ _ _ _ _ _ _ _ R) as (s1 & ms & k & E1 & E2 & E3).
  destruct (prove_handshake_sound S pms rc rs tc ts sh (pr_hs p) ms k a Ha Hz Hb Z HC HS Hrc Hrs Htc Hts Hsh E3 CK) as (_ & Hk & _).
  fold q in Hk. fold kb in Hk. clear E3.
  destruct (tls_keys_ok (ms_spec (pms_of q a (hs_bnb S)) rc rs sh) rc rs) as (KC & KS & [Ic1 Ic2] & [Is1 Is2]).
  fold kb in KC, KS, Ic1, Ic2, Is1, Is2.
  revert Hk KC KS Ic1 Ic2 Is1 Is2. generalize (tls_client_key kb), (tls_server_key kb), (tls_client_iv kb), (tls_server_iv kb).
  clear kb. intros kc0 ksv fivc fivs Hk KC KS Ic1 Ic2 Is1 Is2. cbv zeta. subst k.
  assert (FIN := fun p fc fs os => final_spec_open kc0 ksv fivc fivs p fc fs os KC KS).
  destruct KC as [K1 K2]. destruct KS as [K3 K4].
  pose proof (files_cipher_ok kc0 K1 K2) as CIPc. pose proof (files_ks kc0 K1 K2) as KSc.
  pose proof (files_cipher_ok ksv K3 K4) as CIPs. pose proof (files_ks ksv K3 K4) as KSs.
  revert CIPc KSc CIPs KSs FIN. generalize (EK kc0), (aesE kc0), (EK ksv), (aesE ksv). intros ekc Ec eks Es CIPc KSc CIPs KSs FIN.
  pose proof (post_iff aes_ks_file aes_enc_file ekc eks Ec Es CIPc CIPs fivc fivs Ic1 Ic2 Is1 Is2 Delta D0 DO pub P1 P2 S t
    zc zs pms rc rs tc ts sh kHc kHs fc fs os s1 ms (str_to_int kc0) (str_to_int ksv)
    khc khs K0c Kzc K0s Kzs E1 KSc KSs ST Cc Lc1 Lc2 Cs Ls1 Ls2 Wc Ws W Qc Qs) as PI.
  cbv zeta in PI. rewrite E2 in PI. rewrite R in PI.
  destruct PI as [[X _]|(p' & X1 & X2 & X3 & X4 & X5 & X6 & X7 & X8 & X9)]; [discriminate X|].
  assert (PJ : forall u v : prd * list (Integer * Integer), Ok u = Ok v -> u = v) by (intros u v Y; now injection Y).
  apply PJ in X1. assert (Y1 : p = p') by exact (f_equal fst X1). assert (Y2 : outs = map (pop_out Ec Es fivc fivs) os) by exact (f_equal snd X1).
  subst p' outs. apply FIN; assumption.
Qed.

(** * What H and E(J0) are worth *)
Lemma be_enc_xor : forall n x y, be_enc n (N.lxor x y) = xor_str (be_enc n x) (be_enc n y).
Proof.
  induction n as [|n IH]; intros x y; [reflexivity|]. cbn [be_enc].
  assert (D : N.lxor x y / 256 = N.lxor (x / 256) (y / 256)) by (change 256 with (2 ^ 8); rewrite <- !N.shiftr_div_pow2; apply N.shiftr_lxor).
  assert (M : N.lxor x y mod 256 = N.lxor (x mod 256) (y mod 256)).
  { change 256 with (2 ^ 8). rewrite <- !N.land_ones. apply N.bits_inj. intro i. rewrite !N.lxor_spec, !N.land_spec, N.lxor_spec.
    destruct (N.testbit x i), (N.testbit y i), (N.testbit (N.ones 8) i); reflexivity. }
  rewrite D, M, IH. unfold xor_str.
  assert (C : forall (a b : list N) u v, length a = length b -> combine (a ++ [u]) (b ++ [v]) = combine a b ++ [(u, v)]).
  { induction a as [|p a IHa]; intros [|q b] u v L; try discriminate; [reflexivity|]. cbn [app combine]. now rewrite IHa by (now injection L). }
  rewrite C by (now rewrite !P_Utils.be_enc_length). now rewrite map_app.
Qed.
Lemma xor_str_cancel : forall a b, length a = length b -> xor_str (xor_str a b) b = a.
Proof.
  unfold xor_str. induction a as [|x a IH]; intros [|y b] L; try discriminate; [reflexivity|]. cbn [combine map fst snd].
  rewrite IH by (now injection L). f_equal. now rewrite N.lxor_assoc, N.lxor_nilpotent, N.lxor_0_r.
Qed.
(** the hash part of a tag, from H alone *)
Definition hash_part (h : N) (aad c : list N) : N := ghash_spec h (blocks_of (gcm_ghash_input aad c)).
(** a tag for other data under the same iv, from H and one tag *)
Definition forged (h : N) (tag aad c aad' c' : list N) : list N := xor_str tag (be_enc 16 (N.lxor (hash_part h aad c) (hash_part h aad' c'))).
Theorem forge_opens E iv aad c tag m aad' c' : gcm_ad E iv c aad tag = Some m ->
  gcm_ad E iv c' aad' (forged (E 0) tag aad c aad' c') = Some (gcm_ctext E iv c').
Proof.
  unfold gcm_ad. destruct (list_eq_dec N.eq_dec tag (gcm_tag E iv aad c)) as [->|]; [|discriminate]. intros _.
  destruct (list_eq_dec N.eq_dec _ _) as [_|NE]; [reflexivity|]. exfalso. apply NE.
  Local Transparent gcm_tag. unfold forged, gcm_tag, gcm_tag_from. fold (hash_part (E 0) aad c). fold (hash_part (E 0) aad' c').
  rewrite <- be_enc_xor. f_equal. rewrite <- N.lxor_assoc, (N.lxor_comm (N.lxor (hash_part _ _ _) _) (hash_part (E 0) aad c)), <- N.lxor_assoc, N.lxor_nilpotent, N.lxor_0_l.
  apply N.lxor_comm.
Qed.
Local Transparent gcm_ctext.
Lemma xs_len : forall a b, length a = length b -> length (xor_str a b) = length a.
Proof. intros a b L. unfold xor_str. rewrite map_length, combine_length, L. apply Nat.min_id. Qed.
(** and with the text of that record known, the new text can be chosen *)
Theorem forge_text E iv c m' : length m' = length c ->
  gcm_ctext E iv (xor_str m' (xor_str (gcm_ctext E iv c) c)) = m'.
Proof.
  intro L. unfold gcm_ctext, gctr_spec. set (k := keystream E ((length c + 15) / 16) (inc32 (j0_of iv))).
  assert (LK : (length c <= length k)%nat) by (unfold k; rewrite keystream_length, ctr_pad; lia).
  assert (X : forall c k m : list N, (length c <= length k)%nat -> length m = length c ->
    length (xor_str m (xor_str (xor_str c k) c)) = length c /\ xor_str (xor_str m (xor_str (xor_str c k) c)) k = m).
  { unfold xor_str. clear. induction c as [|x c IH]; intros [|y k] [|z m] L M; try (cbn in *; lia); [split; reflexivity|split; reflexivity|].
    cbn [combine map fst snd length]. destruct (IH k m) as [A B]; [cbn in L; lia|now injection M|]. split; [now rewrite A|]. rewrite B. f_equal.
    rewrite (N.lxor_comm x y), (N.lxor_assoc y x x), N.lxor_nilpotent, N.lxor_0_r, N.lxor_assoc, N.lxor_nilpotent. apply N.lxor_0_r. }
  destruct (X c k m' LK L) as [A B]. rewrite A. fold k. exact B.
Qed.
