(** Honest runs of AEAD followed by AEAD_Proof, the second proof object, finalize_check. *)
From Coq Require Import List NArith Bool Arith Lia.
From Verif Require Import L_Bits L_Res L_Xor M_EmpInteger M_Utils M_Bristol M_Block M_Shares M_Aead M_ItMac M_AeadProof.
From Verif Require Import S_Codec S_Aes S_Gcm D_AesKs D_AesEnc P_Gf128 P_Utils P_AesNet P_Shares P_Gcm P_Aead P_AeadInst P_ItMac P_AeadProof.
Import ListNotations.
Local Open Scope N_scope.
Local Opaque computeKS computeAES_KS key_expansion cipher aes128 aesE aes_ks_file aes_enc_file str_to_int ks_layout
  gf_mul mulBlock encrypt decrypt decrypt_shares aead_new gctr.

(** * Honest state *)
Section H.
Variable ks enc : bristol.
Variable ek : Integer.
Variable E : N -> N.
Hypothesis CIP : cipher_ok enc ek E.
Variable fiv : list N.
Hypothesis V1 : length fiv = 4%nat.
Hypothesis V2 : bytes_ok fiv.
Variable Delta : N.
Hypothesis D0 : Delta <> 0.
Hypothesis DO : N.odd Delta = true.
Variable pub : bool -> N.
Hypothesis PUB : pub true <> pub false.
Hypothesis PUBD : N.lxor (pub true) (pub false) <> Delta.

(** BOB's keys of the committed shares have the right shape *)
Definition keys_fit (kh : list N) (kz0 kz : list (list N)) (cs : list pcall) : Prop :=
  length kh = 128%nat /\ Forall (fun k => length k = 128%nat) kz0 /\ length kz0 = length cs /\
  Forall2 (fun k c => length k = (8 * length (pc_ctxt c))%nat) kz (filter pc_sec cs).

Lemma zauth2_carries : forall ks (vs : list Integer), Forall2 (fun k v => length k = length v) ks vs ->
  Forall2 (fun w v => Forall2 (carries Delta) w v) (map2 (zauth Delta) ks vs) vs.
Proof. induction 1; cbn [map2]; constructor; auto. now apply zauth_carries. Qed.

Lemma filter_calls cs : filter c_sec (map pcall_call cs) = map pcall_call (filter pc_sec cs).
Proof. induction cs as [|c cs IH]; [reflexivity|]. cbn [map filter]. cbn [pcall_call mk_call c_sec]. destruct (pc_sec c); cbn [map]; now rewrite IH. Qed.
Lemma filter_calls_n cs : filter (fun c => negb (c_sec c)) (map pcall_call cs) = map pcall_call (filter (fun c => negb (pc_sec c)) cs).
Proof. induction cs as [|c cs IH]; [reflexivity|]. cbn [map filter]. cbn [pcall_call mk_call c_sec]. destruct (pc_sec c); cbn [negb map]; now rewrite IH. Qed.

Lemma F2_map_r {X Y Z} (P : X -> Y -> Prop) (f : Z -> Y) : forall a b, Forall2 P a (map f b) <-> Forall2 (fun x z => P x (f z)) a b.
Proof.
  induction a as [|x a IH]; intros [|z b]; cbn [map]; split; intro H; try (now inversion H); try constructor;
    inversion H; subst; auto; now apply IH.
Qed.
Lemma open_bytes cs : Forall bytes_ok (map (fun c => rev (call_ks E fiv c)) cs).
Proof. apply Forall_forall. intros x H. apply in_map_iff in H as (c & <- & _). apply Forall_rev, call_ks_bytes. Qed.

Theorem honest_fits s cs kh kz0 kz : aead_inv ek E fiv (map pcall_call cs) s -> keys_fit kh kz0 kz cs ->
  queues_fit Delta (zk_enter Delta kh kz0 kz s) (k_z0 (st_zk s)) (k_z (st_zk s)) cs /\
  shares_good E fiv (zk_enter Delta kh kz0 kz s) (k_z0 (st_zk s)) (k_z (st_zk s)) cs.
Proof.
  intros I (L1 & L2 & L3 & L4). destruct I. rewrite filter_calls in *. rewrite filter_calls_n in *. rewrite !map_length in *.
  assert (Y3 : Forall2 (fun g c => length g = length (pc_ctxt c)) (p_gc_z (st_a s)) (filter pc_sec cs)).
  { apply F2_map_r in i_gcz. revert i_gcz i_gcz_a i_gcz_b. generalize (p_gc_z (st_a s)), (p_gc_z (st_b s)), (filter pc_sec cs). clear.
    intros a b l H La Lb. revert b l H La Lb. induction a as [|x a IH]; intros [|y b] [|c l] H La Lb; try discriminate; [constructor|].
    cbn [combine] in H. inversion H as [|? ? ? ? (_ & H1 & _) H2]; subst. constructor; [exact H1|]. apply (IH b); cbn in *; auto. }
  assert (Y4 : Forall2 (fun k c => length k = (8 * length (pc_ctxt c))%nat) (k_z (st_zk s)) (filter pc_sec cs)).
  { rewrite i_zk_z. clear - Y3. induction Y3; cbn [map]; constructor; auto. fold (bits8 x). now rewrite bits8_length, H. }
  split.
  - unfold queues_fit, zk_enter. cbn [za_z0 za_z za_a za_b]. rewrite !i_zk_z0.
    split; [|split; [|split; [|split; [|split; [|split; [|split; [|split; [|split; [|split; [|split; [|split]]]]]]]]]]];
      rewrite ?map_length in *; try assumption; try lia.
    + apply zauth2_carries. revert L3. rewrite <- i_z0_a. generalize (p_gc_z0 (st_a s)). clear - L2.
      induction L2 as [|k ks H F IH]; intros [|z l] L; try discriminate; cbn [map]; constructor.
      * now rewrite bits_of_N_length.
      * apply IH. now injection L.
    + apply Forall_forall. intros x H. apply in_map_iff in H as (z & <- & _). apply bits_of_N_length.
    + apply zauth2_carries. revert L4 Y4. generalize (k_z (st_zk s)), (filter pc_sec cs). clear. intros v l H. revert v.
      induction H; intros v G; inversion G; subst; constructor; auto. congruence.
    + rewrite i_open_a, map_length. now rewrite map_length.
    + rewrite i_open_b, i_open_a, map_length. now rewrite map_length.
    + rewrite i_open_a. apply open_bytes.
    + rewrite i_open_b, i_open_a. apply open_bytes.
  - unfold shares_good, zk_enter. cbn [za_z0 za_z za_a za_b]. split; [|split; [|split]].
    + rewrite i_zk_z0. apply F2_map_r in i_z0. clear - i_z0 i_z0_a i_z0_b CIP. revert i_z0 i_z0_a i_z0_b.
      generalize (p_gc_z0 (st_a s)), (p_gc_z0 (st_b s)). intros a b. revert b cs.
      induction a as [|x a IH]; intros [|y b] [|c cs] H La Lb; try discriminate; [constructor|].
      cbn [combine map] in *. inversion H as [|? ? ? ? (H1 & _) H2]; subst. constructor; [|apply IH; cbn in *; auto].
      unfold z0_good. cbn [fst snd] in *. rewrite <- H1. apply bits_of_N_lxor.
    + rewrite i_zk_z. apply F2_map_r in i_gcz. clear - i_gcz i_gcz_a i_gcz_b. revert i_gcz i_gcz_a i_gcz_b.
      generalize (p_gc_z (st_a s)), (p_gc_z (st_b s)), (filter pc_sec cs). intros a b l. revert b l.
      induction a as [|x a IH]; intros [|y b] [|c l] H La Lb; try discriminate; [constructor|].
      cbn [combine map] in *. inversion H as [|? ? ? ? H1 H2]; subst. constructor; [|apply IH; cbn in *; auto].
      destruct H1 as (H1 & G1 & G2 & _). unfold z_good. cbn [fst snd] in *. split; [exact G1|]. split; [exact G2|].
      unfold ksb. rewrite <- H1. apply bits8_xor.
    + rewrite i_open_a, map_map. reflexivity.
    + rewrite i_open_b, i_open_a, map_map. reflexivity.
Qed.

(** the whole proof of an honest session *)
Theorem honest_proof s cs key kh kz0 kz kH : computeKS ks key = Ok ek -> aead_inv ek E fiv (map pcall_call cs) s ->
  keys_fit kh kz0 kz cs -> length kH = 128%nat -> Forall pcall_wf cs ->
  exists p t za t' za', proof_new ks enc Delta cz0 (zk_enter Delta kh kz0 kz s) key (str_to_int fiv) kH = Ok (p, t, za) /\
    proves enc Delta pub p t za cs = Ok (t', za', map (pcall_out E fiv) cs) /\ sync t' /\ queues_empty za' /\
    pf_H p = bits_of_N 128 (E 0).
Proof.
  intros HK I KF LH W. destruct (honest_fits s cs kh kz0 kz I KF) as [QF SG].
  assert (LK : length (k_h (st_zk s)) = 128%nat) by (rewrite (i_zk_h _ _ _ _ _ I); apply bits_of_N_length).
  destruct (proof_new_ok ks enc ek E CIP fiv Delta D0 cz0 (zk_enter Delta kh kz0 kz s) key (k_h (st_zk s)) kH HK eq_refl LH)
    as (t & h' & X & B & F & S).
  { apply zauth_carries. rewrite LK. apply KF. } { exact LK. }
  assert (ST : sync t).
  { apply S. split; [reflexivity|]. rewrite (i_zk_h _ _ _ _ _ I). cbn [zk_enter za_b].
    rewrite <- (i_h _ _ _ _ _ I). apply bits_of_N_lxor. }
  set (za := {| za_h := h'; za_z0 := _; za_z := _; za_a := _; za_b := _ |}) in X.
  set (p := {| pf_key := ek; pf_nonce := []; pf_H := _; pf_fixed := _ |}) in X.
  destruct (proves_iff enc ek E CIP fiv V1 V2 Delta D0 DO pub PUB PUBD cs p t za (k_z0 (st_zk s)) (k_z (st_zk s))
    eq_refl eq_refl B W QF) as [P1 P2].
  destruct (proj2 P1 (conj ST SG)) as (t' & za' & outs & Y & S').
  destruct (P2 _ _ _ Y) as (_ & -> & Q & _). exists p, t, za, t', za'. auto.
Qed.

(** a second proof object over the same AEAD *)
Theorem second_proof s key kh kz0 kz kH kH2 hist : computeKS ks key = Ok ek -> aead_inv ek E fiv hist s ->
  length kh = 128%nat -> length kH = 128%nat -> length kH2 = 128%nat ->
  exists p t za p2 t2 za2, proof_new ks enc Delta cz0 (zk_enter Delta kh kz0 kz s) key (str_to_int fiv) kH = Ok (p, t, za) /\ sync t /\
    proof_new ks enc Delta t za key (str_to_int fiv) kH2 = Ok (p2, t2, za2) /\
    (sync t2 <-> p_gc_h (st_b s) = 0).
Proof.
  intros HK I LK L1 L2.
  assert (LKh : length (k_h (st_zk s)) = 128%nat) by (rewrite (i_zk_h _ _ _ _ _ I); apply bits_of_N_length).
  destruct (proof_new_ok ks enc ek E CIP fiv Delta D0 cz0 (zk_enter Delta kh kz0 kz s) key (k_h (st_zk s)) kH HK eq_refl L1)
    as (t & h' & X & B & F & S).
  { apply zauth_carries. now rewrite LKh. } { exact LKh. }
  assert (ST : sync t).
  { apply S. split; [reflexivity|]. rewrite (i_zk_h _ _ _ _ _ I). cbn [zk_enter za_b].
    rewrite <- (i_h _ _ _ _ _ I). apply bits_of_N_lxor. }
  set (za := {| za_h := h'; za_z0 := _; za_z := _; za_a := _; za_b := _ |}) in X. cbn [zk_enter za_b] in F.
  destruct (proof_new_ok ks enc ek E CIP fiv Delta D0 t za key (bxor (k_h (st_zk s)) (bits_of_N 128 (p_gc_h (st_b s)))) kH2 HK B L2 F)
    as (t2 & h2 & X2 & B2 & F2 & S2).
  { rewrite bxor_length; rewrite ?bits_of_N_length; assumption. }
  eexists _, t, za, _, t2, _. split; [exact X|]. split; [exact ST|]. split; [exact X2|].
  rewrite S2. cbn [zk_enter za za_b]. rewrite (i_zk_h _ _ _ _ _ I).
  rewrite <- !bits_of_N_lxor.
  assert (BE : E 0 < 2 ^ 128) by (apply (proj2 CIP)).
  pose proof (i_h _ _ _ _ _ I) as IH. pose proof (i_h_a _ _ _ _ _ I) as IA. pose proof (i_h_b _ _ _ _ _ I) as IB.
  set (ha := p_gc_h (st_a s)) in *. set (hb := p_gc_h (st_b s)) in *. split.
  - intros [_ G]. apply bits_of_N_inj128 in G; [|exact BE|].
    + rewrite <- IH in G. apply (f_equal (N.lxor ha)) in G.
      transitivity (N.lxor ha (N.lxor ha hb)); [xor_solve|]. rewrite G. xor_solve.
    + apply lxor_lt; [|exact IB]. now apply lxor_lt.
  - intro G. split; [exact ST|]. rewrite <- IH, G. f_equal. xor_solve.
Qed.
End H.

(** * finalize_check *)
Lemma reverse_concat_flat r l : reverse_concat r l = r ++ concat l.
Proof.
  unfold reverse_concat. revert r. induction l as [|x l IH]; intro r; cbn [fold_left concat]; [now rewrite app_nil_r|].
  now rewrite IH, app_assoc.
Qed.
Lemma reveal128_concat : forall l, Forall (fun x => length x = 128%nat) l -> reveal_as 128 (concat l) = map N_of_bits l.
Proof.
  unfold reveal_as. induction 1 as [|x l H F IH]; [reflexivity|]. cbn [concat map].
  rewrite chunks_cons; [|lia|destruct x; discriminate].
  rewrite firstn_app, H, firstn_all2 by lia. rewrite skipn_app, H, skipn_all2 by lia.
  change (128 - 128)%nat with 0%nat. rewrite firstn_O, skipn_O, app_nil_r, app_nil_l. cbn [map]. now rewrite IH.
Qed.

(** what a record must satisfy: H, E(J0), record *)
Definition rec_tag_ok (h z0 : N) (r : frec) : Prop := fr_tag r = gcm_tag_from h z0 (fr_aad r) (fr_ctxt r).
Definition rec_bytes (r : frec) : Prop := bytes_ok (fr_aad r) /\ bytes_ok (fr_ctxt r).

Lemma loop_ok h : h < 2 ^ 128 -> forall rs pre zs post acc, length zs = length rs -> Forall rec_bytes rs ->
  exists b, finalize_loop (pre ++ zs ++ post) h (length pre) rs acc = Ok b /\
    (b = true <-> acc = true /\ Forall2 (rec_tag_ok h) zs rs).
Proof.
  intro Hh. induction rs as [|r rs IH]; intros pre zs post acc L W; cbn [finalize_loop].
  - destruct zs; [|discriminate]. exists acc. split; [reflexivity|]. intuition.
  - destruct zs as [|z zs]; [discriminate|]. inversion W as [|? ? [W1 W2] W3]; subst.
    unfold read_blk. rewrite nth_error_app2 by lia. rewrite Nat.sub_diag. cbn [app nth_error read bind].
    specialize (IH (pre ++ [z]) zs post (acc && compare_tag (fr_tag r) h z (fr_ctxt r) (fr_aad r))).
    rewrite app_length, <- app_assoc in IH. cbn [length app] in IH. rewrite Nat.add_1_r in IH.
    destruct IH as (b & E1 & E2); [now injection L|assumption|]. exists b. split; [exact E1|].
    rewrite E2, andb_true_iff, (compare_tag_ok _ h z _ _ Hh W1 W2), F2_cons. unfold rec_tag_ok at 2. tauto.
Qed.

Theorem finalize_check_ok Hc Hs zc zs finc fins ez encs dz decs :
  Hc < 2 ^ 128 -> Hs < 2 ^ 128 -> zc < 2 ^ 128 -> zs < 2 ^ 128 ->
  Forall (fun x => x < 2 ^ 128) ez -> Forall (fun x => x < 2 ^ 128) dz ->
  length ez = length encs -> length dz = length decs ->
  rec_bytes finc -> rec_bytes fins -> Forall rec_bytes encs -> Forall rec_bytes decs ->
  exists b, finalize_check (bits_of_N 128 Hc) (bits_of_N 128 Hs) (bits_of_N 128 zc) (bits_of_N 128 zs) finc fins
      (map (bits_of_N 128) ez) encs (map (bits_of_N 128) dz) decs = Ok b /\
    (b = true <-> rec_tag_ok Hc zc finc /\ rec_tag_ok Hs zs fins /\
                  Forall2 (rec_tag_ok Hc) ez encs /\ Forall2 (rec_tag_ok Hs) dz decs).
Proof.
  intros B1 B2 B3 B4 B5 B6 L1 L2 [W1 W1'] [W2 W2'] W3 W4. unfold finalize_check. rewrite !map_length, L1, L2, !Nat.ltb_irrefl.
  cbn [orb]. cbv zeta. rewrite !firstn_all2 by (rewrite map_length; lia).
  rewrite !reverse_concat_flat. cbn [concat]. rewrite !app_nil_r, app_nil_l.
  set (all := [Hc; Hs; zc; zs] ++ ez ++ dz).
  assert (A : ((((bits_of_N 128 Hc ++ bits_of_N 128 Hs) ++ bits_of_N 128 zc) ++ bits_of_N 128 zs) ++
    concat (map (bits_of_N 128) ez)) ++ concat (map (bits_of_N 128) dz) = concat (map (bits_of_N 128) all)).
  { unfold all. rewrite !map_app, !concat_app. cbn [map concat]. rewrite app_nil_r, <- !app_assoc. reflexivity. }
  rewrite A, reveal128_concat by (apply Forall_forall; intros x H; apply in_map_iff in H as (y & <- & _); apply bits_of_N_length).
  assert (R : map N_of_bits (map (bits_of_N 128) all) = all).
  { rewrite map_map. transitivity (map (fun x => x) all); [|apply map_id]. apply map_ext_Forall.
    unfold all. repeat (constructor; [now apply N_of_bits_of_N_small|]). apply Forall_app.
    split; (eapply Forall_impl; [|eassumption]); intros; now apply N_of_bits_of_N_small. }
  rewrite R. clear A R. unfold read_blk at 1 2 3 4. unfold all at 1 2 3 4. cbn [app nth_error read bind].
  destruct (loop_ok Hc B1 encs [Hc; Hs; zc; zs] ez dz
    (compare_tag (fr_tag finc) Hc zc (fr_ctxt finc) (fr_aad finc) && compare_tag (fr_tag fins) Hs zs (fr_ctxt fins) (fr_aad fins)) L1 W3)
    as (b1 & E1 & S1).
  change (length [Hc; Hs; zc; zs]) with 4%nat in E1. fold all in E1. rewrite E1. cbn [bind].
  destruct (loop_ok Hs B2 decs ([Hc; Hs; zc; zs] ++ ez) dz [] b1 L2 W4) as (b2 & E2 & S2).
  rewrite app_nil_r, <- app_assoc in E2. fold all in E2.
  replace (length ([Hc; Hs; zc; zs] ++ ez)) with (4 + length encs)%nat in E2 by (rewrite app_length, L1; reflexivity).
  exists b2. split; [exact E2|]. rewrite S2, S1, andb_true_iff.
  rewrite (compare_tag_ok _ Hc zc _ _ B1 W1 W1'), (compare_tag_ok _ Hs zs _ _ B2 W2 W2'). unfold rec_tag_ok at 3 4. tauto.
Qed.

(** * On the shipped circuits *)
Section Files.
Variable ks enc : bristol.
Variable gfr : N -> N -> N.
Variable hash : list N -> list N.
Hypothesis GFR : gfr_ok gfr.
Variable key : Integer.
Variable ek : Integer.
Variable E : N -> N.
Hypothesis CIP : cipher_ok enc ek E.
Hypothesis KS : computeKS ks key = Ok ek.
Variable fiv : list N.
Hypothesis V1 : length fiv = 4%nat.
Hypothesis V2 : bytes_ok fiv.
Lemma session_gen mh r ro ops cs Delta pub kh kz0 kz kH : length mh = 128%nat -> r < 2 ^ 128 -> r <> 0 -> ole_rand_ok ro 1 ->
  Forall aop_wf ops -> Delta <> 0 -> N.odd Delta = true -> pub true <> pub false -> N.lxor (pub true) (pub false) <> Delta ->
  map aop_call ops = map pcall_call cs -> Forall pcall_wf cs -> keys_fit kh kz0 kz cs -> length kH = 128%nat ->
  exists s0 s outs p t za t' za',
    aead_new ks enc gfr key (str_to_int fiv) mh r ro = Ok s0 /\ aops_run enc gfr hash s0 ops = Ok (s, outs) /\
    proof_new ks enc Delta cz0 (zk_enter Delta kh kz0 kz s) key (str_to_int fiv) kH = Ok (p, t, za) /\
    proves enc Delta pub p t za cs = Ok (t', za', map (pcall_out E fiv) cs) /\
    cz_a t' = cz_b t' /\ queues_empty za' /\ pf_H p = bits_of_N 128 (E 0).
Proof.
  intros M1 R1 R2 R3 F D0 DO P1 P2 HM W KF LH.
  destruct (gen_run ks enc gfr hash GFR key ek E CIP KS fiv V1 V2 mh r ro M1 R1 R2 R3 ops F) as (s0 & s & E0 & E1 & I).
  rewrite HM in I.
  destruct (honest_proof ks enc ek E CIP fiv V1 V2 Delta D0 DO pub P1 P2 s cs key kh kz0 kz kH KS I KF LH W)
    as (p & t & za & t' & za' & X1 & X2 & X3 & X4 & X5).
  exists s0, s, (map (aop_spec E fiv) ops), p, t, za, t', za'. repeat (split; [assumption|]). assumption.
Qed.
Lemma second_gen mh r ro ops Delta kh kz0 kz kH kH2 : length mh = 128%nat -> r < 2 ^ 128 -> r <> 0 -> ole_rand_ok ro 1 ->
  Forall aop_wf ops -> Delta <> 0 -> length kh = 128%nat -> length kH = 128%nat -> length kH2 = 128%nat ->
  exists s0 s outs p t za p2 t2 za2,
    aead_new ks enc gfr key (str_to_int fiv) mh r ro = Ok s0 /\ aops_run enc gfr hash s0 ops = Ok (s, outs) /\
    proof_new ks enc Delta cz0 (zk_enter Delta kh kz0 kz s) key (str_to_int fiv) kH = Ok (p, t, za) /\ cz_a t = cz_b t /\
    proof_new ks enc Delta t za key (str_to_int fiv) kH2 = Ok (p2, t2, za2) /\
    (cz_a t2 = cz_b t2 <-> p_gc_h (st_b s) = 0).
Proof.
  intros M1 R1 R2 R3 F D0 L1 L2 L3.
  destruct (gen_run ks enc gfr hash GFR key ek E CIP KS fiv V1 V2 mh r ro M1 R1 R2 R3 ops F) as (s0 & s & E0 & E1 & I).
  destruct (second_proof ks enc ek E CIP fiv Delta D0 s key kh kz0 kz kH kH2 (map aop_call ops) KS I L1 L2 L3)
    as (p & t & za & p2 & t2 & za2 & X1 & X2 & X3 & X4).
  exists s0, s, (map (aop_spec E fiv) ops), p, t, za, p2, t2, za2. repeat (split; [assumption|]). exact X4.
Qed.
(** whatever H is, label bits can be such that BOB's share of it is one *)
Lemma bob_share r ro : r < 2 ^ 128 -> r <> 0 -> ole_rand_ok ro 1 ->
  exists mh, length mh = 128%nat /\ forall s0, aead_new ks enc gfr key (str_to_int fiv) mh r ro = Ok s0 -> p_gc_h (st_b s0) = 1.
Proof.
  intros R1 R2 R3. exists (bits_of_N 128 (N.lxor (E 0) 1)). split; [apply bits_of_N_length|]. intros s0 X.
  destruct (aead_new_ok ks enc gfr GFR ek E CIP fiv key (bits_of_N 128 (N.lxor (E 0) 1)) r ro KS (bits_of_N_length _ _) R1 R2 R3) as (s & X' & I).
  rewrite X' in X. assert (s = s0) by congruence. subst s0.
  pose proof (i_h _ _ _ _ _ I) as IH.
  assert (A : p_gc_h (st_a s) = N.lxor (E 0) 1).
  { Local Transparent aead_new. unfold aead_new in X'. Local Opaque aead_new. rewrite KS in X'. cbn [bind] in X'. unfold computeH in X'.
    change (int_of 128 0) with (bits_of_N 128 0) in X'. rewrite (proj1 CIP 0) in X'. cbn [bind] in X'.
    rewrite (integer_to_block_ok (bits_of_N 128 (N.lxor (E 0) 1)) (bits_of_N_length _ _)) in X'.
    rewrite (N_of_bits_of_N_small 128 (N.lxor (E 0) 1)) in X' by (apply lxor_lt; [apply (proj2 CIP)|reflexivity]). cbn [bind] in X'.
    destruct (integer_to_block (bxor _ _)) as [hb| |]; cbn [bind] in X'; try discriminate X'.
    destruct (M_Ole2k.ole_run _ _ _ _ _) as [[|oa [|]] [|ob [|]]]; try discriminate X'.
    assert (G : forall u v w : aead, Ok u = Ok v -> p_gc_h (st_a u) = p_gc_h (st_a v)) by (intros u v _ G; now injection G as ->).
    apply G in X'; [|exact s]. now rewrite <- X'. }
  rewrite A in IH. apply (f_equal (N.lxor (N.lxor (E 0) 1))) in IH.
  rewrite <- N.lxor_assoc, N.lxor_nilpotent, N.lxor_0_l in IH. rewrite IH. xor_solve.
Qed.
End Files.

Theorem session_files gfr hash : gfr_ok gfr -> forall key fiv, length key = 16%nat -> bytes_ok key ->
  length fiv = 4%nat -> bytes_ok fiv -> forall mh r ro ops cs Delta pub kh kz0 kz kH,
  length mh = 128%nat -> r < 2 ^ 128 -> r <> 0 -> ole_rand_ok ro 1 ->
  Forall aop_wf ops -> Delta <> 0 -> N.odd Delta = true -> pub true <> pub false -> N.lxor (pub true) (pub false) <> Delta ->
  map aop_call ops = map pcall_call cs -> Forall pcall_wf cs -> keys_fit kh kz0 kz cs -> length kH = 128%nat ->
  exists s0 s outs p t za t' za',
    aead_new aes_ks_file aes_enc_file gfr (str_to_int key) (str_to_int fiv) mh r ro = Ok s0 /\
    aops_run aes_enc_file gfr hash s0 ops = Ok (s, outs) /\
    proof_new aes_ks_file aes_enc_file Delta cz0 (zk_enter Delta kh kz0 kz s) (str_to_int key) (str_to_int fiv) kH = Ok (p, t, za) /\
    proves aes_enc_file Delta pub p t za cs = Ok (t', za', map (pcall_out (aesE key) fiv) cs) /\
    cz_a t' = cz_b t' /\ queues_empty za' /\ pf_H p = bits_of_N 128 (aesE key 0).
Proof.
  intros G key fiv K1 K2 F1 F2.
  exact (session_gen aes_ks_file aes_enc_file gfr hash G (str_to_int key) (EK key) (aesE key)
    (files_cipher_ok key K1 K2) (files_ks key K1 K2) fiv F1 F2).
Qed.
Theorem proves_files key fiv : length key = 16%nat -> bytes_ok key -> length fiv = 4%nat -> bytes_ok fiv ->
  forall Delta, Delta <> 0 -> N.odd Delta = true -> forall pub, pub true <> pub false -> N.lxor (pub true) (pub false) <> Delta ->
  forall cs t za K0 Kz kh kH, Forall pcall_wf cs -> queues_fit Delta za K0 Kz cs -> cz_a t = cz_b t ->
  Forall2 (carries Delta) (za_h za) kh -> length kh = 128%nat -> length kH = 128%nat ->
  ((exists p t1 za1 t2 za2 outs,
      proof_new aes_ks_file aes_enc_file Delta t za (str_to_int key) (str_to_int fiv) kH = Ok (p, t1, za1) /\
      proves aes_enc_file Delta pub p t1 za1 cs = Ok (t2, za2, outs) /\ cz_a t2 = cz_b t2) <->
   bits_of_N 128 (aesE key 0) = bxor kh (bits_of_N 128 (p_gc_h (za_b za))) /\ shares_good (aesE key) fiv za K0 Kz cs).
Proof.
  intros K1 K2 F1 F2 Delta D0 DO pub P1 P2 cs t za K0 Kz kh kH W Q ST FH LH LH2.
  pose proof (files_cipher_ok key K1 K2) as CIP. pose proof (files_ks key K1 K2) as KS.
  revert CIP KS. generalize (EK key), (aesE key). intros ek E CIP KS.
  assert (B : bal t) by (unfold bal; now rewrite ST).
  destruct (proof_new_ok aes_ks_file aes_enc_file ek E CIP fiv Delta D0 t za (str_to_int key) kh kH KS B LH2 FH LH)
    as (t1 & h' & X & B1 & _ & S1). rewrite X. clear X.
  set (p := {| pf_key := ek; pf_nonce := []; pf_H := _; pf_fixed := _ |}).
  set (za1 := {| za_h := h'; za_z0 := _; za_z := _; za_a := _; za_b := _ |}).
  destruct (proves_iff aes_enc_file ek E CIP fiv F1 F2 Delta D0 DO pub P1 P2 cs p t1 za1 K0 Kz eq_refl eq_refl B1 W Q) as [I1 _].
  change (shares_good E fiv za1 K0 Kz cs) with (shares_good E fiv za K0 Kz cs) in I1.
  assert (OI : forall u v : proof * czst * zaead, Ok u = Ok v -> u = v) by (intros u v Y; now injection Y).
  split.
  - intros (p' & t1' & za1' & t2 & za2 & outs & Y & Y2 & Y3). apply OI in Y.
    pose proof (f_equal (fun u => fst (fst u)) Y) as Y4. pose proof (f_equal (fun u => snd (fst u)) Y) as Y5.
    pose proof (f_equal snd Y) as Y6. cbn [fst snd] in Y4, Y5, Y6. subst p' t1' za1'.
    destruct (proj1 I1 (ex_intro _ t2 (ex_intro _ za2 (ex_intro _ outs (conj Y2 Y3))))) as [S G].
    split; [|exact G]. now apply S1 in S.
  - intros [G1 G2]. destruct (proj2 I1) as (t2 & za2 & outs & Y2 & Y3).
    { split; [|exact G2]. apply S1. auto. }
    exists p, t1, za1, t2, za2, outs. auto.
Qed.
Theorem second_files gfr hash : gfr_ok gfr -> forall key fiv, length key = 16%nat -> bytes_ok key ->
  length fiv = 4%nat -> bytes_ok fiv -> forall mh r ro ops Delta kh kz0 kz kH kH2,
  length mh = 128%nat -> r < 2 ^ 128 -> r <> 0 -> ole_rand_ok ro 1 ->
  Forall aop_wf ops -> Delta <> 0 -> length kh = 128%nat -> length kH = 128%nat -> length kH2 = 128%nat ->
  exists s0 s outs p t za p2 t2 za2,
    aead_new aes_ks_file aes_enc_file gfr (str_to_int key) (str_to_int fiv) mh r ro = Ok s0 /\
    aops_run aes_enc_file gfr hash s0 ops = Ok (s, outs) /\
    proof_new aes_ks_file aes_enc_file Delta cz0 (zk_enter Delta kh kz0 kz s) (str_to_int key) (str_to_int fiv) kH = Ok (p, t, za) /\
    cz_a t = cz_b t /\
    proof_new aes_ks_file aes_enc_file Delta t za (str_to_int key) (str_to_int fiv) kH2 = Ok (p2, t2, za2) /\
    (cz_a t2 = cz_b t2 <-> p_gc_h (st_b s) = 0).
Proof.
  intros G key fiv K1 K2 F1 F2.
  exact (second_gen aes_ks_file aes_enc_file gfr hash G (str_to_int key) (EK key) (aesE key)
    (files_cipher_ok key K1 K2) (files_ks key K1 K2) fiv F1 F2).
Qed.
Lemma bob_share_files gfr : gfr_ok gfr -> forall key fiv, length key = 16%nat -> bytes_ok key ->
  length fiv = 4%nat -> bytes_ok fiv -> forall r ro, r < 2 ^ 128 -> r <> 0 -> ole_rand_ok ro 1 ->
  exists mh, length mh = 128%nat /\ forall s0,
  aead_new aes_ks_file aes_enc_file gfr (str_to_int key) (str_to_int fiv) mh r ro = Ok s0 -> p_gc_h (st_b s0) = 1.
Proof.
  intros G key fiv K1 K2 F1 F2.
  exact (bob_share aes_ks_file aes_enc_file gfr G (str_to_int key) (EK key) (aesE key)
    (files_cipher_ok key K1 K2) (files_ks key K1 K2) fiv).
Qed.

(** prove_aead_last: the outputs are those of a private record, and no check is made, so the
    transcript and the queues play no part *)
Theorem last_files key fiv : length key = 16%nat -> bytes_ok key -> length fiv = 4%nat -> bytes_ok fiv ->
  forall p ctxt iv, pf_key p = EK key -> pf_fixed p = str_to_int fiv -> length iv = 8%nat -> bytes_ok iv -> bytes_ok ctxt ->
  exists p', prove_aead_last aes_enc_file p ctxt iv =
    Ok (p', bits_of_N 128 (aesE key (j0_of (fiv ++ iv))), str_to_int (gcm_ctext (aesE key) (fiv ++ iv) ctxt)).
Proof.
  intros K1 K2 F1 F2 p ctxt iv P1 P2 I1 I2 C1. pose proof (files_cipher_ok key K1 K2) as CIP.
  revert CIP P1. generalize (EK key), (aesE key). intros ek E CIP P1.
  unfold prove_aead_last.
  destruct (pf_material_ok aes_enc_file ek E CIP fiv F1 F2 p iv (length ctxt) true P1 P2 I1 I2) as (n1 & X).
  rewrite X. cbn [bind]. exists (with_nonce p n1). f_equal. f_equal. apply unmask_ok.
Qed.
(** the tags of a session: revealed values of the two channels are those of the two keys *)
Theorem finalize_session kc ks fivc fivs finc fins ivc ivs encs decs :
  length kc = 16%nat -> bytes_ok kc -> length ks = 16%nat -> bytes_ok ks ->
  rec_bytes finc -> rec_bytes fins -> Forall (fun r => rec_bytes (snd r)) encs -> Forall (fun r => rec_bytes (snd r)) decs ->
  exists b, finalize_check (bits_of_N 128 (aesE kc 0)) (bits_of_N 128 (aesE ks 0))
      (bits_of_N 128 (aesE kc (j0_of (fivc ++ ivc)))) (bits_of_N 128 (aesE ks (j0_of (fivs ++ ivs)))) finc fins
      (map (fun r => bits_of_N 128 (aesE kc (j0_of (fivc ++ fst r)))) encs) (map snd encs)
      (map (fun r => bits_of_N 128 (aesE ks (j0_of (fivs ++ fst r)))) decs) (map snd decs) = Ok b /\
    (b = true <->
     fr_tag finc = gcm_tag (aesE kc) (fivc ++ ivc) (fr_aad finc) (fr_ctxt finc) /\
     fr_tag fins = gcm_tag (aesE ks) (fivs ++ ivs) (fr_aad fins) (fr_ctxt fins) /\
     Forall (fun r => fr_tag (snd r) = gcm_tag (aesE kc) (fivc ++ fst r) (fr_aad (snd r)) (fr_ctxt (snd r))) encs /\
     Forall (fun r => fr_tag (snd r) = gcm_tag (aesE ks) (fivs ++ fst r) (fr_aad (snd r)) (fr_ctxt (snd r))) decs).
Proof.
  intros K1 K2 K3 K4 R1 R2 R3 R4.
  assert (Bc : forall x, aesE kc x < 2 ^ 128) by (intro; now apply aesE_blk).
  assert (Bs : forall x, aesE ks x < 2 ^ 128) by (intro; now apply aesE_blk).
  destruct (finalize_check_ok (aesE kc 0) (aesE ks 0) (aesE kc (j0_of (fivc ++ ivc))) (aesE ks (j0_of (fivs ++ ivs))) finc fins
    (map (fun r => aesE kc (j0_of (fivc ++ fst r))) encs) (map snd encs)
    (map (fun r => aesE ks (j0_of (fivs ++ fst r))) decs) (map snd decs)) as (b & X1 & X2); auto.
  1,2: apply Forall_map, Forall_forall; intros; auto.
  1,2: now rewrite !map_length.
  1,2: now apply Forall_map.
  exists b. rewrite !map_map in X1. split; [exact X1|]. rewrite X2. unfold rec_tag_ok, gcm_tag.
  assert (F : forall (f : list N * frec -> N) h l,
    Forall2 (fun z0 r => fr_tag r = gcm_tag_from h z0 (fr_aad r) (fr_ctxt r)) (map f l) (map snd l) <->
    Forall (fun r => fr_tag (snd r) = gcm_tag_from h (f r) (fr_aad (snd r)) (fr_ctxt (snd r))) l).
  { intros f h. induction l as [|x l IH]; cbn [map]; [split; constructor|]. rewrite F2_cons, IH.
    split; [intros []; now constructor|intro Y; split; [exact (Forall_inv Y)|exact (Forall_inv_tail Y)]]. }
  rewrite !F. tauto.
Qed.

Theorem second_refuted : exists gfr key fiv mh r ro Delta kh kH s p t za p2 t2 za2,
  gfr_ok gfr /\ aead_new aes_ks_file aes_enc_file gfr (str_to_int key) (str_to_int fiv) mh r ro = Ok s /\
  proof_new aes_ks_file aes_enc_file Delta cz0 (zk_enter Delta kh [] [] s) (str_to_int key) (str_to_int fiv) kH = Ok (p, t, za) /\
  cz_a t = cz_b t /\
  proof_new aes_ks_file aes_enc_file Delta t za (str_to_int key) (str_to_int fiv) kH = Ok (p2, t2, za2) /\
  cz_a t2 <> cz_b t2.
Proof.
  pose proof (zeros_bytes 16) as B1. pose proof (zeros_bytes 4) as B2.
  pose proof (repeat_length 0 16) as L1. pose proof (repeat_length 0 4) as L2.
  revert B1 L1. generalize (repeat 0 16). intros key B1 L1.
  revert B2 L2. generalize (repeat 0 4). intros fiv B2 L2.
  pose proof (ex_ro_ok 1) as RO. revert RO. generalize (ex_ro 1). intros ro RO.
  assert (R1 : 1 < 2 ^ 128) by reflexivity. assert (R2 : 1 <> 0) by discriminate. assert (R3 : 3 <> 0) by discriminate.
  destruct (bob_share_files gf_mul gfr_gf_mul key fiv L1 B1 L2 B2 1 ro R1 R2 RO) as (mh & LM & BS).
  pose proof (repeat_length 5 128) as L5. revert L5. generalize (repeat 5 128). intros kh L5.
  destruct (second_files gf_mul (fun x => x) gfr_gf_mul key fiv L1 B1 L2 B2 mh 1 ro [] 3 kh [] [] kh kh
    LM R1 R2 RO (Forall_nil _) R3 L5 L5 L5)
    as (s0 & s & outs & p & t & za & p2 & t2 & za2 & X1 & X2 & X3 & X4 & X5 & X6).
  specialize (BS s0 X1). cbn [aops_run] in X2.
  assert (OI : forall u v : aead * list aout, Ok u = Ok v -> fst u = fst v) by (intros u v Y; now injection Y as ->).
  apply OI in X2. cbn [fst] in X2. subst s0.
  exists gf_mul, key, fiv, mh, 1, ro, 3, kh, kh, s, p, t, za, p2, t2, za2.
  split; [exact gfr_gf_mul|]. split; [exact X1|]. split; [exact X3|]. split; [exact X4|]. split; [exact X5|].
  rewrite X6, BS. discriminate.
Qed.
