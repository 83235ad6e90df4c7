(** The handshake proof phase (C34, C58, C59). *)
From Coq Require Import List NArith ZArith Bool Arith Lia.
From Verif Require Import L_Bits L_Res L_Str M_EmpInteger M_Trace M_Utils M_Sha256 M_Hmac M_Bn M_Addmod M_Handshake.
From Verif Require Import S_Sha256 S_Hmac S_Codec S_Tls P_Sha256 P_Sha256Msg P_Sha256Opt P_Hmac P_Prf P_PrfHist P_PrfZk P_PrfZkC
  P_Utils P_Bn P_Addmod P_Handshake.
Import ListNotations.
Local Opaque chunk_compress plain_chunk_compress compress prf_bytes ascii_bytes.
Arguments hs_prf_call : simpl never.

(** * Soundness *)
(** recorded values have the right shape; the lists of the two objects are in step *)
Definition zst (s : hs) : Prop :=
  zpre (hs_hmac s) /\ ppre (hs_prf s) /\
  Forall goodN (iv_in_hashes (sha (hs_hmac s))) /\ Forall goodN (pub_M (hs_prf s)).
Definition matched (s : hs) : Prop := hm (hs_hmac s) /\ pm (hs_prf s).
(** [s'] is a later state of the proof phase *)
Definition later (s s' : hs) : Prop := grows (hs_hmac s) (hs_hmac s') /\ pgrows (hs_prf s) (hs_prf s').
Lemma later_refl s : later s s.
Proof. split; [apply grows_refl|apply pgrows_refl]. Qed.
Lemma later_trans a b c : later a b -> later b c -> later a c.
Proof. intros [A B] [C D]. split; [eapply grows_trans; eassumption|eapply pgrows_trans; eassumption]. Qed.
Lemma matched_later s s' : later s s' -> matched s' -> matched s.
Proof. intros [A B] [C D]. split; [eapply hm_grows; eassumption|eapply pm_grows; eassumption]. Qed.

Lemma zst_later s s' : later s s' -> zst s -> zpre (hs_hmac s') -> ppre (hs_prf s') -> zst s'.
Proof.
  intros [[A _] [B _]] (_ & _ & C & D) E F. split; [exact E|]. split; [exact F|]. rewrite A, B. auto.
Qed.

Lemma zk_call s key n label seed s' r' :
  zinv key (hs_hmac s) -> zst s -> Forall byte8 label -> Forall byte8 seed ->
  hs_prf_call s [] n label seed true = Ok (s', r') ->
  exists p h, s' = set_prf s p h /\ zinv key h /\ zst s' /\ later s s' /\
    (matched s' -> rev r' = prf (8 * n) (rev key) (bits_of_bytes label) (bits_of_bytes seed)).
Proof.
  intros V (Z1 & Z2 & Z3 & Z4) Hl Hs E. unfold hs_prf_call in E. rewrite (Nat.mul_comm n 8) in E.
  destruct (hs_rounds s) eqn:R; cbn [negb] in E.
  - unfold prf_opt_rounds_compute in E.
    destruct (zk_rounds_phash key (hs_hmac s) [] (8 * n) (label ++ seed) true true V) as (h & r & E1 & V1 & G1 & R1).
    rewrite E1 in E. cbn [bind] in E. injection E as <- <-. exists (hs_prf s), h.
    assert (L : later s (set_prf s (hs_prf s) h)) by (split; [exact G1|apply pgrows_refl]).
    split; [reflexivity|]. split; [exact V1|]. split; [|split; [exact L|]].
    + apply (zst_later s); [exact L|unfold zst; auto|exact (zinv_pre _ _ V1)|exact Z2].
    + intros _. rewrite R1. unfold prf. now rewrite bits_of_bytes_app.
  - unfold prf_opt_compute in E.
    destruct (opt_phash_core _ _ _ _ _ _ _ _ _) as [[[p h] r]| |] eqn:E1; try discriminate. cbn [bind fst snd] in E.
    injection E as <- <-.
    destruct (zk_opt_phash key (hs_prf s) (hs_hmac s) [] (8 * n) (label ++ seed) true true p h r V Z2)
      as (V1 & P1 & G1 & Q1 & R1); [apply Forall_app; auto|assumption|assumption|exact E1|].
    exists p, h.
    assert (L : later s (set_prf s p h)) by (split; [exact G1|exact Q1]).
    split; [reflexivity|]. split; [exact V1|]. split; [|split; [exact L|]].
    + apply (zst_later s); [exact L|unfold zst; auto|exact (zinv_pre _ _ V1)|exact P1].
    + intros [M1 M2]. rewrite (R1 M1 M2). unfold prf. now rewrite bits_of_bytes_app.
Qed.

Lemma zk_init s key h1 : zst s -> prf_init (hs_hmac s) key = Ok h1 ->
  zinv key h1 /\ zst (set_prf s (hs_prf s) h1) /\ later s (set_prf s (hs_prf s) h1).
Proof.
  intros Z E. unfold prf_init in E. destruct (zinit _ _ _ (proj1 Z) E) as [V G].
  assert (L : later s (set_prf s (hs_prf s) h1)) by (split; [exact G|apply pgrows_refl]).
  split; [exact V|]. split; [|exact L]. apply (zst_later s); [exact L|exact Z|exact (zinv_pre _ _ V)|apply Z].
Qed.

(** init followed by one call, from the bytes of the key *)
Lemma zk_init_call s k n label seed s' r' : zst s -> Forall byte8 label -> Forall byte8 seed ->
  (let* h := prf_init (hs_hmac s) (str_to_int k) in
   hs_prf_call (set_prf s (hs_prf s) h) [] n label seed true)%res = Ok (s', r') ->
  exists p h, s' = set_prf s p h /\ zinv (str_to_int k) h /\ zst s' /\ later s s' /\
    (matched s' -> r' = str_to_int (prf_bytes n k label seed)).
Proof.
  intros Z Hl Hs E. destruct (prf_init (hs_hmac s) (str_to_int k)) as [h1| |] eqn:E1; try discriminate.
  cbn [bind] in E. destruct (zk_init _ _ _ Z E1) as (V1 & Z1 & L1).
  destruct (zk_call (set_prf s (hs_prf s) h1) _ _ _ _ _ _ V1 Z1 Hl Hs E) as (p & h & -> & V & Z2 & L2 & M).
  exists p, h. split; [reflexivity|]. split; [exact V|]. split; [exact Z2|]. split; [exact (later_trans _ _ _ L1 L2)|].
  intro X. apply rev_str. rewrite (M X), prf_bytes_bits, str_to_int_bits. reflexivity.
Qed.

(** * The pre-master secret in the proof phase (C58) *)
Lemma pms_int_dec q x : (0 < q)%Z -> (0 <= x)%Z -> (BN_num_bytes x <= BN_num_bytes q)%nat ->
  pms_int q x = Ok (str_to_int (be_enc (BN_num_bytes q) (Z.to_N x))).
Proof.
  intros Hq Hx M. unfold pms_int. rewrite (proj2 (Nat.ltb_ge _ _)) by exact M.
  unfold BN_bn2bin. rewrite be_bytes_enc. assert (B := num_bytes_bound x).
  replace (Z.abs_N x) with (Z.to_N x) in * by lia. rewrite <- be_enc_pad by exact B.
  replace (BN_num_bytes q - BN_num_bytes x + BN_num_bytes x)%nat with (BN_num_bytes q) by lia.
  unfold str_to_int. rewrite be_enc_length. reflexivity.
Qed.

Lemma mod_sub_range a b q : (0 < q)%Z -> (0 <= BN_mod_sub a b q < q)%Z.
Proof. intro H. unfold BN_mod_sub. apply Z.mod_pos_bound. lia. Qed.

Lemma str_inj_N n x y : (x < 256 ^ N.of_nat n)%N -> (y < 256 ^ N.of_nat n)%N ->
  str_to_int (be_enc n x) = str_to_int (be_enc n y) -> x = y.
Proof. intros Hx Hy E. apply (f_equal N_of_bits) in E. now rewrite !be_enc_value in E. Qed.

Definition share_int (q a : Z) : Integer := str_to_int (be_enc (BN_num_bytes q) (Z.to_N a)).

Lemma zk_pms_iff s pms a : let q := hs_q s in
  (0 <= a < q)%Z -> hs_zk_pms s = share_int q a -> (0 <= hs_bnb s < q)%Z ->
  (forall s' k, zk_pms_addmod s pms = Ok (s', k) ->
     s' = set_bn s (hs_bnb s) (hs_bnb s) /\ k = str_to_int (pms_of q a (hs_bnb s)) /\
     BN_mod_sub pms (hs_bna s) q = hs_bnb s) /\
  (BN_mod_sub pms (hs_bna s) q = hs_bnb s ->
   zk_pms_addmod s pms = Ok (set_bn s (hs_bnb s) (hs_bnb s), str_to_int (pms_of q a (hs_bnb s)))).
Proof.
  intros q Ha Hz Hb. unfold zk_pms_addmod. cbn [set_bn hs_q hs_bna hs_bnb hs_zk_pms]. fold q.
  assert (R := mod_sub_range pms (hs_bna s) q ltac:(lia)).
  rewrite !pms_int_ok by assumption. cbn [bind]. unfold zk_public.
  destruct (list_eq_dec bool_dec _ _) as [E|E].
  - apply str_inj_N in E; try (apply lt_num_bytes; assumption).
    assert (E' : BN_mod_sub pms (hs_bna s) q = hs_bnb s) by lia. rewrite E'. cbn [bind].
    rewrite Hz. unfold share_int. rewrite addmod_shares by assumption. cbn [bind].
    rewrite (Z.add_comm (hs_bnb s) a).
    split; [intros s' k [= <- <-]; auto|reflexivity].
  - cbn [bind]. split; [discriminate|]. intro X. exfalso. apply E. now rewrite X.
Qed.

(** the prover's argument is the pre-master secret of the garbled phase *)
Lemma reshare q pa pb : (0 <= pa < q)%Z -> (0 <= pb < q)%Z -> BN_mod_sub ((pa + pb) mod q) pa q = pb.
Proof.
  intros Ha Hb. unfold BN_mod_sub.
  rewrite Zminus_mod_idemp_l. replace (pa + pb - pa)%Z with pb by lia. apply Z.mod_small. lia.
Qed.

(** * One whole proof of the handshake *)
Lemma app_split {A} (a b : list A) : forall c d, length a = length b -> a ++ c = b ++ d -> a = b /\ c = d.
Proof.
  revert b. induction a as [|x a IH]; intros [|y b] c d L E; try discriminate; [auto|].
  cbn in E. injection E as -> E. injection L as L. destruct (IH b c d L E) as [-> ->]. auto.
Qed.

Lemma bits_app_inj u v : flat_map (bits_of_N 8) u = flat_map (bits_of_N 8) v ->
  Forall byte8 u -> Forall byte8 v -> u = v.
Proof.
  revert v. induction u as [|a u IH]; intros [|b v] E Fu Fv; try reflexivity.
  - apply (f_equal (@length bool)) in E. cbn [flat_map] in E. rewrite app_length, bits_of_N_length in E. discriminate.
  - apply (f_equal (@length bool)) in E. cbn [flat_map] in E. rewrite app_length, bits_of_N_length in E. discriminate.
  - cbn [flat_map] in E. inversion_clear Fu as [|? ? Ha Fu']. inversion_clear Fv as [|? ? Hb Fv'].
    apply app_split in E; [|now rewrite !bits_of_N_length]. destruct E as [X E].
    apply (f_equal N_of_bits) in X. rewrite !N_of_bits_of_N_small in X by assumption. subst b.
    f_equal. now apply IH.
Qed.

Lemma array_str vd u : Forall byte8 vd -> Forall byte8 u ->
  str_to_int vd = int_of_array (length u * 8) 8 u -> u = rev vd.
Proof.
  intros Fv Fu E. rewrite str_array in E. unfold int_of_array in E.
  rewrite firstn_all2 in E.
  - symmetry. apply bits_app_inj; [exact E|now apply Forall_rev|exact Fu].
  - rewrite (flat_map_length_const _ 8) by (intro; apply bits_of_N_length). lia.
Qed.

Definition chk (s : hs) : Prop := checks_hold s.

Lemma check_bytes_inv s x u s' : check_bytes s x u = Ok s' ->
  s' = add_check s [(x, int_of_array (length u * 8) 8 u)] /\ length x = (length u * 8)%nat.
Proof.
  unfold check_bytes. destruct (Nat.eqb_spec (length x) (length u * 8)); [|discriminate].
  intros [= <-]. auto.
Qed.

Lemma cmp_of_words c : Forall (fun c => fst c = snd c) (word_checks c) -> cmp_hold c.
Proof. unfold word_checks, cmp_hold. intro H. apply Forall_map in H. exact H. Qed.

Lemma handshake_check_inv s s' : zst s -> handshake_check s = Ok s' -> checks_hold s' ->
  matched s /\ checks_hold s /\ exists c, s' = add_check s c.
Proof.
  intros Z E C. unfold handshake_check in E.
  destruct (prf_check (hs_prf s)) as [c1| |] eqn:E1; try discriminate. cbn [bind] in E.
  destruct (sha256_check (sha (hs_hmac s))) as [c2| |] eqn:E2; try discriminate. cbn [bind] in E.
  injection E as <-. unfold checks_hold in C. cbn [add_check hs_zk] in C.
  apply Forall_app in C. destruct C as [C0 C]. apply Forall_app in C. destruct C as [C1 C2].
  split; [|split; [exact C0|eauto]]. split.
  - apply (sha_check_match _ c2 E2 (cmp_of_words _ C2)). apply Z.
  - exact (prf_check_match _ c1 E1 (cmp_of_words _ C1)).
Qed.

Lemma fin_sound s k label tau s1 x u s2 : zinv (str_to_int k) (hs_hmac s) -> zst s ->
  Forall byte8 label -> Forall byte8 tau -> Forall byte8 u ->
  hs_prf_call s [] finished_msg_length label tau true = Ok (s1, x) -> check_bytes s1 x u = Ok s2 ->
  exists p h, s2 = add_check (set_prf s p h) [(x, int_of_array (length u * 8) 8 u)] /\
    zinv (str_to_int k) h /\ zst s2 /\ later s s2 /\
    (matched s2 -> checks_hold s2 -> u = rev (verify_data k label tau)).
Proof.
  intros V Z Hl Ht Hu E1 E2. destruct (zk_call _ _ _ _ _ _ _ V Z Hl Ht E1) as (p & h & -> & V1 & Z1 & L1 & M1).
  apply check_bytes_inv in E2. destruct E2 as [-> L]. exists p, h. split; [reflexivity|].
  split; [exact V1|]. split; [exact Z1|]. split; [exact L1|].
  intros Mt C. unfold checks_hold in C. cbn [add_check hs_zk] in C. apply Forall_app in C. destruct C as [_ C].
  inversion_clear C as [|? ? C1 _]. cbn [fst snd] in C1.
  assert (X : x = str_to_int (verify_data k label tau)).
  { apply rev_str. unfold verify_data. rewrite (M1 Mt), prf_bytes_bits, str_to_int_bits. reflexivity. }
  apply array_str; [apply prf_bytes_byte|exact Hu|]. now rewrite <- X.
Qed.

Definition opt_bytes (o : option (list N)) : Prop := match o with Some u => Forall byte8 u | None => True end.

(** C34/C58 for the handshake: if the comparisons hold, everything derived in the proof
    phase is the TLS key schedule of the pre-master secret shared by the recorded wires
    zk_pms and the verifier's own share, and the opened Finished values were right *)
Theorem prove_handshake_sound s pms rc rs tau_c tau_s sh s' ms ks a : let q := hs_q s in
  (0 <= a < q)%Z -> hs_zk_pms s = share_int q a -> (0 <= hs_bnb s < q)%Z ->
  zst s -> opt_bytes (hs_cufin s) -> opt_bytes (hs_sufin s) ->
  Forall byte8 rc -> Forall byte8 rs -> Forall byte8 tau_c -> Forall byte8 tau_s -> opt_wf sh ->
  prove_handshake s pms rc rs tau_c tau_s sh = Ok (s', ms, ks) -> checks_hold s' ->
  let m := ms_spec (pms_of q a (hs_bnb s)) rc rs sh in
  let kb := key_block m rc rs in
  ms = str_to_int m /\
  ks = (str_to_int (tls_client_key kb), str_to_int (tls_server_key kb),
        str_to_int (tls_client_iv kb), str_to_int (tls_server_iv kb)) /\
  hs_cufin s = Some (rev (client_verify_data m tau_c)) /\
  hs_sufin s = Some (rev (server_verify_data m tau_s)).
Proof.
  intros q Ha Hz Hb Z HC HS Hrc Hrs Htc Hts Hsh E CK m kb.
  unfold prove_handshake in E.
  (* master secret *)
  assert (X : exists s1 ms1, (match sh with
                  | Some h => prove_extended_master_key s [] pms h
                  | None => prove_master_key s [] pms rc rs end) = Ok (s1, ms1) /\
     (let* (s, ks) := prove_expansion_keys s1 ms1 rc rs in
      let* s := prove_client_finished_msg s client_finished_label tau_c in
      let* s := prove_server_finished_msg s server_finished_label tau_s in
      let* s := handshake_check s in Ok (s, ms1, ks))%res = Ok (s', ms, ks)).
  { destruct (match sh with Some h => _ | None => _ end) as [[s1 ms1]| |]; try discriminate. eauto. }
  clear E. destruct X as (s1 & ms1 & E1 & E).
  assert (Y : exists p h, s1 = set_prf (set_bn s (hs_bnb s) (hs_bnb s)) p h /\ zst s1 /\
     (matched s1 -> ms1 = str_to_int m)).
  { destruct (zk_pms_iff s pms a Ha Hz Hb) as [I _].
    destruct sh as [hh|]; cbn [opt_wf] in Hsh; cbn [ms_spec] in m.
    - unfold prove_extended_master_key in E1.
      destruct (zk_pms_addmod s pms) as [[s0 k0]| |] eqn:E0; try discriminate. cbn [bind] in E1.
      destruct (I _ _ eq_refl) as (-> & -> & _). clear I.
      destruct (zk_init_call (set_bn s (hs_bnb s) (hs_bnb s)) (pms_of q a (hs_bnb s)) extended_master_key_length
        extended_master_key_label hh s1 ms1) as (p & h & -> & V & Zs & L & M).
      + exact Z.
      + apply ascii_bytes_byte.
      + exact Hsh.
      + exact E1.
      + exists p, h. split; [reflexivity|]. split; [exact Zs|exact M].
    - unfold prove_master_key in E1.
      destruct (zk_pms_addmod s pms) as [[s0 k0]| |] eqn:E0; try discriminate. cbn [bind] in E1.
      destruct (I _ _ eq_refl) as (-> & -> & _). clear I.
      destruct (zk_init_call (set_bn s (hs_bnb s) (hs_bnb s)) (pms_of q a (hs_bnb s)) master_key_length
        master_key_label (rc ++ rs) s1 ms1) as (p & h & -> & V & Zs & L & M).
      + exact Z.
      + apply ascii_bytes_byte.
      + apply Forall_app; auto.
      + exact E1.
      + exists p, h. split; [reflexivity|]. split; [exact Zs|exact M]. }
  destruct Y as (p1 & h1 & -> & Z1 & M1). clear E1.
  set (s1 := set_prf (set_bn s (hs_bnb s) (hs_bnb s)) p1 h1) in *.
  (* key expansion *)
  unfold prove_expansion_keys in E.
  destruct (prf_init (hs_hmac s1) ms1) as [h2| |] eqn:E2; try discriminate. cbn [bind] in E.
  destruct (zk_init _ _ _ Z1 E2) as (V2 & Z2 & L2).
  destruct (hs_prf_call (set_prf s1 (hs_prf s1) h2) [] expansion_key_length _ _ true) as [[s3 key]| |] eqn:E3; try discriminate.
  cbn [bind] in E.
  destruct (zk_call (set_prf s1 (hs_prf s1) h2) _ _ _ _ _ _ V2 Z2 (ascii_bytes_byte _) (proj2 (Forall_app _ _ _) (conj Hrs Hrc)) E3)
    as (p3 & h3 & -> & V3 & Z3 & L3 & M3).
  destruct (split_keys key) as [[[[ck sk] ci] si]| |] eqn:E4; try discriminate. cbn [bind] in E.
  set (s3 := set_prf (set_prf s1 (hs_prf s1) h2) p3 h3) in *.
  (* client finished *)
  unfold prove_client_finished_msg in E.
  destruct (hs_prf_call s3 [] finished_msg_length client_finished_label tau_c true) as [[s4 x4]| |] eqn:E5; try discriminate.
  cbn [bind] in E.
  destruct (zk_call s3 _ _ _ _ _ _ V3 Z3 (ascii_bytes_byte _) Htc E5) as (p4 & h4 & E4' & V4 & Z4 & L4 & M4).
  assert (C4 : hs_cufin s4 = hs_cufin s) by (rewrite E4'; reflexivity). rewrite C4 in E.
  destruct (hs_cufin s) as [uc|] eqn:UC; cbn [read bind] in E; [|discriminate].
  destruct (check_bytes s4 x4 uc) as [s5| |] eqn:E6; try discriminate. cbn [bind] in E.
  (* server finished *)
  assert (S5 := check_bytes_inv _ _ _ _ E6). destruct S5 as [S5 LX4].
  assert (Z5 : zst s5) by (rewrite S5; exact Z4).
  assert (V5 : zinv ms1 (hs_hmac s5)) by (rewrite S5, E4'; exact V4).
  unfold prove_server_finished_msg in E.
  destruct (hs_prf_call s5 [] finished_msg_length server_finished_label tau_s true) as [[s6 x6]| |] eqn:E7; try discriminate.
  cbn [bind] in E.
  destruct (zk_call s5 _ _ _ _ _ _ V5 Z5 (ascii_bytes_byte _) Hts E7) as (p6 & h6 & E6' & V6 & Z6 & L6 & M6).
  assert (C6 : hs_sufin s6 = hs_sufin s) by (rewrite E6', S5, E4'; reflexivity). rewrite C6 in E.
  destruct (hs_sufin s) as [us|] eqn:US; cbn [read bind] in E; [|discriminate].
  destruct (check_bytes s6 x6 us) as [s7| |] eqn:E8; try discriminate. cbn [bind] in E.
  assert (S7 := check_bytes_inv _ _ _ _ E8). destruct S7 as [S7 LX6].
  destruct (handshake_check s7) as [s8| |] eqn:E9; try discriminate. cbn [bind] in E.
  injection E as <- <- <-.
  assert (Z7 : zst s7) by (rewrite S7; exact Z6).
  destruct (handshake_check_inv s7 s8 Z7 E9 CK) as (MT7 & CK7 & _).
  (* propagate the match backwards *)
  assert (MT6 : matched s6) by (rewrite S7 in MT7; exact MT7).
  assert (MT5 : matched s5) by (exact (matched_later _ _ L6 MT6)).
  assert (MT4 : matched s4) by (rewrite S5 in MT5; exact MT5).
  assert (MT3 : matched s3) by (exact (matched_later _ _ L4 MT4)).
  assert (MT1 : matched s1) by (exact (matched_later _ _ (later_trans _ _ _ L2 L3) MT3)).
  specialize (M1 MT1). subst ms1.
  assert (XK : key = str_to_int kb).
  { apply rev_str. rewrite (M3 MT3). unfold kb, key_block. rewrite prf_bytes_bits, str_to_int_bits. reflexivity. }
  assert (X4 : x4 = str_to_int (client_verify_data m tau_c)).
  { apply rev_str. rewrite (M4 MT4). unfold client_verify_data, verify_data.
    rewrite prf_bytes_bits, str_to_int_bits. reflexivity. }
  assert (X6 : x6 = str_to_int (server_verify_data m tau_s)).
  { apply rev_str. rewrite (M6 MT6). unfold server_verify_data, verify_data.
    rewrite prf_bytes_bits, str_to_int_bits. reflexivity. }
  split; [reflexivity|]. split.
  { rewrite XK in E4. unfold kb in E4. rewrite split_keys_ok in E4 by apply prf_bytes_length.
    fold kb in E4. injection E4 as <- <- <- <-. reflexivity. }
  unfold checks_hold in CK7. rewrite S7 in CK7. cbn [add_check hs_zk] in CK7. rewrite E6', S5 in CK7.
  cbn [set_prf add_check hs_zk] in CK7. apply Forall_app in CK7. destruct CK7 as [CKa CKb].
  apply Forall_app in CKa. destruct CKa as [_ CKa].
  inversion_clear CKa as [|? ? Qa _]. inversion_clear CKb as [|? ? Qb _]. cbn [fst snd] in Qa, Qb.
  split; f_equal.
  - apply array_str; [apply prf_bytes_byte|exact HC|]. now rewrite <- X4.
  - apply array_str; [apply prf_bytes_byte|exact HS|]. now rewrite <- X6.
Qed.

(** * Completeness: what an honest garbled handshake leaves behind *)
Definition call_ivs (rounds : bool) (key : Integer) (m : hmode) : list (list N) :=
  if rounds then [] else ph_ivs key true m.
Definition call_pubs (rounds : bool) (key : Integer) (seed : list N) (n : nat) : list (list N) :=
  if rounds then [] else ph_pubs key seed (n * 8).

Definition recd (p : prf_st) (h : hmac_st) (IV PB : list (list N)) : Prop :=
  iv_in_hashes (sha h) = IV /\ pub_M p = PB /\ zk_iv_in_hashes (sha h) = [] /\
  zpos (sha h) = (-1)%Z /\ zk_sec_M p = [] /\ zk_pos p = 0%nat.

Lemma gc_call s key m r n label seed IV PB :
  hinv key m (hs_hmac s) -> gc_in_open (sha (hs_hmac s)) = gc_flag m -> (m = Fresh \/ m = hs_mode s) ->
  Forall byte8 label -> Forall byte8 seed -> recd (hs_prf s) (hs_hmac s) IV PB ->
  exists p h r', hs_prf_call s r n label seed false = Ok (set_prf s p h, r') /\
    hinv key (hs_mode s) h /\ gc_in_open (sha h) = gc_flag (hs_mode s) /\
    rev r' = rev r ++ prf (8 * n) (rev key) (bits_of_bytes label) (bits_of_bytes seed) /\
    recd p h (IV ++ call_ivs (hs_rounds s) key m) (PB ++ call_pubs (hs_rounds s) key (label ++ seed) n).
Proof.
  intros V G Hm Hl Hs (R1 & R2 & R3 & R4 & R5 & R6).
  unfold hs_prf_call, hs_mode, call_ivs, call_pubs in *. rewrite (Nat.mul_comm n 8).
  destruct (hs_rounds s) eqn:R; cbn [negb].
  - unfold prf_opt_rounds_compute.
    destruct (rounds_phash_ok key m (hs_hmac s) r (8 * n) (label ++ seed) true true V) as (h & r' & E & V' & Q).
    { intros _. destruct Hm; congruence. }
    destruct (rphash_frame _ _ _ _ _ _ _ _ E) as [(S1 & S2 & S3 & S4) GF].
    rewrite E. cbn [bind]. exists (hs_prf s), h, r'. split; [reflexivity|]. split; [exact V'|].
    split; [exact GF|]. split; [rewrite Q; unfold prf; now rewrite bits_of_bytes_app|].
    rewrite !app_nil_r. unfold recd. rewrite S1, S2, S4. auto 9.
  - unfold prf_opt_compute.
    assert (HB : Forall byte (label ++ seed)) by (apply Forall_app; auto).
    assert (Hm' : true = true -> m <> UseRounds) by (intros _; destruct Hm; congruence).
    destruct (opt_phash_ok key m (hs_prf s) (hs_hmac s) r (8 * n) (label ++ seed) true true V HB Hm')
      as (h & r' & E & V' & Q).
    destruct (gc_opt_phash _ _ _ _ _ _ _ _ _ _ _ _ V G HB Hm' E) as (A & B & C & D & F).
    rewrite E. cbn [bind fst snd]. eexists _, h, r'. split; [reflexivity|]. split; [exact V'|].
    split; [exact B|]. split; [rewrite Q; unfold prf; now rewrite bits_of_bytes_app|].
    unfold recd. rewrite A, R1, C, F, R3, R4. cbn [pub_of pub_M zk_sec_M zk_pos]. rewrite R2, R5, R6.
    auto 9.
Qed.

Lemma gc_init_call s key r n label seed IV PB :
  pos_ok (hs_hmac s) -> Forall byte8 label -> Forall byte8 seed -> recd (hs_prf s) (hs_hmac s) IV PB ->
  exists p h r', (let* h := prf_init (hs_hmac s) key in
     hs_prf_call (set_prf s (hs_prf s) h) r n label seed false)%res = Ok (set_prf s p h, r') /\
    hinv key (hs_mode s) h /\ gc_in_open (sha h) = gc_flag (hs_mode s) /\
    rev r' = rev r ++ prf (8 * n) (rev key) (bits_of_bytes label) (bits_of_bytes seed) /\
    recd p h (IV ++ call_ivs (hs_rounds s) key Fresh) (PB ++ call_pubs (hs_rounds s) key (label ++ seed) n).
Proof.
  intros P Hl Hs (R1 & R2 & R3 & R4 & R5 & R6). destruct (hinit_inv (hs_hmac s) key P) as (h1 & E1 & V1).
  destruct (hinit_ok (hs_hmac s) key) as (h1' & E1' & _ & _ & _ & _ & SH). rewrite E1 in E1'. injection E1' as <-.
  unfold prf_init. rewrite E1. cbn [bind].
  destruct (gc_call (set_prf s (hs_prf s) h1) key Fresh r n label seed IV PB V1) as (p & h & r' & E & A & B & C & D).
  - cbn [set_prf hs_hmac]. now rewrite SH.
  - auto.
  - exact Hl.
  - exact Hs.
  - unfold recd. cbn [set_prf hs_hmac hs_prf]. rewrite SH. cbn. auto 9.
  - exists p, h, r'. auto 9.
Qed.

Lemma gc_finished s ms label tau IV PB : hinv (str_to_int ms) (hs_mode s) (hs_hmac s) ->
  gc_in_open (sha (hs_hmac s)) = gc_flag (hs_mode s) ->
  Forall byte8 label -> Forall byte8 tau -> recd (hs_prf s) (hs_hmac s) IV PB ->
  exists p h, finished_bytes s label tau = Ok (set_prf s p h, rev (verify_data ms label tau)) /\
    hinv (str_to_int ms) (hs_mode s) h /\ gc_in_open (sha h) = gc_flag (hs_mode s) /\
    recd p h (IV ++ call_ivs (hs_rounds s) (str_to_int ms) (hs_mode s))
             (PB ++ call_pubs (hs_rounds s) (str_to_int ms) (label ++ tau) finished_msg_length).
Proof.
  intros V G Hl Ht RC. unfold finished_bytes.
  destruct (gc_call s _ (hs_mode s) [] finished_msg_length label tau IV PB V G (or_intror eq_refl) Hl Ht RC)
    as (p & h & r & E & V' & G' & R & RC'). rewrite E. cbn [bind].
  assert (X : r = str_to_int (verify_data ms label tau)).
  { apply rev_str. rewrite R. unfold verify_data. now rewrite prf_bytes_bits, str_to_int_bits. }
  exists p. eexists. split.
  - cbn [set_prf hs_prf hs_hmac]. rewrite X, reveal_str by apply prf_bytes_byte. reflexivity.
  - split; [now apply hinv_log|]. split; [exact G'|exact RC'].
Qed.

Lemma civ_mode (rounds : bool) key (m : hmode) : m = (if rounds then UseRounds else UseOpt) -> call_ivs rounds key m = [].
Proof. intros ->. destruct rounds; reflexivity. Qed.

Definition ms_label (sh : option (list N)) : list N :=
  match sh with Some _ => extended_master_key_label | None => master_key_label end.
Definition ms_seed (rc rs : list N) (sh : option (list N)) : list N :=
  match sh with Some h => h | None => rc ++ rs end.
Definition all_ivs (rounds : bool) (k m : Integer) : list (list N) :=
  call_ivs rounds k Fresh ++ call_ivs rounds m Fresh.
Definition all_pubs (rounds : bool) (k m : Integer) (rc rs tc ts : list N) (sh : option (list N)) : list (list N) :=
  call_pubs rounds k (ms_label sh ++ ms_seed rc rs sh) 48 ++
  call_pubs rounds m (key_expansion_label ++ (rs ++ rc)) expansion_key_length ++
  call_pubs rounds m (client_finished_label ++ tc) finished_msg_length ++
  call_pubs rounds m (server_finished_label ++ ts) finished_msg_length.

Definition fins (tc ts : list N) : list fin_op :=
  [FinC client_finished_label tc; FinS server_finished_label ts].

Lemma session_rec q rounds pa pb rc rs sh tc ts : (0 <= pa < q)%Z -> (0 <= pb < q)%Z ->
  Forall byte8 rc -> Forall byte8 rs -> opt_wf sh -> Forall byte8 tc -> Forall byte8 ts ->
  let k := pms_of q pa pb in let ms := ms_spec k rc rs sh in let kb := key_block ms rc rs in
  exists s, session q rounds pa pb rc rs sh (fins tc ts) = Ok s /\
    hs_q s = q /\ hs_rounds s = rounds /\ hs_bna s = pa /\ hs_bnb s = pb /\ hs_zk_pms s = share_int q pa /\
    hs_zk s = [] /\ hs_cufin s = Some (rev (client_verify_data ms tc)) /\
    hs_sufin s = Some (rev (server_verify_data ms ts)) /\
    recd (hs_prf s) (hs_hmac s) (all_ivs rounds (str_to_int k) (str_to_int ms))
         (all_pubs rounds (str_to_int k) (str_to_int ms) rc rs tc ts sh).
Proof.
  intros Ha Hb Hc Hs Hh Htc Hts k ms kb. unfold session.
  set (s0 := store_pms (hs_new q rounds) pa pb).
  assert (X : exists p h, compute_ms s0 pa pb rc rs sh =
     Ok (set_ms (after_pms s0 pa p h) (str_to_int ms)) /\
     hinv (str_to_int k) (hs_mode s0) h /\ 
     recd p h (call_ivs rounds (str_to_int k) Fresh) (call_pubs rounds (str_to_int k) (ms_label sh ++ ms_seed rc rs sh) 48)).
  { destruct (pms_addmod_ok s0 pa pb Ha Hb) as (h0 & E0 & _).
    assert (R0 : recd prf_init0 h0 [] []).
    { unfold pms_addmod in E0. rewrite !pms_int_ok in E0 by assumption. cbn [bind] in E0.
      cbn [set_prf set_zk_pms hs_q hs_prf hs_hmac] in E0. rewrite addmod_shares in E0 by assumption. cbn [bind] in E0.
      injection E0 as <-. repeat split. }
    assert (P0 : pos_ok h0).
    { destruct (pms_addmod_ok s0 pa pb Ha Hb) as (h0' & E0' & P0'). rewrite E0 in E0'. injection E0' as <-. apply P0'. reflexivity. }
    destruct sh as [hh|]; cbn [compute_ms opt_wf ms_label ms_seed ms_spec] in *.
    - unfold compute_extended_master_key. rewrite E0. cbn [bind].
      destruct (gc_init_call (after_pms s0 pa (hs_prf s0) h0) (str_to_int (pms_of (hs_q s0) pa pb)) (hs_ms s0)
        extended_master_key_length extended_master_key_label hh [] [] P0 (ascii_bytes_byte _) Hh R0)
        as (p & h & r & E & V & G & R & RC).
      cbn [after_pms set_prf set_zk_pms hs_ms hs_hmac hs_prf hs_q] in *.
      destruct (prf_init h0 (str_to_int (pms_of (hs_q s0) pa pb))) as [h1| |]; [|discriminate|discriminate].
      cbn [bind] in *. rewrite E. cbn [bind]. exists p, h. split; [|split; [exact V|exact RC]].
      f_equal. f_equal. apply rev_str. rewrite R. unfold ms, extended_master_secret.
      rewrite prf_bytes_bits, str_to_int_bits. reflexivity.
    - unfold compute_master_key. rewrite E0. cbn [bind].
      destruct (gc_init_call (after_pms s0 pa (hs_prf s0) h0) (str_to_int (pms_of (hs_q s0) pa pb)) (hs_ms s0)
        master_key_length master_key_label (rc ++ rs) [] [] P0 (ascii_bytes_byte _)
        (proj2 (Forall_app _ _ _) (conj Hc Hs)) R0)
        as (p & h & r & E & V & G & R & RC).
      cbn [after_pms set_prf set_zk_pms hs_ms hs_hmac hs_prf hs_q] in *.
      destruct (prf_init h0 (str_to_int (pms_of (hs_q s0) pa pb))) as [h1| |]; [|discriminate|discriminate].
      cbn [bind] in *. rewrite E. cbn [bind]. exists p, h. split; [|split; [exact V|exact RC]].
      f_equal. f_equal. apply rev_str. rewrite R. unfold ms, master_secret.
      rewrite prf_bytes_bits, str_to_int_bits. reflexivity. }
  destruct X as (p & h & E & V & RC). rewrite E. cbn [bind]. clear E.
  set (s1 := set_ms (after_pms s0 pa p h) (str_to_int ms)).
  assert (MD : hs_mode s1 = (if rounds then UseRounds else UseOpt)) by reflexivity.
  unfold compute_expansion_keys.
  destruct (gc_init_call s1 (str_to_int ms) [] expansion_key_length key_expansion_label (rs ++ rc)
     _ _ (hinv_pos _ _ _ V) (ascii_bytes_byte _) (proj2 (Forall_app _ _ _) (conj Hs Hc)) RC)
    as (p2 & h2 & r2 & E2 & V2 & G2 & R2 & RC2).
  change (hs_ms s1) with (str_to_int ms).
  destruct (prf_init (hs_hmac s1) (str_to_int ms)) as [h1| |]; [|discriminate|discriminate].
  cbn [bind] in E2 |- *. rewrite E2. cbn [bind]. clear E2.
  assert (XK : r2 = str_to_int kb).
  { apply rev_str. rewrite R2. unfold kb, key_block. cbn [rev app]. now rewrite prf_bytes_bits, str_to_int_bits. }
  rewrite XK. unfold kb. rewrite split_keys_ok by apply prf_bytes_length. fold kb. cbn [bind].
  set (s2 := set_keys (set_prf s1 p2 h2) _ _ _ _).
  cbn [fins fin_run fin_step]. unfold compute_client_finished_msg.
  destruct (gc_finished s2 ms client_finished_label tc _ _ V2 G2 (ascii_bytes_byte _) Htc RC2)
    as (p3 & h3 & E3 & V3 & G3 & RC3). rewrite E3. cbn [bind]. clear E3.
  unfold compute_server_finished_msg.
  set (s3 := set_cufin (set_prf s2 p3 h3) _).
  destruct (gc_finished s3 ms server_finished_label ts _ _ V3 G3 (ascii_bytes_byte _) Hts RC3)
    as (p4 & h4 & E4 & V4 & G4 & RC4). rewrite E4. cbn [bind]. clear E4.
  eexists. split; [reflexivity|].
  cbn [set_sufin set_prf hs_q hs_rounds hs_bna hs_bnb hs_zk_pms hs_zk hs_cufin hs_sufin hs_prf hs_hmac].
  do 8 (split; [reflexivity|]).
  change (hs_rounds s2) with rounds in RC4. change (hs_rounds s3) with rounds in RC4. change (hs_rounds s1) with rounds in RC4.
  rewrite (civ_mode rounds _ (hs_mode s2) eq_refl), (civ_mode rounds _ (hs_mode s3) eq_refl) in RC4.
  rewrite !app_nil_r in RC4. rewrite <- !app_assoc in RC4. exact RC4.
Qed.

(** * Completeness: the proof phase against that record *)
Definition zmode (m : hmode) (s : hs) : Prop := m = Fresh \/ m = hs_mode s.

Lemma zk_call_ex s key m n label seed D T PD PT :
  zinv key (hs_hmac s) -> zst s -> zk_in_open (sha (hs_hmac s)) = zk_flag m -> zmode m s ->
  Forall byte8 label -> Forall byte8 seed ->
  zmt (hs_hmac s) D (call_ivs (hs_rounds s) key m ++ T) ->
  pmt (hs_prf s) PD (call_pubs (hs_rounds s) key (label ++ seed) n ++ PT) ->
  exists p h r, hs_prf_call s [] n label seed true = Ok (set_prf s p h, r) /\
    zk_in_open (sha h) = zk_flag (hs_mode s) /\
    zmt h (D ++ call_ivs (hs_rounds s) key m) T /\
    pmt p (PD ++ call_pubs (hs_rounds s) key (label ++ seed) n) PT.
Proof.
  intros V Z O Hm Hl Hs MZ MP. unfold hs_prf_call, call_ivs, call_pubs, zmode, hs_mode in *.
  destruct (hs_rounds s) eqn:R; cbn [negb].
  - unfold prf_opt_rounds_compute.
    destruct (zk_rounds_phash key (hs_hmac s) [] (n * 8) (label ++ seed) true true V) as (h & r & E1 & V1 & G1 & R1).
    destruct (rphash_frame _ _ _ _ _ _ _ _ E1) as [(S1 & S2 & S3 & S4) GF].
    rewrite E1. cbn [bind]. exists (hs_prf s), h, r. split; [reflexivity|]. rewrite !app_nil_r.
    split; [rewrite S3, O; destruct Hm as [-> | ->]; reflexivity|].
    split; [|exact MP]. destruct MZ as [A B]. cbn [app] in A. split; congruence.
  - destruct Z as (Z1 & Z2 & Z3 & Z4). unfold prf_opt_compute.
    destruct (zk_phash_ex key m (hs_prf s) (hs_hmac s) [] (n * 8) (label ++ seed) true true D T PD PT V O Z2)
      as (p & h & r & E & A & B & C); try assumption.
    { apply Forall_app; auto. }
    rewrite E. cbn [bind fst snd]. exists p, h, r. auto.
Qed.

Lemma zk_init_ex s key h1 : prf_init (hs_hmac s) key = Ok h1 ->
  zk_in_open (sha h1) = false /\ forall D T, zmt (hs_hmac s) D T -> zmt h1 D T.
Proof.
  intro E. unfold prf_init in E. destruct (hinit_ok (hs_hmac s) key) as (h1' & E' & _ & _ & _ & _ & SH).
  rewrite E in E'. injection E' as <-. split; [now rewrite SH|]. intros D T [A B]. split; rewrite SH; assumption.
Qed.

Lemma prf_init_ex h key : exists h1, prf_init h key = Ok h1.
Proof. destruct (hinit_ok h key) as (h1 & E & _). eauto. Qed.

Lemma words_hold c : cmp_hold c -> Forall (fun c => fst c = snd c) (word_checks c).
Proof. unfold word_checks, cmp_hold. intro H. apply Forall_map. exact H. Qed.

Lemma check_bytes_ok s vd : Forall byte8 vd -> exists s', check_bytes s (str_to_int vd) (rev vd) = Ok s' /\
  s' = add_check s [(str_to_int vd, str_to_int vd)].
Proof.
  intro F. unfold check_bytes. rewrite str_length, rev_length, (Nat.mul_comm 8), Nat.eqb_refl.
  eexists. split; [reflexivity|]. reflexivity.
Qed.

Theorem prove_handshake_complete q rounds pa pb rc rs sh tc ts : (0 <= pa < q)%Z -> (0 <= pb < q)%Z ->
  Forall byte8 rc -> Forall byte8 rs -> opt_wf sh -> Forall byte8 tc -> Forall byte8 ts ->
  exists s s' ms ks, session q rounds pa pb rc rs sh (fins tc ts) = Ok s /\
    prove_handshake s ((pa + pb) mod q) rc rs tc ts sh = Ok (s', ms, ks) /\ checks_hold s' /\
    ms = hs_ms s /\ ks = (hs_cwk s, hs_swk s, hs_civ s, hs_siv s).
Proof.
  intros Ha Hb Hc Hs Hh Htc Hts.
  destruct (session_rec q rounds pa pb rc rs sh tc ts Ha Hb Hc Hs Hh Htc Hts)
    as (s & ES & Q1 & Q2 & Q3 & Q4 & Q5 & Q6 & Q7 & Q8 & (I1 & I2 & I3 & I4 & I5 & I6)).
  set (k := pms_of q pa pb) in *. set (m := ms_spec k rc rs sh) in *.
  destruct (session_ok q rounds pa pb rc rs sh (fins tc ts) Ha Hb Hc Hs Hh) as (s_ & ES_ & F1 & F2 & F3 & F4 & F5 & _).
  { repeat constructor; try apply ascii_bytes_byte; assumption. }
  rewrite ES in ES_. injection ES_ as <-. fold k in F1, F2, F3, F4, F5. fold m in F1, F2, F3, F4, F5.
  assert (GIV : Forall goodN (all_ivs rounds (str_to_int k) (str_to_int m))).
  { unfold all_ivs, call_ivs. destruct rounds; [constructor|]. cbn. repeat constructor; apply ivw_goodN, ikp_length. }
  assert (GPB : Forall goodN (all_pubs rounds (str_to_int k) (str_to_int m) rc rs tc ts sh)).
  { unfold all_pubs, call_pubs. destruct rounds; [constructor|].
    assert (Y : forall a b c, Forall goodN (ph_pubs a b c)).
    { intros. unfold ph_pubs. apply Forall_map, Forall_forall. intros. apply mac_words_good. }
    repeat (apply Forall_app; split); apply Y. }
  assert (Z0 : zst s).
  { split; [split; rewrite I3; [exact I4|cbn; lia]|]. split; [split; rewrite I5; [exact I6|cbn; lia]|].
    rewrite I1, I2. auto. }
  assert (MZ0 : zmt (hs_hmac s) [] (all_ivs rounds (str_to_int k) (str_to_int m))) by (split; [exact I1|exact I3]).
  assert (MP0 : pmt (hs_prf s) [] (all_pubs rounds (str_to_int k) (str_to_int m) rc rs tc ts sh)) by (split; [exact I2|exact I5]).
  unfold all_ivs in MZ0. unfold all_pubs in MP0.
  set (s0 := set_bn s pb pb).
  assert (EP : zk_pms_addmod s ((pa + pb) mod q) = Ok (s0, str_to_int k)).
  { destruct (zk_pms_iff s ((pa + pb) mod q) pa) as [_ I]; rewrite ?Q1, ?Q3, ?Q4 in *; try assumption.
    apply I. now apply reshare. }
  assert (RD : hs_rounds s0 = rounds) by exact Q2.
  (* master secret *)
  destruct (prf_init_ex (hs_hmac s0) (str_to_int k)) as (h1 & E1).
  destruct (zk_init s0 _ _ Z0 E1) as (V1 & Z1 & L1). destruct (zk_init_ex s0 _ _ E1) as [O1 MZ1].
  set (s1 := set_prf s0 (hs_prf s0) h1) in *.
  assert (HL : Forall byte8 (ms_label sh)) by (destruct sh; apply ascii_bytes_byte).
  assert (HSd : Forall byte8 (ms_seed rc rs sh)) by (destruct sh; [exact Hh|apply Forall_app; auto]).
  destruct (zk_call_ex s1 (str_to_int k) Fresh 48 (ms_label sh) (ms_seed rc rs sh) [] (call_ivs rounds (str_to_int m) Fresh) [] 
    (call_pubs rounds (str_to_int m) (key_expansion_label ++ (rs ++ rc)) expansion_key_length ++
     call_pubs rounds (str_to_int m) (client_finished_label ++ tc) finished_msg_length ++
     call_pubs rounds (str_to_int m) (server_finished_label ++ ts) finished_msg_length) V1 Z1 O1 (or_introl eq_refl) HL HSd)
    as (p2 & h2 & r2 & E2 & O2 & MZ2 & MP2).
  { change (hs_rounds s1) with (hs_rounds s0). rewrite RD. exact (MZ1 _ _ MZ0). }
  { change (hs_rounds s1) with (hs_rounds s0). rewrite RD. exact MP0. }
  destruct (zk_call s1 _ _ _ _ _ _ V1 Z1 HL HSd E2) as (px & hx & SX & V2 & Z2 & L2 & M2).
  injection SX as <- <-. change (hs_rounds s1) with (hs_rounds s0) in MZ2, MP2. rewrite RD in MZ2, MP2. cbn [app] in MZ2, MP2.
  assert (MT2 : matched (set_prf s1 p2 h2)) by (split; [exact (zmt_hm _ _ _ MZ2)|exact (pmt_pm _ _ _ MP2)]).
  assert (X2 : r2 = str_to_int m).
  { apply rev_str. rewrite (M2 MT2). unfold m. destruct sh; cbn [ms_spec ms_label ms_seed].
    - unfold extended_master_secret. rewrite prf_bytes_bits, str_to_int_bits. reflexivity.
    - unfold master_secret. rewrite prf_bytes_bits, str_to_int_bits. reflexivity. }
  assert (EM : match sh with
               | Some h => prove_extended_master_key s [] ((pa + pb) mod q) h
               | None => prove_master_key s [] ((pa + pb) mod q) rc rs
               end = Ok (set_prf s1 p2 h2, str_to_int m)).
  { rewrite <- X2. destruct sh; cbn [ms_label ms_seed] in E2.
    - unfold prove_extended_master_key. rewrite EP. cbn [bind]. rewrite E1. cbn [bind]. exact E2.
    - unfold prove_master_key. rewrite EP. cbn [bind]. rewrite E1. cbn [bind]. exact E2. }
  set (s2 := set_prf s1 p2 h2) in *. clear M2 X2.
  (* key expansion *)
  destruct (prf_init_ex (hs_hmac s2) (str_to_int m)) as (h3 & E3).
  destruct (zk_init s2 _ _ Z2 E3) as (V3 & Z3 & L3). destruct (zk_init_ex s2 _ _ E3) as [O3 MZ3].
  set (s3 := set_prf s2 (hs_prf s2) h3) in *.
  assert (RD3 : hs_rounds s3 = rounds) by exact RD.
  destruct (zk_call_ex s3 (str_to_int m) Fresh expansion_key_length key_expansion_label (rs ++ rc)
     (call_ivs rounds (str_to_int k) Fresh) [] (call_pubs rounds (str_to_int k) (ms_label sh ++ ms_seed rc rs sh) 48)
     (call_pubs rounds (str_to_int m) (client_finished_label ++ tc) finished_msg_length ++
     call_pubs rounds (str_to_int m) (server_finished_label ++ ts) finished_msg_length) V3 Z3 O3 (or_introl eq_refl)
     (ascii_bytes_byte _) (proj2 (Forall_app _ _ _) (conj Hs Hc)))
    as (p4 & h4 & r4 & E4 & O4 & MZ4 & MP4).
  { rewrite RD3, app_nil_r. apply MZ3. exact MZ2. }
  { rewrite RD3. exact MP2. }
  destruct (zk_call s3 _ _ _ _ _ _ V3 Z3 (ascii_bytes_byte _) (proj2 (Forall_app _ _ _) (conj Hs Hc)) E4) as (px & hx & SX & V4 & Z4 & L4 & M4).
  injection SX as <- <-. rewrite RD3 in MZ4, MP4.
  assert (MT4 : matched (set_prf s3 p4 h4)) by (split; [exact (zmt_hm _ _ _ MZ4)|exact (pmt_pm _ _ _ MP4)]).
  assert (X4 : r4 = str_to_int (key_block m rc rs)).
  { apply rev_str. rewrite (M4 MT4). unfold key_block. rewrite prf_bytes_bits, str_to_int_bits. reflexivity. }
  set (s4 := set_prf s3 p4 h4) in *. clear M4.
  (* client finished *)
  assert (RD4 : hs_rounds s4 = rounds) by exact RD.
  assert (MD4 : hs_mode s4 = (if rounds then UseRounds else UseOpt)) by (unfold hs_mode; now rewrite RD4).
  destruct (zk_call_ex s4 (str_to_int m) (hs_mode s4) finished_msg_length client_finished_label tc
     (call_ivs rounds (str_to_int k) Fresh ++ call_ivs rounds (str_to_int m) Fresh) []
     (call_pubs rounds (str_to_int k) (ms_label sh ++ ms_seed rc rs sh) 48 ++
      call_pubs rounds (str_to_int m) (key_expansion_label ++ (rs ++ rc)) expansion_key_length)
     (call_pubs rounds (str_to_int m) (server_finished_label ++ ts) finished_msg_length) V4 Z4 O4 (or_intror eq_refl)
     (ascii_bytes_byte _) Htc)
    as (p5 & h5 & r5 & E5 & O5 & MZ5 & MP5).
  { rewrite RD4, (civ_mode rounds _ _ MD4). exact MZ4. }
  { rewrite RD4. exact MP4. }
  destruct (zk_call s4 _ _ _ _ _ _ V4 Z4 (ascii_bytes_byte _) Htc E5) as (px & hx & SX & V5 & Z5 & L5 & M5).
  injection SX as <- <-. rewrite RD4 in MZ5, MP5. rewrite (civ_mode rounds (str_to_int m) _ MD4) in MZ5.
  assert (MT5 : matched (set_prf s4 p5 h5)) by (split; [exact (zmt_hm _ _ _ MZ5)|exact (pmt_pm _ _ _ MP5)]).
  assert (X5 : r5 = str_to_int (client_verify_data m tc)).
  { apply rev_str. rewrite (M5 MT5). unfold client_verify_data, verify_data. rewrite prf_bytes_bits, str_to_int_bits. reflexivity. }
  set (s5 := set_prf s4 p5 h5) in *. clear M5.
  destruct (check_bytes_ok s5 (client_verify_data m tc) (prf_bytes_byte _ _ _ _)) as (s6 & E6 & S6).
  (* server finished *)
  assert (RD6 : hs_rounds s6 = rounds) by (rewrite S6; exact RD).
  assert (MD6 : hs_mode s6 = (if rounds then UseRounds else UseOpt)) by (unfold hs_mode; now rewrite RD6).
  assert (HM6 : hs_hmac s6 = h5) by (rewrite S6; reflexivity).
  assert (PF6 : hs_prf s6 = p5) by (rewrite S6; reflexivity).
  assert (Z6 : zst s6) by (rewrite S6; exact Z5).
  assert (V6 : zinv (str_to_int m) (hs_hmac s6)) by (rewrite HM6; exact V5).
  destruct (zk_call_ex s6 (str_to_int m) (hs_mode s6) finished_msg_length server_finished_label ts
     (call_ivs rounds (str_to_int k) Fresh ++ call_ivs rounds (str_to_int m) Fresh) []
     ((call_pubs rounds (str_to_int k) (ms_label sh ++ ms_seed rc rs sh) 48 ++
      call_pubs rounds (str_to_int m) (key_expansion_label ++ (rs ++ rc)) expansion_key_length) ++
      call_pubs rounds (str_to_int m) (client_finished_label ++ tc) finished_msg_length) [] V6 Z6)
    as (p7 & h7 & r7 & E7 & O7 & MZ7 & MP7).
  { rewrite HM6, O5, MD4, MD6. reflexivity. }
  { right. reflexivity. }
  { apply ascii_bytes_byte. }
  { exact Hts. }
  { rewrite RD6, HM6, (civ_mode rounds _ _ MD6). rewrite app_nil_r in MZ5. exact MZ5. }
  { rewrite RD6, PF6, app_nil_r. exact MP5. }
  destruct (zk_call s6 _ _ _ _ _ _ V6 Z6 (ascii_bytes_byte _) Hts E7) as (px & hx & SX & V7 & Z7 & L7 & M7).
  injection SX as <- <-. rewrite RD6 in MZ7, MP7. rewrite (civ_mode rounds (str_to_int m) _ MD6) in MZ7.
  assert (MT7 : matched (set_prf s6 p7 h7)) by (split; [exact (zmt_hm _ _ _ MZ7)|exact (pmt_pm _ _ _ MP7)]).
  assert (X7 : r7 = str_to_int (server_verify_data m ts)).
  { apply rev_str. rewrite (M7 MT7). unfold server_verify_data, verify_data. rewrite prf_bytes_bits, str_to_int_bits. reflexivity. }
  set (s7 := set_prf s6 p7 h7) in *. clear M7.
  destruct (check_bytes_ok s7 (server_verify_data m ts) (prf_bytes_byte _ _ _ _)) as (s8 & E8 & S8).
  destruct MZ7 as [Y1 Y2]. destruct MP7 as [Y3 Y4]. rewrite ?app_nil_r in Y1. rewrite ?app_nil_r in Y1. rewrite ?app_nil_r in Y2. rewrite app_nil_r in Y3.
  destruct (prf_check_ok p7 _ Y3 Y4) as (c1 & C1 & H1 & _).
  destruct (sha_check_ok (sha h7) _ Y1 Y2) as (c2 & C2 & H2 & _).
  assert (E9 : handshake_check s8 = Ok (add_check s8 (word_checks c1 ++ word_checks c2))).
  { unfold handshake_check. rewrite S8. cbn [add_check hs_prf hs_hmac]. change (hs_prf s7) with p7. change (hs_hmac s7) with h7.
    rewrite C1. cbn [bind]. rewrite C2. reflexivity. }
  exists s, (add_check s8 (word_checks c1 ++ word_checks c2)).
  exists (str_to_int m), (str_to_int (tls_client_key (key_block m rc rs)), str_to_int (tls_server_key (key_block m rc rs)),
    str_to_int (tls_client_iv (key_block m rc rs)), str_to_int (tls_server_iv (key_block m rc rs))).
  split; [exact ES|]. split; [|split].
  - unfold prove_handshake. rewrite EM. cbn [bind]. unfold prove_expansion_keys. rewrite E3. cbn [bind].
    fold s3. rewrite E4. cbn [bind]. rewrite X4, split_keys_ok by apply prf_bytes_length. cbn [bind].
    unfold prove_client_finished_msg. fold s4. rewrite E5. cbn [bind]. change (hs_cufin s5) with (hs_cufin s).
    rewrite Q7. cbn [read bind]. rewrite X5. fold s5. rewrite E6. cbn [bind].
    unfold prove_server_finished_msg. rewrite E7. cbn [bind]. fold s7.
    replace (hs_sufin s7) with (hs_sufin s) by (unfold s7; rewrite S6; reflexivity).
    rewrite Q8. cbn [read bind]. rewrite X7, E8. cbn [bind]. rewrite E9. cbn [bind]. reflexivity.
  - unfold checks_hold. cbn [add_check hs_zk]. rewrite S8. cbn [add_check hs_zk].
    unfold s7. cbn [set_prf hs_zk]. rewrite S6. cbn [add_check hs_zk].
    change (hs_zk s5) with (hs_zk s). rewrite Q6. cbn [app].
    constructor; [reflexivity|]. constructor; [reflexivity|]. apply Forall_app. split; now apply words_hold.
  - split; [now rewrite F1|]. now rewrite F2, F3, F4, F5.
Qed.

(** * Repeating the proof (C59) *)
Lemma prove_handshake_first s pms rc rs tc ts s' ms ks :
  prove_handshake s pms rc rs tc ts None = Ok (s', ms, ks) ->
  exists s1, prove_master_key s [] pms rc rs = Ok (s1, ms).
Proof.
  unfold prove_handshake. destruct (prove_master_key s [] pms rc rs) as [[s1 m1]| |]; try discriminate.
  cbn [bind]. destruct (prove_expansion_keys s1 m1 rc rs) as [[s2 k2]| |]; try discriminate. cbn [bind].
  destruct (prove_client_finished_msg s2 _ tc) as [s3| |]; try discriminate. cbn [bind].
  destruct (prove_server_finished_msg s3 _ ts) as [s4| |]; try discriminate. cbn [bind].
  destruct (handshake_check s4) as [s5| |]; try discriminate. cbn [bind].
  intro E. exists s1. injection E as _ <- _. reflexivity.
Qed.

Lemma hs_call_frame s r n label seed zk s' r' : hs_prf_call s r n label seed zk = Ok (s', r') ->
  exists p h, s' = set_prf s p h.
Proof.
  unfold hs_prf_call. destruct (negb (hs_rounds s)).
  - destruct (prf_opt_compute _ _ _ _ _ _ _ _ _) as [[x y]| |]; try discriminate. cbn [bind]. intros [= <- _]. eauto.
  - destruct (prf_opt_rounds_compute _ _ _ _ _ _ _) as [[x y]| |]; try discriminate. cbn [bind]. intros [= <- _]. eauto.
Qed.

Lemma zk_pms_dec s pms : (0 < hs_q s)%Z -> (0 <= hs_bnb s < hs_q s)%Z ->
  BN_mod_sub pms (hs_bna s) (hs_q s) <> hs_bnb s -> zk_pms_addmod s pms = Err.
Proof.
  intros Hq Hb N. unfold zk_pms_addmod. cbn [set_bn hs_q hs_bna hs_bnb hs_zk_pms].
  assert (R := mod_sub_range pms (hs_bna s) (hs_q s) Hq).
  rewrite !pms_int_ok by assumption. cbn [bind]. unfold zk_public.
  destruct (list_eq_dec bool_dec _ _) as [E|E]; [|reflexivity].
  apply str_inj_N in E; try (apply lt_num_bytes; assumption). exfalso. apply N. lia.
Qed.

Theorem prove_twice q rounds pa pb rc rs tc ts : (0 <= pa < q)%Z -> (0 <= pb < q)%Z -> pa <> pb ->
  Forall byte8 rc -> Forall byte8 rs -> Forall byte8 tc -> Forall byte8 ts ->
  exists s s1 ms, session q rounds pa pb rc rs None (fins tc ts) = Ok s /\
    prove_master_key s [] ((pa + pb) mod q) rc rs = Ok (s1, ms) /\ ms = hs_ms s /\
    prove_master_key s1 [] ((pa + pb) mod q) rc rs = Err.
Proof.
  intros Ha Hb D Hc Hs Htc Hts.
  destruct (prove_handshake_complete q rounds pa pb rc rs None tc ts Ha Hb Hc Hs I Htc Hts)
    as (s & s' & ms & ks & ES & EP & _ & M & _).
  destruct (session_rec q rounds pa pb rc rs None tc ts Ha Hb Hc Hs I Htc Hts)
    as (s_ & ES_ & Q1 & Q2 & Q3 & Q4 & Q5 & _).
  rewrite ES in ES_. injection ES_ as <-.
  destruct (prove_handshake_first _ _ _ _ _ _ _ _ _ EP) as (s1 & E1).
  exists s, s1, ms. split; [exact ES|]. split; [exact E1|]. split; [exact M|].
  unfold prove_master_key in E1.
  destruct (zk_pms_addmod s ((pa + pb) mod q)) as [[s0 k0]| |] eqn:E0; try discriminate. cbn [bind] in E1.
  destruct (zk_pms_iff s ((pa + pb) mod q) pa) as [I _]; rewrite ?Q1, ?Q3, ?Q4 in *; try assumption.
  destruct (I _ _ E0) as (-> & _ & _). 
  destruct (prf_init _ k0) as [h1| |]; try discriminate. cbn [bind] in E1.
  destruct (hs_call_frame _ _ _ _ _ _ _ _ E1) as (p & h & ->).
  unfold prove_master_key. rewrite zk_pms_dec; [reflexivity| | |]; cbn [set_prf set_bn hs_q hs_bna hs_bnb]; rewrite ?Q1; try lia.
  rewrite Z.add_comm, reshare by assumption. exact D.
Qed.
