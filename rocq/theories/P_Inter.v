(** Sessions in which circuits and records take turns on the channel: the part that is the same for all
    backends. *)
From Coq Require Import List NArith ZArith Bool Arith Lia.
From Verif Require Import L_Bits L_Res L_Xor S_Sched S_Lower S_Codec S_Aes S_Gcm S_Tls.
From Verif Require S_Netlist S_Circuit P_AesNet.
From Verif Require Import M_EmpInteger M_Utils M_Bristol M_Bn M_Sym M_SymOn M_SymSess M_Block M_Ole2k M_Shares M_Commit M_Garble M_Handshake.
From Verif Require Import M_Aead M_Exch M_View M_LabRec M_Inter.
From Verif Require Import D_AesKs D_AesEnc P_Gf128 P_Utils P_Shares P_Gcm P_Aead P_AeadInst P_Sched P_Exch P_ExchAead P_ExchSess.
From Verif Require Import P_Sha256Opt P_Handshake P_Session2 P_SymGcm P_LabRec P_LabSess.
Import ListNotations.
Local Open Scope N_scope.
Local Opaque aes_ks_file aes_enc_file aesE EK str_to_int gcm_ctext mulBlock invBlock bytes_of_block block_of_bytes.

Lemma bxor_mask (a b : list bool) : length a = length b -> exists m, length m = length a /\ b = bxor a m.
Proof.
  intro L. exists (bxor a b). split; [unfold bxor; rewrite P_Garble.map2_length2; auto|].
  revert b L. induction a as [|x a IH]; intros [|y b] L; try discriminate; [reflexivity|]. unfold bxor in *. cbn [map2]. f_equal; [|apply IH; cbn in L; lia].
  destruct x, y; reflexivity.
Qed.
Lemma itb_ok l : length l = 128%nat -> exists n, integer_to_block l = Ok n.
Proof. intro L. destruct (itb_share l l L L) as (a & b & E & _). eauto. Qed.
Lemma itc_ok l n : length l = (8 * n)%nat -> exists v, integer_to_chars l = Ok v.
Proof. intro L. destruct (itc_share l l n L L) as (a & b & E & _). eauto. Qed.

Section K.
Variable gfr : N -> N -> N.
Hypothesis GFR : gfr_ok gfr.
Variable hash : list N -> list N.
Hypothesis HL : forall l, length (hash l) = DIGEST_SIZE.

(** the flags do not depend on what the labels are, only on how many there are *)
Definition after_l {X} (r : res (party * X)) (d : flags) : Prop :=
  d = (false, false) /\ exists p x, r = Ok (p, x) /\ p_mul_hs p <> [].
Lemma wp_lop_any alice p i w ro d : length (w_z0 w) = 128%nat -> length (w_z w) = (8 * in_len i)%nat -> p_mul_hs p <> [] -> snd d = false ->
  wp (l_op gfr hash alice p i w ro) d after_l.
Proof.
  intros L0 Lz NN D.
  assert (K : forall X (f : X -> pout) (c : proc (res (party * X))), wp c d after_l ->
    wp (rbind c (fun '(p, o) => Ret (Ok (p, f o)))) d after_l).
  { intros X f c H. apply wp_rbind. eapply wp_mono; [|exact H]. intros x d' [D' (p1 & y & -> & N1)]. cbn [wp].
    split; [exact D'|]. do 2 eexists. split; [reflexivity|exact N1]. }
  destruct (itb_ok _ L0) as [z0 E0].
  destruct i as [ma mb aad iv sec|c t aad iv sec ra rb]; cbn [l_op in_len] in *; apply K; clear K.
  - unfold l_encrypt, local. rewrite E0. apply wp_rbind. cbn [wp]. apply wp_rbind.
    assert (TAIL : forall p1 c d, p_mul_hs p1 <> [] -> snd d = false ->
      wp (rbind (p_ghash gfr alice p1 (tag_blocks aad c) ro) (fun '(p, out) =>
            let out := N.lxor out z0 in
            let (mine, theirs) := if alice then (IO_OPT, IO) else (IO, IO_OPT) in
            Send mine (bytes_of_block out) (Flush mine (
            Recv theirs 16 (fun o =>
            Ret (Ok (p, (c, rev (bytes_of_block (N.lxor out (block_of_bytes o)))))))))))
        d after_l).
    { intros p1 c d1 N1 D1. apply wp_rbind, wp_ghash; [exact N1|exact D1|]. intros p2 o d2 N2 D2. cbv zeta.
      destruct d2 as [d2 d3]. cbn in D2. subst d3.
      destruct alice; cbn [wp fset fget other fst snd]; (split; [reflexivity|]); intros bs _;
        (split; [reflexivity|]); do 2 eexists; (split; [reflexivity|exact N2]). }
    destruct sec; cbn [negb].
    + destruct (itc_ok _ _ Lz) as [z EZ]. rewrite EZ. apply wp_rbind. cbn [wp].
      destruct d as [d0 d1]. cbn in D. subst d1.
      destruct alice; cbn [wp fset fget other fst snd]; (split; [reflexivity|]); intros bs _; apply TAIL; try exact NN; reflexivity.
    + cbn [wp]. apply TAIL; [exact NN|exact D].
  - unfold l_decrypt, local. rewrite E0. apply wp_rbind. cbn [wp]. apply wp_rbind.
    assert (TAIL : forall p1 (msg : option (list N)) rnd d, p_mul_hs p1 <> [] -> snd d = false ->
      wp (rbind (p_ghash gfr alice p1 (tag_blocks aad c) ro) (fun '(p, out) =>
            let out := N.lxor out z0 in
            let (mine, theirs) := if alice then (IO, IO_OPT) else (IO_OPT, IO) in
            Send mine (dec_msg1 hash out rnd) (Flush mine (
            Recv theirs DIGEST_SIZE (fun com =>
            Send mine (bytes_of_block out) (Send mine rnd (Flush mine (
            Recv theirs 16 (fun o => Recv theirs rand_length (fun rn =>
            Ret (Ok (p, (msg, dec_verdict hash t out com (block_of_bytes o, rn)))))))))))))) d after_l).
    { intros p1 msg rnd d1 N1 D1. apply wp_rbind, wp_ghash; [exact N1|exact D1|]. intros p2 o d2 N2 D2. cbv zeta.
      destruct d2 as [d2 d3]. cbn in D2. subst d3.
      destruct alice; cbn [wp fset fget other fst snd].
      all: split; [reflexivity|]; intros c1 _; split; [reflexivity|]; intros c2 _; split; [reflexivity|]; intros c3 _;
        split; [reflexivity|]; do 2 eexists; (split; [reflexivity|exact N2]). }
    destruct sec; cbn [negb].
    + destruct (itc_ok _ _ Lz) as [z EZ]. rewrite EZ. apply wp_rbind. cbn [wp].
      destruct d as [d0 d1]. cbn in D. subst d1.
      destruct alice; cbn [wp fset fget other fst snd].
      * split; [reflexivity|]. intros bs _. apply TAIL; [exact NN|reflexivity].
      * apply TAIL; [exact NN|reflexivity].
    + cbn [wp]. apply TAIL; [exact NN|exact D].
Qed.
Lemma wp_lnew_any alice h r ro d : length h = 128%nat -> snd d = false ->
  wp (l_new gfr alice h r ro) d (fun r d => snd d = false /\ exists p, r = Ok p /\ p_mul_hs p <> []).
Proof.
  intros L D. unfold l_new, local. destruct (itb_ok _ L) as [b E]. rewrite E, rbind_ok. cbv beta iota zeta.
  destruct alice; apply wp_bind.
  - apply wp_bind, wp_send_blocks. intros d' E'. cbn in E'. cbn [wp fset fst snd].
    split; [congruence|]. eexists. split; [reflexivity|discriminate].
  - apply wp_bind, wp_recv_rows; [exact D|]. intros l d' _ E'. cbn [wp]. split; [exact E'|]. intros bs _.
    split; [destruct d'; exact E'|]. eexists. split; [reflexivity|discriminate].
Qed.

(** * Any backend *)
Section B.
Variables (J SA SB : Type).
Variable st : list S_Circuit.instr -> J -> Prop.    (* the joint state after a prefix of the circuit *)
Variables (fA : J -> SA) (fB : J -> SB).
Variables (runA : SA -> list S_Circuit.instr -> proc (res SA)) (runB : SB -> list S_Circuit.instr -> proc (res SB)).
Variables (labA : SA -> list N) (labB : SB -> list N) (sawA : SA -> list (list bool)) (sawB : SB -> list (list bool)).
Hypothesis RC : forall p seg j j', st p j -> st (p ++ seg) j' -> conv (runA (fA j) seg) (runB (fB j) seg) (Ok (fA j')) (Ok (fB j')).
Definition after_run {S} (I : S -> Prop) (r : res S) (d : flags) : Prop :=
  snd d = false /\ match r with Ok g => I g | Err => fst d = false | UB => False end.

Variables kc ksv fc fs : list N.
Hypothesis KC : key_ok kc.
Hypothesis KS : key_ok ksv.
Hypothesis IC : iv_ok fc.
Hypothesis IS : iv_ok fs.
(** the objects made so far; the flags say which *)
Definition objs_ok (objs : list aead) (k : nat) : Prop :=
  match k, objs with
  | O, [] => True
  | 1%nat, [c] => exists h, aead_inv (EK kc) (aesE kc) fc h c
  | 2%nat, [c; s] => (exists h, aead_inv (EK kc) (aesE kc) fc h c) /\ (exists h, aead_inv (EK ksv) (aesE ksv) fs h s)
  | _, _ => False
  end.
(** the items from joint state j after the circuit p, with k objects made; the calls among them are l *)
Inductive good : list S_Circuit.instr -> J -> nat -> list item -> list lcall -> J -> Prop :=
| good_nil p j k : st p j -> good p j k [] [] j
| good_plain p j k seg c t l j1 j2 : t <> [] -> st p j -> st (p ++ seg) j1 -> good (p ++ seg) j1 k t l j2 ->
    good p j k ({| it_seg := seg; it_call := CPlain c; it_ws := [] |} :: t) l j2
| good_new p j k seg srv r ro h t l j1 j2 : t <> [] -> st p j -> st (p ++ seg) j1 -> good (p ++ seg) j1 (S k) t l j2 ->
    (k < 2)%nat -> length h = 128%nat ->
    low_bits (labB (fB j1)) h = bxor (low_bits (labA (fA j1)) h) (bits_of_N 128 (aesE (if (k =? 0)%nat then kc else ksv) 0)) ->
    r < 2 ^ 128 -> r <> 0 -> ole_rand_ok ro 1 -> ole_blk ro ->
    good p j k ({| it_seg := seg; it_call := CAead srv r ro; it_ws := [h] |} :: t) l j2
| good_rec p j seg o z0 z t l j1 j2 : st p j -> st (p ++ seg) j1 -> good (p ++ seg) j1 2 t l j2 ->
    length z0 = 128%nat -> length z = (8 * in_len (lc_in o))%nat -> lcall_wf o ->
    fits kc ksv fc fs o
      {| w_z0 := low_bits (labA (fA j1)) z0; w_z := low_bits (labA (fA j1)) z; w_open := if in_sec (lc_in o) then [] else last (sawA (fA j1)) [] |}
      {| w_z0 := low_bits (labB (fB j1)) z0; w_z := low_bits (labB (fB j1)) z; w_open := if in_sec (lc_in o) then [] else last (sawB (fB j1)) [] |} ->
    good p j 2 ({| it_seg := seg; it_call := CRec o; it_ws := [z0; z] |} :: t) (o :: l) j2.

Notation irunA := (i_run gfr hash SA runA labA sawA true).
Notation irunB := (i_run gfr hash SB runB labB sawB false).
Notation outA l := (map (fun o => out_alice (lspec kc ksv fc fs o)) l).
Notation outB l := (map (fun o => out_bob (lspec kc ksv fc fs o)) l).
Lemma conv_irun p j k its l j2 : good p j k its l j2 -> forall objs, objs_ok objs k ->
  conv (irunA (fA j) (map st_a objs) its) (irunB (fB j) (map st_b objs) its) (Ok (fA j2, outA l)) (Ok (fB j2, outB l)).
Proof.
  intro G. induction G as [p j k S0|p j k seg c t l j1 j2 NE S0 S1 G IH|p j k seg srv r ro h t l j1 j2 NE S0 S1 G IH K2 L V R1 R2 R3 R4|p j seg o z0 z t l j1 j2 S0 S1 G IH L0 Lz W F];
    intros objs O; cbn [i_run it_seg it_call it_ws map].
  - apply conv_ret.
  - eapply conv_rbind; [exact (RC _ _ _ _ S0 S1)|]. apply IH, O.
  - eapply conv_rbind; [exact (RC _ _ _ _ S0 S1)|]. cbv beta iota. rewrite V.
    assert (LA : length (low_bits (labA (fA j1)) h) = 128%nat) by (unfold low_bits; now rewrite map_length).
    destruct k as [|[|k]]; [| |lia]; cbn [Nat.eqb].
    + destruct objs; [|contradiction].
      destruct (conv_lnew gfr GFR kc fc (low_bits (labA (fA j1)) h) r ro KC IC LA R1 R2 R3 R4) as (s & I & C).
      eapply conv_rbind; [exact C|]. cbn [map app]. apply (IH [s]). cbn. eauto.
    + destruct objs as [|c [|? ?]]; try contradiction.
      destruct (conv_lnew gfr GFR ksv fs (low_bits (labA (fA j1)) h) r ro KS IS LA R1 R2 R3 R4) as (s & I & C).
      eapply conv_rbind; [exact C|]. cbn [map app]. apply (IH [c; s]). cbn. eauto.
  - eapply conv_rbind; [exact (RC _ _ _ _ S0 S1)|]. cbv beta iota.
    destruct objs as [|c [|s [|? ?]]]; try contradiction. destruct O as [[hc Oc] [hs Os]]. cbn [map].
    destruct (lc_srv o) eqn:E; cbn [nth_error firstn skipn app].
    + assert (A0 : aead_inv (EK (okey kc ksv o)) (aesE (okey kc ksv o)) (ofiv fc fs o) hs s) by (unfold okey, ofiv; rewrite E; exact Os).
      destruct (conv_lop gfr GFR hash HL kc ksv fc fs KC KS IC IS _ _ o _ _ A0 W F) as (s' & I' & C). unfold okey, ofiv in I'. rewrite E in I'.
      eapply conv_rbind; [exact C|]. cbv beta iota. eapply conv_rbind; [apply (IH [c; s']); cbn; eauto|]. apply conv_ret.
    + assert (A0 : aead_inv (EK (okey kc ksv o)) (aesE (okey kc ksv o)) (ofiv fc fs o) hc c) by (unfold okey, ofiv; rewrite E; exact Oc).
      destruct (conv_lop gfr GFR hash HL kc ksv fc fs KC KS IC IS _ _ o _ _ A0 W F) as (s' & I' & C). unfold okey, ofiv in I'. rewrite E in I'.
      eapply conv_rbind; [exact C|]. cbv beta iota. eapply conv_rbind; [apply (IH [s'; s]); cbn; eauto|]. apply conv_ret.
Qed.
(** the flags and the outcome, of either party *)
Definition ends_ok {A} (r : res A) (d : flags) : Prop := clean r d /\ r <> UB.
Lemma wp_irun_ok {S} (runX : S -> list S_Circuit.instr -> proc (res S)) labX sawX alice (IX : J -> S -> Prop)
  (WX : forall p seg j j' g d, st p j -> st (p ++ seg) j' -> IX j g -> snd d = false -> wp (runX g seg) d (after_run (IX j'))) :
  forall p j k its l j2, good p j k its l j2 -> forall g objs d, length objs = k -> Forall (fun p => p_mul_hs p <> []) objs -> IX j g -> snd d = false ->
  (its = [] -> d = (false, false)) ->
  wp (i_run gfr hash S runX labX sawX alice g objs its) d ends_ok.
Proof.
  intros p j k its l j2 G. induction G as [p j k S0|p j k seg c t l j1 j2 NE S0 S1 G IH|p j k seg srv r ro h t l j1 j2 NE S0 S1 G IH K2 L V R1 R2 R3 R4|p j seg o z0 z t l j1 j2 S0 S1 G IH L0 Lz W F];
    intros g objs d LO FO Ig D Z; cbn [i_run it_seg it_call it_ws].
  - split; [exact (Z eq_refl)|discriminate].
  - apply wp_rbind. eapply wp_mono; [|apply (WX _ _ _ _ _ _ S0 S1 Ig D)]. intros [g1| |] [d1 d2] [D1 H]; cbn [snd fst] in *; subst; [|split; [reflexivity|discriminate]|contradiction].
    apply IH; try assumption; try reflexivity. intro N. contradiction.
  - apply wp_rbind. eapply wp_mono; [|apply (WX _ _ _ _ _ _ S0 S1 Ig D)]. intros [g1| |] [d1 d2] [D1 H]; cbn [snd fst] in *; subst; [|split; [reflexivity|discriminate]|contradiction].
    apply wp_rbind. eapply wp_mono; [|apply wp_lnew_any; [unfold low_bits; now rewrite map_length|reflexivity]].
    intros r0 d3 (D3 & p0 & -> & N0). apply IH; try assumption.
    + rewrite app_length. cbn. lia.
    + apply Forall_app. auto.
    + intro N. contradiction.
  - apply wp_rbind. eapply wp_mono; [|apply (WX _ _ _ _ _ _ S0 S1 Ig D)]. intros [g1| |] [d1 d2] [D1 H]; cbn [snd fst] in *; subst; [|split; [reflexivity|discriminate]|contradiction].
    destruct objs as [|c [|s [|? ?]]]; try discriminate. apply Forall_cons_iff in FO as [FC FO]. apply Forall_cons_iff in FO as [FS _].
    assert (X : forall (a : bool), exists q q1 q2, nth_error [c; s] (if a then 1 else 0)%nat = Some q /\ p_mul_hs q <> [] /\
      forall p : party, firstn (if a then 1 else 0)%nat [c; s] ++ [p] ++ skipn (if a then 2 else 1)%nat [c; s] = q1 ++ [p] ++ q2 /\ length (q1 ++ [p] ++ q2) = 2%nat /\
        (p_mul_hs p <> [] -> Forall (fun p => p_mul_hs p <> []) (q1 ++ [p] ++ q2))).
    { intros [|]; [exists s, [c], []|exists c, [], [s]]; (split; [reflexivity|]); (split; [assumption|]); intro p0; cbn; repeat split; intros; repeat constructor; assumption. }
    destruct (X (lc_srv o)) as (q & q1 & q2 & Eq & Nq & Xq). rewrite Eq. cbv zeta.
    apply wp_rbind. eapply wp_mono; [|apply wp_lop_any; [cbn [w_z0]; unfold low_bits; now rewrite map_length|cbn [w_z]; unfold low_bits; now rewrite map_length|exact Nq|reflexivity]].
    intros r0 d3 (-> & p1 & x & -> & N1). cbv beta iota. destruct (Xq p1) as (E1 & E2 & E3).
    replace (Datatypes.S (if lc_srv o then 1 else 0)%nat) with (if lc_srv o then 2 else 1)%nat by (destruct (lc_srv o); reflexivity).
    rewrite E1. apply wp_rbind. eapply wp_mono; [|apply IH; try assumption; try reflexivity; auto].
    intros [[g2 xs]| |] d2 [C2 U2]; (split; [exact C2|discriminate || exact U2]).
Qed.
(** from the start, with the two constants first *)
Notation consts := [S_Circuit.IPub false; S_Circuit.IPub true].
Lemma conv_istart j0 j1 its l j2 : st [] j0 -> st consts j1 -> good consts j1 0 its l j2 ->
  conv (i_start gfr hash SA runA labA sawA true (fA j0) its) (i_start gfr hash SB runB labB sawB false (fB j0) its) (Ok (fA j2, outA l)) (Ok (fB j2, outB l)).
Proof. intros S0 S1 G. eapply conv_rbind; [exact (RC [] consts j0 j1 S0 S1)|]. exact (conv_irun _ _ _ _ _ _ G [] I). Qed.
Lemma wp_istart_ok {S} (runX : S -> list S_Circuit.instr -> proc (res S)) labX sawX alice (IX : J -> S -> Prop)
  (WX : forall p seg j j' g d, st p j -> st (p ++ seg) j' -> IX j g -> snd d = false -> wp (runX g seg) d (after_run (IX j'))) j0 j1 its l j2 g d :
  st [] j0 -> st consts j1 -> good consts j1 0 its l j2 -> its <> [] -> IX j0 g -> snd d = false ->
  wp (i_start gfr hash S runX labX sawX alice g its) d ends_ok.
Proof.
  intros S0 S1 G NE I0 D. apply wp_rbind. eapply wp_mono; [|apply (WX [] consts j0 j1 g d S0 S1 I0 D)].
  intros [g1| |] [d1 d2] [D1 H]; cbn [snd fst] in *; subst; [|split; [reflexivity|discriminate]|contradiction].
  eapply wp_irun_ok; try eassumption; try reflexivity; try constructor. intro N. contradiction.
Qed.
Lemma wp_istart {S} (runX : S -> list S_Circuit.instr -> proc (res S)) labX sawX alice (IX : J -> S -> Prop)
  (WX : forall p seg j j' g d, st p j -> st (p ++ seg) j' -> IX j g -> snd d = false -> wp (runX g seg) d (after_run (IX j'))) j0 j1 its l j2 g d :
  st [] j0 -> st consts j1 -> good consts j1 0 its l j2 -> its <> [] -> IX j0 g -> snd d = false ->
  wp (i_start gfr hash S runX labX sawX alice g its) d clean.
Proof. intros S0 S1 G NE I0 D. eapply wp_mono; [|eapply (wp_istart_ok runX labX sawX alice IX WX); eassumption]. intros r d' [H _]. exact H. Qed.
End B.
End K.
