(** What a BOB that changes its share of the key stream achieves, and what no BOB can change. *)
From Coq Require Import List NArith ZArith Bool Arith Lia.
From Verif Require Import L_Bits L_Res L_Xor S_Sched S_Lower S_Codec S_Aes S_Gcm S_Tls S_Open.
From Verif Require S_Netlist S_Circuit P_AesNet.
From Verif Require Import M_EmpInteger M_Utils M_Bristol M_Bn M_Sym M_SymOn M_SymOff M_SymSess M_Block M_Ole2k M_Shares M_Commit M_Garble M_Handshake.
From Verif Require Import M_Aead M_Exch M_View M_LabRec M_Dev.
From Verif Require Import D_AesKs D_AesEnc P_Gf128 P_Utils P_Shares P_Gcm P_Aead P_AeadInst P_Sched P_Exch P_ExchAead P_ExchSess.
From Verif Require Import P_Sha256Opt P_Handshake P_Session2 P_Sym P_SymTls P_SymGcm P_Labels P_Open2 P_Open3 P_LabRec P_LabSess.
Import ListNotations.
Local Open Scope N_scope.
Local Opaque aes_ks_file aes_enc_file aesE EK str_to_int gcm_ctext gcm_tag key_block ms_spec tls_opened mulBlock invBlock bytes_of_block block_of_bytes.

(** * Exclusive-or of byte strings *)
Lemma xor_arr_length a b : length b = length a -> length (xor_arr a b) = length a.
Proof. unfold xor_arr. revert b. induction a as [|x a IH]; intros [|y b] L; try discriminate; [reflexivity|]. cbn [map2 length] in *. f_equal. apply IH. lia. Qed.
Lemma xor_arr_self x d : (length x <= length d)%nat -> xor_arr x (xor_arr d d) = x.
Proof.
  unfold xor_arr. revert d. induction x as [|a x IH]; intros [|b d] L; cbn [length] in L; try lia; try reflexivity.
  cbn [map2]. rewrite N.lxor_nilpotent, N.lxor_0_r. f_equal. apply IH. lia.
Qed.
Lemma xor_arr_le a b : (length (xor_arr a b) <= length b)%nat.
Proof. unfold xor_arr. revert b. induction a as [|x a IH]; intros [|y b]; cbn [map2 length]; try lia. specialize (IH b). lia. Qed.
Lemma itc_shift w d k : length w = (8 * k)%nat -> length d = k -> bytes_ok d ->
  exists z, integer_to_chars w = Ok z /\ integer_to_chars (bxor w (str_to_int d)) = Ok (xor_arr z d) /\ length z = k.
Proof.
  intros L Ld Bd. assert (Ls : length (str_to_int d) = (8 * k)%nat) by (rewrite P_AesNet.str_to_int_length; congruence).
  exists (bytes_be w). rewrite (integer_to_chars_ok w k) by exact L.
  rewrite (integer_to_chars_ok _ k) by (rewrite bxor_length; congruence).
  split; [reflexivity|]. split; [|now apply bytes_be_length].
  rewrite (bytes_be_bxor _ _ k) by assumption. now rewrite bytes_be_str.
Qed.

(** * A call with the share of ALICE and the message changed together *)
Definition shift_in (d : list N) (i : ain) : ain :=
  match i with InEnc ma mb aad iv true => InEnc (xor_arr ma d) mb aad iv true | _ => i end.
Definition shift_call (d : list N) (o : lcall) : lcall := {| lc_srv := lc_srv o; lc_in := shift_in d (lc_in o); lc_ole := lc_ole o |}.
(** the result of the changed call and that of the call *)
Definition unshift (d : list N) (i : ain) (x : pout) : pout :=
  match x with PDec (Some m, v) => if in_sec i then PDec (Some (xor_arr m d), v) else x | _ => x end.
(** states that differ at most in the stored shares of Z *)
Definition likez (p q : party) : Prop :=
  p_gc_h p = p_gc_h q /\ p_mul_hs p = p_mul_hs q /\ p_gc_z0 p = p_gc_z0 q /\ p_open_z p = p_open_z q.
Definition shifts (o : lcall) (d : list N) : Prop := length d = in_len (lc_in o) /\ bytes_ok d.

Section G.
Variable gfr : N -> N -> N.
Variable hash : list N -> list N.
Lemma ghash_like alice p q ins ro : likez p q ->
  peq (rl (fun a b => likez (fst a) (fst b) /\ snd a = snd b)) (p_ghash gfr alice p ins ro) (p_ghash gfr alice q ins ro).
Proof.
  intros (E1 & E2 & E3 & E4). unfold p_ghash. rewrite <- E2. destruct (p_mul_hs p) eqn:Em; [constructor; exact I|].
  eapply peq_bind; [apply peq_refl|]. intros o ? <-. constructor. cbn [rl fst snd]. split; [|reflexivity].
  unfold likez. cbn. auto.
Qed.
Lemma op_shift p q o w d : likez p q -> shifts o d -> length (w_z w) = (8 * in_len (lc_in o))%nat ->
  peq (rl (fun a b => likez (fst a) (fst b) /\ snd b = unshift d (lc_in o) (snd a)))
    (l_op gfr hash true p (shift_in d (lc_in o)) (shift_own d w) (lc_ole o)) (l_op gfr hash true q (lc_in o) w (lc_ole o)).
Proof.
  intros L [Ld Bd] Lw. destruct (itc_shift (w_z w) d _ Lw Ld Bd) as (z & Ez & Ez' & Lz).
  destruct (lc_in o) as [ma mb aad iv sec|c t aad iv sec ra rb]; cbn [in_len] in *.
  - cbn [shift_in]. destruct sec.
    + cbn [l_op]. unfold l_encrypt, local. cbn [shift_own w_z0 w_z w_open negb]. rewrite Ez, Ez', xor_arr_length by exact Ld.
      eapply (peq_rbind (fun a b => likez (fst a) (fst b) /\ snd a = snd b)).
      2:{ intros [p1 x] [q1 y] [Hp Hx]. cbn [fst snd] in *. subst y. constructor. cbn [rl fst snd unshift]. auto. }
      destruct (integer_to_block _) as [z0| |]; [|constructor; exact I..]. repeat (rewrite !rbind_ok; cbv beta iota zeta).
      assert (EM : xor_arr (xor_arr ma d) (xor_arr z d) = xor_arr ma z).
      { rewrite (xor_arr_comm z d), xor_arr_assoc, <- (xor_arr_assoc d d), (xor_arr_comm (xor_arr d d)), xor_arr_self by lia. reflexivity. }
      rewrite EM. apply peq_send. apply peq_recv. intro bs. eapply (peq_rbind (fun a b => likez (fst a) (fst b) /\ snd a = snd b)).
      { apply ghash_like. destruct L as (L1 & L2 & L3 & L4). unfold likez. cbn. rewrite L3. auto. }
      intros [p1 x] [q1 y] [Hp Hx]. cbn [fst snd] in *. subst y. repeat constructor; try (cbn [fst]; apply Hp).
    + cbn [l_op]. unfold l_encrypt, local. cbn [shift_own w_z0 w_z w_open negb].
      eapply (peq_rbind (fun a b => likez (fst a) (fst b) /\ snd a = snd b)).
      2:{ intros [p1 x] [q1 y] [Hp Hx]. cbn [fst snd] in *. subst y. constructor. cbn [rl fst snd unshift]. auto. }
      destruct (integer_to_block _) as [z0| |]; [|constructor; exact I..]. repeat (rewrite !rbind_ok; cbv beta iota zeta).
      eapply (peq_rbind (fun a b => likez (fst a) (fst b) /\ snd a = snd b)).
      { apply ghash_like. destruct L as (L1 & L2 & L3 & L4). unfold likez. cbn. rewrite L3, L4. auto. }
      intros [p1 x] [q1 y] [Hp Hx]. cbn [fst snd] in *. subst y. repeat constructor; try (cbn [fst]; apply Hp).
  - cbn [shift_in]. destruct sec.
    + cbn [l_op]. unfold l_decrypt, local. cbn [shift_own w_z0 w_z w_open negb]. rewrite Ez, Ez'.
      eapply (peq_rbind (fun a b => likez (fst a) (fst b) /\ snd b = (match fst (snd a) with Some m => Some (xor_arr m d) | None => None end, snd (snd a)))).
      2:{ intros [p1 [x v]] [q1 y] [Hp Hx]. cbn [fst snd] in *. subst y. constructor. cbn [rl fst snd unshift in_sec]. split; [exact Hp|]. now destruct x. }
      destruct (integer_to_block _) as [z0| |]; [|constructor; exact I..]. repeat (rewrite !rbind_ok; cbv beta iota zeta).
      cbn [rbind pbind]. apply peq_recv. intro bs.
      assert (EM : xor_arr (xor_arr bs z) c = xor_arr (xor_arr (xor_arr bs (xor_arr z d)) c) d).
      { rewrite <- (xor_arr_assoc bs z d), (xor_arr_assoc (xor_arr bs z) d c), (xor_arr_comm d c), <- (xor_arr_assoc (xor_arr bs z) c d), (xor_arr_assoc _ d d), xor_arr_self; [reflexivity|].
        rewrite Ld. apply xor_arr_le. }
      eapply (peq_bind (rl (fun a b => likez (fst a) (fst b) /\ snd a = snd b))).
      { apply ghash_like. destruct L as (L1 & L2 & L3 & L4). unfold likez. cbn. rewrite L3. auto. }
      intros [[p1 x]| |] [[q1 y]| |] R; cbn [rl] in R; try contradiction; [|constructor; exact I..].
      destruct R as [Hp Hx]. cbn [fst snd] in *. subst y.
      repeat constructor; try (cbn [fst]; apply Hp). cbn [fst snd]. now rewrite EM.
    + cbn [l_op]. unfold l_decrypt, local. cbn [shift_own w_z0 w_z w_open negb].
      eapply (peq_rbind (fun a b => likez (fst a) (fst b) /\ snd b = snd a)).
      2:{ intros [p1 [x v]] [q1 y] [Hp Hx]. cbn [fst snd] in *. subst y. constructor. cbn [rl fst snd unshift in_sec]. split; [exact Hp|]. now destruct x. }
      destruct (integer_to_block _) as [z0| |]; [|constructor; exact I..]. repeat (rewrite !rbind_ok; cbv beta iota zeta).
      eapply (peq_rbind (fun a b => likez (fst a) (fst b) /\ snd a = snd b)).
      { apply ghash_like. destruct L as (L1 & L2 & L3 & L4). unfold likez. cbn. rewrite L3, L4. auto. }
      intros [p1 x] [q1 y] [Hp Hx]. cbn [fst snd] in *. subst y. repeat constructor; try (cbn [fst]; apply Hp).
Qed.
Lemma calls_shift : forall l ds wa c s c' s', Forall2 shifts l ds -> Forall2 (fun o w => length (w_z w) = (8 * in_len (lc_in o))%nat) l wa ->
  likez c' c -> likez s' s ->
  peq (rl (fun a b => b = map2 (fun od x => unshift (snd od) (lc_in (fst od)) x) (combine l ds) a))
    (l_calls gfr hash true c' s' (combine (map2 shift_call ds l) (shift_owns ds wa))) (l_calls gfr hash true c s (combine l wa)).
Proof.
  intros l ds wa c s c' s' F. revert wa c s c' s'. induction F as [|o d l ds Ho F IH]; intros wa c s c' s' Fw Lc Ls.
  - inversion Fw; subst. constructor. reflexivity.
  - inversion Fw as [|? w ? wa' Hw Fw']; subst. cbn [map2 shift_owns combine l_calls shift_call lc_srv lc_in lc_ole].
    eapply peq_rbind; [apply (op_shift _ (if lc_srv o then s else c)); [destruct (lc_srv o); assumption|exact Ho|exact Hw]|].
    intros [p x] [q y] [Hp Hx]. cbn [fst snd] in Hp, Hx. subst y.
    eapply peq_rbind; [apply IH; [exact Fw'|destruct (lc_srv o); assumption..]|].
    intros xs ys ->. constructor. reflexivity.
Qed.
(** for BOB the changed calls are the calls *)
Lemma calls_bob : forall l ds wb c s, Forall2 shifts l ds -> length wb = length l ->
  peq (rl eq) (l_calls gfr hash false c s (combine (map2 shift_call ds l) (shift_owns ds wb))) (l_calls gfr hash false c s (combine l (shift_owns ds wb))).
Proof.
  intros l ds wb c s F. revert wb c s. induction F as [|o d l ds Ho F IH]; intros [|b wb] c s L; try discriminate; [constructor; reflexivity|].
  cbn [length] in L. cbn [map2 shift_owns combine l_calls shift_call lc_srv lc_in lc_ole].
  assert (OP : forall p w, l_op gfr hash false p (shift_in d (lc_in o)) w (lc_ole o) = l_op gfr hash false p (lc_in o) w (lc_ole o)).
  { intros p w. destruct Ho as [Ld _]. destruct (lc_in o) as [ma mb aad iv [|]|c1 t aad iv sec ra rb]; try reflexivity.
    cbn [shift_in l_op in_len] in *. now rewrite xor_arr_length. }
  rewrite OP. eapply peq_rbind; [apply peq_rrefl|]. intros [p x] ? <-.
  eapply peq_rbind; [apply IH; lia|]. intros xs ? <-. constructor. reflexivity.
Qed.
End G.

(** * The session *)
Section D.
Variables kc ksv fc fs : list N.
(** what ALICE has after a call in which BOB changed its share by [d] *)
Definition dev_alice (o : lcall) (d : list N) : pout :=
  let E := aesE (okey kc ksv o) in
  let iv := ofiv fc fs o ++ in_iv (lc_in o) in
  match lc_in o with
  | InEnc ma mb aad _ sec => PEnc (gcm_ae E iv (if sec then xor_arr ma d else ma) aad)
  | InDec c t aad _ sec _ _ =>
      PDec (Some (if sec then xor_arr (gcm_ctext E iv c) d else gcm_ctext E iv c),
            if list_eq_dec N.eq_dec t (gcm_tag E iv aad c) then true else false)
  end.
(** and what BOB has *)
Definition dev_bob_out (o : lcall) (d : list N) : pout :=
  match lc_in o with InEnc _ _ _ _ _ => dev_alice o d | InDec _ _ _ _ _ _ _ => out_bob (lspec kc ksv fc fs o) end.
Lemma shift_spec_alice o d : dev_alice o d = unshift d (lc_in o) (out_alice (lspec kc ksv fc fs (shift_call d o))).
Proof.
  unfold dev_alice, lspec. change (okey kc ksv (shift_call d o)) with (okey kc ksv o). change (ofiv fc fs (shift_call d o)) with (ofiv fc fs o).
  cbn [shift_call lc_in]. destruct (lc_in o) as [ma mb aad iv [|]|c t aad iv [|] ra rb]; reflexivity.
Qed.
Lemma shift_spec_bob o d : dev_bob_out o d = out_bob (lspec kc ksv fc fs (shift_call d o)).
Proof.
  unfold dev_bob_out, dev_alice, lspec. change (okey kc ksv (shift_call d o)) with (okey kc ksv o). change (ofiv fc fs (shift_call d o)) with (ofiv fc fs o).
  cbn [shift_call lc_in]. destruct (lc_in o) as [ma mb aad iv [|]|c t aad iv [|] ra rb]; reflexivity.
Qed.
Lemma shift_wf o d : shifts o d -> lcall_wf o -> lcall_wf (shift_call d o).
Proof.
  intros [Ld Bd]. unfold lcall_wf. cbn [shift_call lc_in lc_ole]. destruct (lc_in o) as [ma mb aad iv [|]|c t aad iv sec ra rb]; cbn [shift_in in_len] in *; auto.
  intros (H1 & H2 & H3 & H4 & _ & H6 & H7). split; [now apply xor_arr_bytes|]. repeat (split; [assumption|]). split; [discriminate|].
  split; [|exact H7]. unfold nblocks in *. rewrite xor_arr_length by exact Ld. exact H6.
Qed.
Lemma shift_len o d : shifts o d -> in_len (shift_in d (lc_in o)) = in_len (lc_in o).
Proof. intros [Ld _]. destruct (lc_in o) as [ma mb aad iv [|]|c t aad iv sec ra rb]; cbn [shift_in in_len] in *; auto. now apply xor_arr_length. Qed.
Lemma shift_fits o d wa wb : shifts o d -> fits kc ksv fc fs o wa wb -> fits kc ksv fc fs (shift_call d o) (shift_own d wa) (shift_own d wb).
Proof.
  intros S (F0 & Fz & G0 & Gz & Go). unfold fits. cbv zeta.
  change (okey kc ksv (shift_call d o)) with (okey kc ksv o). change (ofiv fc fs (shift_call d o)) with (ofiv fc fs o).
  cbn [shift_call lc_in shift_own w_z0 w_z w_open]. rewrite (shift_len o d S).
  assert (EI : in_iv (shift_in d (lc_in o)) = in_iv (lc_in o)) by (destruct (lc_in o) as [ma mb aad iv [|]|c t aad iv sec ra rb]; reflexivity).
  assert (ES : in_sec (shift_in d (lc_in o)) = in_sec (lc_in o)) by (destruct (lc_in o) as [ma mb aad iv [|]|c t aad iv sec ra rb]; reflexivity).
  rewrite EI, ES. destruct S as [Ld Bd].
  split; [exact F0|]. split; [rewrite bxor_length; [exact Fz|rewrite P_AesNet.str_to_int_length; congruence]|].
  split; [exact G0|]. split; [|exact Go]. rewrite Gz, !bxor_assoc. f_equal. apply bxor_comm.
Qed.
End D.
Lemma shift_fit kc ksv fc fs : forall l ds wa wb, Forall2 shifts l ds -> length wa = length l -> length wb = length l ->
  Forall2 (fun o w => fits kc ksv fc fs o (fst w) (snd w)) l (combine wa wb) ->
  Forall2 (fun o w => fits kc ksv fc fs o (fst w) (snd w)) (map2 shift_call ds l) (combine (shift_owns ds wa) (shift_owns ds wb)) /\
  length (shift_owns ds wa) = length (map2 shift_call ds l) /\ length (shift_owns ds wb) = length (map2 shift_call ds l).
Proof.
  intros l ds wa wb F. revert wa wb. induction F as [|o d l ds Ho F IH]; intros wa wb La Lb G.
  - split; [constructor|split; reflexivity].
  - destruct wa as [|a wa]; [discriminate|]. destruct wb as [|b wb]; [discriminate|]. cbn [length] in La, Lb.
    inversion G as [|? ? ? ? G1 G2]; subst. cbn [fst snd] in G1. destruct (IH wa wb ltac:(lia) ltac:(lia) G2) as (I1 & I2 & I3).
    cbn [map2 shift_owns combine length]. split; [constructor; [now apply shift_fits|exact I1]|]. split; f_equal; assumption.
Qed.
Lemma fits_len kc ksv fc fs : forall l wa wb, length wa = length l -> length wb = length l ->
  Forall2 (fun o w => fits kc ksv fc fs o (fst w) (snd w)) l (combine wa wb) -> Forall2 (fun o w => length (w_z w) = (8 * in_len (lc_in o))%nat) l wa.
Proof.
  induction l as [|o l IH]; intros [|a wa] [|b wb] La Lb G; try discriminate; [constructor|]. cbn [length] in La, Lb.
  inversion G as [|? ? ? ? G1 G2]; subst. cbn [fst] in G1. constructor; [exact (proj1 (proj2 G1))|]. eapply (IH wa wb); try lia. exact G2.
Qed.

Section S.
Variable gfr : N -> N -> N.
Hypothesis GFR : gfr_ok gfr.
Variable hash : list N -> list N.
Hypothesis HL : forall l, length (hash l) = DIGEST_SIZE.
Lemma dev_complete kc ksv fc fs s A B hc hs wl oa ob rc roc rs ros l ds : key_ok kc -> key_ok ksv -> iv_ok fc -> iv_ok fs ->
  Forall (splits s A B) (hc :: hs :: wl) ->
  map (ev s) (hc :: hs :: wl) = bits_of_N 128 (aesE kc 0) :: bits_of_N 128 (aesE ksv 0) :: flat_map (gc_sh (aesE kc) (aesE ksv) fc fs) (map gcall_of l) ->
  let opd := flat_map (fun c => if ga_sec c then [] else [str_to_int (gc_ks (aesE kc) (aesE ksv) fc fs c)]) (map gcall_of l) in
  skipn (length oa - length opd) oa = opd -> skipn (length ob - length opd) ob = opd ->
  blk rc -> rc <> 0 -> ole_rand_ok roc 1 -> ole_blk roc -> blk rs -> rs <> 0 -> ole_rand_ok ros 1 -> ole_blk ros ->
  l <> [] -> Forall lcall_wf l -> Forall2 shifts l ds ->
  always_completes (l_session gfr hash true A oa (hc :: hs :: wl) rc roc rs ros l)
                   (dev_bob gfr hash ds B ob (hc :: hs :: wl) rc roc rs ros l)
    (Ok (map2 (dev_alice kc ksv fc fs) l ds)) (Ok (map2 (dev_bob_out kc ksv fc fs) l ds)).
Proof.
  intros KC KS IC IS AB V opd Ha Hb Rc Rc0 ROc BOc Rs Rs0 ROs BOs NE W SH.
  cbn [map] in V. injection V as V1 V2 V3. apply Forall_cons_iff in AB as [ABc AB]. apply Forall_cons_iff in AB as [ABs AB]. unfold splits in ABc, ABs.
  assert (PC : length opd = public_calls l) by apply public_count.
  rewrite PC in Ha, Hb. unfold l_session, dev_bob. rewrite Ha, Hb.
  destruct (owns_fit kc ksv fc fs s A B l wl AB V3) as (F & LA & LB). fold opd in F, LA, LB.
  set (wa := owns A l wl opd) in *. set (wb := owns B l wl opd) in *. clearbody wa wb.
  assert (Lc : length (low_bits A hc) = 128%nat).
  { unfold low_bits. rewrite map_length. apply (f_equal (@length bool)) in V1. unfold ev in V1. rewrite map_length, bits_of_N_length in V1. exact V1. }
  assert (Ls : length (low_bits A hs) = 128%nat).
  { unfold low_bits. rewrite map_length. apply (f_equal (@length bool)) in V2. unfold ev in V2. rewrite map_length, bits_of_N_length in V2. exact V2. }
  rewrite ABc, ABs, V1, V2.
  destruct (conv_lnew gfr GFR kc fc (low_bits A hc) rc roc KC IC Lc Rc Rc0 ROc BOc) as (c0 & I1 & C1).
  destruct (conv_lnew gfr GFR ksv fs (low_bits A hs) rs ros KS IS Ls Rs Rs0 ROs BOs) as (s0 & I2 & C2).
  pose proof (fits_len _ _ _ _ l wa wb LA LB F) as FL.
  destruct (shift_fit _ _ _ _ l ds wa wb SH LA LB F) as (F' & LA' & LB').
  assert (LD : length ds = length l) by (clear - SH; induction SH; cbn; congruence).
  assert (W' : Forall lcall_wf (map2 shift_call ds l)).
  { clear - W SH. induction SH as [|o d l ds Ho SH IH]; [constructor|]. inversion W; subst. cbn [map2]. constructor; [now apply shift_wf|]. now apply IH. }
  set (l' := map2 shift_call ds l) in *. 
  pose proof (conv_lcalls gfr GFR hash HL kc ksv fc fs KC KS IC IS l' (shift_owns ds wa) (shift_owns ds wb) [] [] c0 s0 I1 I2 W' F' LA' LB') as C3.
  assert (LK : forall p, likez p p) by (intro p; unfold likez; auto).
  pose proof (calls_shift gfr hash l ds wa (st_a c0) (st_a s0) (st_a c0) (st_a s0) SH FL (LK _) (LK _)) as Q. fold l' in Q.
  pose proof (calls_bob gfr hash l ds wb (st_b c0) (st_b s0) SH LB) as QB. fold l' in QB.
  destruct (conv_peq _ _ _ _ _ _ _ _ Q QB C3) as (x & y & Hx & Hy & C4).
  destruct x as [x| |]; cbn [rl] in Hx; try contradiction. destruct y as [y| |]; cbn [rl] in Hy; try contradiction. subst x y.
  assert (EA : map2 (fun od x => unshift (snd od) (lc_in (fst od)) x) (combine l ds) (map (fun o => out_alice (lspec kc ksv fc fs o)) l') = map2 (dev_alice kc ksv fc fs) l ds).
  { subst l'. clear - SH. induction SH as [|o d l ds Ho SH IH]; [reflexivity|]. cbn [map2 map combine fst snd]. f_equal; [|exact IH]. symmetry. apply shift_spec_alice. }
  assert (EB : map (fun o => out_bob (lspec kc ksv fc fs o)) l' = map2 (dev_bob_out kc ksv fc fs) l ds).
  { subst l'. clear - SH. induction SH as [|o d l ds Ho SH IH]; [reflexivity|]. cbn [map2 map]. f_equal; [|exact IH]. symmetry. apply shift_spec_bob. }
  rewrite EA, EB in C4.
  assert (C : conv (rbind (l_new gfr true (low_bits A hc) rc roc) (fun c => rbind (l_new gfr true (low_bits A hs) rs ros) (fun s => l_calls gfr hash true c s (combine l wa))))
                   (rbind (l_new gfr false (bxor (low_bits A hc) (bits_of_N 128 (aesE kc 0))) rc roc) (fun c =>
                      rbind (l_new gfr false (bxor (low_bits A hs) (bits_of_N 128 (aesE ksv 0))) rs ros) (fun s => l_calls gfr hash false c s (combine l (shift_owns ds wb)))))
                   (Ok (map2 (dev_alice kc ksv fc fs) l ds)) (Ok (map2 (dev_bob_out kc ksv fc fs) l ds))).
  { eapply conv_rbind; [exact C1|]. eapply conv_rbind; [exact C2|]. exact C4. }
  assert (NE' : l' <> []).
  { subst l'. clear - NE SH. destruct SH; [contradiction|discriminate]. }
  destruct C as [n C]. eapply completes; [| |exact C]; unfold disciplined; apply wp_rbind.
  - eapply wp_mono; [|apply (wp_lnew gfr true kc fc); try assumption; reflexivity].
    intros x d (D1 & p & -> & N1). apply wp_rbind. eapply wp_mono; [|apply (wp_lnew gfr true ksv fs); assumption].
    intros x d2 (D2 & p2 & -> & N2). 
    rewrite <- (pick_true wa wb) by congruence. apply (wp_lcalls gfr hash kc ksv fc fs); try assumption. intro. contradiction.
  - eapply wp_mono; [|apply (wp_lnew gfr false kc fc); try assumption; reflexivity].
    intros x d (D1 & p & -> & N1). apply wp_rbind. eapply wp_mono; [|apply (wp_lnew gfr false ksv fs); assumption].
    intros x d2 (D2 & p2 & -> & N2).
    eapply wp_mono; [|eapply wp_peq; [apply (calls_bob gfr hash l ds wb p p2 SH LB)|]].
    2:{ fold l'. rewrite <- (pick_false (shift_owns ds wa) (shift_owns ds wb)) by congruence.
        apply (wp_lcalls gfr hash kc ksv fc fs); try assumption. intro. contradiction. }
    intros y d3 (x & Rx & Cx). exact Cx.
Qed.

(** * What no BOB can change *)
(** the values a program can return, whatever it receives *)
Inductive may {A} : proc A -> A -> Prop :=
| may_ret a : may (Ret a) a
| may_send c bs p a : may p a -> may (Send c bs p) a
| may_flush c p a : may p a -> may (Flush c p) a
| may_recv c n k bs a : may (k bs) a -> may (Recv c n k) a.
Lemma may_bind {A B} (p : proc A) (f : A -> proc B) b : may (pbind p f) b -> exists a, may p a /\ may (f a) b.
Proof.
  induction p as [a|c bs p IH|c p IH|c n k IH]; cbn [pbind]; intro H.
  - exists a. split; [constructor|exact H].
  - inversion H; subst. destruct (IH ltac:(assumption)) as (a & H1 & H2). exists a. split; [constructor|]; assumption.
  - inversion H; subst. destruct (IH ltac:(assumption)) as (a & H1 & H2). exists a. split; [constructor|]; assumption.
  - inversion H; subst. destruct (IH _ ltac:(eassumption)) as (a & H1 & H2). exists a. split; [econstructor; eassumption|assumption].
Qed.
Lemma may_rbind {A B} (p : proc (res A)) (f : A -> proc (res B)) b : may (rbind p f) (Ok b) -> exists a, may p (Ok a) /\ may (f a) (Ok b).
Proof. intro H. apply may_bind in H as ([a| |] & H1 & H2); [eauto|inversion H2..]. Qed.
Lemma pstep_may {A} (s s' : side A) inc inc' a : pstep s inc s' inc' -> may (prog s') a -> may (prog s) a.
Proof. intros S M. destruct S; cbn [prog flushed] in *; try exact M; econstructor; eassumption. Qed.
Lemma reach_may {A B} (p : proc A) (q : proc B) x a : reach (start p q) x -> may (prog (fst x)) a -> may p a.
Proof.
  intro R. induction R as [|y z R IH S]; intro M; [exact M|]. apply IH. clear IH R.
  destruct S as [y z S|s s' t S|s t t' S].
  - destruct S as [s t s' w' S|s t t' w' S]; cbn [fst prog] in *; [eapply pstep_may; eassumption|exact M].
  - destruct S. exact M.
  - exact M.
Qed.
Lemma reach_ret {A B} (p : proc A) (q : proc B) x a : reach (start p q) x -> prog (fst x) = Ret a -> may p a.
Proof. intros R E. eapply reach_may; [exact R|]. rewrite E. constructor. Qed.
(** the text of a record as a party has it: the ciphertext it sends or the plaintext it reads *)
Definition text_of (x : pout) : option (list N) := match x with PEnc (c, _) => Some c | PDec (m, _) => m end.
Lemma op_text p i w ro p' x : may (l_op gfr hash true p i w ro) (Ok (p', x)) -> in_sec i = false ->
  text_of x = Some (xor_arr (match i with InEnc ma _ _ _ _ => ma | InDec c _ _ _ _ _ _ => c end) (rev (reveal_as 8 (w_open w)))).
Proof.
  intros M S. destruct i as [ma mb aad iv sec|c t aad iv sec ra rb]; cbn [in_sec] in S; subst sec; cbn [l_op] in M;
    apply may_rbind in M as ([p1 o] & M & R); inversion R; subst; clear R; cbn [text_of].
  - unfold l_encrypt in M. apply may_rbind in M as (z0 & _ & M). cbn [negb] in M. apply may_rbind in M as ([p2 ct] & M1 & M).
    inversion M1; subst. apply may_rbind in M as ([p3 out] & _ & M). cbv zeta in M. cbn iota in M.
    inversion M; subst. match goal with H : may (Flush _ _) _ |- _ => inversion H; subst end. match goal with H : may (Recv _ _ _) _ |- _ => inversion H; subst end.
    match goal with H : may (Ret _) _ |- _ => inversion H; subst end. reflexivity.
  - unfold l_decrypt in M. apply may_rbind in M as (z0 & _ & M). cbn [negb] in M. apply may_rbind in M as ([p2 ct] & M1 & M).
    inversion M1; subst. apply may_rbind in M as ([p3 out] & _ & M). cbv zeta in M. cbn iota in M.
    repeat match goal with H : may (Send _ _ _) _ |- _ => inversion H; subst; clear H | H : may (Flush _ _) _ |- _ => inversion H; subst; clear H
      | H : may (Recv _ _ _) _ |- _ => inversion H; subst; clear H end.
    match goal with H : may (Ret _) _ |- _ => inversion H; subst end. reflexivity.
Qed.
(** the text of a record: its ciphertext, or its plaintext *)
Definition right_text (kc ksv fc fs : list N) (o : lcall) : list N :=
  gcm_ctext (aesE (okey kc ksv o)) (ofiv fc fs o ++ in_iv (lc_in o)) (match lc_in o with InEnc ma _ _ _ _ => ma | InDec c _ _ _ _ _ _ => c end).
Lemma open_text kc ksv fc fs o wa wb : fits kc ksv fc fs o wa wb -> in_sec (lc_in o) = false ->
  xor_arr (match lc_in o with InEnc ma _ _ _ _ => ma | InDec c _ _ _ _ _ _ => c end) (rev (reveal_as 8 (w_open wa))) = right_text kc ksv fc fs o.
Proof.
  intros (_ & _ & _ & _ & Fo) S. destruct (Fo S) as [-> _]. unfold right_text.
  assert (EL : in_len (lc_in o) = length (match lc_in o with InEnc ma _ _ _ _ => ma | InDec c _ _ _ _ _ _ => c end)) by (destruct (lc_in o); reflexivity).
  rewrite EL. set (x := match lc_in o with InEnc ma _ _ _ _ => ma | InDec c _ _ _ _ _ _ => c end).
  pose proof (ks_bytes (okey kc ksv o) (ofiv fc fs o) (in_iv (lc_in o)) (length x)) as B0.
  unfold reveal_as.
  rewrite (bytes_be_rev_reveal _ (length x)) by (rewrite P_AesNet.str_to_int_length, ctext_length, repeat_length; reflexivity).
  rewrite bytes_be_str by exact B0. rewrite <- (ks_zeros _ _ _ _ false). apply ctext_xor.
Qed.
Lemma calls_text kc ksv fc fs : forall l wa wb c s xs, length wa = length l -> length wb = length l ->
  Forall2 (fun o w => fits kc ksv fc fs o (fst w) (snd w)) l (combine wa wb) ->
  may (l_calls gfr hash true c s (combine l wa)) (Ok xs) ->
  Forall2 (fun o x => in_sec (lc_in o) = false -> text_of x = Some (right_text kc ksv fc fs o)) l xs.
Proof.
  induction l as [|o l IH]; intros [|a wa] [|b wb] c s xs La Lb F M; try discriminate.
  - inversion M; subst. constructor.
  - cbn [length] in La, Lb. inversion F as [|? ? ? ? F1 F2]; subst. cbn [fst snd] in F1. cbn [combine l_calls] in M.
    apply may_rbind in M as ([p x] & M1 & M). apply may_rbind in M as (xs' & M2 & M). inversion M; subst.
    constructor; [|eapply (IH wa wb); try lia; eassumption].
    intro S. rewrite (op_text _ _ _ _ _ _ M1 S). f_equal. eapply open_text; eassumption.
Qed.
Lemma public_fixed kc ksv fc fs s A hc hs wl oa rc roc rs ros l {B} (q : proc B) xs z :
  map (ev s) (hc :: hs :: wl) = bits_of_N 128 (aesE kc 0) :: bits_of_N 128 (aesE ksv 0) :: flat_map (gc_sh (aesE kc) (aesE ksv) fc fs) (map gcall_of l) ->
  let opd := flat_map (fun c => if ga_sec c then [] else [str_to_int (gc_ks (aesE kc) (aesE ksv) fc fs c)]) (map gcall_of l) in
  skipn (length oa - length opd) oa = opd ->
  (exists B0, Forall (splits s A B0) (hc :: hs :: wl)) ->
  reach (start (l_session gfr hash true A oa (hc :: hs :: wl) rc roc rs ros l) q) z -> prog (fst z) = Ret (Ok xs) ->
  Forall2 (fun o x => in_sec (lc_in o) = false -> text_of x = Some (right_text kc ksv fc fs o)) l xs.
Proof.
  intros V opd Ha (B0 & AB) C0 C1. pose proof (reach_ret _ _ _ _ C0 C1) as C. clear C0 C1.
  cbn [map] in V. injection V as V1 V2 V3. apply Forall_cons_iff in AB as [ABc AB]. apply Forall_cons_iff in AB as [ABs AB].
  assert (PC : length opd = public_calls l) by apply public_count.
  rewrite PC in Ha. unfold l_session in C. rewrite Ha in C.
  destruct (owns_fit kc ksv fc fs s A B0 l wl AB V3) as (F & LA & LB). fold opd in F, LA, LB.
  apply may_rbind in C as (c & _ & C). apply may_rbind in C as (s1 & _ & C).
  eapply calls_text; [exact LA|exact LB|exact F|exact C].
Qed.

Variables (sigma aes : N -> N) (Hash : list N -> N) (fixk lab : nat -> N) (delta : N).
Hypothesis Hd : getLSB delta = true.
Theorem dev_records orc' junk q rounds pa pb rc rs sh os l ds rdc roc rds ros : (0 <= pa < q)%Z -> (0 <= pb < q)%Z ->
  Forall byte8 rc -> Forall byte8 rs -> opt_wf sh -> Forall fin_wf os -> (rounds = true -> tls_sizes rc rs sh os) ->
  rdc < 2 ^ 128 -> rdc <> 0 -> ole_rand_ok roc 1 -> ole_blk roc -> rds < 2 ^ 128 -> rds <> 0 -> ole_rand_ok ros 1 -> ole_blk ros ->
  l <> [] -> Forall lcall_wf l -> Forall2 shifts l ds ->
  let ms := ms_spec (pms_of q pa pb) rc rs sh in
  let kb := key_block ms rc rs in
  let kc := tls_client_key kb in let ksv := tls_server_key kb in let fc := tls_client_iv kb in let fs := tls_server_iv kb in
  exists x s y s' n op,
    on_session honest aes_ks_file aes_enc_file q rounds (gcm_calls pa pb rc rs sh os (map gcall_of l)) cst0 = Ok (x, s) /\
    off_session orc' junk aes_ks_file aes_enc_file q rounds (map announce (gcm_calls pa pb rc rs sh os (map gcall_of l))) cst0 = Ok (y, s') /\
    two_phase sigma aes Hash fixk lab delta (lower (c_tr s')) (lower (c_tr s)) = Ok (n, op) /\
    always_completes (l_session gfr hash true (ng_w n) (saw true op) (os_sh x) rdc roc rds ros l)
                     (dev_bob gfr hash ds (ne_w n) (saw false op) (os_sh x) rdc roc rds ros l)
      (Ok (map2 (dev_alice kc ksv fc fs) l ds)) (Ok (map2 (dev_bob_out kc ksv fc fs) l ds)) /\
    (forall B (q : proc B) xs z, reach (start (l_session gfr hash true (ng_w n) (saw true op) (os_sh x) rdc roc rds ros l) q) z ->
      prog (fst z) = Ret (Ok xs) ->
      Forall2 (fun o x => in_sec (lc_in o) = false -> text_of x = Some (right_text kc ksv fc fs o)) l xs).
Proof.
  intros Ha Hb Hc Hs Hh Ho Hz R1 R2 R3 R4 R5 R6 R7 R8 NE W SH ms kb kc ksv fc fs.
  pose proof (gcalls_wf l W) as Wg.
  destruct (gcm_wires orc' junk q rounds pa pb rc rs sh os (map gcall_of l) Ha Hb Hc Hs Hh Ho Wg Hz) as (x & s & _ & _ & E & _ & _ & _ & V).
  fold ms in V. fold kb in V.
  destruct (label_session sigma aes Hash fixk lab delta Hd orc' junk _ _ q rounds _ x s (gcm_sizes_ok q rounds pa pb rc rs sh os _ Ha Hb Hz Wg) E)
    as (y & s' & n & op & E' & R & S & L & _ & _).
  pose proof (gcm_openings q rounds pa pb rc rs sh os _ x s Ha Hb Hc Hs Hh Ho Wg E) as O. cbv zeta in O. fold ms in O. fold kb in O.
  rewrite opened_pub in O. rewrite O in S.
  destruct (tls_keys_ok ms rc rs) as (KC & KS & IC & IS). fold kb in KC, KS, IC, IS.
  exists x, s, y, s', n, op. split; [exact E|]. split; [exact E'|]. split; [exact R|].
  destruct (os_sh x) as [|hc [|hs wl]]; try discriminate. split.
  - apply (dev_complete _ _ _ _ s _ _ hc hs wl (saw true op) (saw false op) rdc roc rds ros l ds KC KS IC IS (proj2 (Forall_forall _ _) (fun ws _ => L ws)) V); try assumption.
    + exact (saw_last true _ _ _ S).
    + exact (saw_last false _ _ _ S).
  - intros B q0 xs z C0 C1. eapply (public_fixed _ _ _ _ s (ng_w n) hc hs wl (saw true op)); [exact V|exact (saw_last true _ _ _ S)| |exact C0|exact C1].
    exists (ne_w n). exact (proj2 (Forall_forall _ _) (fun ws _ => L ws)).
Qed.
End S.
(** what the other end of the connection makes of it *)
Lemma server_reads key iv m aad : key_ok key -> gcm_ad (aesE key) iv (fst (gcm_ae (aesE key) iv m aad)) aad (snd (gcm_ae (aesE key) iv m aad)) = Some m.
Proof.
  intros [K1 K2]. unfold gcm_ad, gcm_ae. cbn [fst snd]. destruct (list_eq_dec _ _ _) as [_|N]; [|contradiction]. f_equal. apply ctext_involutive.
  exact (proj2 (files_cipher_ok key K1 K2)).
Qed.

(** * Two attacks that work in every session *)
Definition dev_enc : lcall := {| lc_srv := false; lc_in := InEnc [1; 2; 3] [] [7] (repeat 5 8) true; lc_ole := {| raw0 := repeat (repeat 1 128) 3; raw1 := repeat (repeat 2 128) 3 |} |}.
Definition dev_dec (t : list N) : lcall :=
  {| lc_srv := true; lc_in := InDec [9; 8] t [] (repeat 6 8) true (repeat 1 16) (repeat 2 16); lc_ole := {| raw0 := repeat (repeat 1 128) 2; raw1 := repeat (repeat 2 128) 2 |} |}.
Lemma xor_arr_moves x d : (length d <= length x)%nat -> Exists (fun b => b <> 0) d -> xor_arr x d <> x.
Proof.
  unfold xor_arr. revert x. induction d as [|b d IH]; intros x L Ex; [inversion Ex|]. destruct x as [|a x]; [cbn in L; lia|]. cbn [map2 length] in *.
  intro H. injection H as H1 H2. inversion Ex as [? ? Hb|? ? Hd]; subst.
  - apply Hb. apply (f_equal (N.lxor a)) in H1. rewrite <- N.lxor_assoc, N.lxor_nilpotent, N.lxor_0_l in H1. exact H1.
  - exact (IH x ltac:(lia) Hd H2).
Qed.
Lemma dev_ro n : ole_rand_ok {| raw0 := repeat (repeat 1 128) n; raw1 := repeat (repeat 2 128) n |} n /\ ole_blk {| raw0 := repeat (repeat 1 128) n; raw1 := repeat (repeat 2 128) n |}.
Proof.
  split.
  - unfold ole_rand_ok. cbn [raw0 raw1]. rewrite !repeat_length. split; [reflexivity|]. split; [reflexivity|].
    split; apply Forall_forall; intros x Hx; apply repeat_spec in Hx; subst; reflexivity.
  - split; apply Forall_forall; intros x Hx; apply repeat_spec in Hx; subst; apply Forall_forall; intros y Hy; apply repeat_spec in Hy; subst; reflexivity.
Qed.
Lemma dev_enc_wf : lcall_wf dev_enc.
Proof.
  unfold lcall_wf, dev_enc. cbn [lc_in lc_ole]. repeat (apply conj); try (repeat constructor); try discriminate; try apply (dev_ro 3).
Qed.
Lemma dev_dec_wf t : lcall_wf (dev_dec t).
Proof.
  unfold lcall_wf, dev_dec. cbn [lc_in lc_ole]. repeat (apply conj); try (repeat constructor); try discriminate; try apply (dev_ro 2).
Qed.
Section A.
Variable gfr : N -> N -> N.
Hypothesis GFR : gfr_ok gfr.
Variable hash : list N -> list N.
Hypothesis HL : forall l, length (hash l) = DIGEST_SIZE.
Variables (sigma aes : N -> N) (Hash : list N -> N) (fixk lab : nat -> N) (delta : N).
Hypothesis Hd : getLSB delta = true.
Lemma dev_attack orc' junk q rounds pa pb rc rs sh os rdc roc rds ros : (0 <= pa < q)%Z -> (0 <= pb < q)%Z ->
  Forall byte8 rc -> Forall byte8 rs -> opt_wf sh -> Forall fin_wf os -> (rounds = true -> tls_sizes rc rs sh os) ->
  rdc < 2 ^ 128 -> rdc <> 0 -> ole_rand_ok roc 1 -> ole_blk roc -> rds < 2 ^ 128 -> rds <> 0 -> ole_rand_ok ros 1 -> ole_blk ros ->
  let ms := ms_spec (pms_of q pa pb) rc rs sh in
  let kb := key_block ms rc rs in
  let kc := tls_client_key kb in let ksv := tls_server_key kb in let fc := tls_client_iv kb in let fs := tls_server_iv kb in
  let tag := gcm_tag (aesE ksv) (fs ++ repeat 6 8) [] [9; 8] in
  let l := [dev_enc; dev_dec tag] in
  exists x s y s' n op c t m' p',
    on_session honest aes_ks_file aes_enc_file q rounds (gcm_calls pa pb rc rs sh os (map gcall_of l)) cst0 = Ok (x, s) /\
    off_session orc' junk aes_ks_file aes_enc_file q rounds (map announce (gcm_calls pa pb rc rs sh os (map gcall_of l))) cst0 = Ok (y, s') /\
    two_phase sigma aes Hash fixk lab delta (lower (c_tr s')) (lower (c_tr s)) = Ok (n, op) /\
    always_completes (l_session gfr hash true (ng_w n) (saw true op) (os_sh x) rdc roc rds ros l)
                     (dev_bob gfr hash [[255; 0; 1]; [0; 16]] (ne_w n) (saw false op) (os_sh x) rdc roc rds ros l)
      (Ok [PEnc (c, t); PDec (Some p', true)]) (Ok [PEnc (c, t); PDec (None, true)]) /\
    gcm_ad (aesE kc) (fc ++ repeat 5 8) c [7] t = Some m' /\ m' <> [1; 2; 3] /\
    gcm_ad (aesE ksv) (fs ++ repeat 6 8) [9; 8] [] tag <> None /\ gcm_ad (aesE ksv) (fs ++ repeat 6 8) [9; 8] [] tag <> Some p'.
Proof.
  intros Ha Hb Hc Hs Hh Ho Hz R1 R2 R3 R4 R5 R6 R7 R8 ms kb kc ksv fc fs tag l.
  assert (SH : Forall2 shifts l [[255; 0; 1]; [0; 16]]).
  { constructor; [split; [reflexivity|repeat constructor]|]. constructor; [split; [reflexivity|repeat constructor]|constructor]. }
  assert (W : Forall lcall_wf l).
  { constructor; [exact dev_enc_wf|]. constructor; [apply dev_dec_wf|constructor]. }
  destruct (dev_records gfr GFR hash HL sigma aes Hash fixk lab delta Hd orc' junk q rounds pa pb rc rs sh os l _ rdc roc rds ros
    Ha Hb Hc Hs Hh Ho Hz R1 R2 R3 R4 R5 R6 R7 R8 ltac:(discriminate) W SH) as (x & s & y & s' & n & op & E1 & E2 & E3 & AC & _).
  fold ms in AC. fold kb in AC. fold kc in AC. fold ksv in AC. fold fc in AC. fold fs in AC.
  exists x, s, y, s', n, op, (fst (gcm_ae (aesE kc) (fc ++ repeat 5 8) [254; 2; 2] [7])), (snd (gcm_ae (aesE kc) (fc ++ repeat 5 8) [254; 2; 2] [7])), [254; 2; 2],
    (xor_arr (gcm_ctext (aesE ksv) (fs ++ repeat 6 8) [9; 8]) [0; 16]).
  split; [exact E1|]. split; [exact E2|]. split; [exact E3|].
  destruct (tls_keys_ok ms rc rs) as (KC & KS & IC & IS). fold kb in KC, KS. fold kc in KC. fold ksv in KS.
  assert (T : (if list_eq_dec N.eq_dec tag tag then true else false) = true) by (destruct (list_eq_dec N.eq_dec tag tag); [reflexivity|contradiction]).
  split.
  - assert (XA : map2 (dev_alice kc ksv fc fs) l [[255; 0; 1]; [0; 16]] =
      [PEnc (fst (gcm_ae (aesE kc) (fc ++ repeat 5 8) [254; 2; 2] [7]), snd (gcm_ae (aesE kc) (fc ++ repeat 5 8) [254; 2; 2] [7]));
       PDec (Some (xor_arr (gcm_ctext (aesE ksv) (fs ++ repeat 6 8) [9; 8]) [0; 16]), if list_eq_dec N.eq_dec tag tag then true else false)]) by reflexivity.
    assert (XB : map2 (dev_bob_out kc ksv fc fs) l [[255; 0; 1]; [0; 16]] =
      [PEnc (fst (gcm_ae (aesE kc) (fc ++ repeat 5 8) [254; 2; 2] [7]), snd (gcm_ae (aesE kc) (fc ++ repeat 5 8) [254; 2; 2] [7]));
       PDec (None, if list_eq_dec N.eq_dec tag tag then true else false)]) by reflexivity.
    rewrite XA, XB, T in AC. exact AC.
  - split; [now apply server_reads|]. split; [discriminate|].
    assert (G : gcm_ad (aesE ksv) (fs ++ repeat 6 8) [9; 8] [] tag = Some (gcm_ctext (aesE ksv) (fs ++ repeat 6 8) [9; 8])).
    { unfold gcm_ad. fold tag. destruct (list_eq_dec N.eq_dec tag tag); [reflexivity|contradiction]. }
    rewrite G. split; [discriminate|]. intro X. apply (f_equal (fun o => match o with Some v => v | None => [] end)) in X. cbv iota beta in X. symmetry in X. revert X.
    apply xor_arr_moves; [rewrite ctext_length; cbn; lia|]. apply Exists_cons_tl, Exists_cons_hd. discriminate.
Qed.
End A.
