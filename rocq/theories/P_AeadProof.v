(** Proofs about AEAD_Proof and finalize_check. *)
From Coq Require Import List NArith Bool Arith Lia.
From Verif Require Import L_Bits L_Res L_Xor M_EmpInteger M_Utils M_Bristol M_Block M_Shares M_Aead M_ItMac M_AeadProof.
From Verif Require Import S_Codec S_Aes S_Gcm P_Gf128 P_Utils P_AesNet P_Shares P_Gcm P_Aead P_ItMac.
Import ListNotations.
Local Open Scope N_scope.

(** * Bits and bytes *)
Lemma bits8_cons x l : bits8 (x :: l) = bits_of_N 8 x ++ bits8 l.
Proof. reflexivity. Qed.
Lemma bits8_reveal : forall k Z, length Z = (8 * k)%nat -> bits8 (reveal_as 8 Z) = Z.
Proof.
  induction k as [|k IH]; intros Z L.
  - destruct Z; [reflexivity|discriminate].
  - unfold reveal_as in *. rewrite chunks_cons by (try lia; intro; subst; discriminate). cbn [map]. rewrite bits8_cons, IH.
    + rewrite bits_of_N_of_bits' by (rewrite firstn_length; lia). apply firstn_skipn.
    + rewrite skipn_length. lia.
Qed.
Lemma reveal_bits8 l : Forall (fun b => b < 256) l -> reveal_as 8 (bits8 l) = l.
Proof.
  unfold reveal_as. induction 1 as [|x l H F IH]; [reflexivity|]. rewrite bits8_cons.
  rewrite chunks_cons; [|lia|discriminate].
  rewrite firstn_app, bits_of_N_length, firstn_all2 by (rewrite bits_of_N_length; lia).
  rewrite skipn_app, bits_of_N_length, skipn_all2 by (rewrite bits_of_N_length; lia).
  change (8 - 8)%nat with 0%nat. cbn [firstn skipn app map]. rewrite app_nil_r, IH.
  f_equal. now apply N_of_bits_of_N_small.
Qed.
Lemma bits8_inj a b : Forall (fun x => x < 256) a -> Forall (fun x => x < 256) b -> bits8 a = bits8 b -> a = b.
Proof. intros A B H. rewrite <- (reveal_bits8 a A), <- (reveal_bits8 b B). now rewrite H. Qed.
Lemma bits8_xor : forall a b, bits8 (map2 N.lxor a b) = bxor (bits8 a) (bits8 b).
Proof.
  induction a as [|x a IH]; intros [|y b]; try reflexivity.
  cbn [map2]. rewrite !bits8_cons, IH. unfold bxor. rewrite map2_app by (rewrite !bits_of_N_length; reflexivity).
  f_equal. apply bits_of_N_lxor.
Qed.
Lemma bits_of_N_inj128 a b : a < 2 ^ 128 -> b < 2 ^ 128 -> bits_of_N 128 a = bits_of_N 128 b -> a = b.
Proof. intros A B H. rewrite <- (N_of_bits_of_N_small 128 a A), <- (N_of_bits_of_N_small 128 b B). now rewrite H. Qed.

Lemma str_bits8 l : str_to_int l = bits8 (rev l).
Proof.
  unfold str_to_int, int_of_array. fold (bits8 (rev l)). apply firstn_all2. rewrite bits8_length, rev_length. lia.
Qed.
Section P.
Variable ks enc : bristol.
Variable ek : Integer.
Variable E : N -> N.
Hypothesis CIP : cipher_ok enc ek E.
Variable fiv : list N.
Hypothesis V1 : length fiv = 4%nat.
Hypothesis V2 : bytes_ok fiv.
Variable Delta : N.
Hypothesis D0 : Delta <> 0.
Hypothesis DO : N.odd Delta = true.
Variable pub : bool -> N.
Hypothesis PUB : pub true <> pub false.
Hypothesis PUBD : N.lxor (pub true) (pub false) <> Delta.

Definition ksb (c : call) : list bool := bits8 (rev (call_ks E fiv c)).
Lemma ksb_length c : length (ksb c) = (8 * c_len c)%nat.
Proof. unfold ksb. now rewrite bits8_length, rev_length, call_ks_length. Qed.
Lemma reveal_ksb c : reveal_as 8 (ksb c) = rev (call_ks E fiv c).
Proof. apply reveal_bits8, Forall_rev, call_ks_bytes. Qed.

Lemma pf_material_ok p iv n sec : pf_key p = ek -> pf_fixed p = str_to_int fiv -> length iv = 8%nat -> bytes_ok iv ->
  let c := mk_call iv n sec in
  exists n1, pf_material enc p iv (N.of_nat n) = Ok (bits_of_N 128 (call_ej0 E fiv c), ksb c, n1).
Proof.
  intros K F L8 B c. set (g := {| g_key := pf_key p; g_nonce := []; g_fixed := pf_fixed p |}).
  change (pf_material enc p iv (N.of_nat n)) with (key_material enc g iv (N.of_nat n)).
  destruct (key_material_ok enc ek E (proj1 CIP) g fiv iv n K F V1 V2 L8 B) as (Z & n1 & EZ & LZ & BZ).
  exists n1. rewrite EZ. repeat f_equal.
  rewrite <- (bits8_reveal n Z LZ). unfold ksb. f_equal.
  unfold reveal_as. rewrite <- (rev_involutive (map N_of_bits _)), (bytes_be_rev_reveal _ _ LZ), BZ. reflexivity.
Qed.

(** ** One call *)
(** the condition on the front of the z0 queue *)
Definition z0_good (c : call) (k : Integer) (s : N) : Prop := bits_of_N 128 (call_ej0 E fiv c) = bxor k (bits_of_N 128 s).
Definition z_good (c : call) (k : Integer) (ga gb : list N) : Prop :=
  length ga = c_len c /\ length gb = c_len c /\ ksb c = bxor k (bits8 gb).
Definition open_good (c : call) (oa ob : list N) : Prop := oa = rev (call_ks E fiv c) /\ ob = rev (call_ks E fiv c).

Lemma check_z0_ok t za c kz0 w ws k a as_ s bs : bal t -> length kz0 = 128%nat ->
  za_z0 za = w :: ws -> p_gc_z0 (za_a za) = a :: as_ -> p_gc_z0 (za_b za) = s :: bs ->
  Forall2 (carries Delta) w k -> length k = 128%nat ->
  exists t', check_z0 Delta t za (bits_of_N 128 (call_ej0 E fiv c)) kz0 =
      Ok (t', {| za_h := za_h za; za_z0 := ws; za_z := za_z za; za_a := pop_z0 (za_a za); za_b := pop_z0 (za_b za) |}) /\
    bal t' /\ (sync t' <-> sync t /\ z0_good c k s).
Proof.
  intros B Lk E1 E2 E3 Fw L. unfold check_z0. rewrite E1, E2, E3.
  destruct (hom_add_block_ok Delta D0 t (zauth Delta kz0 (bits_of_N 128 (call_ej0 E fiv c))) w
    (bits_of_N 128 (call_ej0 E fiv c)) k s B) as (t' & pre' & X & B' & _ & S'); auto using bits_of_N_length.
  - apply zauth_carries. now rewrite bits_of_N_length.
  - rewrite X. cbn [bind]. eauto.
Qed.

Lemma check_z_cases t za c kz w ws k ga gas gb gbs : bal t -> length kz = (8 * c_len c)%nat ->
  za_z za = w :: ws -> p_gc_z (za_a za) = ga :: gas -> p_gc_z (za_b za) = gb :: gbs ->
  Forall2 (carries Delta) w k -> length k = (8 * c_len c)%nat ->
  (check_z Delta t za (ksb c) kz = Err /\ ~ z_good c k ga gb) \/
  exists t', check_z Delta t za (ksb c) kz =
      Ok (t', {| za_h := za_h za; za_z0 := za_z0 za; za_z := ws; za_a := pop_gc_z (za_a za); za_b := pop_gc_z (za_b za) |}) /\
    bal t' /\ (sync t' <-> sync t /\ z_good c k ga gb).
Proof.
  intros B Lk E1 E2 E3 Fw L. unfold check_z. rewrite E1, E2, E3.
  assert (Fz : Forall2 (carries Delta) (zauth Delta kz (ksb c)) (ksb c)).
  { apply zauth_carries. now rewrite ksb_length. }
  destruct (Nat.eq_dec (length ga) (c_len c)) as [La|La]; [destruct (Nat.eq_dec (length gb) (c_len c)) as [Lb|Lb]|].
  - right. rewrite La, <- Lb.
    destruct (hom_add_bytes_ok Delta D0 t (zauth Delta kz (ksb c)) w (ksb c) k gb B Fz Fw) as (t' & pre' & X & B' & _ & S').
    + now rewrite ksb_length, Lb.
    + now rewrite L, Lb.
    + rewrite X. cbn [bind]. exists t'. split; [reflexivity|]. split; [exact B'|]. rewrite S'. unfold z_good. tauto.
  - left. split; [|unfold z_good; tauto]. unfold hom_add_bytes.
    rewrite (F2_length _ _ _ Fz), (F2_length _ _ _ Fw), L, ksb_length.
    replace (8 * c_len c =? length gb * 8)%nat with false; [now rewrite !andb_false_r|].
    symmetry. apply Nat.eqb_neq. lia.
  - left. split; [|unfold z_good; tauto]. unfold hom_add_bytes.
    rewrite (F2_length _ _ _ Fz), (F2_length _ _ _ Fw), L, ksb_length.
    replace (8 * c_len c =? length ga * 8)%nat with false; [reflexivity|].
    symmetry. apply Nat.eqb_neq. lia.
Qed.

Lemma check_open_cases t za c kz oa oas ob obs : bal t -> length kz = (8 * c_len c)%nat -> Forall (fun k => N.odd k = false) kz ->
  p_open_z (za_a za) = oa :: oas -> p_open_z (za_b za) = ob :: obs -> bytes_ok oa -> bytes_ok ob ->
  (check_open Delta pub t za (ksb c) kz = Err /\ ~ open_good c oa ob) \/
  exists t', check_open Delta pub t za (ksb c) kz =
      Ok (t', {| za_h := za_h za; za_z0 := za_z0 za; za_z := za_z za; za_a := pop_open (za_a za); za_b := pop_open (za_b za) |}) /\
    bal t' /\ (sync t' <-> sync t /\ open_good c oa ob).
Proof.
  intros B Lk Ek E1 E2 Ba Bb. unfold check_open. rewrite E1, E2.
  assert (Fz : Forall2 (carries Delta) (zauth Delta kz (ksb c)) (ksb c)).
  { apply zauth_carries. now rewrite ksb_length. }
  assert (Fl : Forall2 lsb_ok (zauth Delta kz (ksb c)) (ksb c)).
  { apply zauth_lsb; auto. now rewrite ksb_length. }
  assert (LK : length (rev (call_ks E fiv c)) = c_len c) by (now rewrite rev_length, call_ks_length).
  destruct (Nat.eqb_spec (length oa) (length ob)) as [Lab|Lab].
  2:{ left. split; [reflexivity|]. intros [-> ->]. congruence. }
  destruct (Nat.eq_dec (length oa) (c_len c)) as [La|La].
  - destruct (check_zero_data_ok Delta D0 pub PUB PUBD t (zauth Delta kz (ksb c)) (ksb c) 1 oa ob (length oa) B Fz Fl) as [X1 X2];
      try (rewrite ?ksb_length; lia).
    rewrite reveal_ksb in *. rewrite !firstn_all2 in X1, X2 by lia.
    destruct (list_eq_dec N.eq_dec (rev (call_ks E fiv c)) oa) as [EQ|NE].
    + right. destruct (X2 EQ) as (t' & X & B' & S'). rewrite X. cbn [bind]. exists t'. split; [reflexivity|].
      split; [exact B'|]. rewrite S'. unfold open_good, ksb. split.
      * intros (S & H1 & H2). split; [exact S|]. split; [now symmetry|].
        apply bits8_inj in H2; auto. apply Forall_rev, call_ks_bytes.
      * intros (S & -> & ->). auto.
    + left. rewrite (X1 NE). split; [reflexivity|]. intros [X _]. now symmetry in X.
  - left. split; [|intros [-> _]; congruence]. unfold check_zero_data. rewrite (F2_length _ _ _ Fz), ksb_length.
    replace (8 * c_len c =? length oa * 1 * 8)%nat with false; [reflexivity|]. symmetry. apply Nat.eqb_neq. lia.
Qed.

(** ** Sequences *)
Definition pcall_call (c : pcall) : call := mk_call (pc_iv c) (length (pc_ctxt c)) (pc_sec c).
Definition pcall_wf (c : pcall) : Prop :=
  length (pc_iv c) = 8%nat /\ bytes_ok (pc_iv c) /\ bytes_ok (pc_ctxt c) /\ length (pc_kz0 c) = 128%nat /\
  length (pc_kz c) = (8 * length (pc_ctxt c))%nat /\ Forall (fun k => N.odd k = false) (pc_kz c).
(** what a proof of a record outputs *)
Definition pcall_out (c : pcall) : Integer * option Integer :=
  (bits_of_N 128 (E (j0_of (fiv ++ pc_iv c))),
   if pc_sec c then Some (str_to_int (gcm_ctext E (fiv ++ pc_iv c) (pc_ctxt c))) else None).

Lemma unmask_ok iv ctxt sec : unmask (ksb (mk_call iv (length ctxt) sec)) ctxt = str_to_int (gcm_ctext E (fiv ++ iv) ctxt).
Proof.
  unfold unmask, int_of_array. fold (bits8 (rev ctxt)). rewrite firstn_all2 by (rewrite bits8_length, rev_length, Nat.mul_comm; apply le_n).
  unfold ixor, ksb. rewrite <- bits8_xor, str_bits8. f_equal.
  rewrite map2_rev by (now rewrite call_ks_length). f_equal. rewrite <- (ctext_xor E fiv iv ctxt sec).
  apply xor_arr_comm.
Qed.

(** the queues match the calls in number *)
Definition queues_fit (za : zaead) (K0 Kz : list Integer) (cs : list pcall) : Prop :=
  let n := length cs in
  let m := length (filter pc_sec cs) in
  let l := length (filter (fun c => negb (pc_sec c)) cs) in
  Forall2 (fun w k => Forall2 (carries Delta) w k) (za_z0 za) K0 /\ Forall (fun k => length k = 128%nat) K0 /\
  length K0 = n /\ length (p_gc_z0 (za_a za)) = n /\ length (p_gc_z0 (za_b za)) = n /\
  Forall2 (fun w k => Forall2 (carries Delta) w k) (za_z za) Kz /\
  Forall2 (fun k c => length k = (8 * length (pc_ctxt c))%nat) Kz (filter pc_sec cs) /\
  length (p_gc_z (za_a za)) = m /\ length (p_gc_z (za_b za)) = m /\
  length (p_open_z (za_a za)) = l /\ length (p_open_z (za_b za)) = l /\
  Forall bytes_ok (p_open_z (za_a za)) /\ Forall bytes_ok (p_open_z (za_b za)).
(** what the proofs establish, record by record *)
Definition shares_good (za : zaead) (K0 Kz : list Integer) (cs : list pcall) : Prop :=
  Forall2 (fun ks c => z0_good (pcall_call c) (fst ks) (snd ks)) (combine K0 (p_gc_z0 (za_b za))) cs /\
  Forall2 (fun kg c => z_good (pcall_call c) (fst kg) (fst (snd kg)) (snd (snd kg)))
    (combine Kz (combine (p_gc_z (za_a za)) (p_gc_z (za_b za)))) (filter pc_sec cs) /\
  p_open_z (za_a za) = map (fun c => rev (call_ks E fiv (pcall_call c))) (filter (fun c => negb (pc_sec c)) cs) /\
  p_open_z (za_b za) = map (fun c => rev (call_ks E fiv (pcall_call c))) (filter (fun c => negb (pc_sec c)) cs).
Definition queues_empty (za : zaead) : Prop :=
  za_z0 za = [] /\ za_z za = [] /\ p_gc_z0 (za_a za) = [] /\ p_gc_z0 (za_b za) = [] /\
  p_gc_z (za_a za) = [] /\ p_gc_z (za_b za) = [] /\ p_open_z (za_a za) = [] /\ p_open_z (za_b za) = [].

Lemma F2_cons {X Y} (P : X -> Y -> Prop) a b la lb : Forall2 P (a :: la) (b :: lb) <-> P a b /\ Forall2 P la lb.
Proof. split; [intro H; inversion H; auto|intros []; now constructor]. Qed.
Ltac len0 H := match type of H with length ?l = _ => destruct l; [|discriminate H] end.

(** one step: the call fails and its record is bad, or it goes through and the hashes
    stay in step exactly when the record is good *)
Lemma prove_step p t za K0 Kz c cs : pf_key p = ek -> pf_fixed p = str_to_int fiv -> bal t -> pcall_wf c ->
  queues_fit za K0 Kz (c :: cs) ->
  (prove_aead enc Delta pub p t za (pc_ctxt c) (pc_iv c) (pc_sec c) (pc_kz0 c) (pc_kz c) = Err /\
   ~ shares_good za K0 Kz (c :: cs)) \/
  exists n1 t' za' K0' Kz', prove_aead enc Delta pub p t za (pc_ctxt c) (pc_iv c) (pc_sec c) (pc_kz0 c) (pc_kz c) =
      Ok (with_nonce p n1, t', za', fst (pcall_out c), snd (pcall_out c)) /\
    bal t' /\ queues_fit za' K0' Kz' cs /\ za_h za' = za_h za /\
    (sync t' /\ shares_good za' K0' Kz' cs <-> sync t /\ shares_good za K0 Kz (c :: cs)).
Proof.
  intros HK HF B (W1 & W2 & W3 & W4 & W5 & W6) (Q1 & Q2 & Q3 & Q4 & Q5 & Q6 & Q7 & Q8 & Q9 & Q10 & Q11 & Q12 & Q13).
  unfold prove_aead.
  destruct (pf_material_ok p (pc_iv c) (length (pc_ctxt c)) (pc_sec c) HK HF W1 W2) as (n1 & EM). fold (pcall_call c) in EM.
  rewrite EM. cbn [bind].
  destruct za as [zh z0 zz [ah am a0 az ao] [bh bm b0 bz bo]].
  cbn [za_z0 za_z za_a za_b p_gc_z0 p_gc_z p_open_z] in *.
  destruct K0 as [|k0 K0]; [discriminate Q3|]. destruct a0 as [|a a0]; [discriminate Q4|].
  destruct b0 as [|b b0]; [discriminate Q5|]. inversion Q1 as [|w ? ws ? Q1a Q1b]; subst. clear Q1.
  inversion Q2; subst. clear Q2.
  destruct (check_z0_ok t {| za_h := zh; za_z0 := w :: ws; za_z := zz;
     za_a := {| p_gc_h := ah; p_mul_hs := am; p_gc_z0 := a :: a0; p_gc_z := az; p_open_z := ao |};
     za_b := {| p_gc_h := bh; p_mul_hs := bm; p_gc_z0 := b :: b0; p_gc_z := bz; p_open_z := bo |} |}
     (pcall_call c) (pc_kz0 c) w ws k0 a a0 b b0 B W4 eq_refl eq_refl eq_refl Q1a) as (t1 & X1 & B1 & S1); [assumption|].
  rewrite X1. cbn [bind]. unfold pop_z0.
  cbn [za_h za_z0 za_z za_a za_b p_gc_z0 p_gc_z p_open_z p_gc_h p_mul_hs tl].
  set (za1 := {| za_h := zh; za_z0 := ws; za_z := zz;
     za_a := {| p_gc_h := ah; p_mul_hs := am; p_gc_z0 := a0; p_gc_z := az; p_open_z := ao |};
     za_b := {| p_gc_h := bh; p_mul_hs := bm; p_gc_z0 := b0; p_gc_z := bz; p_open_z := bo |} |}).
  unfold shares_good. cbn [za_z0 za_z za_a za_b p_gc_z0 p_gc_z p_open_z combine].
  rewrite F2_cons. cbn [fst snd].
  cbn [filter] in *. unfold pcall_out. cbn [fst snd].
  destruct (pc_sec c) eqn:SC; cbn [negb] in *.
  - (* private record *)
    destruct az as [|ga az]; [discriminate Q8|]. destruct bz as [|gb bz]; [discriminate Q9|].
    inversion Q7 as [|kz ? Kz' ? Q7a Q7b]; subst. clear Q7. inversion Q6 as [|wz ? wzs ? Q6a Q6b]; subst. clear Q6.
    cbn [combine]. rewrite F2_cons. cbn [fst snd].
    destruct (check_z_cases t1 za1 (pcall_call c) (pc_kz c) wz wzs kz ga az gb bz B1) as [[X2 N2]|(t2 & X2 & B2 & S2)];
      try reflexivity; try assumption.
    + left. rewrite X2. split; [reflexivity|]. tauto.
    + right. rewrite X2. cbn [bind]. unfold pop_gc_z, za1. cbn [za_h za_z0 za_z za_a za_b p_gc_z0 p_gc_z p_open_z p_gc_h p_mul_hs tl].
      eexists n1, t2, _, K0, Kz'. split.
      { repeat f_equal. unfold pcall_call. now rewrite unmask_ok. }
      split; [exact B2|]. split; [|split; [reflexivity|]].
      * unfold queues_fit. cbn [za_z0 za_z za_a za_b p_gc_z0 p_gc_z p_open_z]. cbn [length] in *.
        repeat split; auto; lia.
      * rewrite S2, S1. cbn [za_a za_b p_gc_z0 p_gc_z p_open_z]. rewrite !F2_cons. cbn [fst snd]. tauto.
  - (* public record *)
    destruct ao as [|oa ao]; [discriminate Q10|]. destruct bo as [|ob bo]; [discriminate Q11|].
    inversion Q12; subst. inversion Q13; subst.
    destruct (check_open_cases t1 za1 (pcall_call c) (pc_kz c) oa ao ob bo B1) as [[X2 N2]|(t2 & X2 & B2 & S2)];
      try reflexivity; try assumption.
    + left. rewrite X2. split; [reflexivity|]. intros (_ & _ & Y1 & Y2). cbn [map] in Y1, Y2.
      apply N2. injection Y1 as -> _. injection Y2 as -> _. split; reflexivity.
    + right. rewrite X2. cbn [bind]. unfold pop_open, za1. cbn [za_h za_z0 za_z za_a za_b p_gc_z0 p_gc_z p_open_z p_gc_h p_mul_hs tl].
      eexists n1, t2, _, K0, Kz. split; [reflexivity|]. split; [exact B2|]. split; [|split; [reflexivity|]].
      * unfold queues_fit. cbn [za_z0 za_z za_a za_b p_gc_z0 p_gc_z p_open_z]. cbn [length] in *.
        repeat split; auto; lia.
      * rewrite S2, S1. cbn [za_a za_b p_gc_z0 p_gc_z p_open_z map]. rewrite ?F2_cons. cbn [fst snd]. unfold open_good. split.
        -- intros (((S & G0) & G1 & G2) & F0 & F1 & F2 & F3). subst. repeat split; auto.
        -- intros (S & (G0 & F0) & F1 & F2 & F3). injection F2 as G1 F2. injection F3 as G2 F3. repeat split; auto.
Qed.

Theorem proves_iff : forall cs p t za K0 Kz, pf_key p = ek -> pf_fixed p = str_to_int fiv -> bal t -> Forall pcall_wf cs ->
  queues_fit za K0 Kz cs ->
  ((exists t' za' outs, proves enc Delta pub p t za cs = Ok (t', za', outs) /\ sync t') <->
   sync t /\ shares_good za K0 Kz cs) /\
  (forall t' za' outs, proves enc Delta pub p t za cs = Ok (t', za', outs) ->
   bal t' /\ outs = map pcall_out cs /\ queues_empty za' /\ za_h za' = za_h za).
Proof.
  induction cs as [|c cs IH]; intros p t za K0 Kz HK HF B W Q.
  - cbn [proves]. destruct Q as (Q1 & Q2 & Q3 & Q4 & Q5 & Q6 & Q7 & Q8 & Q9 & Q10 & Q11 & Q12 & Q13).
    cbn [filter length] in *. apply length_zero_iff_nil in Q3, Q4, Q5, Q8, Q9, Q10, Q11. subst K0.
    inversion Q7; subst. inversion Q1 as [Z0E|]. inversion Q6 as [ZE|].
    split.
    + split.
      * intros (t' & za' & outs & X & S). injection X as <- <- <-. split; [exact S|].
        unfold shares_good. rewrite Q5, Q8, Q10, Q11. cbn. repeat split; constructor.
      * intros [S _]. eexists _, _, _. split; [reflexivity|exact S].
    + intros t' za' outs X. injection X as <- <- <-. split; [exact B|]. split; [reflexivity|]. split; [|reflexivity].
      unfold queues_empty. auto 10.
  - assert (Wc := Forall_inv W). assert (Wcs := Forall_inv_tail W). cbn [proves].
    destruct (prove_step p t za K0 Kz c cs HK HF B Wc Q) as [[X N]|(n1 & t1 & za1 & K0' & Kz' & X & B1 & Q1 & HH & S1)].
    + rewrite X. cbn [bind]. split; [|discriminate]. split; [intros (? & ? & ? & Y & _); discriminate Y|tauto].
    + rewrite X. cbn [bind].
      destruct (IH (with_nonce p n1) t1 za1 K0' Kz' HK HF B1 Wcs Q1) as [IH1 IH2]. rewrite <- S1, <- IH1. clear IH1.
      destruct (proves enc Delta pub (with_nonce p n1) t1 za1 cs) as [[[t2 za2] os]| |]; cbn [bind].
      * destruct (IH2 t2 za2 os eq_refl) as (I1 & I2 & I3 & I4). split.
        -- split; intros (t' & za' & outs & Y & S); injection Y as <- <- <-; eexists _, _, _; (split; [reflexivity|exact S]).
        -- intros t' za' outs Y. injection Y as <- <- <-. subst os. split; [exact I1|].
           split; [reflexivity|]. split; [exact I3|congruence].
      * split; [|discriminate]. split; intros (? & ? & ? & Y & _); discriminate Y.
      * split; [|discriminate]. split; intros (? & ? & ? & Y & _); discriminate Y.
Qed.

(** ** Constructor *)
Theorem proof_new_ok t za key kh kH : computeKS ks key = Ok ek -> bal t -> length kH = 128%nat ->
  Forall2 (carries Delta) (za_h za) kh -> length kh = 128%nat ->
  exists t' h', proof_new ks enc Delta t za key (str_to_int fiv) kH =
    Ok ({| pf_key := ek; pf_nonce := []; pf_H := bits_of_N 128 (E 0); pf_fixed := str_to_int fiv |}, t',
        {| za_h := h'; za_z0 := za_z0 za; za_z := za_z za; za_a := za_a za; za_b := za_b za |}) /\
    bal t' /\ Forall2 (carries Delta) h' (bxor kh (bits_of_N 128 (p_gc_h (za_b za)))) /\
    (sync t' <-> sync t /\ bits_of_N 128 (E 0) = bxor kh (bits_of_N 128 (p_gc_h (za_b za)))).
Proof.
  intros HK B LH F L. unfold proof_new. rewrite HK. cbn [bind]. unfold pf_computeH.
  change (int_of 128 0) with (bits_of_N 128 0). rewrite (proj1 CIP 0). cbn [bind].
  destruct (hom_add_block_ok Delta D0 t (zauth Delta kH (bits_of_N 128 (E 0))) (za_h za) (bits_of_N 128 (E 0)) kh
    (p_gc_h (za_b za)) B) as (t' & h' & X & B' & F' & S'); auto using bits_of_N_length.
  - apply zauth_carries. now rewrite bits_of_N_length.
  - rewrite X. cbn [bind]. eauto 10.
Qed.
End P.
