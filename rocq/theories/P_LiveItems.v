(** The calls of a session under two answers to the openings: as many requests, the same share wires. *)
From Coq Require Import List NArith ZArith Bool Arith Lia.
From Verif Require Import L_Bits L_Res S_Netlist S_Causal S_Lower M_EmpInteger M_Bristol M_Bn M_Sym M_SymOn M_SymOff M_SymSess M_Causal.
From Verif Require Import M_Hmac M_Handshake M_View M_LabRec M_Inter M_Live P_Sym P_Causal.
Import ListNotations.
Local Open Scope sym_scope.
Local Opaque siter sfold.

Lemma bind_inv {A B} (m : M A) (k : A -> M B) s b t : mbind m k s = Ok (b, t) -> exists a u, m s = Ok (a, u) /\ k a u = Ok (b, t).
Proof. unfold mbind. intro H. destruct (m s) as [[a u]| |]; cbn in H; try discriminate. eauto. Qed.
Section S.
Variable o o' : list nev -> nat -> bool.
Variable ks enc : bristol.
Definition both (q : Z) (r : bool) (a a' : on_sess) : Prop := os_sh a = os_sh a' /\ exists b, Rsess q r a b /\ Rsess q r a' b.
Lemma sim_crypt_on a iv len sec :
  sim (on_crypt o enc a iv len sec) (on_crypt o' enc a iv len sec) (fun x y => fst (snd x) = fst (snd y)).
Proof.
  unfold on_crypt. cbv zeta.
  eapply sim_bind with (R := eq).
  { unfold on_set_nonce. destruct (_ =? _)%nat; [|apply sim_lift; auto].
    eapply sim_bind; [apply sim_gfeed; reflexivity|]. intros ? ? <-. apply sim_ret; auto. }
  intros n0 ? <-.
  eapply sim_bind with (R := eq).
  { generalize (1 + N.to_nat ((len * 8 + 128 - 1) / 128)). intro m. generalize (ona_key a) n0. generalize (@nil wire) as r.
    induction m as [|m IH]; intros r k n1; cbn [on_gctr]; [apply sim_ret; auto|].
    eapply sim_bind; [apply sim_scomputeAES|]. intros t ? <-. eapply sim_bind with (R := eq).
    - unfold on_inc. destruct (_ <? _)%nat; [apply sim_lift; auto|]. eapply sim_bind; [apply sim_sadd|]. intros ? ? <-. apply sim_ret; auto.
    - intros ? ? <-. apply IH. }
  intros [Z n1] ? <-. eapply sim_bind with (R := fun _ _ => True).
  { destruct sec; cbn [negb]; [apply sim_ret; auto|]. eapply sim_bind; [apply sim_greveal|]. intros. apply sim_ret; auto. }
  intros z z' _. apply sim_ret. reflexivity.
Qed.
Lemma sh_kept orc a c s x t : on_do orc ks enc a c s = Ok (x, t) ->
  match c with NAead _ | NEncrypt _ _ _ _ | NDecrypt _ _ _ _ => True | _ => os_sh x = os_sh a end.
Proof.
  intro H. destruct c; try exact I; cbn [on_do] in H; apply bind_inv in H as (h & u & _ & H);
    try (destruct h as [h v]); unfold mret in H; assert (X : os_sh x = os_sh a) by (injection H as <- _; reflexivity); exact X.
Qed.
Lemma aead_det b a a' : Raead a b -> Raead a' b -> a = a'.
Proof. intros (A1 & A2 & A3) (B1 & B2 & B3). destruct a, a'; cbn in *. congruence. Qed.
Lemma sim_crypt_sh a a' k iv len sec b : Forall2 Raead (os_aeads a) b -> Forall2 Raead (os_aeads a') b -> os_sh a = os_sh a' ->
  sim (on_crypt_call o enc a k iv len sec) (on_crypt_call o' enc a' k iv len sec) (fun x y => os_sh x = os_sh y).
Proof.
  intros F F' E. unfold on_crypt_call.
  assert (Q : os_aeads a = os_aeads a').
  { revert F F'. generalize (os_aeads a) (os_aeads a'). clear. intros l1 l2 F. revert l2. induction F as [|u v ? ? Huv F IHF]; intros l2 F'; inversion F' as [|u' ? ? ? Hu]; subst; auto.
    f_equal; [eapply aead_det; eassumption|auto]. }
  rewrite <- Q. eapply sim_bind; [apply sim_lift_eq|]. intros x ? <-.
  eapply sim_bind; [apply sim_crypt_on|]. intros [y1 [[y2 y3] y4]] [z1 [[z2 z3] z4]] H. cbn [fst snd] in H. apply sim_ret. cbn [os_sh fst snd].
  injection H as -> ->. now rewrite E.
Qed.
Lemma sh_same q r a a' c c' alice s s' x t x' t' : both q r a a' -> own_call alice c = own_call alice c' ->
  c_next s = c_next s' -> shape (c_tr s) = shape (c_tr s') ->
  on_do o ks enc a c s = Ok (x, t) -> on_do o' ks enc a' c' s' = Ok (x', t') -> os_sh x = os_sh x'.
Proof.
  intros [Es (b & R1 & R2)] Ec N Sh H H'.
  destruct (match c with NAead _ | NEncrypt _ _ _ _ | NDecrypt _ _ _ _ => true | _ => false end) eqn:K.
  - assert (c' = c) as -> by (destruct c; try discriminate K; destruct c'; cbn in Ec; try destruct alice; congruence).
    assert (X : sim (on_do o ks enc a c) (on_do o' ks enc a' c) (fun x y => os_sh x = os_sh y)).
    { destruct R1 as (R1 & _ & F1). destruct R2 as (R2 & _ & F2). destruct c; try discriminate K; cbn [on_do].
      - destruct R1 as (_ & _ & _ & _ & _ & A1 & A2 & A3 & A4). destruct R2 as (_ & _ & _ & _ & _ & B1 & B2 & B3 & B4).
        rewrite A1, A2, A3, A4, B1, B2, B3, B4. eapply sim_bind with (R := eq).
        + unfold on_aead_new. eapply sim_bind; [apply sim_scomputeKS|]. intros ? ? <-.
          eapply sim_bind; [apply sim_scomputeAES|]. intros ? ? <-. apply sim_ret; auto.
        + intros [u v] ? <-. apply sim_ret. cbn. now rewrite Es.
      - eapply sim_crypt_sh; eassumption.
      - eapply sim_crypt_sh; eassumption. }
    specialize (X s s' N Sh). rewrite H, H' in X. apply X.
  - pose proof (sh_kept _ _ _ _ _ _ H) as X. pose proof (sh_kept _ _ _ _ _ _ H') as X'.
    destruct c; try discriminate K; destruct c'; cbn in Ec; try (destruct alice; discriminate); try discriminate; congruence.
Qed.
Lemma do_both q r a a' c c' alice s s' x t : both q r a a' -> own_call alice c = own_call alice c' -> sizes_ok q r c -> sizes_ok q r c' ->
  c_next s = c_next s' -> shape (c_tr s) = shape (c_tr s') -> on_do o ks enc a c s = Ok (x, t) ->
  exists x' t', on_do o' ks enc a' c' s' = Ok (x', t') /\ c_next t = c_next t' /\ shape (c_tr t) = shape (c_tr t') /\ both q r x x'.
Proof.
  intros B Ec Z Z' N Sh H. pose proof B as [Es (b & R1 & R2)].
  assert (A : announce c = announce c') by (destruct c; destruct c'; cbn in Ec |- *; try destruct alice; congruence).
  pose proof (sim_do o o (fun _ => false) ks enc q r a b c R1 Z s s eq_refl eq_refl) as X1.
  pose proof (sim_do o' o (fun _ => false) ks enc q r a' b c' R2 Z' s' s (eq_sym N) (eq_sym Sh)) as X2.
  rewrite H in X1. rewrite <- A in X2. destruct (off_do _ _ _ _ _ _ s) as [[y u]| |]; try contradiction. destruct X1 as (P1 & P2 & P3).
  destruct (on_do o' ks enc a' c' s') as [[x' t']| |] eqn:H'; try contradiction. destruct X2 as (Q1 & Q2 & Q3). cbn [fst snd] in *.
  exists x', t'. split; [reflexivity|]. split; [congruence|]. split; [congruence|]. split; [exact (sh_same q r a a' c c' alice s s' x t x' t' B Ec N Sh H H')|]. eauto.
Qed.
(** ** the items *)
Definition like (alice : bool) (i i' : item) : Prop :=
  length (it_seg i) = length (it_seg i') /\ own_icall alice (it_call i) = own_icall alice (it_call i') /\ it_ws i = it_ws i'.
Lemma shape_len t t' : shape t = shape t' -> length t = length t'.
Proof. intro H. apply (f_equal (@length _)) in H. unfold shape in H. now rewrite !map_length in H. Qed.
Lemma own_on alice c c' : own_icall alice c = own_icall alice c' -> own_call alice (on_of c) = own_call alice (on_of c').
Proof.
  destruct c as [c|srv r ro|[sv i ro]], c' as [c'|srv' r' ro'|[sv' i' ro']]; cbn [own_icall]; intro H; try (destruct alice; discriminate).
  - exact (f_equal (fun i => match i with CPlain x => x | _ => c end) H).
  - assert (srv = srv') as -> by (destruct alice; congruence). reflexivity.
  - cbn [lc_srv lc_in lc_ole] in H. injection H as <- H _. cbn [on_of lc_srv lc_in].
    destruct i as [ma mb aad iv sec|ct tg aad iv sec ra rb], i' as [ma' mb' aad' iv' sec'|ct' tg' aad' iv' sec' ra' rb']; cbn [own_in] in H;
      try (destruct alice; discriminate).
    + assert (length ma = length ma' /\ iv = iv' /\ sec = sec') as (-> & -> & ->); [|reflexivity].
      destruct alice; injection H; intros; subst; auto. split; auto.
      match goal with H : repeat _ _ = repeat _ _ |- _ => apply (f_equal (@length _)) in H; now rewrite !repeat_length in H end.
    + assert (ct = ct' /\ iv = iv' /\ sec = sec') as (-> & -> & ->); [|reflexivity].
      destruct alice; injection H; intros; subst; auto.
Qed.
Lemma items_like alice q r : forall cs cs' a a' s s' its, both q r a a' -> map (own_icall alice) cs = map (own_icall alice) cs' ->
  Forall (sizes_ok q r) (map on_of cs) -> Forall (sizes_ok q r) (map on_of cs') -> c_next s = c_next s' -> shape (c_tr s) = shape (c_tr s') ->
  items o ks enc cs a s = Ok its -> exists its', items o' ks enc cs' a' s' = Ok its' /\ Forall2 (like alice) its its'.
Proof.
  induction cs as [|c cs IH]; intros [|c' cs'] a a' s s' its B E Z Z' N Sh H; cbn [map] in *; try discriminate.
  - injection H as <-. exists []. auto.
  - injection E as Ec E. inversion Z as [|? ? Z1 Z2]; subst. inversion Z' as [|? ? Z1' Z2']; subst. cbn [items] in *.
    destruct (on_do o ks enc a (on_of c) s) as [[x t]| |] eqn:D; try discriminate.
    destruct (do_both _ _ _ _ _ _ alice _ _ _ _ B (own_on _ _ _ Ec) Z1 Z1' N Sh D) as (x' & t' & D' & N' & Sh' & B').
    rewrite D'. destruct (items o ks enc cs x t) as [l| |] eqn:I; cbn [bind] in H; try discriminate. injection H as <-.
    destruct (IH _ _ _ _ _ _ B' E Z2 Z2' N' Sh' I) as (l' & -> & F). cbn [bind]. eexists. split; [reflexivity|]. constructor; [|exact F].
    split; [|split]; cbn [it_seg it_call it_ws].
    + rewrite !map_length, !rev_length, !firstn_length. now rewrite (shape_len _ _ Sh), (shape_len _ _ Sh').
    + exact Ec.
    + destruct B as [-> _]. destruct B' as [-> _]. reflexivity.
Qed.
Lemma session_items_like alice q r cs cs' its : map (own_icall alice) cs = map (own_icall alice) cs' ->
  Forall (sizes_ok q r) (map on_of cs) -> Forall (sizes_ok q r) (map on_of cs') ->
  session_items o ks enc q r cs = Ok its -> exists its', session_items o' ks enc q r cs' = Ok its' /\ Forall2 (like alice) its its'.
Proof.
  intros E Z Z'. apply (items_like alice q r); auto.
  split; [reflexivity|]. exists (mkOffSess (off_hs_new q r) []).
  assert (X : Rsess q r (mkOnSess (on_hs_new q r) [] [] []) (mkOffSess (off_hs_new q r) [])).
  { split; [|split]; cbn; auto. repeat (split; auto); discriminate. }
  split; exact X.
Qed.
End S.
