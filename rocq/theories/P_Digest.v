(** One running hash for the comparisons of the handshake and those of the AEAD proofs:
    every function only appends to the transcripts, and what it appends does not depend on
    what is there already. *)
From Coq Require Import List NArith ZArith Bool Arith Lia.
From Verif Require Import L_Bits L_Res M_EmpInteger M_Utils M_Bristol M_Block M_Shares M_Aead M_ItMac M_AeadProof M_Handshake M_Session M_Digest.
From Verif Require Import P_ItMac P_AeadProof.
Import ListNotations.
Local Open Scope N_scope.

Definition cz_app (t d : czst) : czst := {| cz_a := cz_a t ++ cz_a d; cz_b := cz_b t ++ cz_b d |}.
Lemma cz_app_assoc t d e : cz_app (cz_app t d) e = cz_app t (cz_app d e).
Proof. unfold cz_app. cbn [cz_a cz_b]. now rewrite !app_assoc. Qed.
Lemma cz_app_nil t : cz_app t cz0 = t.
Proof. unfold cz_app, cz0. cbn [cz_a cz_b]. rewrite !app_nil_r. now destruct t. Qed.
Lemma bal_app t d : bal t -> bal d -> bal (cz_app t d).
Proof. unfold bal, cz_app. cbn [cz_a cz_b]. rewrite !app_length. lia. Qed.
Lemma sync_app t d : bal t -> (sync (cz_app t d) <-> sync t /\ sync d).
Proof.
  unfold bal, sync, cz_app. cbn [cz_a cz_b]. intro B. split.
  - intro H. now apply app_len_inj in H.
  - intros [-> ->]. reflexivity.
Qed.
Lemma sync_bal t : sync t -> bal t.
Proof. unfold sync, bal. congruence. Qed.

Definition small (x : N) : Prop := x < 2 ^ 128.
Definition wsmall (w : N * N) : Prop := small (fst w) /\ small (snd w).
Definition czsmall (t : czst) : Prop := Forall small (cz_a t) /\ Forall small (cz_b t).
Lemma small_xor a b : small a -> small b -> small (N.lxor a b).
Proof.
  unfold small. intros A B. destruct (N.eq_dec (N.lxor a b) 0) as [E|E]; [rewrite E; reflexivity|].
  apply N.log2_lt_pow2; [lia|]. eapply N.le_lt_trans; [apply N.log2_lxor|].
  assert (L : forall x, x < 2 ^ 128 -> N.log2 x < 128).
  { intros x X. destruct (N.eq_dec x 0) as [->|Y]; [reflexivity|]. apply N.log2_lt_pow2; lia. }
  apply N.max_lub_lt; auto.
Qed.
Lemma czsmall_app t d : czsmall t -> czsmall d -> czsmall (cz_app t d).
Proof. intros [A B] [C D]. split; cbn [cz_app cz_a cz_b]; now apply Forall_app. Qed.

(** the blocks of one Integer *)
Definition zz (z : list (N * N)) : czst := {| cz_a := map fst z; cz_b := map snd z |}.
Lemma check_zero_app t z : check_zero t z = cz_app t (zz z).
Proof. rewrite check_zero_eq. reflexivity. Qed.
Lemma zz_bal z : bal (zz z).
Proof. unfold bal, zz. cbn. now rewrite !map_length. Qed.
Lemma zz_small z : Forall wsmall z -> czsmall (zz z).
Proof. intro F. split; apply Forall_map; (eapply Forall_impl; [|exact F]); intros w [A B]; assumption. Qed.
Lemma map2_Forall {X Y Z} (P : X -> Prop) (Q : Y -> Prop) (R : Z -> Prop) (f : X -> Y -> Z) :
  (forall x y, P x -> Q y -> R (f x y)) -> forall a b, Forall P a -> Forall Q b -> Forall R (map2 f a b).
Proof.
  intros H a b A. revert b. induction A as [|x a Px A IH]; intros b B; [constructor|].
  destruct B as [|y b Qy B]; cbn [map2]; constructor; auto.
Qed.
Lemma zxor_small a b : Forall wsmall a -> Forall wsmall b -> Forall wsmall (zxor a b).
Proof. apply map2_Forall. intros x y [A B] [C D]. split; cbn [wxor fst snd]; now apply small_xor. Qed.

Definition zasmall (z : zaead) : Prop := Forall wsmall (za_h z) /\ Forall (Forall wsmall) (za_z0 z) /\ Forall (Forall wsmall) (za_z z).
Definition rsmall (r : rrec) : Prop := Forall small (rr_kz0 r) /\ Forall small (rr_kz r).
Definition osmall (o : pop) : Prop := match o with PClient r | PServer r | PLast r => rsmall r end.
Definition psmall (p : prd) : Prop := zasmall (pr_zc p) /\ zasmall (pr_zs p).
Definition set_t (p : prd) (t : czst) : prd :=
  mkPrd (pr_hs p) t (pr_pc p) (pr_zc p) (pr_ps p) (pr_zs p) (pr_cz0 p) (pr_sz0 p).

Lemma bind_inv {A B} (m : res A) (f : A -> res B) r : bind m f = Ok r -> exists a, m = Ok a /\ f a = Ok r.
Proof. destruct m; cbn; try discriminate. intro H. eauto. Qed.

Section F.
Variable aes_ks aes_enc : bristol.
Variable Delta : N.
Variable pub : bool -> N.
Definition dsmall : Prop := small Delta /\ forall b, small (pub b).

Lemma dmul_small b : dsmall -> small (dmul Delta b).
Proof. intros [D _]. destruct b; cbn [dmul]; [exact D|reflexivity]. Qed.
Lemma zauth_small k b : dsmall -> Forall small k -> Forall wsmall (zauth Delta k b).
Proof.
  intros D K. apply (map2_Forall small (fun _ => True)); [|exact K|apply Forall_forall; trivial].
  intros x y X _. split; cbn [fst snd]; [apply small_xor; [exact X|now apply dmul_small]|exact X].
Qed.
Lemma zpublic_small a b : dsmall -> Forall wsmall (zpublic Delta pub a b).
Proof.
  intros D. apply (map2_Forall (fun _ => True) (fun _ => True)); try (apply Forall_forall; trivial).
  intros x y _ _. split; cbn [fst snd]; [apply D|apply small_xor; [apply D|now apply dmul_small]].
Qed.
Lemma add_delta_bits_small l pre : dsmall -> Forall wsmall pre -> Forall wsmall (add_delta_bits Delta l pre).
Proof.
  intros D F. apply (map2_Forall (fun _ => True) wsmall); [|apply Forall_forall; trivial|exact F].
  intros b w _ [A B]. destruct b; split; cbn [fst snd]; auto. apply small_xor; [exact B|apply D].
Qed.

Lemma add_delta_blk_small blk pre : dsmall -> Forall wsmall pre -> Forall wsmall (add_delta_blk Delta blk pre).
Proof.
  intros D F. apply (map2_Forall (fun _ => True) wsmall); [|apply Forall_forall; trivial|exact F].
  intros i w _ [A B]. cbv zeta. destruct (_ =? _); split; cbn [fst snd]; auto. apply small_xor; [exact B|apply D].
Qed.

(** ** Frames *)
Lemma hom_add_block_frame t rs pre blk t' pre' : hom_add_block Delta t rs pre blk = Ok (t', pre') ->
  exists d, bal d /\ t' = cz_app t d /\ (forall u, hom_add_block Delta u rs pre blk = Ok (cz_app u d, pre')) /\
    (dsmall -> Forall wsmall rs -> Forall wsmall pre -> czsmall d /\ Forall wsmall pre').
Proof.
  unfold hom_add_block. destruct (negb _); [discriminate|]. cbv zeta. intro H. injection H as <- <-.
  eexists. split; [apply zz_bal|]. split; [apply check_zero_app|]. split; [intro u; now rewrite check_zero_app|].
  intros D R P. assert (Q : Forall wsmall (add_delta_blk Delta blk pre)) by (now apply add_delta_blk_small).
  split; [|exact Q]. apply zz_small, zxor_small; assumption.
Qed.
Lemma hom_add_bytes_frame t rs pre la sh lb t' pre' : hom_add_bytes Delta t rs pre la sh lb = Ok (t', pre') ->
  exists d, bal d /\ t' = cz_app t d /\ (forall u, hom_add_bytes Delta u rs pre la sh lb = Ok (cz_app u d, pre')) /\
    (dsmall -> Forall wsmall rs -> Forall wsmall pre -> czsmall d).
Proof.
  unfold hom_add_bytes. destruct (negb _); [discriminate|]. destruct (_ <? _)%nat; [discriminate|].
  cbv zeta. intro H. injection H as <- <-.
  eexists. split; [apply zz_bal|]. split; [apply check_zero_app|]. split; [intro u; now rewrite check_zero_app|].
  intros D R P. apply zz_small, zxor_small; [assumption|]. now apply add_delta_bits_small.
Qed.
Lemma check_zero_data_frame t w sz da db len t' : check_zero_data Delta pub t w sz da db len = Ok t' ->
  exists d, bal d /\ t' = cz_app t d /\ (forall u, check_zero_data Delta pub u w sz da db len = Ok (cz_app u d)) /\
    (dsmall -> Forall wsmall w -> czsmall d).
Proof.
  unfold check_zero_data. destruct (negb _); [discriminate|]. destruct (negb _); [discriminate|]. cbv zeta.
  destruct (bytes_eqb _ _); [|discriminate]. intro H. injection H as <-.
  eexists. split; [apply zz_bal|]. split; [apply check_zero_app|]. split; [intro u; now rewrite check_zero_app|].
  intros D R. apply zz_small, zxor_small; [now apply zpublic_small|assumption].
Qed.

Lemma check_z0_frame t za Z k t' za' : check_z0 Delta t za Z k = Ok (t', za') ->
  exists d, bal d /\ t' = cz_app t d /\ (forall u, check_z0 Delta u za Z k = Ok (cz_app u d, za')) /\
    (dsmall -> Forall small k -> zasmall za -> czsmall d /\ zasmall za').
Proof.
  unfold check_z0. destruct (za_z0 za) as [|w ws] eqn:E; [discriminate|].
  destruct (p_gc_z0 (za_a za)); [discriminate|]. destruct (p_gc_z0 (za_b za)) as [|s ?]; [discriminate|].
  intro H. apply bind_inv in H as ([t1 pre] & H & H'). injection H' as <- <-.
  destruct (hom_add_block_frame _ _ _ _ _ _ H) as (d & B & -> & U & S). exists d. split; [exact B|]. split; [reflexivity|].
  split; [intro u; now rewrite U|]. intros D K (A1 & A2 & A3). rewrite E in A2. inversion A2; subst.
  split; [apply S; auto; now apply zauth_small|]. repeat split; assumption.
Qed.
Lemma check_open_frame t za Z k t' za' : check_open Delta pub t za Z k = Ok (t', za') ->
  exists d, bal d /\ t' = cz_app t d /\ (forall u, check_open Delta pub u za Z k = Ok (cz_app u d, za')) /\
    (dsmall -> Forall small k -> zasmall za -> czsmall d /\ zasmall za').
Proof.
  unfold check_open. destruct (p_open_z (za_a za)); [discriminate|]. destruct (p_open_z (za_b za)); [discriminate|].
  destruct (_ =? _)%nat; [|discriminate].
  intro H. apply bind_inv in H as (t1 & H & H'). injection H' as <- <-.
  destruct (check_zero_data_frame _ _ _ _ _ _ _ H) as (d & B & -> & U & S). exists d. split; [exact B|]. split; [reflexivity|].
  split; [intro u; now rewrite U|]. intros D K (A1 & A2 & A3).
  split; [apply S; auto; now apply zauth_small|]. repeat split; assumption.
Qed.
Lemma check_z_frame t za Z k t' za' : check_z Delta t za Z k = Ok (t', za') ->
  exists d, bal d /\ t' = cz_app t d /\ (forall u, check_z Delta u za Z k = Ok (cz_app u d, za')) /\
    (dsmall -> Forall small k -> zasmall za -> czsmall d /\ zasmall za').
Proof.
  unfold check_z. destruct (za_z za) as [|w ws] eqn:E; [discriminate|].
  destruct (p_gc_z (za_a za)); [discriminate|]. destruct (p_gc_z (za_b za)) as [|s ?]; [discriminate|].
  intro H. apply bind_inv in H as ([t1 pre] & H & H'). injection H' as <- <-.
  destruct (hom_add_bytes_frame _ _ _ _ _ _ _ _ H) as (d & B & -> & U & S). exists d. split; [exact B|]. split; [reflexivity|].
  split; [intro u; now rewrite U|]. intros D K (A1 & A2 & A3). rewrite E in A3. inversion A3; subst.
  split; [apply S; auto; now apply zauth_small|]. repeat split; assumption.
Qed.
Lemma prove_aead_frame p t za c iv sec k0 k p' t' za' z0 m :
  prove_aead aes_enc Delta pub p t za c iv sec k0 k = Ok (p', t', za', z0, m) ->
  exists d, bal d /\ t' = cz_app t d /\ (forall u, prove_aead aes_enc Delta pub p u za c iv sec k0 k = Ok (p', cz_app u d, za', z0, m)) /\
    (dsmall -> Forall small k0 -> Forall small k -> zasmall za -> czsmall d /\ zasmall za').
Proof.
  unfold prove_aead. intro H. apply bind_inv in H as ([[Zz Z] n1] & M & H). rewrite M.
  apply bind_inv in H as ([t1 za1] & H1 & H). destruct (check_z0_frame _ _ _ _ _ _ H1) as (d1 & B1 & -> & U1 & S1).
  destruct sec; cbn [negb] in *; apply bind_inv in H as ([t2 za2] & H2 & H); injection H as <- <- <- <- <-;
    [destruct (check_z_frame _ _ _ _ _ _ H2) as (d2 & B2 & -> & U2 & S2)
    |destruct (check_open_frame _ _ _ _ _ _ H2) as (d2 & B2 & -> & U2 & S2)];
    (exists (cz_app d1 d2); split; [now apply bal_app|]; split; [apply cz_app_assoc|]; split;
      [intro u; cbn [bind]; rewrite U1; cbn [bind]; rewrite U2; cbn [bind]; now rewrite cz_app_assoc
      |intros D K0 K Z1; destruct (S1 D K0 Z1) as [X1 X2]; destruct (S2 D K X2) as [X3 X4]; split; [now apply czsmall_app|assumption]]).
Qed.
Lemma proof_new_frame t za key iv kH p t' za' : proof_new aes_ks aes_enc Delta t za key iv kH = Ok (p, t', za') ->
  exists d, bal d /\ t' = cz_app t d /\ (forall u, proof_new aes_ks aes_enc Delta u za key iv kH = Ok (p, cz_app u d, za')) /\
    (dsmall -> Forall small kH -> zasmall za -> czsmall d /\ zasmall za').
Proof.
  unfold proof_new. intro H. apply bind_inv in H as (ek & M & H). rewrite M.
  apply bind_inv in H as (h & M2 & H). cbn [bind]. rewrite M2.
  apply bind_inv in H as ([t1 h'] & H1 & H). injection H as <- <- <-.
  destruct (hom_add_block_frame _ _ _ _ _ _ H1) as (d & B & -> & U & S). exists d. split; [exact B|]. split; [reflexivity|].
  split; [intro u; cbn [bind]; now rewrite U|]. intros D K (A1 & A2 & A3).
  destruct S as [S1 S2]; auto; [now apply zauth_small|]. split; [exact S1|]. repeat split; assumption.
Qed.

Lemma prove_c_frame p r sec p' o : prove_c aes_enc Delta pub p r sec = Ok (p', o) ->
  exists d, bal d /\ pr_t p' = cz_app (pr_t p) d /\
    (forall u, prove_c aes_enc Delta pub (set_t p u) r sec = Ok (set_t p' (cz_app u d), o)) /\
    (dsmall -> rsmall r -> psmall p -> czsmall d /\ psmall p') /\ pr_hs p' = pr_hs p.
Proof.
  unfold prove_c. intro H. apply bind_inv in H as ([[[[pc t] zc] z0] m] & H & H'). injection H' as <- <-.
  destruct (prove_aead_frame _ _ _ _ _ _ _ _ _ _ _ _ _ H) as (d & B & -> & U & S). exists d. split; [exact B|]. split; [reflexivity|].
  split; [intro u; cbn [set_t pr_pc pr_t pr_zc]; rewrite U; reflexivity|]. split; [|reflexivity].
  intros D [K1 K2] [P1 P2]. destruct (S D K1 K2 P1). split; [assumption|]. split; assumption.
Qed.
Lemma prove_s_frame p r sec p' o : prove_s aes_enc Delta pub p r sec = Ok (p', o) ->
  exists d, bal d /\ pr_t p' = cz_app (pr_t p) d /\
    (forall u, prove_s aes_enc Delta pub (set_t p u) r sec = Ok (set_t p' (cz_app u d), o)) /\
    (dsmall -> rsmall r -> psmall p -> czsmall d /\ psmall p') /\ pr_hs p' = pr_hs p.
Proof.
  unfold prove_s. intro H. apply bind_inv in H as ([[[[pc t] zc] z0] m] & H & H'). injection H' as <- <-.
  destruct (prove_aead_frame _ _ _ _ _ _ _ _ _ _ _ _ _ H) as (d & B & -> & U & S). exists d. split; [exact B|]. split; [reflexivity|].
  split; [intro u; cbn [set_t pr_ps pr_t pr_zs]; rewrite U; reflexivity|]. split; [|reflexivity].
  intros D [K1 K2] [P1 P2]. destruct (S D K1 K2 P2). split; [assumption|]. split; assumption.
Qed.
Lemma pop_run_frame p o p' x : pop_run aes_enc Delta pub p o = Ok (p', x) ->
  exists d, bal d /\ pr_t p' = cz_app (pr_t p) d /\
    (forall u, pop_run aes_enc Delta pub (set_t p u) o = Ok (set_t p' (cz_app u d), x)) /\
    (dsmall -> osmall o -> psmall p -> czsmall d /\ psmall p') /\ pr_hs p' = pr_hs p.
Proof.
  destruct o as [r|r|r]; cbn [pop_run osmall]; intro H.
  - apply bind_inv in H as ([p1 y] & H & H'). apply bind_inv in H' as (m & M & H'). injection H' as <- <-.
    destruct (prove_c_frame _ _ _ _ _ H) as (d & B & E & U & S). exists d. split; [exact B|]. split; [exact E|].
    split; [intro u; rewrite U; cbn [bind]; now rewrite M|exact S].
  - apply bind_inv in H as ([p1 y] & H & H'). apply bind_inv in H' as (m & M & H'). injection H' as <- <-.
    destruct (prove_s_frame _ _ _ _ _ H) as (d & B & E & U & S). exists d. split; [exact B|]. split; [exact E|].
    split; [intro u; rewrite U; cbn [bind]; now rewrite M|exact S].
  - apply bind_inv in H as ([[ps z0] m] & M & H'). injection H' as <- <-. exists cz0.
    split; [reflexivity|]. split; [cbn [pr_t]; now rewrite cz_app_nil|]. split; [|split; [|reflexivity]].
    + intro u. cbn [set_t pr_ps]. rewrite M. cbn [bind]. now rewrite cz_app_nil.
    + intros D R [P1 P2]. split; [split; constructor|]. split; assumption.
Qed.
Lemma pops_run_frame : forall os p p' x, pops_run aes_enc Delta pub p os = Ok (p', x) ->
  exists d, bal d /\ pr_t p' = cz_app (pr_t p) d /\
    (forall u, pops_run aes_enc Delta pub (set_t p u) os = Ok (set_t p' (cz_app u d), x)) /\
    (dsmall -> Forall osmall os -> psmall p -> czsmall d /\ psmall p') /\ pr_hs p' = pr_hs p.
Proof.
  induction os as [|o os IH]; intros p p' x H; cbn [pops_run] in H.
  - injection H as <- <-. exists cz0. split; [reflexivity|]. rewrite cz_app_nil. split; [reflexivity|].
    split; [intro u; now rewrite cz_app_nil|]. split; [|reflexivity]. intros D _ P. split; [split; constructor|assumption].
  - apply bind_inv in H as ([p1 y] & H1 & H). apply bind_inv in H as ([p2 ys] & H2 & H). injection H as <- <-.
    destruct (pop_run_frame _ _ _ _ H1) as (d1 & B1 & E1 & U1 & S1 & Q1). destruct (IH _ _ _ H2) as (d2 & B2 & E2 & U2 & S2 & Q2).
    exists (cz_app d1 d2). split; [now apply bal_app|]. split; [now rewrite E2, E1, cz_app_assoc|]. split; [|split].
    + intro u. cbn [pops_run]. rewrite U1. cbn [bind]. rewrite U2. cbn [bind]. now rewrite cz_app_assoc.
    + intros D O P. inversion O; subst. destruct S1 as [X1 X2]; auto. destruct S2 as [X3 X4]; auto.
      split; [now apply czsmall_app|assumption].
    + now rewrite Q2.
Qed.
End F.
