(** The tag of an encrypted record in a run against a peer that sends anything. *)
From Coq Require Import List NArith ZArith Bool Arith Lia.
From Verif Require Import L_Bits L_Res S_Circuit S_Sched S_Talk S_Codec L_Group S_Ec.
From Verif Require Import M_EmpInteger M_Utils M_Bristol M_Bn M_Ec M_E2f M_Sym M_SymOn M_Block M_Ole2k M_Commit M_Aead M_Exch M_ExchDh M_View M_LabRec M_Garble M_GcProc M_Inter M_Live M_Whole.
From Verif Require Import P_Utils P_Gcm P_Accept.
Import ListNotations.
Local Open Scope N_scope.
Local Opaque bytes_of_block block_of_bytes.

Lemma talk_app {A B} (p : proc A) i a : talk p i a -> forall (f : A -> proc B) j b, talk (f a) j b -> talk (pbind p f) (i ++ j) b.
Proof. induction 1; intros f j b F; cbn [pbind app]; [exact F|constructor; auto..]. Qed.
(** [sel] picks ciphertext and tag: the tag is the share sent and the share received next *)
Definition shown {A} (p : proc (res A)) (sel : A -> option (list N * list N)) : Prop := forall ins r c t, talk p ins (Ok r) -> sel r = Some (c, t) ->
  exists pre s o post, ins = pre ++ Sent s :: Got o :: post /\ length s = 16%nat /\ length o = 16%nat /\ t = rev (xored s (octets o)).
(** and if that is the end, any other share could have been received *)
Definition chosen {A} (p : proc (res A)) (sel : A -> option (list N * list N)) : Prop := forall ins r c t, talk p ins (Ok r) -> sel r = Some (c, t) ->
  exists pre s o, ins = pre ++ [Sent s; Got o] /\ (length s = 16%nat /\ Forall (fun b => b < 256) s) /\
    forall o', length o' = 16%nat -> exists r', talk p (pre ++ [Sent s; Got o']) (Ok r') /\ sel r' = Some (c, rev (xored s (octets o'))).
Lemma shown_right {A B} (p : proc (res A)) (f : A -> proc (res B)) sel : (forall a, shown (f a) sel) -> shown (rbind p f) sel.
Proof.
  intros H ins r c t F S. destruct (talk_bind _ _ _ _ F) as (i1 & a & i2 & -> & _ & F2). destruct a as [a| |]; [|inversion F2..].
  destruct (H a _ _ _ _ F2 S) as (pre & s & o & post & -> & K). exists (i1 ++ pre), s, o, post. split; [now rewrite app_assoc|exact K].
Qed.
Lemma shown_left {A B} (p : proc (res A)) (f : A -> proc (res B)) selA selB :
  (forall a i b, talk (f a) i (Ok b) -> selB b = selA a) -> shown p selA -> shown (rbind p f) selB.
Proof.
  intros Hf H ins r c t F S. destruct (talk_bind _ _ _ _ F) as (i1 & a & i2 & -> & F1 & F2). destruct a as [a| |]; [|inversion F2..]. rewrite (Hf _ _ _ F2) in S.
  destruct (H _ _ _ _ F1 S) as (pre & s & o & post & -> & K). exists pre, s, o, (post ++ i2). split; [rewrite <- app_assoc; reflexivity|exact K].
Qed.
Lemma shown_none {A} (p : proc (res A)) sel : (forall i r, talk p i (Ok r) -> sel r = None) -> shown p sel.
Proof. intros H ins r c t F S. rewrite (H _ _ F) in S. discriminate. Qed.
Lemma chosen_right {A B} (p : proc (res A)) (f : A -> proc (res B)) sel : (forall a, chosen (f a) sel) -> chosen (rbind p f) sel.
Proof.
  intros H ins r c t F S. destruct (talk_bind _ _ _ _ F) as (i1 & a & i2 & -> & F1 & F2). destruct a as [a| |]; [|inversion F2..].
  destruct (H a _ _ _ _ F2 S) as (pre & s & o & -> & L & K). exists (i1 ++ pre), s, o. split; [now rewrite app_assoc|]. split; [exact L|].
  intros o' L'. destruct (K o' L') as (r' & F' & S'). exists r'. split; [|exact S']. rewrite <- app_assoc. exact (talk_app _ _ _ F1 _ _ _ F').
Qed.
(** what follows neither sends nor receives and keeps the result *)
Lemma chosen_left {A B} (p : proc (res A)) (f : A -> B) (g : A -> proc (res B)) selA selB :
  (forall a, g a = Ret (Ok (f a))) -> (forall a, selB (f a) = selA a) -> chosen p selA -> chosen (rbind p g) selB.
Proof.
  intros Hg Hs H ins r c t F S. destruct (talk_bind _ _ _ _ F) as (i1 & a & i2 & -> & F1 & F2). destruct a as [a| |]; [|inversion F2..]. rewrite Hg in F2. inversion F2; subst. rewrite Hs in S.
  destruct (H _ _ _ _ F1 S) as (pre & s & o & -> & L & K). exists pre, s, o. split; [apply app_nil_r|]. split; [exact L|].
  intros o' L'. destruct (K o' L') as (r' & F' & S'). exists (f r'). split; [|now rewrite Hs].
  rewrite <- (app_nil_r (pre ++ _)). eapply talk_app; [exact F'|]. cbv beta iota. rewrite Hg. constructor.
Qed.
Lemma chosen_none {A} (p : proc (res A)) sel : (forall i r, talk p i (Ok r) -> sel r = None) -> chosen p sel.
Proof. intros H ins r c t F S. rewrite (H _ _ F) in S. discriminate. Qed.

Section C.
Variable hash : list N -> list N.
Variable gfr : N -> N -> N.
(** the exchange of the tag's shares *)
Lemma tag_base {A} (c s : chan) out (p : A) ctxt :
  let q := Send s (bytes_of_block out) (Flush s (Recv c 16 (fun o => Ret (Ok (p, (ctxt, rev (bytes_of_block (N.lxor out (block_of_bytes o))))))))) in
  shown q (fun y => Some (snd y)) /\ chosen q (fun y => Some (snd y)).
Proof.
  intro q. assert (Lb : length (bytes_of_block out) = 16%nat) by (rewrite bytes_of_block_le; apply le_enc_length).
  assert (INV : forall i r, talk q i (Ok r) -> exists o, i = [Sent (bytes_of_block out); Got o] /\ length o = 16%nat /\ snd r = (ctxt, rev (xored (bytes_of_block out) (octets o)))).
  { intros i r F. inversion F as [|? ? ? ? ? F1| |]; subst. inversion F1 as [| |? ? ? ? F2|]; subst. inversion F2 as [| | |? ? ? o i2 ? L F3]; subst. inversion F3; subst.
    exists o. split; [reflexivity|]. split; [exact L|]. cbn [snd]. now rewrite block_xor. }
  split; intros ins r c0 t F S; destruct (INV _ _ F) as (o & -> & L & E); rewrite E in S; injection S as <- <-.
  - exists [], (bytes_of_block out), o, []. auto.
  - exists [], (bytes_of_block out), o. split; [reflexivity|]. split; [split; [exact Lb|rewrite bytes_of_block_le; apply le_enc_bytes]|]. intros o' L'. eexists. split.
    + constructor. constructor. constructor; [exact L'|]. constructor.
    + cbn [snd]. now rewrite block_xor.
Qed.
Definition sele (x : pout) : option (list N * list N) := match x with PEnc y => Some y | _ => None end.
Lemma enc_op alice p i w ro : shown (l_op gfr hash alice p i w ro) (fun y => sele (snd y)) /\ chosen (l_op gfr hash alice p i w ro) (fun y => sele (snd y)).
Proof.
  destruct i as [ma mb aad iv sec|c t aad iv sec ra rb]; cbn [l_op].
  - split.
    + eapply shown_left with (selA := fun y => Some (snd y)); [intros [p1 y] i b F; inversion F; subst; reflexivity|].
      unfold l_encrypt. apply shown_right. intro z0. cbv zeta. apply shown_right. intros [p1 ct]. apply shown_right. intros [p2 out]. destruct alice; apply tag_base.
    + eapply chosen_left with (selA := fun y => Some (snd y)) (f := fun y => (fst y, PEnc (snd y))); [now intros [? ?]|reflexivity|].
      unfold l_encrypt. apply chosen_right. intro z0. cbv zeta. apply chosen_right. intros [p1 ct]. apply chosen_right. intros [p2 out]. destruct alice; apply tag_base.
  - assert (X : forall i r, talk (rbind (l_decrypt gfr hash alice p c t aad sec (if alice then ra else rb) w ro) (fun '(p, o) => Ret (Ok (p, PDec o)))) i (Ok r) -> sele (snd r) = None).
    { intros i r F. destruct (talk_bind _ _ _ _ F) as (i1 & a & i2 & -> & _ & F2). destruct a as [[p1 y]| |]; inversion F2; subst. reflexivity. }
    split; [now apply shown_none|now apply chosen_none].
Qed.
Section RUN.
Variable St : Type.
Variable run : St -> list instr -> proc (res St).
Variable labels : St -> list N.
Variable saws : St -> list (list bool).
Variable alice : bool.
Definition selek {T} (k : nat) (y : T * list pout) : option (list N * list N) := match nth_error (snd y) k with Some x => sele x | None => None end.
Lemma shown_irun : forall l g objs k, shown (i_run gfr hash St run labels saws alice g objs l) (selek k).
Proof.
  induction l as [|i l IH]; intros g objs k; cbn [i_run].
  - apply shown_none. intros j r F. inversion F; subst. now destruct k.
  - apply shown_right. intro g1. assert (U : forall A (sel : A -> _), shown (Ret (@UB A)) sel) by (intros A sel; apply shown_none; intros j r F; inversion F).
    destruct (it_call i) as [c|srv r ro|o], (it_ws i) as [|z0 [|z [|? ?]]]; try apply U; [apply IH|apply shown_right; intro p; apply IH|].
    destruct (nth_error objs _) as [p|]; [|apply U]. cbv zeta. destruct k as [|k].
    + eapply shown_left; [|apply enc_op]. intros [p1 x] j [g2 xs] F. destruct (talk_bind _ _ _ _ F) as (i1 & a & i2 & -> & _ & F2).
      destruct a as [[g3 ys]| |]; inversion F2; subst. reflexivity.
    + apply shown_right. intros [p1 x]. eapply shown_left; [|apply (IH _ _ k)]. intros [g2 xs] j [g3 ys] F. inversion F; subst. reflexivity.
Qed.
(** the last result, if the last call is a record *)
Definition sell {T} (y : T * list pout) : option (list N * list N) := match rev (snd y) with x :: _ => sele x | [] => None end.
Lemma chosen_irun l i o : it_call i = CRec o -> forall g objs, chosen (i_run gfr hash St run labels saws alice g objs (l ++ [i])) sell.
Proof.
  intro Ei. assert (U : forall A (sel : A -> _), chosen (Ret (@UB A)) sel) by (intros A sel; apply chosen_none; intros j r F; inversion F).
  induction l as [|i0 l IH]; intros g objs; cbn [app i_run].
  - apply chosen_right. intro g1. rewrite Ei. destruct (it_ws i) as [|z0 [|z [|? ?]]]; try apply U.
    destruct (nth_error objs _) as [p|]; [|apply U]. cbv zeta.
    eapply chosen_left with (f := fun y => (g1, [snd y])); [intros [? ?]; reflexivity|reflexivity|apply enc_op].
  - apply chosen_right. intro g1. destruct (it_call i0) as [c|srv r ro|o0], (it_ws i0) as [|z0 [|z [|? ?]]]; try apply U; [apply IH|apply chosen_right; intro p; apply IH|].
    destruct (nth_error objs _) as [p|]; [|apply U]. cbv zeta. apply chosen_right. intros [p1 x]. intros ins r c t F S.
    destruct (talk_bind _ _ _ _ F) as (i1 & a & i2 & -> & F1 & F2). destruct a as [[g2 xs]| |]; inversion F2; subst.
    assert (NE : xs <> []).
    { pose proof (kinds_irun hash gfr St run labels saws alice _ _ _ _ _ F1) as KD. cbn [snd] in KD. rewrite map_app in KD. cbn [map] in KD. rewrite Ei in KD. unfold recs in KD. rewrite flat_map_app in KD.
      cbn [flat_map app] in KD. intro Z. rewrite Z in KD. inversion KD as [E0|]. symmetry in E0. now apply app_eq_nil in E0 as [_ E0]. }
    assert (SE : forall (g : St) y ys, ys <> [] -> sell (g, y :: ys) = sell (g, ys)).
    { intros g0 y ys N. unfold sell. cbn [snd rev]. destruct (rev ys) as [|z1 zs] eqn:E; [|reflexivity]. apply (f_equal (@rev _)) in E. rewrite rev_involutive in E. contradiction. }
    rewrite SE in S by exact NE. destruct (IH _ _ _ _ _ _ F1 S) as (pre & s & o1 & -> & L & K). exists pre, s, o1. split; [apply app_nil_r|]. split; [exact L|].
    intros o' L'. destruct (K o' L') as ([g3 ys] & F' & S'). exists (g3, x :: ys). split.
    + rewrite <- (app_nil_r (pre ++ _)). eapply talk_app; [exact F'|]. constructor.
    + rewrite SE; [exact S'|]. intros ->. discriminate.
Qed.
End RUN.
Lemma shown_lstart ks enc q rounds cs St step saws labels alice g k : shown (l_start ks enc q rounds cs St step saws gfr hash labels alice g) (selek k).
Proof.
  unfold l_start. destruct (session_items _ _ _ _ _ _) as [its| |]; [apply shown_right; intro; apply shown_irun|..]; apply shown_none; intros i r F; inversion F.
Qed.
Lemma chosen_lstart ks enc q rounds cs o St step saws labels alice g : chosen (l_start ks enc q rounds (cs ++ [CRec o]) St step saws gfr hash labels alice g) sell.
Proof.
  unfold l_start. destruct (session_items _ _ _ _ _ _) as [its| |] eqn:E; [|apply chosen_none; intros i r F; inversion F..].
  apply items_calls in E. destruct (exists_last (l := its)) as (l & i & ->); [intros ->; destruct cs; discriminate|].
  rewrite map_app in E. cbn [map] in E. apply app_inj_tail in E as [_ E]. apply chosen_right. intro. now apply (chosen_irun _ _ _ _ _ _ _ o).
Qed.
Theorem whole_tags : forall (C : Curve) ccrh q bl ks enc rounds sigma aes Hash fixk lab delta cs off t (Ts : pt C) r Delta raw,
  let P := fun T (p : proc (res (T * nat * list pout))) => forall tr g n xs k c tag, talk p tr (Ok (g, n, xs)) -> nth_error xs k = Some (PEnc (c, tag)) ->
    exists pre s o post, tr = pre ++ Sent s :: Got o :: post /\ length s = 16%nat /\ length o = 16%nat /\ tag = rev (xored s (octets o)) in
  P _ (w_alice ccrh q bl ks enc rounds gfr hash sigma aes Hash fixk lab delta cs off t Ts r Delta raw) /\
  P _ (w_bob ccrh q bl ks enc rounds gfr hash sigma aes Hash fixk lab delta cs off t Ts r Delta raw).
Proof.
  intros C ccrh q bl ks enc rounds sigma aes Hash fixk lab delta cs off t Ts r Delta raw P.
  assert (FIN : forall T (p : proc (res (T * nat * list pout))), (forall k, shown p (selek k)) -> P T p).
  { intros T p H tr g n xs k c tag F E. apply (H k _ _ c tag F). unfold selek. cbn [snd]. now rewrite E. }
  split; apply FIN; intro k.
  - do 2 (apply shown_right; intro). apply shown_right. intros [[? ?] ?]. apply shown_right. intros [? pms]. apply shown_lstart.
  - do 3 (apply shown_right; intro). apply shown_right. intros [? pms]. apply shown_lstart.
Qed.
Lemma xored_back : forall s w, length w = length s -> Forall (fun b => b < 256) s -> Forall (fun b => b < 256) w -> xored s (octets (xored s w)) = w.
Proof.
  induction s as [|x s IH]; intros [|y w] L Fs Fw; try discriminate; [reflexivity|]. inversion Fs as [|? ? Fx Fs']; inversion Fw as [|? ? Fy Fw']; subst. cbn [xored octets map]. f_equal; [|apply IH; auto].
  rewrite N.mod_small; [|apply (lxor_lt x y 8); assumption]. now rewrite <- N.lxor_assoc, N.lxor_nilpotent, N.lxor_0_l.
Qed.
(** the peer that waits for the share decides on the tag of the last record *)
Theorem whole_tag_chosen : forall (C : Curve) ccrh q bl ks enc rounds sigma aes Hash fixk lab delta cs rc off t (Ts : pt C) r Delta raw,
  let P := fun T (p : proc (res (T * nat * list pout))) => forall tr g n xs c tag, talk p tr (Ok (g, n, xs ++ [PEnc (c, tag)])) ->
    exists pre s o, tr = pre ++ [Sent s; Got o] /\
      forall tag', length tag' = 16%nat -> Forall (fun b => b < 256) tag' ->
      exists g' n' xs', talk p (pre ++ [Sent s; Got (xored s (rev tag'))]) (Ok (g', n', xs' ++ [PEnc (c, tag')])) in
  P _ (w_alice ccrh q bl ks enc rounds gfr hash sigma aes Hash fixk lab delta (fun p => cs p ++ [CRec rc]) off t Ts r Delta raw) /\
  P _ (w_bob ccrh q bl ks enc rounds gfr hash sigma aes Hash fixk lab delta (fun p => cs p ++ [CRec rc]) off t Ts r Delta raw).
Proof.
  intros C ccrh q bl ks enc rounds sigma aes Hash fixk lab delta cs rc off t Ts r Delta raw P.
  assert (LX : forall s w, length w = length s -> length (xored s w) = length s) by (induction s as [|x s IH]; intros [|y w] L; try discriminate; [reflexivity|]; cbn in *; f_equal; apply IH; congruence).
  assert (FIN : forall T (p : proc (res (T * nat * list pout))), chosen p sell -> P T p).
  { intros T p H tr g n xs c tag F. destruct (H _ _ c tag F) as (pre & s & o & -> & [L Bs] & K); [unfold sell; cbn [snd]; now rewrite rev_app_distr|].
    exists pre, s, o. split; [reflexivity|]. intros tag' L' B'. assert (L2 : length (rev tag') = length s) by (rewrite rev_length; congruence).
    destruct (K (xored s (rev tag'))) as ([[g' n'] xs'] & F' & S'); [rewrite LX; congruence|].
    unfold sell in S'. cbn [snd] in S'. destruct (rev xs') as [|x ys] eqn:E; [discriminate|]. apply (f_equal (@rev _)) in E. rewrite rev_involutive in E. cbn [rev] in E.
    destruct x as [[c1 t1]|]; [|discriminate]. cbn [sele] in S'. rewrite xored_back in S' by (try assumption; now apply Forall_rev). rewrite rev_involutive in S'. injection S' as -> ->.
    exists g', n', (rev ys). now rewrite <- E. }
  split; apply FIN.
  - do 2 (apply chosen_right; intro). apply chosen_right. intros [[? ?] ?]. apply chosen_right. intros [? pms]. apply chosen_lstart.
  - do 3 (apply chosen_right; intro). apply chosen_right. intros [? pms]. apply chosen_lstart.
Qed.
End C.
