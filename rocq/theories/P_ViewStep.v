(** Runs with views, one message at a time, over one channel. *)
From Coq Require Import List NArith ZArith Bool Arith Lia.
From Verif Require Import L_Bits L_Res S_Sched S_View L_Group M_Utils M_Bn M_Ole M_Ec M_Commit M_ComConv M_Exch M_ExchCc.
From Verif Require Import P_Bn P_Ole P_ComConv P_Sched P_Exch P_ExchDh P_View.
Import ListNotations.
Local Open Scope Z_scope.

(** bytes on the first channel only *)
Definition io (l : list N) : bufs := {| on_io := l; on_opt := [] |}.

(** * One step of each *)
Lemma lconv_sr {A B} bs n (p : proc A) (k : list N -> proc B) a b s t : length bs = n ->
  lconv p (k bs) a b (io s) (io t) -> lconv (Send IO bs p) (Recv IO n k) a b (io (bs ++ s)) (io t).
Proof.
  intros L H la lb. cbn [logged]. destruct (H la (put lb IO (get lb IO ++ bs))) as [m K].
  exists (S (S m)). econstructor; [apply AbsA; constructor|]. cbn [get nobufs on_io put app on_opt].
  econstructor; [apply AbsB; apply (ARecv IO n (fun bs => logged (k bs) (put lb IO (get lb IO ++ bs)))); cbn; lia|].
  cbn [get on_io put on_opt]. rewrite firstn_all2, skipn_all2 by lia.
  replace (more_in lb (io (bs ++ s))) with (more_in (put lb IO (get lb IO ++ bs)) (io s)); [exact K|].
  destruct lb. unfold more_in, io. cbn. now rewrite app_assoc.
Qed.
Lemma lconv_rs {A B} bs n (p : list N -> proc A) (k : proc B) a b s t : length bs = n ->
  lconv (p bs) k a b (io s) (io t) -> lconv (Recv IO n p) (Send IO bs k) a b (io s) (io (bs ++ t)).
Proof.
  intros L H la lb. cbn [logged]. destruct (H (put la IO (get la IO ++ bs)) lb) as [m K].
  exists (S (S m)). econstructor; [apply AbsB; constructor|]. cbn [get nobufs on_io put app on_opt].
  econstructor; [apply AbsA; apply (ARecv IO n (fun bs => logged (p bs) (put la IO (get la IO ++ bs)))); cbn; lia|].
  cbn [get on_io put on_opt]. rewrite firstn_all2, skipn_all2 by lia.
  replace (more_in la (io (bs ++ t))) with (more_in (put la IO (get la IO ++ bs)) (io t)); [exact K|].
  destruct la. unfold more_in, io. cbn. now rewrite app_assoc.
Qed.
Lemma lconv_fl {A B} c (p : proc A) (q : proc B) a b s t : lconv p q a b s t -> lconv (Flush c p) q a b s t.
Proof.
  intros H la lb. destruct (H la lb) as [m K]. exists (S m). cbn [logged]. econstructor; [apply AbsA; constructor|exact K].
Qed.
Lemma lconv_fr {A B} c (p : proc A) (q : proc B) a b s t : lconv p q a b s t -> lconv p (Flush c q) a b s t.
Proof.
  intros H la lb. destruct (H la lb) as [m K]. exists (S m). cbn [logged]. econstructor; [apply AbsB; constructor|exact K].
Qed.
Lemma lconv_seq {A B C D} (f : A -> proc (res C)) (g : B -> proc (res D)) p q a b c d s t s' t' :
  lconv p q (Ok a) (Ok b) (io s) (io t) -> lconv (f a) (g b) c d (io s') (io t') ->
  lconv (rbind p f) (rbind q g) c d (io (s ++ s')) (io (t ++ t')).
Proof. intros H K. exact (lconv_rbind f g p q a b c d (io s) (io t) (io s') (io t') H K). Qed.
Lemma lconv_end {A B} (a : A) (b : B) : lconv (Ret a) (Ret b) a b (io []) (io []).
Proof. exact (lconv_ret a b). Qed.

(** * One party first, then the other *)
Lemma solo_logged {A} (p : proc A) so si p' so' si' : solo p so si p' so' si' ->
  forall l, exists i, si = more_in i si' /\ solo (logged p l) so si (logged p' (more_in l i)) so' si'.
Proof.
  induction 1 as [p so si|p so si p' so' si' p'' so'' si'' H _ IH]; intro l.
  - exists nobufs. rewrite nil_more, more_nil. split; [reflexivity|constructor].
  - destruct H as [c bs p so si|c p so si|c n k so si L].
    + destruct (IH l) as (i & -> & K). exists i. split; [reflexivity|]. eapply solo_step; [constructor|exact K].
    + destruct (IH l) as (i & -> & K). exists i. split; [reflexivity|]. eapply solo_step; [constructor|exact K].
    + destruct (IH (put l c (get l c ++ firstn n (get si c)))) as (i & E & K).
      exists (put i c (firstn n (get si c) ++ get i c)). split.
      * apply bufs_ext. intro d. destruct (chan_dec c d) as [<-|N].
        -- rewrite get_more_in, get_put_same, <- app_assoc, <- get_more_in, <- E, get_put_same. now rewrite firstn_skipn.
        -- rewrite get_more_in, get_put_other by exact N. rewrite <- get_more_in, <- E. now rewrite get_put_other.
      * cbn [logged]. rewrite <- more_push.
        eapply solo_step; [apply (ARecv c n (fun bs => logged (k bs) (put l c (get l c ++ bs)))); exact L|exact K].
Qed.
Lemma lconv_ab {A B} (p : proc A) (q : proc B) a b s : solo p nobufs nobufs (Ret a) s nobufs ->
  solo q nobufs s (Ret b) nobufs nobufs -> lconv p q a b s nobufs.
Proof.
  intros H K la lb. destruct (solo_logged _ _ _ _ _ _ H la) as (i & E & H').
  destruct (solo_logged _ _ _ _ _ _ K lb) as (j & F & K'). rewrite more_nil in E, F. subst i j.
  eapply conv_ab; [exact H'|exact K'].
Qed.
Lemma conv_swap {A B} (p : proc A) (q : proc B) a b : conv p q a b -> conv q p b a.
Proof.
  intros [n H]. exists n. revert H.
  assert (G : forall n p q s t p' q' s' t', @abs_steps A B n (mkA p q s t) (mkA p' q' s' t') -> @abs_steps B A n (mkA q p t s) (mkA q' p' t' s')).
  { clear. induction n as [|n IH]; intros p q s t p' q' s' t' H; inversion H as [x E1 E2|m x y z S1 S2 E1 E2 E3]; subst; [constructor|].
    destruct y as [p1 q1 s1 t1]. apply IH in S2. econstructor; [|exact S2]. inversion S1; subst; [now apply AbsB|now apply AbsA]. }
  apply G.
Qed.
Lemma lconv_swap {A B} (p : proc A) (q : proc B) a b s t : lconv p q a b s t -> lconv q p b a t s.
Proof. intros H la lb. apply conv_swap, H. Qed.

(** * Numbers *)
Definition bn1 (x : Z) : list N := u32_bytes (N.of_nat (length (BN_bn2bin x))) ++ BN_bn2bin x.
Definition bns (l : list Z) : list N := flat_map bn1 l.
Section NUM.
Local Opaque BN_bn2bin BN_bin2bn u32_bytes u32_value.
Lemma fits_len x : fits x -> (bn_buf <? length (BN_bn2bin x))%nat = false /\
  (N.of_nat bn_buf <? u32_value (u32_bytes (N.of_nat (length (BN_bn2bin x)))))%N = false /\
  N.to_nat (u32_value (u32_bytes (N.of_nat (length (BN_bn2bin x))))) = length (BN_bn2bin x).
Proof.
  intro F. pose proof (num_bytes_least x bn_buf F) as L. rewrite bn2bin_length.
  assert (U : (N.of_nat (BN_num_bytes x) < 2 ^ 32)%N).
  { apply N.le_lt_trans with 1000%N; [|reflexivity]. unfold bn_buf in L. lia. }
  rewrite u32_round by exact U. rewrite Nat2N.id. split; [apply Nat.ltb_ge; exact L|]. split; [apply N.ltb_ge; lia|reflexivity].
Qed.
Lemma send_bn1 x : fits x -> send_bn x = Ok (bn1 x).
Proof. intro F. unfold send_bn. now rewrite (proj1 (fits_len x F)). Qed.
Lemma lconv_arr_sr {A B} x (f : unit -> proc (res A)) (g : list N -> proc (res B)) a b s t : fits x ->
  lconv (f tt) (g (BN_bn2bin x)) a b (io s) (io t) ->
  lconv (rbind (p_send_bn IO x) f) (rbind (p_recv_arr IO) g) a b (io (bn1 x ++ s)) (io t).
Proof.
  intros F H. destruct (fits_len x F) as (E1 & E2 & E3). unfold p_send_bn, p_recv_arr, rbind. rewrite E1. cbn [pbind].
  unfold bn1. rewrite <- app_assoc. apply lconv_sr; [apply u32_length|]. cbv zeta. rewrite E2. cbn [pbind]. apply lconv_sr; [now symmetry|]. exact H.
Qed.
Lemma lconv_bn_sr {A B} x (f : unit -> proc (res A)) (g : Z -> proc (res B)) a b s t : fits x -> 0 <= x ->
  lconv (f tt) (g x) a b (io s) (io t) ->
  lconv (rbind (p_send_bn IO x) f) (rbind (p_recv_bn IO) g) a b (io (bn1 x ++ s)) (io t).
Proof.
  intros F P H. destruct (fits_len x F) as (E1 & E2 & E3). unfold p_send_bn, p_recv_bn, rbind. rewrite E1. cbn [pbind].
  unfold bn1. rewrite <- app_assoc. apply lconv_sr; [apply u32_length|]. cbv zeta. rewrite E2. cbn [pbind]. apply lconv_sr; [now symmetry|].
  rewrite bin2bn_bn2bin, Z.abs_eq by exact P. exact H.
Qed.
Lemma lconv_bn_rs {A B} x (f : Z -> proc (res A)) (g : unit -> proc (res B)) a b s t : fits x -> 0 <= x ->
  lconv (f x) (g tt) a b (io s) (io t) ->
  lconv (rbind (p_recv_bn IO) f) (rbind (p_send_bn IO x) g) a b (io s) (io (bn1 x ++ t)).
Proof. intros F P H. apply lconv_swap, lconv_bn_sr; [exact F|exact P|]. apply lconv_swap, H. Qed.
Lemma solo_recv_arr c x rest so si : recv_arr (get si c) = Ok (x, rest) ->
  solo (p_recv_arr c) so si (Ret (Ok x)) so (put si c rest).
Proof.
  unfold recv_arr, p_recv_arr. destruct (Nat.ltb_spec (length (get si c)) 4) as [|L]; [discriminate|].
  set (len := u32_value (firstn 4 (get si c))).
  destruct (N.of_nat bn_buf <? len)%N eqn:E1; [discriminate|].
  destruct (Nat.ltb_spec (length (skipn 4 (get si c))) (N.to_nat len)) as [|L2]; [discriminate|].
  intro H.
  assert (x = firstn (N.to_nat len) (skipn 4 (get si c))) as -> by congruence.
  assert (rest = skipn (N.to_nat len) (skipn 4 (get si c))) as -> by congruence. clear H.
  eapply solo_step; [constructor; exact L|]. cbv zeta. fold len. rewrite E1.
  set (si1 := put si c (skipn 4 (get si c))).
  assert (G : get si1 c = skipn 4 (get si c)) by apply get_put_same.
  rewrite <- G in *. replace (put si c (skipn (N.to_nat len) (get si1 c))) with (put si1 c (skipn (N.to_nat len) (get si1 c)))
    by (unfold si1 at 1; now rewrite put_put).
  eapply solo_step; [apply (ARecv c (N.to_nat len) (fun arr => Ret (Ok arr))); exact L2|]. constructor.
Qed.
Lemma solo_recv_arrs c : forall n l rest so si, recv_arrs n (get si c) = Ok (l, rest) ->
  solo (p_recv_arrs c n) so si (Ret (Ok l)) so (put si c rest).
Proof.
  induction n as [|n IH]; intros l rest so si H; cbn [recv_arrs p_recv_arrs] in *.
  - assert (l = []) as -> by congruence. rewrite put_get_eq by congruence. constructor.
  - destruct (recv_arr (get si c)) as [[x s1]| |] eqn:E; try discriminate H. cbn [bind] in H.
    destruct (recv_arrs n s1) as [[l' s2]| |] eqn:E2; try discriminate H. cbn [bind] in H.
    assert (l = x :: l') as -> by congruence. assert (rest = s2) as -> by congruence.
    eapply solo_rbind; [apply solo_recv_arr, E|]. eapply solo_rbind.
    + apply (IH l' s2). now rewrite get_put_same.
    + rewrite put_put. constructor.
Qed.
Lemma send_bns_ok l : Forall fits l -> send_bns l = Ok (bns l).
Proof. induction 1 as [|x l F _ IH]; [reflexivity|]. cbn [send_bns]. rewrite (send_bn1 x F), IH. reflexivity. Qed.
Lemma lconv_arrs_sr l n : Forall fits l -> n = length l ->
  lconv (p_send_bns IO l) (p_recv_arrs IO n) (Ok tt) (Ok (map BN_bn2bin l)) (io (bns l)) (io []).
Proof.
  intros F ->. apply lconv_ab.
  - exact (solo_send_bns IO l (bns l) nobufs nobufs (send_bns_ok l F)).
  - destruct (recv_arrs_send l [] F) as (b & E & R). rewrite (send_bns_ok l F) in E. assert (b = bns l) as -> by congruence.
    rewrite app_nil_r in R. exact (solo_recv_arrs IO (length l) _ [] nobufs (io (bns l)) R).
Qed.
End NUM.

(** * Points *)
Section PTS.
Context {C : Curve}.
Notation point := (pt (cgrp C)).
Local Opaque oct2point point2oct.
Lemma solo_send_points (Ps : list point) : forall buf so si,
  solo (p_send_points buf Ps) so si (Ret (Ok tt)) (put so IO (get so IO ++ send_points buf Ps)) si.
Proof.
  induction Ps as [|P Ps IH]; intros buf so si; cbn [p_send_points send_points].
  - rewrite app_nil_r, put_get. constructor.
  - eapply solo_step; [constructor|]. specialize (IH (put_oct buf P) (put so IO (get so IO ++ put_oct buf P)) si).
    rewrite put_put, get_put_same, <- app_assoc in IH. exact IH.
Qed.
Lemma solo_recv_points (old : list point) : forall Ps hs rest so si, recv_points old (get si IO) = Ok (Ps, hs, rest) ->
  solo (p_recv_points old) so si (Ret (Ok (Ps, hs))) so (put si IO rest).
Proof.
  induction old as [|P old IH]; intros Ps hs rest so si H; cbn [p_recv_points recv_points] in *.
  - assert (Ps = []) as -> by congruence. assert (hs = []) as -> by congruence. rewrite put_get_eq by congruence. constructor.
  - unfold recv_data in H. destruct (Nat.ltb_spec (length (get si IO)) 65) as [|L]; [discriminate|]. cbn [bind] in H.
    destruct (recv_points old (skipn 65 (get si IO))) as [[[Ps' hs'] r']| |] eqn:E; try discriminate H. cbn [bind] in H.
    assert (Ps = match oct2point (firstn 65 (get si IO)) with Some Q => Q | None => P end :: Ps') as -> by congruence.
    assert (hs = firstn 65 (get si IO) ++ hs') as -> by congruence. assert (rest = r') as -> by congruence.
    eapply solo_step; [constructor; exact L|]. cbv zeta.
    eapply solo_rbind; [apply (IH Ps' hs' r'); rewrite get_put_same; exact E|]. rewrite put_put. constructor.
Qed.
Lemma lconv_points (Ps : list point) buf n : length buf = 65%nat -> n = length Ps ->
  lconv (p_recv_points (repeat pz n)) (p_send_points buf Ps) (Ok (Ps, send_points buf Ps)) (Ok tt) (io []) (io (send_points buf Ps)).
Proof.
  intros L ->. apply lconv_swap, lconv_ab.
  - exact (solo_send_points Ps buf nobufs nobufs).
  - pose proof (points_ok Ps buf [] L) as P. rewrite app_nil_r in P.
    exact (solo_recv_points _ Ps _ [] nobufs (io (send_points buf Ps)) P).
Qed.
End PTS.
