(** Acceptance in a run against a peer that sends anything: the share the peer opens is fixed before its
    commitment arrives. *)
From Coq Require Import List NArith ZArith Bool Arith Lia.
From Verif Require Import L_Bits L_Res S_Circuit S_Sched S_Talk S_Codec L_Group S_Ec.
From Verif Require Import M_EmpInteger M_Utils M_Bristol M_Bn M_Ec M_E2f M_Sym M_SymOn M_Block M_Ole2k M_Commit M_Aead M_Exch M_ExchDh M_View M_LabRec M_Garble M_GcProc M_Inter M_Live M_Whole.
From Verif Require Import P_Utils P_Gcm.
Import ListNotations.
Local Open Scope N_scope.
Local Opaque bytes_of_block block_of_bytes.

(** a program never stops and goes on after the same pieces *)
Lemma talk_det {A} (p : proc A) i a : talk p i a -> forall i' a' x x', talk p i' a' -> i ++ x = i' ++ x' -> i = i' /\ a = a' /\ x = x'.
Proof.
  induction 1 as [a|c l p ins r H IH|c p ins r H IH|c n k bs ins r L H IH]; intros i' a' x x' F E; inversion F; subst.
  - auto.
  - cbn in E. injection E as E. match goal with G : talk p ?i ?a, E : _ ++ _ = ?i ++ _ |- _ => destruct (IH i a _ _ G E) as (E1 & E2 & E3) end. subst. auto.
  - eapply IH; eassumption.
  - cbn in E. injection E as E0 E. subst. match goal with G : talk (k _) ?i ?a, E : _ ++ _ = ?i ++ _ |- _ => destruct (IH i a _ _ G E) as (E1 & E2 & E3) end. subst. auto.
Qed.
Lemma talk_bind {A B} (p : proc A) (f : A -> proc B) : forall ins r, talk (pbind p f) ins r ->
  exists i1 a i2, ins = i1 ++ i2 /\ talk p i1 a /\ talk (f a) i2 r.
Proof.
  induction p as [a|c l p IH|c p IH|c n k IH]; cbn [pbind]; intros ins r H.
  - exists [], a, ins. split; [reflexivity|]. split; [constructor|exact H].
  - inversion H; subst. destruct (IH _ _ ltac:(eassumption)) as (i1 & a & i2 & -> & F1 & F2). exists (Sent l :: i1), a, i2. split; [reflexivity|]. split; [now constructor|exact F2].
  - inversion H; subst. destruct (IH _ _ ltac:(eassumption)) as (i1 & a & i2 & E & F1 & F2). exists i1, a, i2. split; [exact E|]. split; [now constructor|exact F2].
  - inversion H; subst. destruct (IH _ _ _ ltac:(eassumption)) as (i1 & a & i2 & -> & F1 & F2).
    exists (Got bs :: i1), a, i2. split; [reflexivity|]. split; [now constructor|exact F2].
Qed.

Section C.
Variable hash : list N -> list N.
(** the messages of an accepted opening, in order: our commitment, the peer's, our share and string, the
    peer's; and the two shares make the tag *)
Definition opening (tag d com s u o rn : list N) : Prop :=
  d = hash (s ++ u) /\ com = hash (octets o ++ rn) /\ length o = 16%nat /\ tag = rev (xored s (octets o)).
(** [sel] picks the accepted text out of the result *)
Definition pins {A} (p : proc (res A)) (sel : A -> option (option (list N))) (tag : list N) : Prop := forall ins r m, talk p ins (Ok r) -> sel r = Some m ->
  exists pre d com s u o rn post, ins = pre ++ Sent d :: Got com :: Sent s :: Sent u :: Got o :: Got rn :: post /\ opening tag d com s u o rn /\
    forall i' x d' com' s' u' o' rn' post' r' m', talk p i' (Ok r') -> i' ++ x = pre ++ Sent d' :: Got com' :: Sent s' :: Sent u' :: Got o' :: Got rn' :: post' -> sel r' = Some m' ->
      opening tag d' com' s' u' o' rn' /\ s' = s /\ octets o' = octets o /\ m' = m.
Local Ltac ten := intros i' x d' com' s' u' o' rn' post' r' m' F' E' S'.
Lemma pins_right {A B} (p : proc (res A)) (f : A -> proc (res B)) sel tag : (forall a, pins (f a) sel tag) -> pins (rbind p f) sel tag.
Proof.
  intros H ins r m F S. destruct (talk_bind _ _ _ _ F) as (i1 & a & i2 & -> & F1 & F2).
  destruct a as [a| |]; [|inversion F2..].
  destruct (H a _ _ _ F2 S) as (pre & d & com & s & u & o & rn & post & -> & Op & K).
  exists (i1 ++ pre), d, com, s, u, o, rn, post. split; [now rewrite app_assoc|]. split; [exact Op|].
  ten. destruct (talk_bind _ _ _ _ F') as (j1 & b & j2 & -> & G1 & G2).
  rewrite <- !app_assoc in E'. symmetry in E'. destruct (talk_det _ _ _ F1 _ _ _ _ G1 E') as (<- & <- & E2). symmetry in E2. eapply K; eassumption.
Qed.
(** the selected result is that of the first part *)
Lemma pins_left {A B} (p : proc (res A)) (f : A -> proc (res B)) selA selB tag :
  (forall a i b, talk (f a) i (Ok b) -> selB b = selA a) -> pins p selA tag -> pins (rbind p f) selB tag.
Proof.
  intros Hf H ins r m F S. destruct (talk_bind _ _ _ _ F) as (i1 & a & i2 & -> & F1 & F2).
  destruct a as [a| |]; [|inversion F2..]. rewrite (Hf _ _ _ F2) in S.
  destruct (H _ _ _ F1 S) as (pre & d & com & s & u & o & rn & post & -> & Op & K).
  exists pre, d, com, s, u, o, rn, (post ++ i2). split; [rewrite <- app_assoc; reflexivity|]. split; [exact Op|].
  ten. destruct (talk_bind _ _ _ _ F') as (j1 & b & j2 & -> & G1 & G2).
  destruct b as [b| |]; [|inversion G2..]. rewrite (Hf _ _ _ G2) in S'. rewrite <- app_assoc in E'. eapply K; eassumption.
Qed.
Lemma pins_none {A} (p : proc (res A)) sel tag : (forall i r, talk p i (Ok r) -> sel r = None) -> pins p sel tag.
Proof. intros H ins r m F S. rewrite (H _ _ F) in S. discriminate. Qed.

Lemma octets_lt l : Forall (fun b => b < 256) (octets l).
Proof. apply Forall_forall. intros z Hz. apply in_map_iff in Hz as (y & <- & _). apply N.mod_lt. discriminate. Qed.
Lemma round16 o : length o = 16%nat -> bytes_of_block (block_of_bytes o) = octets o.
Proof.
  intro L. pose proof (octets_lt o) as B.
  assert (E : block_of_bytes o = block_of_bytes (octets o)).
  { Transparent block_of_bytes. unfold block_of_bytes, octets. Opaque block_of_bytes. f_equal. rewrite flat_map_concat_map, (flat_map_concat_map _ (map _ _)), map_map. f_equal. apply map_ext. intro b. symmetry. apply (bits_of_N_mod 8). }
  rewrite E, bytes_of_block_le, block_of_bytes_le by exact B. replace 16%nat with (length (octets o)) by (unfold octets; now rewrite map_length). now apply le_enc_val.
Qed.
Lemma le_enc_xor n : forall a b, le_enc n (N.lxor a b) = xored (le_enc n a) (le_enc n b).
Proof.
  induction n as [|n IH]; intros a b; [reflexivity|]. cbn [le_enc xored]. f_equal.
  - change 256 with (2 ^ 8). rewrite <- !N.land_ones. apply N.bits_inj. intro k. rewrite !N.land_spec, !N.lxor_spec, !N.land_spec. now destruct (N.testbit a k), (N.testbit b k), (N.testbit (N.ones 8) k).
  - rewrite <- IH. f_equal. change 256 with (2 ^ 8). rewrite <- !N.shiftr_div_pow2. apply N.shiftr_lxor.
Qed.
Lemma block_xor a o : length o = 16%nat -> bytes_of_block (N.lxor a (block_of_bytes o)) = xored (bytes_of_block a) (octets o).
Proof. intro L. rewrite <- (round16 o) by exact L. rewrite !bytes_of_block_le. apply le_enc_xor. Qed.
Lemma xored_inj : forall s a b, length a = length s -> length b = length s -> xored s a = xored s b -> a = b.
Proof.
  induction s as [|x s IH]; intros [|y a] [|z b] La Lb E; try discriminate; [reflexivity|]. cbn in E. injection E as E1 E2.
  f_equal; [|apply IH; cbn in *; congruence]. apply (f_equal (N.lxor x)) in E1. now rewrite <- !N.lxor_assoc, !N.lxor_nilpotent, !N.lxor_0_l in E1.
Qed.
(** the exchange of commitments *)
Lemma pins_base {A} (c s : chan) u tag out (p : A) msg sel :
  (forall v, sel (p, (msg, v)) = if v : bool then Some msg else None) ->
  pins (Send s (dec_msg1 hash out u) (Flush s (Recv c DIGEST_SIZE (fun com => Send s (bytes_of_block out) (Send s u (Flush s (Recv c 16 (fun o => Recv c rand_length (fun rn =>
    Ret (Ok (p, (msg, dec_verdict hash tag out com (block_of_bytes o, rn))))))))))))) sel tag.
Proof.
  intro Hs.
  assert (INV : forall i r m, talk (Send s (dec_msg1 hash out u) (Flush s (Recv c DIGEST_SIZE (fun com => Send s (bytes_of_block out) (Send s u (Flush s (Recv c 16 (fun o => Recv c rand_length (fun rn =>
      Ret (Ok (p, (msg, dec_verdict hash tag out com (block_of_bytes o, rn))))))))))))) i (Ok r) -> sel r = Some m ->
    exists d com o rn, i = [Sent d; Got com; Sent (bytes_of_block out); Sent u; Got o; Got rn] /\ opening tag d com (bytes_of_block out) u o rn /\ m = msg).
  { intros i r m F S. inversion F as [|? ? ? ? ? F0| |]; subst. inversion F0 as [| |? ? ? ? F0'|]; subst.
    inversion F0' as [| | |? ? ? com i1 ? L1 F1]; subst. inversion F1 as [|? ? ? ? ? F2| |]; subst. inversion F2 as [|? ? ? ? ? F3| |]; subst. inversion F3 as [| |? ? ? ? F4|]; subst.
    inversion F4 as [| | |? ? ? o i2 ? L2 F5]; subst. inversion F5 as [| | |? ? ? rn i3 ? L3 F6]; subst. inversion F6; subst.
    rewrite Hs in S. unfold dec_verdict, com_open in S. cbn [fst snd] in S. rewrite round16, block_xor in S by assumption.
    destruct (bytes_eqb com (hash (octets o ++ rn))) eqn:E1; [|discriminate]. destruct (bytes_eqb tag _) eqn:E2; [|discriminate].
    apply bytes_eqb_spec in E1, E2. injection S as <-. exists (dec_msg1 hash out u), com, o, rn. split; [reflexivity|]. split; [repeat split; assumption|reflexivity]. }
  intros ins r m F S. destruct (INV _ _ _ F S) as (d & com & o & rn & -> & Op & ->).
  exists [], d, com, (bytes_of_block out), u, o, rn, []. split; [reflexivity|]. split; [exact Op|].
  ten. destruct (INV _ _ _ F' S') as (d2 & com2 & o2 & rn2 & -> & Op2 & ->).
  cbn in E'. injection E' as <- <- <- <- <- <- _. split; [exact Op2|]. split; [reflexivity|]. split; [|reflexivity].
  destruct Op as (_ & _ & L & T), Op2 as (_ & _ & L2 & T2). apply (f_equal (@rev N)) in T, T2. rewrite !rev_involutive in T, T2.
  assert (Lb : length (bytes_of_block out) = 16%nat) by (rewrite bytes_of_block_le; apply le_enc_length).
  apply (xored_inj (bytes_of_block out)); [unfold octets; rewrite map_length; congruence..|congruence].
Qed.
Variable gfr : N -> N -> N.
Definition sel1 (x : pout) : option (option (list N)) := match x with PDec (m, true) => Some m | _ => None end.
(** the tag a record call is given *)
Definition tag_of (o : lcall) : list N := match lc_in o with InDec _ t _ _ _ _ _ => t | _ => [] end.
Lemma pins_op alice p o w ro : pins (l_op gfr hash alice p (lc_in o) w ro) (fun y => sel1 (snd y)) (tag_of o).
Proof.
  unfold tag_of. destruct (lc_in o) as [ma mb aad iv sec|c t aad iv sec ra rb]; cbn [l_op].
  - apply pins_none. intros i r F. destruct (talk_bind _ _ _ _ F) as (i1 & a & i2 & -> & _ & F2). destruct a as [[p1 y]| |]; inversion F2; subst. reflexivity.
  - eapply pins_left with (selA := fun y => match y with (_, (m, v)) => if v : bool then Some m else None end).
    { intros [p1 [m v]] i b F. inversion F; subst. reflexivity. }
    unfold l_decrypt. apply pins_right. intro z0. cbv zeta. apply pins_right. intros [p1 msg]. apply pins_right. intros [p2 out].
    destruct alice; apply pins_base; reflexivity.
Qed.
Section RUN.
Variable St : Type.
Variable run : St -> list instr -> proc (res St).
Variable labels : St -> list N.
Variable saws : St -> list (list bool).
Variable alice : bool.
(** the accepted text of the k-th record *)
Definition selk {T} (k : nat) (y : T * list pout) : option (option (list N)) := match nth_error (snd y) k with Some x => sel1 x | None => None end.
(** the record calls, in order *)
Definition recs (cs : list icall) : list lcall := flat_map (fun c => match c with CRec o => [o] | _ => [] end) cs.
Definition tagk (k : nat) (l : list lcall) : list N := match nth_error l k with Some o => tag_of o | None => [] end.
Lemma pins_irun : forall l g objs k, pins (i_run gfr hash St run labels saws alice g objs l) (selk k) (tagk k (recs (map it_call l))).
Proof.
  induction l as [|i l IH]; intros g objs k; cbn [i_run].
  - apply pins_none. intros j r F. inversion F; subst. now destruct k.
  - apply pins_right. intro g1. assert (U : forall A (sel : A -> _) tag, pins (Ret (@UB A)) sel tag) by (intros A sel tag; apply pins_none; intros j r F; inversion F).
    cbn [map recs flat_map]. destruct (it_call i) as [c|srv r ro|o], (it_ws i) as [|z0 [|z [|? ?]]]; try apply U; [apply IH|apply pins_right; intro p; apply IH|].
    destruct (nth_error objs _) as [p|]; [|apply U]. cbv zeta. destruct k as [|k].
    + eapply pins_left; [|apply (pins_op alice p o)]. intros [p1 x] j [g2 xs] F. destruct (talk_bind _ _ _ _ F) as (i1 & a & i2 & -> & _ & F2).
      destruct a as [[g3 ys]| |]; inversion F2; subst. reflexivity.
    + apply pins_right. intros [p1 x]. eapply pins_left; [|apply (IH _ _ k)]. intros [g2 xs] j [g3 ys] F. inversion F; subst. reflexivity.
Qed.
Lemma pins_istart l g k : pins (i_start gfr hash St run labels saws alice g l) (selk k) (tagk k (recs (map it_call l))).
Proof. apply pins_right. intro. apply pins_irun. Qed.
(** one result per record, of its kind *)
Definition kind (o : lcall) (x : pout) : Prop := match lc_in o, x with InEnc _ _ _ _ _, PEnc _ => True | InDec _ _ _ _ _ _ _, PDec _ => True | _, _ => False end.
Lemma kinds_irun : forall l g objs i r, talk (i_run gfr hash St run labels saws alice g objs l) i (Ok r) -> Forall2 kind (recs (map it_call l)) (snd r).
Proof.
  induction l as [|it l IH]; intros g objs i r F; cbn [i_run] in F.
  - inversion F; subst. constructor.
  - destruct (talk_bind _ _ _ _ F) as (i1 & a & i2 & -> & _ & F2). clear F. destruct a as [g1| |]; [|inversion F2..]. cbn [map recs flat_map].
    destruct (it_call it) as [c|srv rr ro|o], (it_ws it) as [|z0 [|z [|? ?]]]; try (inversion F2; fail).
    + exact (IH _ _ _ _ F2).
    + destruct (talk_bind _ _ _ _ F2) as (i3 & a & i4 & -> & _ & F4). destruct a as [p| |]; [|inversion F4..]. exact (IH _ _ _ _ F4).
    + destruct (nth_error objs _) as [p|]; [|inversion F2]. cbv zeta in F2.
      destruct (talk_bind _ _ _ _ F2) as (i3 & a & i4 & -> & F3 & F4). destruct a as [[p1 x]| |]; [|inversion F4..].
      destruct (talk_bind _ _ _ _ F4) as (i5 & a & i6 & -> & F5 & F6). destruct a as [[g2 xs]| |]; inversion F6; subst.
      cbn [app snd]. constructor; [|exact (IH _ _ _ _ F5)].
      unfold kind. destruct (lc_in o); cbn [l_op] in F3; destruct (talk_bind _ _ _ _ F3) as (i7 & a & i8 & _ & _ & F8); destruct a as [[p2 y]| |]; inversion F8; subst; exact I.
Qed.
End RUN.
Lemma items_calls orc ks enc : forall cs x s t, items orc ks enc cs x s = Ok t -> map it_call t = cs.
Proof.
  induction cs as [|c cs IH]; cbn [items]; intros x s t E; [now injection E as <-|].
  destruct (on_do _ _ _ _ _ _) as [[x' s']| |]; try discriminate. destruct (items _ _ _ cs _ _) as [t'| |] eqn:E'; try discriminate. cbn [bind] in E. injection E as <-. cbn. now rewrite (IH _ _ _ E').
Qed.
Lemma pins_lstart ks enc q rounds cs St step saws labels alice g k : pins (l_start ks enc q rounds cs St step saws gfr hash labels alice g) (selk k) (tagk k (recs cs)).
Proof.
  unfold l_start. destruct (session_items _ _ _ _ _ _) as [its| |] eqn:E; [rewrite <- (items_calls _ _ _ _ _ _ _ E); apply pins_istart|..]; apply pins_none; intros i r F; inversion F.
Qed.
Lemma kinds_lstart ks enc q rounds cs St step saws labels alice g i r : talk (l_start ks enc q rounds cs St step saws gfr hash labels alice g) i (Ok r) -> Forall2 kind (recs cs) (snd r).
Proof.
  unfold l_start. destruct (session_items _ _ _ _ _ _) as [its| |] eqn:E; intro F; [|inversion F..].
  destruct (talk_bind _ _ _ _ F) as (i1 & a & i2 & -> & _ & F2). destruct a as [g1| |]; [|inversion F2..].
  apply kinds_irun in F2. now rewrite (items_calls _ _ _ _ _ _ _ E) in F2.
Qed.

(** the two programs of the whole run *)
(** a program with one result per record, that accepts only on a fixed opening *)
Definition fixed_openings {T} (p : proc (res (T * nat * list pout))) (l : list lcall) : Prop :=
  forall tr g n xs, talk p tr (Ok (g, n, xs)) ->
    Forall2 kind l xs /\
    forall k m, nth_error xs k = Some (PDec (m, true)) ->
      exists call pre d com s u o rn post, nth_error l k = Some call /\
        tr = pre ++ Sent d :: Got com :: Sent s :: Sent u :: Got o :: Got rn :: post /\ opening (tag_of call) d com s u o rn /\
        forall d' com' s' u' o' rn' post' g' n' xs' m',
          talk p (pre ++ Sent d' :: Got com' :: Sent s' :: Sent u' :: Got o' :: Got rn' :: post') (Ok (g', n', xs')) ->
          nth_error xs' k = Some (PDec (m', true)) -> opening (tag_of call) d' com' s' u' o' rn' /\ s' = s /\ octets o' = octets o /\ m' = m.
Lemma pins_fixed {T} (p : proc (res (T * nat * list pout))) l : (forall k, pins p (selk k) (tagk k l)) ->
  (forall tr r, talk p tr (Ok r) -> Forall2 kind l (snd r)) -> fixed_openings p l.
Proof.
  intros P KD0 ins g n xs F. pose proof (KD0 _ _ F) as KD. cbn [snd] in KD. split; [exact KD|]. intros k m Hk.
  assert (X : exists call, nth_error l k = Some call).
  { clear - KD Hk. revert k Hk. induction KD as [|o x l xs _ _ IH]; intros [|k] Hk; try discriminate; [cbn; eauto|exact (IH k Hk)]. }
  destruct X as [call Ec]. pose proof (P k) as Pk. unfold tagk in Pk. rewrite Ec in Pk.
  destruct (Pk _ _ m F) as (pre & d & com & s & u & o & rn & post & E & Op & K); [unfold selk; cbn [snd]; now rewrite Hk|].
  exists call, pre, d, com, s, u, o, rn, post. split; [exact Ec|]. split; [exact E|]. split; [exact Op|]. intros d' com' s' u' o' rn' post' g' n' xs' m' F' Hk'.
  apply (K _ [] d' com' s' u' o' rn' post' _ m' F'); [apply app_nil_r|]. unfold selk. cbn [snd]. now rewrite Hk'.
Qed.
(** a session on either backend, each party on its own *)
Theorem session_accept : forall ks enc q rounds cs sigma aes Hash fixk Kc rnd lab delta bs off,
  fixed_openings (l_gen ks enc q rounds cs gfr hash sigma aes Hash fixk Kc lab delta bs) (recs cs) /\
  fixed_openings (l_eva ks enc q rounds cs gfr hash sigma aes Hash fixk Kc rnd lab delta bs) (recs cs) /\
  fixed_openings (l_gen2 ks enc q rounds cs gfr hash sigma aes Hash fixk lab delta off) (recs cs) /\
  fixed_openings (l_eva2 ks enc q rounds cs gfr hash sigma aes Hash fixk lab delta off) (recs cs).
Proof.
  intros. split; [|split; [|split]]; apply pins_fixed; try (intros k; apply pins_lstart); try (intros tr r F; now apply kinds_lstart in F).
  - intro k. apply pins_right. intro. apply pins_lstart.
  - intros tr r F. destruct (talk_bind _ _ _ _ F) as (i1 & a & i2 & -> & _ & F2). destruct a as [a| |]; [|inversion F2..]. now apply kinds_lstart in F2.
  - intro k. apply pins_right. intro. apply pins_lstart.
  - intros tr r F. destruct (talk_bind _ _ _ _ F) as (i1 & a & i2 & -> & _ & F2). destruct a as [a| |]; [|inversion F2..]. now apply kinds_lstart in F2.
Qed.
Theorem whole_accept : forall (C : Curve) ccrh q bl ks enc rounds sigma aes Hash fixk lab delta cs off t (Ts : pt C) r Delta raw l, (forall p, recs (cs p) = l) ->
  (forall tr g n xs, talk (w_alice ccrh q bl ks enc rounds gfr hash sigma aes Hash fixk lab delta cs off t Ts r Delta raw) tr (Ok (g, n, xs)) ->
     Forall2 kind l xs /\
     forall k m, nth_error xs k = Some (PDec (m, true)) ->
       exists call pre d com s u o rn post, nth_error l k = Some call /\
         tr = pre ++ Sent d :: Got com :: Sent s :: Sent u :: Got o :: Got rn :: post /\ opening (tag_of call) d com s u o rn /\
         forall d' com' s' u' o' rn' post' g' n' xs' m',
           talk (w_alice ccrh q bl ks enc rounds gfr hash sigma aes Hash fixk lab delta cs off t Ts r Delta raw) (pre ++ Sent d' :: Got com' :: Sent s' :: Sent u' :: Got o' :: Got rn' :: post') (Ok (g', n', xs')) ->
           nth_error xs' k = Some (PDec (m', true)) -> opening (tag_of call) d' com' s' u' o' rn' /\ s' = s /\ octets o' = octets o /\ m' = m) /\
  (forall tr g n xs, talk (w_bob ccrh q bl ks enc rounds gfr hash sigma aes Hash fixk lab delta cs off t Ts r Delta raw) tr (Ok (g, n, xs)) ->
     Forall2 kind l xs /\
     forall k m, nth_error xs k = Some (PDec (m, true)) ->
       exists call pre d com s u o rn post, nth_error l k = Some call /\
         tr = pre ++ Sent d :: Got com :: Sent s :: Sent u :: Got o :: Got rn :: post /\ opening (tag_of call) d com s u o rn /\
         forall d' com' s' u' o' rn' post' g' n' xs' m',
           talk (w_bob ccrh q bl ks enc rounds gfr hash sigma aes Hash fixk lab delta cs off t Ts r Delta raw) (pre ++ Sent d' :: Got com' :: Sent s' :: Sent u' :: Got o' :: Got rn' :: post') (Ok (g', n', xs')) ->
           nth_error xs' k = Some (PDec (m', true)) -> opening (tag_of call) d' com' s' u' o' rn' /\ s' = s /\ octets o' = octets o /\ m' = m).
Proof.
  intros C ccrh q bl ks enc rounds sigma aes Hash fixk lab delta cs off t Ts r Delta raw l Hl.
  assert (ST : forall A B (p : proc (res A)) (f : A -> proc (res B)) i b, talk (rbind p f) i (Ok b) -> exists a j, talk (f a) j (Ok b)).
  { intros A B p f i b F. destruct (talk_bind _ _ _ _ F) as (i1 & a & i2 & _ & _ & F2). destruct a as [a| |]; [eauto|inversion F2..]. }
  split; apply pins_fixed.
  - intro k. do 2 (apply pins_right; intro). apply pins_right. intros [[? ?] ?]. apply pins_right. intros [? pms]. rewrite <- (Hl pms). apply pins_lstart.
  - intros tr [[g n] xs] F. apply ST in F as (a1 & j1 & F). apply ST in F as (a2 & j2 & F). apply ST in F as ([[a3 b3] c3] & j3 & F). apply ST in F as ([a4 b4] & j4 & F).
    apply kinds_lstart in F. now rewrite Hl in F.
  - intro k. do 3 (apply pins_right; intro). apply pins_right. intros [? pms]. rewrite <- (Hl pms). apply pins_lstart.
  - intros tr [[g n] xs] F. apply ST in F as (a1 & j1 & F). apply ST in F as (a2 & j2 & F). apply ST in F as (a3 & j3 & F). apply ST in F as ([a4 b4] & j4 & F).
    apply kinds_lstart in F. now rewrite Hl in F.
Qed.
End C.

(** a run of the two programs under the scheduler is one of these *)
Lemma pstep_dec {A} (s : side A) inc : (exists s' w', pstep s inc s' w') \/ forall s' w', ~ pstep s inc s' w'.
Proof.
  destruct s as [[a|c bs p|c p|c n k] o w].
  - right. intros s' w' H. inversion H.
  - left. do 2 eexists. constructor.
  - left. do 2 eexists. constructor.
  - destruct (get o c) as [|b0 l0] eqn:E.
    + destruct (le_dec n (length (get inc c))) as [L|L]; [left; do 2 eexists; now apply StepRecv|right; intros s' w' H; inversion H; subst; contradiction].
    + left. do 2 eexists. apply StepRecvFlush. rewrite E. discriminate.
Qed.
Lemma prog_step_dec {A B} (x : @config A B) : (exists y, prog_step x y) \/ stuck x.
Proof.
  destruct x as [a b]. destruct (pstep_dec a (wire b)) as [(a' & w' & H)|Na]; [left; eexists; apply StepA; exact H|].
  destruct (pstep_dec b (wire a)) as [(b' & w' & H)|Nb]; [left; eexists; apply StepB; exact H|].
  right. intros y H. inversion H; subst; [eapply Na|eapply Nb]; eassumption.
Qed.
Lemma pstep_talk {A} (s s' : side A) inc w' : pstep s inc s' w' -> forall i r, talk (prog s') i r -> exists i', talk (prog s) i' r.
Proof.
  intros H i r F. inversion H; subst; cbn in *; [eexists; constructor; exact F|eexists; constructor; exact F|eexists; exact F|].
  eexists. constructor; [|exact F]. now apply firstn_length_le.
Qed.
Theorem completes_talk {A B} (p : proc A) (q : proc B) a b : always_completes p q a b -> exists i j, talk p i a /\ talk q j b.
Proof.
  intros [H Ac]. change p with (prog (fst (start p q))). change q with (prog (snd (start p q))) at 2. revert H Ac. generalize (start p q). intros x H Ac. induction Ac as [x _ IH].
  destruct (prog_step_dec x) as [[y S]|S].
  - destruct (IH y (StepProg _ _ S)) as (i & j & Fi & Fj).
    { intros z R. apply H. clear - S R. induction R as [|y' z R IH St]; [eapply reach_step; [constructor|now constructor]|eapply reach_step; eassumption]. }
    inversion S; subst; cbn [fst snd] in *.
    + edestruct (pstep_talk _ _ _ _ ltac:(eassumption) _ _ Fi) as [i' Fi']. exists i', j. split; assumption.
    + edestruct (pstep_talk _ _ _ _ ltac:(eassumption) _ _ Fj) as [j' Fj']. exists i, j'. split; assumption.
  - rewrite (H x (reach_refl x) S). exists [], []. split; constructor.
Qed.
