(** Input labels of the streaming backend (C27, C28). *)
From Coq Require Import List NArith Bool Arith Lia.
From Verif Require Import L_Bits L_Res L_Xor S_Circuit M_Block M_Garble P_Garble.
Import ListNotations.
Local Open Scope N_scope.

Arguments cot_r : simpl never.
Arguments cot_s : simpl never.
Lemma copy_some : forall {A} (l : list A) off n, (off + n <= length l)%nat ->
  copy (map Some l) off n = Ok (firstn n (skipn off l)).
Proof.
  intros A l off n; revert off; induction n; intros off H; [reflexivity|].
  unfold copy. cbn [seq map fold_right]. rewrite <- seq_shift, map_map.
  replace (map _ (seq 0 n)) with (map (fun i => match nth_error (map Some l) (S off + i) with Some o => o | None => None end) (seq 0 n))
    by (apply map_ext; intro; rewrite <- plus_n_Sm; reflexivity).
  change (fold_right _ (Ok []) (map (fun i => match nth_error (map Some l) (S off + i) with Some o => o | None => None end) (seq 0 n)))
    with (copy (map Some l) (S off) n).
  rewrite IHn by lia. rewrite Nat.add_0_r, nth_error_map.
  destruct (nth_error l off) eqn:E; [|apply nth_error_None in E; lia].
  cbn [option_map read bind]. f_equal.
  assert (Hs : skipn off l = a :: skipn (S off) l).
  { clear -E. revert off E; induction l; destruct off; cbn; intros; try discriminate.
    - inversion E; reflexivity.
    - apply IHl; exact E. }
  rewrite Hs. reflexivity.
Qed.
Lemma sub_seq : forall c n off k, (off + k <= n)%nat -> firstn k (skipn off (seq c n)) = seq (c + off) k.
Proof.
  intros c n off k H. replace n with (off + (k + (n - off - k)))%nat by lia.
  rewrite seq_app, skipn_app, skipn_all2 by (rewrite seq_length; lia). rewrite seq_length, Nat.sub_diag. cbn [app skipn].
  rewrite seq_app, firstn_app, seq_length, Nat.sub_diag, firstn_O, app_nil_r. apply firstn_all2. rewrite seq_length; lia.
Qed.
Lemma firstn_map2 : forall {A B C} (f : A -> B -> C) n l m, firstn n (map2 f l m) = map2 f (firstn n l) (firstn n m).
Proof. induction n; intros; [reflexivity|]. destruct l, m; try reflexivity. cbn. rewrite IHn; reflexivity. Qed.
Lemma skipn_map2 : forall {A B C} (f : A -> B -> C) n l m, skipn n (map2 f l m) = map2 f (skipn n l) (skipn n m).
Proof. induction n; intros; [reflexivity|]. destruct l, m; try reflexivity; cbn; [destruct (skipn n l); reflexivity|]. apply IHn. Qed.

(** which correlated OTs a request of [n] labels uses: [c0] is the first OT of the buffer *)
Record pos : Type := { p_c0 : nat; p_r0 : nat; p_top : nat; p_cot : nat; p_shared : nat; p_rnd : nat }.
Definition pos_take (bs : nat) (p : pos) (n : nat) : list nat * list nat * pos :=
  if (bs <? n)%nat then (seq (p_cot p) n, [],
     {| p_c0 := p_c0 p; p_r0 := p_r0 p; p_top := p_top p; p_cot := p_cot p + n; p_shared := p_shared p; p_rnd := p_rnd p |})
  else if (bs - p_top p <? n)%nat then
    let k := (bs - p_top p)%nat in
    (seq (p_c0 p + p_top p) k ++ seq (p_cot p) (n - k), seq (p_r0 p + p_top p) k ++ seq (p_rnd p) (n - k),
     {| p_c0 := p_cot p; p_r0 := p_rnd p; p_top := n - k; p_cot := p_cot p + bs; p_shared := p_shared p; p_rnd := p_rnd p + bs |})
  else (seq (p_c0 p + p_top p) n, seq (p_r0 p + p_top p) n,
    {| p_c0 := p_c0 p; p_r0 := p_r0 p; p_top := p_top p + n; p_cot := p_cot p; p_shared := p_shared p; p_rnd := p_rnd p |}).
Definition pos_ok (bs : nat) (p : pos) : Prop :=
  (p_top p <= bs /\ p_c0 p + bs <= p_cot p /\ p_r0 p + bs <= p_rnd p)%nat.
Definition pos_init (bs : nat) : pos :=
  {| p_c0 := 0; p_r0 := 0; p_top := 0; p_cot := bs; p_shared := 0; p_rnd := bs |}.

Section Feed.
Variables (Kc : nat -> N) (rnd : nat -> bool) (lab : nat -> N) (delta : N).
Definition finv (bs : nat) (p : pos) (g e : feeder) : Prop :=
  pos_ok bs p /\
  f_bs g = bs /\ f_bs e = bs /\ f_top g = p_top p /\ f_top e = p_top p /\
  f_cot g = p_cot p /\ f_cot e = p_cot p /\ f_shared g = p_shared p /\ f_shared e = p_shared p /\ f_rnd e = p_rnd p /\
  f_buf g = map Some (map Kc (seq (p_c0 p) bs)) /\
  f_buff e = map Some (map rnd (seq (p_r0 p) bs)) /\
  f_buf e = map Some (evl delta (map Kc (seq (p_c0 p) bs)) (map rnd (seq (p_r0 p) bs))).

Lemma cot_r_evl : forall c l, cot_r Kc delta c l = evl delta (map Kc (seq c (length l))) l.
Proof.
  unfold cot_r, evl. intros c l; revert c. induction l; intros; [reflexivity|]. cbn. rewrite IHl. reflexivity.
Qed.
Lemma len_map_seq : forall {A} (f : nat -> A) a n, length (map f (seq a n)) = n.
Proof. intros; rewrite map_length, seq_length; reflexivity. Qed.
Ltac len := rewrite ?len_map_seq; reflexivity || lia.

Lemma finv_init : forall bs, finv bs (pos_init bs) (gen_init Kc bs) (eva_init Kc rnd delta bs).
Proof.
  intro bs. unfold finv, pos_ok, pos_init, gen_init, eva_init, gen_refill, eva_refill, fresh; cbn.
  rewrite cot_r_evl, len_map_seq. repeat split; lia.
Qed.

Lemma part_evl : forall bs c r top n, (top + n <= bs)%nat ->
  firstn n (skipn top (evl delta (map Kc (seq c bs)) (map rnd (seq r bs))))
  = evl delta (map Kc (seq (c + top) n)) (map rnd (seq (r + top) n)).
Proof.
  intros. unfold evl. rewrite skipn_map2, firstn_map2. rewrite !skipn_map, !firstn_map, !sub_seq by assumption. reflexivity.
Qed.
Lemma part_map : forall {A} (f : nat -> A) bs c top n, (top + n <= bs)%nat ->
  firstn n (skipn top (map f (seq c bs))) = map f (seq (c + top) n).
Proof. intros. rewrite skipn_map, firstn_map, sub_seq by assumption. reflexivity. Qed.
Lemma evl_evl : forall (r b : list bool) (k : list N), length k = length r -> length r = length b ->
  evl delta k r = evl delta (evl delta k (map2 xorb r b)) b.
Proof.
  induction r; destruct b, k; cbn; intros; try discriminate; try reflexivity.
  unfold evl in *. cbn. rewrite (IHr b0 k) by lia. f_equal. destruct a, b; cbn; rewrite ?N.lxor_0_r; xor_solve.
Qed.

Definition msgs_of (corr : list nat) (bits : list bool) : list msg :=
  [MBits (map2 xorb (map rnd corr) bits)].

(** one request of evaluator inputs *)
Lemma feed_bob : forall bs p g e bits, finv bs p g e ->
  let '(idx, ridx, p') := pos_take bs p (length bits) in
  let corr := if (bs <? length bits)%nat then repeat false (length bits) else map2 xorb (map rnd ridx) bits in
  let m := if (bs <? length bits)%nat then [] else [MBits corr] in
  exists fe fg lg,
    lg = (if (bs <? length bits)%nat then map Kc idx else evl delta (map Kc idx) corr) /\
    eva_feed Kc rnd lab delta BOB bits e = Ok (evl delta lg bits, fe, m) /\
    (forall ch, gen_feed Kc lab delta BOB bits g (m ++ ch) = Ok (lg, fg, ch)) /\
    finv bs p' fg fe /\ length idx = length bits /\ length lg = length bits.
Proof.
  intros bs p g e bits (Hp & B1 & B2 & T1 & T2 & C1 & C2 & S1 & S2 & R & G & Ef & Eb).
  destruct Hp as (P1 & P2 & P3).
  unfold pos_take, eva_feed, gen_feed, gen_take. rewrite B1, B2, T1, T2.
  destruct (bs <? length bits)%nat eqn:L1.
  - eexists _, _, _. split; [reflexivity|].
    rewrite cot_r_evl, C2, C1. split; [reflexivity|]. split; [reflexivity|].
    split; [|split; [apply seq_length | apply len_map_seq]].
    unfold finv, pos_ok; cbn. repeat split; assumption || lia.
  - apply Nat.ltb_ge in L1. rewrite (proj2 (Nat.ltb_ge bs (p_top p))) by lia.
    destruct (bs - p_top p <? length bits)%nat eqn:L2.
    + apply Nat.ltb_lt in L2. set (k := (bs - p_top p)%nat) in *.
      rewrite Eb, Ef, G, !copy_some by (rewrite ?evl_length, ?len_map_seq by len; lia).
      cbn [bind]. unfold eva_refill, gen_refill; cbn [f_buf f_buff f_top f_bs f_cot f_shared f_rnd].
      rewrite ?cot_r_evl, ?len_map_seq, ?B1, ?B2. unfold cot_s.
      rewrite !copy_some by (rewrite ?evl_length, ?len_map_seq by len; lia). cbn [bind].
      rewrite !part_evl, !part_map by lia. rewrite !Nat.add_0_r, C1, C2, R.
      rewrite <- evl_app by len. rewrite <- !map_app.
      set (I := seq (p_c0 p + p_top p) k ++ seq (p_cot p) (length bits - k)).
      set (J := seq (p_r0 p + p_top p) k ++ seq (p_rnd p) (length bits - k)).
      assert (LI : length I = length bits) by (unfold I; rewrite app_length, !seq_length; lia).
      assert (LJ : length J = length bits) by (unfold J; rewrite app_length, !seq_length; lia).
      eexists _, _, _. split; [reflexivity|].
      rewrite (evl_evl (map rnd J) bits (map Kc I)) by (rewrite !map_length; lia).
      split; [reflexivity|]. split; [intro ch; cbn [app recv as_bits bind]; rewrite flip_evl; reflexivity|].
      split; [|split; [exact LI|rewrite evl_length; rewrite ?map_length; [exact LI|rewrite map2_length2; rewrite map_length; lia]]].
      unfold finv, pos_ok; cbn. repeat split; try assumption; try lia; try reflexivity.
    + apply Nat.ltb_ge in L2.
      rewrite Eb, Ef, G, !copy_some by (rewrite ?evl_length, ?len_map_seq by len; lia). cbn [bind].
      rewrite !part_evl, !part_map by lia.
      set (I := seq (p_c0 p + p_top p) (length bits)).
      set (J := seq (p_r0 p + p_top p) (length bits)).
      assert (LI : length I = length bits) by (unfold I; rewrite seq_length; lia).
      assert (LJ : length J = length bits) by (unfold J; rewrite seq_length; lia).
      eexists _, _, _. split; [reflexivity|].
      rewrite (evl_evl (map rnd J) bits (map Kc I)) by (rewrite !map_length; lia).
      split; [reflexivity|]. split; [intro ch; cbn [app recv as_bits bind]; rewrite flip_evl; reflexivity|].
      split; [|split; [exact LI|rewrite evl_length; rewrite ?map_length; [exact LI|rewrite map2_length2; rewrite map_length; lia]]].
      unfold finv, pos_ok; cbn. repeat split; assumption || lia.
Qed.
(** one request of garbler inputs *)
Lemma feed_alice : forall bs p g e bits, finv bs p g e ->
  let L := map lab (seq (p_shared p) (length bits)) in
  let p' := {| p_c0 := p_c0 p; p_r0 := p_r0 p; p_top := p_top p; p_cot := p_cot p; p_shared := p_shared p + length bits; p_rnd := p_rnd p |} in
  exists fe fg,
    eva_feed Kc rnd lab delta ALICE bits e = Ok (L, fe, []) /\
    (forall ch, gen_feed Kc lab delta ALICE bits g ch = Ok (evl delta L bits, fg, ch)) /\
    evl delta (evl delta L bits) bits = L /\
    finv bs p' fg fe.
Proof.
  intros bs p g e bits (Hp & B1 & B2 & T1 & T2 & C1 & C2 & S1 & S2 & R & G & Ef & Eb). cbn zeta.
  unfold eva_feed, gen_feed. rewrite S1, S2. eexists _, _. split; [reflexivity|].
  split; [intro; rewrite flip_evl; reflexivity|].
  split.
  - generalize (map lab (seq (p_shared p) (length bits))) (len_map_seq lab (p_shared p) (length bits)).
    clear. induction bits; destruct l; cbn; intros; try discriminate; try reflexivity.
    unfold evl in *. cbn. rewrite IHbits by lia. f_equal. xor_solve.
  - unfold finv, pos_ok in *; cbn. repeat split; assumption || apply Hp.
Qed.
End Feed.

Lemma NoDup_app_intro_alt : forall {A} (l m : list A), NoDup l -> NoDup m -> (forall x, In x l -> In x m -> False) -> NoDup (l ++ m).
Proof.
  induction l; intros m Hl Hm H; [exact Hm|]. inversion Hl; subst. cbn. constructor.
  - intro Hi. apply in_app_or in Hi. destruct Hi as [Hi|Hi]; [contradiction | apply (H a); [left; reflexivity | exact Hi]].
  - apply IHl; [assumption | assumption | intros x H4 H5; apply (H x); [right; exact H4 | exact H5]].
Qed.
(** ** Whole input histories: no OT string and no choice bit is ever used twice *)
Fixpoint hist (bs : nat) (p : pos) (ps : list (party * nat)) : list (bool * nat) * list nat * pos :=
  match ps with
  | [] => ([], [], p)
  | (ALICE, n) :: t =>
      let p1 := {| p_c0 := p_c0 p; p_r0 := p_r0 p; p_top := p_top p; p_cot := p_cot p; p_shared := p_shared p + n; p_rnd := p_rnd p |} in
      let '(s, r, q) := hist bs p1 t in (map (pair false) (seq (p_shared p) n) ++ s, r, q)
  | (_, n) :: t =>
      let '(idx, ridx, p1) := pos_take bs p n in
      let '(s, r, q) := hist bs p1 t in (map (pair true) idx ++ s, ridx ++ r, q)
  end.
Definition avail (bs : nat) (p : pos) (x : bool * nat) : Prop :=
  if fst x then (p_c0 p + p_top p <= snd x < p_c0 p + bs \/ p_cot p <= snd x)%nat else (p_shared p <= snd x)%nat.
Definition ravail (bs : nat) (p : pos) (i : nat) : Prop :=
  (p_r0 p + p_top p <= i < p_r0 p + bs \/ p_rnd p <= i)%nat.
Lemma pos_take_ok : forall bs p n, pos_ok bs p -> let '(idx, ridx, p') := pos_take bs p n in
  pos_ok bs p' /\ NoDup idx /\ NoDup ridx /\ length idx = n /\
  (forall i, In i idx -> avail bs p (true, i)) /\ (forall i, In i ridx -> ravail bs p i) /\
  (forall x, avail bs p' x -> avail bs p x /\ (fst x = true -> ~ In (snd x) idx)) /\
  (forall i, ravail bs p' i -> ravail bs p i /\ ~ In i ridx).
Proof.
  intros bs p n (P1 & P2 & P3). unfold pos_take.
  destruct (bs <? n)%nat eqn:L1; [|destruct (bs - p_top p <? n)%nat eqn:L2].
  - apply Nat.ltb_lt in L1. unfold pos_ok, avail, ravail; cbn.
    refine (conj _ (conj _ (conj _ (conj _ (conj _ (conj _ (conj _ _)))))));
      try lia; try (apply seq_NoDup); try (apply NoDup_nil); try (apply seq_length).
    + intros i Hi; apply in_seq in Hi. lia.
    + intros x Hx. split; [destruct (fst x); lia|]. intros E Hi; rewrite E in *. apply in_seq in Hi. lia.
  - apply Nat.ltb_lt in L2. apply Nat.ltb_ge in L1. unfold pos_ok, avail, ravail; cbn.
    refine (conj _ (conj _ (conj _ (conj _ (conj _ (conj _ (conj _ _))))))); try lia.
    + apply NoDup_app_intro_alt; try apply seq_NoDup. intros i H1 H2. apply in_seq in H1, H2. lia.
    + apply NoDup_app_intro_alt; try apply seq_NoDup. intros i H1 H2. apply in_seq in H1, H2. lia.
    + rewrite app_length, !seq_length. lia.
    + intros i Hi. apply in_app_or in Hi. destruct Hi as [Hi|Hi]; apply in_seq in Hi; lia.
    + intros i Hi. apply in_app_or in Hi. destruct Hi as [Hi|Hi]; apply in_seq in Hi; lia.
    + intros x Hx. split; [destruct (fst x); lia|].
      intros E Hi; rewrite E in *. apply in_app_or in Hi. destruct Hi as [Hi|Hi]; apply in_seq in Hi; lia.
    + intros i Hi. split; [lia|]. intros Hj. apply in_app_or in Hj. destruct Hj as [Hj|Hj]; apply in_seq in Hj; lia.
  - apply Nat.ltb_ge in L2. apply Nat.ltb_ge in L1. unfold pos_ok, avail, ravail; cbn.
    refine (conj _ (conj _ (conj _ (conj _ (conj _ (conj _ (conj _ _)))))));
      try lia; try (apply seq_NoDup); try (apply seq_length).
    + intros i Hi; apply in_seq in Hi. lia.
    + intros i Hi; apply in_seq in Hi. lia.
    + intros x Hx. split; [destruct (fst x); lia|]. intros E Hi; rewrite E in *. apply in_seq in Hi. lia.
    + intros i Hi. split; [lia|]. intros Hj. apply in_seq in Hj. lia.
Qed.

Lemma NoDup_pair : forall (b : bool) (l : list nat), NoDup l -> NoDup (map (pair b) l).
Proof.
  induction 1; cbn; constructor; try assumption. intro Hi. apply in_map_iff in Hi. destruct Hi as (y & E & Hy). inversion E; subst; contradiction.
Qed.
Lemma hist_ok : forall bs ps p, pos_ok bs p ->
  let '(s, r, q) := hist bs p ps in
  pos_ok bs q /\ NoDup s /\ NoDup r /\ (forall x, In x s -> avail bs p x) /\ (forall i, In i r -> ravail bs p i).
Proof.
  intros bs ps; induction ps as [|[pt n] t IH]; intros p Hp.
  - cbn. split; [exact Hp|]. split; [apply NoDup_nil|]. split; [apply NoDup_nil|]. split; intros ? [].
  - assert (HB : let '(s, r, q) := (let '(idx, ridx, p1) := pos_take bs p n in
      let '(s, r, q) := hist bs p1 t in (map (pair true) idx ++ s, ridx ++ r, q)) in
      pos_ok bs q /\ NoDup s /\ NoDup r /\ (forall x, In x s -> avail bs p x) /\ (forall i, In i r -> ravail bs p i)).
    { pose proof (pos_take_ok bs p n Hp) as H. destruct (pos_take bs p n) as [[idx ridx] p1].
      destruct H as (H1 & H2 & H3 & H4 & H5 & H6 & H7 & H8). specialize (IH p1 H1).
      destruct (hist bs p1 t) as [[s r] q]. destruct IH as (I1 & I2 & I3 & I4 & I5).
      split; [exact I1|]. split; [|split; [|split]].
      - apply NoDup_app_intro_alt; [apply NoDup_pair; exact H2 | exact I2 |].
        intros x Hx Hs. apply I4, H7 in Hs. apply in_map_iff in Hx. destruct Hx as (y & <- & Hy). apply (proj2 Hs); [reflexivity | exact Hy].
      - apply NoDup_app_intro_alt; [exact H3 | exact I3 |]. intros x Hx Hs. apply I5, H8 in Hs. apply (proj2 Hs). exact Hx.
      - intros x Hx. apply in_app_or in Hx. destruct Hx as [Hx|Hx].
        + apply in_map_iff in Hx. destruct Hx as (y & <- & Hy). apply H5; exact Hy.
        + apply I4, H7 in Hx. apply Hx.
      - intros x Hx. apply in_app_or in Hx. destruct Hx as [Hx|Hx]; [apply H6; exact Hx|]. apply I5, H8 in Hx. apply Hx. }
    destruct pt; [|exact HB|exact HB]. clear HB. cbn [hist].
    set (p1 := {| p_c0 := p_c0 p; p_r0 := p_r0 p; p_top := p_top p; p_cot := p_cot p; p_shared := p_shared p + n; p_rnd := p_rnd p |}).
    specialize (IH p1 Hp). destruct (hist bs p1 t) as [[s r] q]. destruct IH as (I1 & I2 & I3 & I4 & I5).
    split; [exact I1|]. split; [|split; [exact I3|split]].
    + apply NoDup_app_intro_alt; [apply NoDup_pair, seq_NoDup | exact I2 |].
      intros x Hx Hs. apply I4 in Hs. apply in_map_iff in Hx. destruct Hx as (y & <- & Hy). apply in_seq in Hy.
      unfold avail, p1 in Hs; cbn in Hs. lia.
    + intros x Hx. apply in_app_or in Hx. destruct Hx as [Hx|Hx].
      * apply in_map_iff in Hx. destruct Hx as (y & <- & Hy). apply in_seq in Hy. unfold avail; cbn. lia.
      * apply I4 in Hx. unfold avail, p1 in *; cbn in *. destruct (fst x); lia.
    + exact I5.
Qed.

(** the history run by both parties, with the transcript of correction messages *)
Definition feed_hist := list (party * list bool).
Definition lens (h : feed_hist) : list (party * nat) := map (fun x => (fst x, length (snd x))) h.
Definition values (h : feed_hist) : list bool := concat (map snd h).
(** evaluator inputs that go through the buffer *)
Definition buffered (bs : nat) (h : feed_hist) : list bool :=
  concat (map (fun x => match fst x with ALICE => [] | _ => if (bs <? length (snd x))%nat then [] else snd x end) h).
Fixpoint feeds (Kc : nat -> N) (rnd : nat -> bool) (lab : nat -> N) (delta : N) (g e : feeder) (h : feed_hist)
  : res (list N * list N * list msg * feeder * feeder) :=
  match h with
  | [] => Ok ([], [], [], g, e)
  | (p, bits) :: t =>
      (let* (le, m) := eva_feed Kc rnd lab delta p bits e in
       let* (lg, ch) := gen_feed Kc lab delta p bits g m in
       match ch with
       | [] => let* (r, e') := feeds Kc rnd lab delta (snd lg) (snd le) t in
               let '(a, b, c, g') := r in
               Ok (fst lg ++ a, fst le ++ b, m ++ c, g', e')
       | _ => UB
       end)%res
  end.
Definition src_val (Kc lab : nat -> N) (x : bool * nat) : N := if fst x then Kc (snd x) else lab (snd x).
Definition msg_bits (m : msg) : list bool := match m with MBits l => l | _ => [] end.

Lemma pos_take_ridx : forall bs p n, pos_ok bs p -> let '(idx, ridx, p') := pos_take bs p n in
  length ridx = if (bs <? n)%nat then 0%nat else n.
Proof.
  intros bs p n (P1 & P2 & P3). unfold pos_take. destruct (bs <? n)%nat eqn:E; [reflexivity|]. apply Nat.ltb_ge in E.
  destruct (bs - p_top p <? n)%nat eqn:L; [apply Nat.ltb_lt in L | apply Nat.ltb_ge in L]; rewrite ?app_length, !seq_length; lia.
Qed.
Lemma evl_false : forall delta l, evl delta l (repeat false (length l)) = l.
Proof. intros; unfold evl; induction l; [reflexivity|]. cbn. rewrite IHl, N.lxor_0_r. reflexivity. Qed.

Lemma feeds_ok : forall Kc rnd lab delta bs h p g e, finv Kc rnd delta bs p g e ->
  forallb (fun x => match fst x with PUBLIC => false | _ => true end) h = true ->
  let '(src, ridx, q) := hist bs p (lens h) in
  exists lg ms ds fg fe, feeds Kc rnd lab delta g e h = Ok (lg, evl delta lg (values h), ms, fg, fe) /\
    lg = evl delta (map (src_val Kc lab) src) ds /\ length ds = length src /\ length lg = length (values h) /\
    concat (map msg_bits ms) = map2 xorb (map rnd ridx) (buffered bs h) /\ length ridx = length (buffered bs h) /\
    finv Kc rnd delta bs q fg fe.
Proof.
  intros Kc rnd lab delta bs h; induction h as [|[pt bits] t IH]; intros p g e Hf Hwf.
  - cbn. exists [], [], [], g, e. repeat split; try reflexivity; apply Hf.
  - cbn [forallb fst] in Hwf. apply andb_prop in Hwf; destruct Hwf as [Hpt Hwf]. destruct pt; [| |discriminate].
    + destruct (feed_alice Kc rnd lab delta bs p g e bits Hf) as (fe & fg & E1 & E2 & E3 & E4).
      unfold lens; cbn [map fst snd hist]. fold (lens t).
      set (p1 := {| p_c0 := p_c0 p; p_r0 := p_r0 p; p_top := p_top p; p_cot := p_cot p; p_shared := p_shared p + length bits; p_rnd := p_rnd p |}) in *.
      specialize (IH p1 fg fe E4 Hwf). destruct (hist bs p1 (lens t)) as [[s r] q].
      destruct IH as (lg & ms & ds & fg' & fe' & I1 & I2 & I3 & I4 & I5 & I6 & I7).
      set (L := map lab (seq (p_shared p) (length bits))) in *.
      assert (LL : length L = length bits) by apply len_map_seq.
      exists (evl delta L bits ++ lg), ms, (bits ++ ds), fg', fe'.
      cbn [feeds]. rewrite E1. cbn [bind]. rewrite E2. cbn [bind fst snd]. rewrite I1. cbn [bind app].
      unfold values; cbn [map concat snd]. fold (values t).
      rewrite evl_app by (rewrite evl_length; exact LL). rewrite E3.
      split; [reflexivity|]. split; [|split; [|split; [|split; [|split; [|exact I7]]]]].
      * rewrite map_app, evl_app by (rewrite map_map; exact LL). rewrite map_map. cbn. rewrite <- I2. reflexivity.
      * rewrite !app_length, I3, map_length, seq_length. reflexivity.
      * rewrite !app_length, I4, evl_length, LL by exact LL. reflexivity.
      * exact I5.
      * exact I6.
    + assert (Hp : pos_ok bs p) by apply Hf.
      pose proof (feed_bob Kc rnd lab delta bs p g e bits Hf) as H. pose proof (pos_take_ridx bs p (length bits) Hp) as Hr.
      unfold lens; cbn [map fst snd hist]. fold (lens t).
      destruct (pos_take bs p (length bits)) as [[idx ridx] p1]. cbn zeta in H.
      destruct H as (fe & fg & l1 & E0 & E1 & E2 & E3 & E4 & E5).
      specialize (IH p1 fg fe E3 Hwf). destruct (hist bs p1 (lens t)) as [[s r] q].
      destruct IH as (lg & ms & ds & fg' & fe' & I1 & I2 & I3 & I4 & I5 & I6 & I7).
      set (m := if (bs <? length bits)%nat then [] else [MBits (if (bs <? length bits)%nat then repeat false (length bits) else map2 xorb (map rnd ridx) bits)]) in *.
      set (cr := if (bs <? length bits)%nat then repeat false (length bits) else map2 xorb (map rnd ridx) bits) in *.
      assert (Lc : length cr = length bits).
      { unfold cr. destruct (bs <? length bits)%nat; [apply repeat_length|]. rewrite map2_length2; rewrite map_length; exact Hr. }
      assert (El : l1 = evl delta (map Kc idx) cr).
      { rewrite E0. unfold cr. destruct (bs <? length bits)%nat; [|reflexivity]. rewrite <- E4, <- (map_length Kc idx), evl_false. reflexivity. }
      exists (l1 ++ lg), (m ++ ms), (cr ++ ds), fg', fe'.
      cbn [feeds]. rewrite E1. cbn [bind]. specialize (E2 []). rewrite app_nil_r in E2. rewrite E2. cbn [bind fst snd]. rewrite I1. cbn [bind].
      unfold values; cbn [map concat snd]. fold (values t).
      rewrite evl_app by exact E5.
      split; [reflexivity|]. split; [|split; [|split; [|split; [|split; [|exact I7]]]]].
      * rewrite map_app, evl_app by (rewrite !map_length, E4, Lc; reflexivity). rewrite map_map. cbn.
        rewrite El, <- I2. reflexivity.
      * rewrite !app_length, I3, map_length, E4, Lc. reflexivity.
      * rewrite !app_length, I4, E5. reflexivity.
      * unfold buffered; cbn [map concat fst snd]. fold (buffered bs t). rewrite !map_app, concat_app, I5. unfold m, cr.
        destruct (bs <? length bits)%nat.
        -- apply length_zero_iff_nil in Hr. subst ridx. reflexivity.
        -- rewrite map2_app2 by (rewrite map_length; exact Hr). cbn. rewrite app_nil_r. reflexivity.
      * unfold buffered; cbn [map concat fst snd]. fold (buffered bs t). rewrite !app_length, I6, Hr.
        destruct (bs <? length bits)%nat; reflexivity.
Qed.

Theorem feed_histories : forall bs (ps : list (party * nat)), exists src ridx, NoDup src /\ NoDup ridx /\
  forall Kc rnd lab delta h, lens h = ps ->
    forallb (fun x => match fst x with PUBLIC => false | _ => true end) h = true ->
    exists lg ms ds fg fe,
      feeds Kc rnd lab delta (gen_init Kc bs) (eva_init Kc rnd delta bs) h = Ok (lg, evl delta lg (values h), ms, fg, fe) /\
      lg = evl delta (map (src_val Kc lab) src) ds /\ length ds = length src /\ length lg = length (values h) /\
      concat (map msg_bits ms) = map2 xorb (map rnd ridx) (buffered bs h) /\ length ridx = length (buffered bs h) /\
      f_top fg = f_top fe /\ (f_top fg <= bs)%nat.
Proof.
  intros bs ps.
  assert (Hp : pos_ok bs (pos_init bs)) by (unfold pos_ok, pos_init; cbn; lia).
  pose proof (hist_ok bs ps _ Hp) as H.
  destruct (hist bs (pos_init bs) ps) as [[src ridx] q] eqn:E. destruct H as (H1 & H2 & H3 & _ & _).
  exists src, ridx. split; [exact H2|]. split; [exact H3|].
  intros Kc rnd lab delta h Hl Hw.
  pose proof (feeds_ok Kc rnd lab delta bs h (pos_init bs) _ _ (finv_init Kc rnd delta bs) Hw) as F.
  rewrite Hl, E in F. destruct F as (lg & ms & ds & fg & fe & F1 & F2 & F3 & F4 & F5 & F6 & F7).
  exists lg, ms, ds, fg, fe. repeat (split; [assumption|]). destruct F7 as ((P1 & _) & _ & _ & T1 & T2 & _).
  rewrite T1, T2. split; [reflexivity | exact P1].
Qed.

(** ** Changing the batch size (C28) *)
Lemma set_batch_size_feed_ub : forall Kc lab delta bs size bits ch, bits <> [] -> (length bits <= size)%nat ->
  gen_feed Kc lab delta BOB bits (set_batch_size size (gen_init Kc bs)) ch = UB.
Proof.
  intros Kc lab delta bs size bits ch Hb Hl. unfold gen_feed, gen_take, set_batch_size, gen_init, gen_refill, fresh; cbn [f_bs f_top f_buf].
  assert (E : (size <? length bits)%nat = false) by (apply Nat.ltb_ge; lia).
  assert (E0 : (size <? 0)%nat = false) by (apply Nat.ltb_ge; lia).
  rewrite E, E0, Nat.sub_0_r, E.
  assert (C : copy (repeat (@None N) size) 0 (length bits) = UB).
  { destruct bits; [contradiction|]. unfold copy. cbn [length seq map fold_right Nat.add].
    destruct size; [cbn in Hl; lia|]. reflexivity. }
  rewrite C. reflexivity.
Qed.
