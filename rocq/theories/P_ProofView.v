(** What the verifier has of the proof phase does not depend on what the prover knows. *)
From Coq Require Import List NArith ZArith Bool Arith Lia.
From Verif Require Import L_Bits L_Res M_EmpInteger M_Utils M_Bristol M_Block M_Shares M_Aead M_ItMac M_AeadProof M_Handshake M_Session M_Digest.
From Verif Require Import P_Utils P_Shares P_ItMac P_AeadProof P_Digest P_Digest2.
Import ListNotations.
Local Open Scope N_scope.

(** the verifier's blocks of an Integer are the same *)
Definition vz (z z' : list (N * N)) : Prop := map snd z = map snd z'.
(** the verifier's part of the members read by the proof is the same *)
Definition vlike (a b : zaead) : Prop :=
  vz (za_h a) (za_h b) /\ Forall2 vz (za_z0 a) (za_z0 b) /\ Forall2 vz (za_z a) (za_z b) /\ za_b a = za_b b.
Definition vt (t t' : czst) : Prop := cz_b t = cz_b t'.

Lemma vz_length z z' : vz z z' -> length z = length z'.
Proof. intro V. apply (f_equal (@length N)) in V. now rewrite !map_length in V. Qed.
Lemma zxor_snd : forall a b, map snd (zxor a b) = map2 N.lxor (map snd a) (map snd b).
Proof. unfold zxor. induction a as [|x a IH]; intros [|y b]; try reflexivity. cbn [map2 map wxor snd]. now rewrite IH. Qed.
Lemma vz_xor a a' b b' : vz a a' -> vz b b' -> vz (zxor a b) (zxor a' b').
Proof. unfold vz. intros A B. now rewrite !zxor_snd, A, B. Qed.
Lemma zero_b t z : cz_b (check_zero t z) = cz_b t ++ map snd z.
Proof. rewrite check_zero_app. reflexivity. Qed.
Lemma vt_zero t t' z z' : vt t t' -> vz z z' -> vt (check_zero t z) (check_zero t' z').
Proof. unfold vt, vz. intros T V. now rewrite !zero_b, T, V. Qed.
Lemma map2_snd {A} (f : A -> N * N -> N * N) (g : A -> N -> N) (l : list A) (z : list (N * N)) : (forall a w, snd (f a w) = g a (snd w)) ->
  map snd (map2 f l z) = map2 g l (map (@snd N N) z).
Proof. intro H. revert z. induction l as [|a l IH]; intros [|w z]; try reflexivity. cbn [map2 map]. now rewrite H, IH. Qed.
Section F.
Variable Delta : N.
Variable pub : bool -> N.
Lemma zauth_snd : forall k b, map snd (zauth Delta k b) = firstn (length (zauth Delta k b)) k.
Proof. unfold zauth. induction k as [|x k IH]; intros [|y b]; try reflexivity. cbn [map2 map length firstn snd]. now rewrite IH. Qed.
Lemma vz_auth k b b' : length (zauth Delta k b) = length (zauth Delta k b') -> vz (zauth Delta k b) (zauth Delta k b').
Proof. unfold vz. intro L. now rewrite !zauth_snd, L. Qed.
Lemma vz_delta_blk s z z' : vz z z' -> vz (add_delta_blk Delta s z) (add_delta_blk Delta s z').
Proof.
  intro V. pose proof (vz_length _ _ V) as L. unfold vz, add_delta_blk. cbv zeta.
  rewrite !(map2_snd _ (fun i k => if N.land (N.shiftl 1 (N.of_nat i)) s =? N.shiftl 1 (N.of_nat i) then N.lxor k Delta else k))
    by (intros i w; destruct (_ =? _); reflexivity). now rewrite L, V.
Qed.
Lemma vz_delta_bits d z z' : vz z z' -> vz (add_delta_bits Delta d z) (add_delta_bits Delta d z').
Proof.
  intro V. unfold vz, add_delta_bits. rewrite !(map2_snd _ (fun (b : bool) k => if b then N.lxor k Delta else k)) by (intros [] w; reflexivity).
  now rewrite V.
Qed.
Lemma pub_snd : forall a a' b, length a = length b -> length a' = length b -> vz (zpublic Delta pub a b) (zpublic Delta pub a' b).
Proof.
  unfold vz, zpublic. intros a a' b. revert a a'. induction b as [|y b IH]; intros [|x a] [|x' a'] L L'; try discriminate; [reflexivity|].
  cbn [map2 map snd]. f_equal. apply IH; cbn in *; lia.
Qed.

Lemma v_hom_block t t' k x x' z z' s u w u' w' : vt t t' -> vz z z' ->
  hom_add_block Delta t (zauth Delta k x) z s = Ok (u, w) -> hom_add_block Delta t' (zauth Delta k x') z' s = Ok (u', w') -> vt u u' /\ vz w w'.
Proof.
  unfold hom_add_block. intros T V H H'.
  destruct (Nat.eqb_spec (length z) 128) as [_|]; [|discriminate]. destruct (Nat.eqb_spec (length (zauth Delta k x)) 128) as [L|]; [|discriminate].
  destruct (Nat.eqb_spec (length z') 128) as [_|]; [|discriminate]. destruct (Nat.eqb_spec (length (zauth Delta k x')) 128) as [L'|]; [|discriminate].
  cbn [andb negb] in H, H'. cbv zeta in H, H'. injection H as <- <-. injection H' as <- <-.
  pose proof (vz_delta_blk s _ _ V) as W. split; [|exact W]. apply vt_zero; [exact T|]. apply vz_xor; [apply vz_auth; congruence|exact W].
Qed.
Lemma v_hom_bytes t t' k x x' z z' la la' s lb u w u' w' : vt t t' -> vz z z' ->
  hom_add_bytes Delta t (zauth Delta k x) z la s lb = Ok (u, w) -> hom_add_bytes Delta t' (zauth Delta k x') z' la' s lb = Ok (u', w') -> vt u u' /\ vz w w'.
Proof.
  unfold hom_add_bytes. intros T V H H'.
  destruct (Nat.eqb_spec (length z) (la * 8)%nat) as [_|]; [|discriminate]. destruct (Nat.eqb_spec (length (zauth Delta k x)) (la * 8)%nat) as [_|]; [|discriminate].
  destruct (Nat.eqb_spec (length z) (lb * 8)%nat) as [_|]; [|discriminate]. destruct (Nat.eqb_spec (length (zauth Delta k x)) (lb * 8)%nat) as [L|]; [|discriminate].
  destruct (Nat.eqb_spec (length z') (la' * 8)%nat) as [_|]; [|discriminate]. destruct (Nat.eqb_spec (length (zauth Delta k x')) (la' * 8)%nat) as [_|]; [|discriminate].
  destruct (Nat.eqb_spec (length z') (lb * 8)%nat) as [_|]; [|discriminate]. destruct (Nat.eqb_spec (length (zauth Delta k x')) (lb * 8)%nat) as [L'|]; [|discriminate].
  cbn [andb negb] in H, H'. destruct (_ <? _)%nat; [discriminate|]. cbv zeta in H, H'. injection H as <- <-. injection H' as <- <-.
  pose proof (vz_delta_bits (firstn (lb * 8) (flat_map (bits_of_N 8) s)) _ _ V) as W. split; [|exact W].
  apply vt_zero; [exact T|]. apply vz_xor; [apply vz_auth; congruence|exact W].
Qed.
Lemma v_zero_data t t' k x x' sz da da' db len u u' : vt t t' ->
  check_zero_data Delta pub t (zauth Delta k x) sz da db len = Ok u -> check_zero_data Delta pub t' (zauth Delta k x') sz da' db len = Ok u' -> vt u u'.
Proof.
  unfold check_zero_data. intros T H H'.
  destruct (Nat.eqb_spec (length (zauth Delta k x)) (len * sz * 8)) as [L|]; [|discriminate]. destruct (Nat.eqb_spec (length (zauth Delta k x')) (len * sz * 8)) as [L'|]; [|discriminate].
  cbn [negb] in H, H'.
  destruct (Nat.eqb_spec (length da) (len * sz)) as [A|]; [|discriminate]. destruct (Nat.eqb_spec (length da') (len * sz)) as [A'|]; [|discriminate].
  destruct (Nat.eqb_spec (length db) (len * sz)) as [B|]; [|discriminate]. cbn [negb andb] in H, H'. cbv zeta in H, H'.
  destruct (bytes_eqb _ (firstn len da)); [|discriminate]. destruct (bytes_eqb _ (firstn len da')); [|discriminate]. injection H as <-. injection H' as <-.
  apply vt_zero; [exact T|]. apply vz_xor; [|apply vz_auth; congruence].
  assert (LI : forall d, length d = (len * sz)%nat -> length (int_of_array (len * sz * 8) 8 d) = (len * sz * 8)%nat).
  { intros d Hd. rewrite <- Hd. rewrite int8_length. lia. }
  apply pub_snd; rewrite !LI by assumption; reflexivity.
Qed.
Variable ks enc : bristol.
Lemma v_proof_new t t' a a' key iv key' iv' kH p u b p' u' b' : vt t t' -> vlike a a' ->
  proof_new ks enc Delta t a key iv kH = Ok (p, u, b) -> proof_new ks enc Delta t' a' key' iv' kH = Ok (p', u', b') -> vt u u' /\ vlike b b'.
Proof.
  intros T (V1 & V2 & V3 & V4) H H'. unfold proof_new in H, H'.
  apply bind_inv in H as (e1 & _ & H). apply bind_inv in H as (h1 & _ & H). apply bind_inv in H as ([t1 z1] & H1 & H). injection H as _ <- <-.
  apply bind_inv in H' as (e2 & _ & H'). apply bind_inv in H' as (h2 & _ & H'). apply bind_inv in H' as ([t2 z2] & H2 & H'). injection H' as _ <- <-.
  rewrite V4 in H1. destruct (v_hom_block _ _ _ _ _ _ _ _ _ _ _ _ T V1 H1 H2) as [T' W]. split; [exact T'|]. unfold vlike. cbn. auto.
Qed.
Lemma v_check_z0 t t' a a' Z Z' k u b u' b' : vt t t' -> vlike a a' -> check_z0 Delta t a Z k = Ok (u, b) -> check_z0 Delta t' a' Z' k = Ok (u', b') ->
  vt u u' /\ vlike b b'.
Proof.
  intros T (V1 & V2 & V3 & V4) H H'. unfold check_z0 in H, H'. rewrite V4 in H.
  destruct V2 as [|w w' ws ws' Vw Vs]; [discriminate|].
  destruct (p_gc_z0 (za_a a)); [discriminate|]. destruct (p_gc_z0 (za_a a')); [discriminate|]. destruct (p_gc_z0 (za_b a')) as [|s ss]; [discriminate|].
  apply bind_inv in H as ([t1 z1] & H1 & H). injection H as <- <-. apply bind_inv in H' as ([t2 z2] & H2 & H'). injection H' as <- <-.
  destruct (v_hom_block _ _ _ _ _ _ _ _ _ _ _ _ T Vw H1 H2) as [T' _]. split; [exact T'|]. unfold vlike. cbn. auto.
Qed.
Lemma v_check_open t t' a a' Z Z' k u b u' b' : vt t t' -> vlike a a' -> check_open Delta pub t a Z k = Ok (u, b) -> check_open Delta pub t' a' Z' k = Ok (u', b') ->
  vt u u' /\ vlike b b'.
Proof.
  intros T (V1 & V2 & V3 & V4) H H'. unfold check_open in H, H'. rewrite V4 in H.
  destruct (p_open_z (za_a a)) as [|oa ?]; [discriminate|]. destruct (p_open_z (za_a a')) as [|oa' ?]; [discriminate|]. destruct (p_open_z (za_b a')) as [|ob ?]; [discriminate|].
  destruct (Nat.eqb_spec (length oa) (length ob)) as [E|]; [|discriminate]. destruct (Nat.eqb_spec (length oa') (length ob)) as [E'|]; [|discriminate].
  apply bind_inv in H as (t1 & H1 & H). injection H as <- <-. apply bind_inv in H' as (t2 & H2 & H'). injection H' as <- <-.
  rewrite E in H1. rewrite E' in H2. split; [eapply v_zero_data; [exact T|exact H1|exact H2]|]. unfold vlike. cbn. auto.
Qed.
Lemma v_check_z t t' a a' Z Z' k u b u' b' : vt t t' -> vlike a a' -> check_z Delta t a Z k = Ok (u, b) -> check_z Delta t' a' Z' k = Ok (u', b') ->
  vt u u' /\ vlike b b'.
Proof.
  intros T (V1 & V2 & V3 & V4) H H'. unfold check_z in H, H'. rewrite V4 in H.
  destruct V3 as [|w w' ws ws' Vw Vs]; [discriminate|].
  destruct (p_gc_z (za_a a)) as [|ga ?]; [discriminate|]. destruct (p_gc_z (za_a a')) as [|ga' ?]; [discriminate|]. destruct (p_gc_z (za_b a')) as [|gb ?]; [discriminate|].
  apply bind_inv in H as ([t1 z1] & H1 & H). injection H as <- <-. apply bind_inv in H' as ([t2 z2] & H2 & H'). injection H' as <- <-.
  destruct (v_hom_bytes _ _ _ _ _ _ _ _ _ _ _ _ _ _ _ T Vw H1 H2) as [T' _]. split; [exact T'|]. unfold vlike. cbn. auto.
Qed.
Lemma v_prove p t a p1 t1 a1 c iv sec k0 kz x y : vt t t1 -> vlike a a1 ->
  prove_aead enc Delta pub p t a c iv sec k0 kz = Ok x -> prove_aead enc Delta pub p1 t1 a1 c iv sec k0 kz = Ok y ->
  let '(_, u, b, _, _) := x in let '(_, u1, b1, _, _) := y in vt u u1 /\ vlike b b1.
Proof.
  intros T V H H'. unfold prove_aead in H, H'.
  apply bind_inv in H as ([[Zz Z] n1] & _ & H). apply bind_inv in H as ([t2 a2] & H2 & H).
  apply bind_inv in H' as ([[Zz' Z'] n1'] & _ & H'). apply bind_inv in H' as ([t2' a2'] & H2' & H').
  destruct (v_check_z0 _ _ _ _ _ _ _ _ _ _ _ T V H2 H2') as [T2 V2]. destruct sec; cbn [negb] in H, H'.
  - apply bind_inv in H as ([t3 a3] & H3 & H). injection H as <-. apply bind_inv in H' as ([t3' a3'] & H3' & H'). injection H' as <-.
    exact (v_check_z _ _ _ _ _ _ _ _ _ _ _ T2 V2 H3 H3').
  - apply bind_inv in H as ([t3 a3] & H3 & H). injection H as <-. apply bind_inv in H' as ([t3' a3'] & H3' & H'). injection H' as <-.
    exact (v_check_open _ _ _ _ _ _ _ _ _ _ _ T2 V2 H3 H3').
Qed.
(** the verifier's part of the proof objects *)
Definition vprd (p q : prd) : Prop := vt (pr_t p) (pr_t q) /\ vlike (pr_zc p) (pr_zc q) /\ vlike (pr_zs p) (pr_zs q).
Lemma v_prove_c p q r sec p' x q' y : vprd p q -> prove_c enc Delta pub p r sec = Ok (p', x) -> prove_c enc Delta pub q r sec = Ok (q', y) ->
  vprd p' q' /\ pr_hs p' = pr_hs p /\ pr_hs q' = pr_hs q.
Proof.
  intros (T & C & S) H H'. unfold prove_c in H, H'.
  apply bind_inv in H as ([[[[pc t] zc] z0] m] & H1 & H). injection H as <- <-. apply bind_inv in H' as ([[[[pc' t'] zc'] z0'] m'] & H1' & H'). injection H' as <- <-.
  destruct (v_prove _ _ _ _ _ _ _ _ _ _ _ _ _ T C H1 H1') as [T' C']. split; [|split; reflexivity]. unfold vprd. cbn. auto.
Qed.
Lemma v_prove_s p q r sec p' x q' y : vprd p q -> prove_s enc Delta pub p r sec = Ok (p', x) -> prove_s enc Delta pub q r sec = Ok (q', y) ->
  vprd p' q' /\ pr_hs p' = pr_hs p /\ pr_hs q' = pr_hs q.
Proof.
  intros (T & C & S) H H'. unfold prove_s in H, H'.
  apply bind_inv in H as ([[[[pc t] zc] z0] m] & H1 & H). injection H as <- <-. apply bind_inv in H' as ([[[[pc' t'] zc'] z0'] m'] & H1' & H'). injection H' as <- <-.
  destruct (v_prove _ _ _ _ _ _ _ _ _ _ _ _ _ T S H1 H1') as [T' C']. split; [|split; reflexivity]. unfold vprd. cbn. auto.
Qed.
Lemma v_pop p q o p' x q' y : vprd p q -> pop_run enc Delta pub p o = Ok (p', x) -> pop_run enc Delta pub q o = Ok (q', y) ->
  vprd p' q' /\ pr_hs p' = pr_hs p /\ pr_hs q' = pr_hs q.
Proof.
  intros V H H'. destruct o as [r|r|r]; cbn [pop_run] in H, H'.
  - apply bind_inv in H as ([p1 x1] & H1 & H). apply bind_inv in H as (m & _ & H). injection H as <- _.
    apply bind_inv in H' as ([p1' x1'] & H1' & H'). apply bind_inv in H' as (m' & _ & H'). injection H' as <- _. eapply v_prove_c; eassumption.
  - apply bind_inv in H as ([p1 x1] & H1 & H). apply bind_inv in H as (m & _ & H). injection H as <- _.
    apply bind_inv in H' as ([p1' x1'] & H1' & H'). apply bind_inv in H' as (m' & _ & H'). injection H' as <- _. eapply v_prove_s; eassumption.
  - apply bind_inv in H as ([[ps z0] m] & _ & H). injection H as <- _. apply bind_inv in H' as ([[ps' z0'] m'] & _ & H'). injection H' as <- _.
    split; [|split; reflexivity]. exact V.
Qed.
Lemma v_pops : forall os p q p' xs q' ys, vprd p q -> pops_run enc Delta pub p os = Ok (p', xs) -> pops_run enc Delta pub q os = Ok (q', ys) ->
  vprd p' q' /\ pr_hs p' = pr_hs p /\ pr_hs q' = pr_hs q.
Proof.
  induction os as [|o os IH]; intros p q p' xs q' ys V H H'; cbn [pops_run] in H, H'.
  - injection H as <- _. injection H' as <- _. auto.
  - apply bind_inv in H as ([p1 x1] & H1 & H). apply bind_inv in H as ([p2 x2] & H2 & H). injection H as <- _.
    apply bind_inv in H' as ([q1 y1] & H1' & H'). apply bind_inv in H' as ([q2 y2] & H2' & H'). injection H' as <- _.
    destruct (v_pop _ _ _ _ _ _ _ V H1 H1') as (V1 & E1 & E2). destruct (IH _ _ _ _ _ _ V1 H2 H2') as (V2 & E3 & E4). split; [exact V2|]. split; congruence.
Qed.

(** the comparisons of the handshake *)
Variable kc : nat -> nat -> N.
Variables own own' : bool.
Lemma v_cmp_put t t' sz i c c' u u' : vt t t' -> snd c = snd c' ->
  cmp_put Delta pub kc own t sz i c = Ok u -> cmp_put Delta pub kc own' t' sz i c' = Ok u' -> vt u u'.
Proof.
  intros T E H H'. unfold cmp_put in H, H'. cbv zeta in H, H'. rewrite <- E in H'.
  set (img := reveal_as 8 (snd c)) in *. set (len := (length img / sz)%nat) in *.
  set (w := zauth Delta (map (kc i) (seq 0 (length (fst c)))) (fst c)) in *. set (w' := zauth Delta (map (kc i) (seq 0 (length (fst c')))) (fst c')) in *.
  assert (G : forall (o : bool) (t : czst) (w : list (N * N)) (u : czst), (if o then check_zero_data Delta pub t w sz img img len
      else if negb (length w =? len * sz * 8)%nat then Err else if negb (length img =? len * sz)%nat then UB
      else Ok (check_zero t (zxor (zpublic Delta pub (int_of_array (len * sz * 8) 8 img) (int_of_array (len * sz * 8) 8 img)) w))) = Ok u ->
    length w = (len * sz * 8)%nat /\ u = check_zero t (zxor (zpublic Delta pub (int_of_array (len * sz * 8) 8 img) (int_of_array (len * sz * 8) 8 img)) w)).
  { clear. intros o t w u H. destruct o.
    - unfold check_zero_data in H. destruct (Nat.eqb_spec (length w) (len * sz * 8)) as [L|]; [|discriminate]. cbn [negb] in H.
      destruct (negb _); [discriminate|]. cbv zeta in H. destruct (bytes_eqb _ _); [|discriminate]. injection H as <-. auto.
    - destruct (Nat.eqb_spec (length w) (len * sz * 8)) as [L|]; [|discriminate]. cbn [negb] in H. destruct (negb _); [discriminate|]. injection H as <-. auto. }
  apply G in H as [L ->]. apply G in H' as [L' ->]. apply vt_zero; [exact T|]. apply vz_xor; [reflexivity|].
  assert (LW : forall x, length (zauth Delta (map (kc i) (seq 0 (length x))) x) = length x).
  { intro x. unfold zauth. assert (Q : forall (k : list N) (b : Integer), length k = length b -> length (map2 (fun k b => (N.lxor k (dmul Delta b), k)) k b) = length b).
    { induction k as [|y k IH]; intros [|z b] Q; try discriminate; [reflexivity|]. cbn [map2 length] in *. f_equal. apply IH. lia. }
    apply Q. now rewrite map_length, seq_length. }
  assert (LL : length (fst c) = length (fst c')) by (rewrite <- (LW (fst c)), <- (LW (fst c')); fold w; fold w'; congruence).
  subst w w'. rewrite LL in *. apply vz_auth. congruence.
Qed.
Lemma v_cmp_puts : forall cs cs' t t' sz i u u', vt t t' -> map snd cs = map snd cs' ->
  cmp_puts Delta pub kc own t sz i cs = Ok u -> cmp_puts Delta pub kc own' t' sz i cs' = Ok u' -> vt u u'.
Proof.
  induction cs as [|c cs IH]; intros [|c' cs'] t t' sz i u u' T E H H'; try discriminate; cbn [cmp_puts] in H, H'.
  - injection H as <-. injection H' as <-. exact T.
  - cbn [map] in E. injection E as E1 E2. apply bind_inv in H as (t1 & H1 & H). apply bind_inv in H' as (t1' & H1' & H').
    eapply (IH cs'); [eapply v_cmp_put; [exact T|exact E1|exact H1|exact H1']|exact E2|exact H|exact H'].
Qed.
(** the values the handshake comparisons are made with, known to both parties *)
Definition compared (s : hs) (p : prd) : list Integer := map snd (skipn (length (hs_zk s)) (hs_zk (pr_hs p))).
Theorem verifier_blocks s t zc zs pms s' t' zc' zs' pms' rc rs tc ts sh rc' rs' tc' ts' sh' kHc kHs fc fs os p xs p' xs' :
  length (hs_zk s) = length (hs_zk s') -> vt t t' -> vlike zc zc' -> vlike zs zs' ->
  dpost_record ks enc Delta pub kc own s t zc zs pms rc rs tc ts sh kHc kHs fc fs os = Ok (p, xs) ->
  dpost_record ks enc Delta pub kc own' s' t' zc' zs' pms' rc' rs' tc' ts' sh' kHc kHs fc fs os = Ok (p', xs') ->
  compared s p = compared s' p' -> vprd p p'.
Proof.
  intros LZ T C S H H' E. unfold dpost_record in H, H'.
  apply bind_inv in H as (p1 & H1 & H). apply bind_inv in H as (p2 & H2 & H). apply bind_inv in H as (p3 & H3 & H).
  apply bind_inv in H' as (q1 & H1' & H'). apply bind_inv in H' as (q2 & H2' & H'). apply bind_inv in H' as (q3 & H3' & H').
  unfold dstep1 in H1, H1'.
  apply bind_inv in H1 as ([[s1 m] [[[ck sk] ci] si]] & A & H1). apply bind_inv in H1 as (t1 & B & H1). apply bind_inv in H1 as ([[pc t2] zc2] & D & H1). apply bind_inv in H1 as ([[ps t3] zs2] & F & H1).
  apply bind_inv in H1' as ([[s1' m'] [[[ck' sk'] ci'] si']] & A' & H1'). apply bind_inv in H1' as (t1' & B' & H1'). apply bind_inv in H1' as ([[pc' t2'] zc2'] & D' & H1'). apply bind_inv in H1' as ([[ps' t3'] zs2'] & F' & H1').
  injection H1 as <-. injection H1' as <-.
  destruct (step1_hs_zk _ _ _ _ _ _ _ _ _ _ A) as (cs & Ec & _ & Lc). destruct (step1_hs_zk _ _ _ _ _ _ _ _ _ _ A') as (cs' & Ec' & _ & Lc').
  (* the second half of the handshake comparisons *)
  unfold step2 in H2, H2'. apply bind_inv in H2 as ([p2a o2] & H2 & X2). injection X2 as <-. apply bind_inv in H2' as ([q2a o2'] & H2' & X2'). injection X2' as <-.
  unfold dstep3 in H3, H3'.
  apply bind_inv in H3 as ([p3a o3] & H3 & X3). apply bind_inv in X3 as (s3 & G & X3). apply bind_inv in X3 as (t4 & K & X3). injection X3 as <-.
  apply bind_inv in H3' as ([q3a o3'] & H3' & X3'). apply bind_inv in X3' as (s3' & G' & X3'). apply bind_inv in X3' as (t4' & K' & X3'). injection X3' as <-.
  destruct (handshake_check_zk _ _ G) as (ds & Ed & _). destruct (handshake_check_zk _ _ G') as (ds' & Ed' & _).
  assert (HH : pr_hs p = s3).
  { clear - H. assert (Q : forall os p q ys, pops_run enc Delta pub p os = Ok (q, ys) -> pr_hs q = pr_hs p).
    { clear. induction os as [|o os IH]; intros p q ys H; cbn [pops_run] in H; [injection H as <- _; reflexivity|].
      apply bind_inv in H as ([p1 x1] & H1 & H). apply bind_inv in H as ([p2 x2] & H2 & H). injection H as <- _. rewrite (IH _ _ _ H2).
      destruct (pop_run enc Delta pub p o) as [[p1a x1a]| |] eqn:Eo; try discriminate. injection H1 as <- <-.
      destruct o as [r|r|r]; cbn [pop_run] in Eo.
      - apply bind_inv in Eo as ([a b] & U & Eo). apply bind_inv in Eo as (m & _ & Eo). injection Eo as <- _. unfold prove_c in U. apply bind_inv in U as ([[[[? ?] ?] ?] ?] & _ & U). injection U as <- _. reflexivity.
      - apply bind_inv in Eo as ([a b] & U & Eo). apply bind_inv in Eo as (m & _ & Eo). injection Eo as <- _. unfold prove_s in U. apply bind_inv in U as ([[[[? ?] ?] ?] ?] & _ & U). injection U as <- _. reflexivity.
      - apply bind_inv in Eo as ([[? ?] ?] & _ & Eo). injection Eo as <- _. reflexivity. }
    rewrite (Q _ _ _ _ H). reflexivity. }
  assert (HH' : pr_hs p' = s3').
  { clear - H'. assert (Q : forall os p q ys, pops_run enc Delta pub p os = Ok (q, ys) -> pr_hs q = pr_hs p).
    { clear. induction os as [|o os IH]; intros p q ys H; cbn [pops_run] in H; [injection H as <- _; reflexivity|].
      apply bind_inv in H as ([p1 x1] & H1 & H). apply bind_inv in H as ([p2 x2] & H2 & H). injection H as <- _. rewrite (IH _ _ _ H2).
      destruct (pop_run enc Delta pub p o) as [[p1a x1a]| |] eqn:Eo; try discriminate. injection H1 as <- <-.
      destruct o as [r|r|r]; cbn [pop_run] in Eo.
      - apply bind_inv in Eo as ([a b] & U & Eo). apply bind_inv in Eo as (m & _ & Eo). injection Eo as <- _. unfold prove_c in U. apply bind_inv in U as ([[[[? ?] ?] ?] ?] & _ & U). injection U as <- _. reflexivity.
      - apply bind_inv in Eo as ([a b] & U & Eo). apply bind_inv in Eo as (m & _ & Eo). injection Eo as <- _. unfold prove_s in U. apply bind_inv in U as ([[[[? ?] ?] ?] ?] & _ & U). injection U as <- _. reflexivity.
      - apply bind_inv in Eo as ([[? ?] ?] & _ & Eo). injection Eo as <- _. reflexivity. }
    rewrite (Q _ _ _ _ H'). reflexivity. }
  assert (P2 : pr_hs p3a = s1).
  { unfold prove_s in H3. apply bind_inv in H3 as ([[[[? ?] ?] ?] ?] & _ & U). injection U as <- _. cbn. unfold prove_c in H2. apply bind_inv in H2 as ([[[[? ?] ?] ?] ?] & _ & U). injection U as <- _. reflexivity. }
  assert (P2' : pr_hs q3a = s1').
  { unfold prove_s in H3'. apply bind_inv in H3' as ([[[[? ?] ?] ?] ?] & _ & U). injection U as <- _. cbn. unfold prove_c in H2'. apply bind_inv in H2' as ([[[[? ?] ?] ?] ?] & _ & U). injection U as <- _. reflexivity. }
  unfold compared in E. rewrite HH, HH', Ed, Ed', P2, P2', Ec, Ec', <- !app_assoc, !skipn_app_same, !map_app in E.
  assert (E2 : map snd cs = map snd cs' /\ map snd ds = map snd ds').
  { apply app_len_inj in E; [exact E|]. rewrite !map_length. congruence. }
  destruct E2 as [E1 E2].
  assert (V1 : vprd (mkPrd s1 t3 pc zc2 ps zs2 [] []) (mkPrd s1' t3' pc' zc2' ps' zs2' [] [])).
  { unfold put_new in B, B'. rewrite Ec, skipn_app_same in B. rewrite Ec', skipn_app_same, <- LZ in B'.
    pose proof (v_cmp_puts _ _ _ _ _ _ _ _ T E1 B B') as T1. destruct (v_proof_new _ _ _ _ _ _ _ _ _ _ _ _ _ _ _ T1 C D D') as [T2 C2].
    destruct (v_proof_new _ _ _ _ _ _ _ _ _ _ _ _ _ _ _ T2 S F F') as [T3 S3]. unfold vprd. cbn. auto. }
  destruct (v_prove_c _ _ _ _ _ _ _ _ V1 H2 H2') as (V2 & _ & _).
  assert (V2' : vprd (mkPrd (pr_hs p2a) (pr_t p2a) (pr_pc p2a) (pr_zc p2a) (pr_ps p2a) (pr_zs p2a) (fst o2) (pr_sz0 p2a))
    (mkPrd (pr_hs q2a) (pr_t q2a) (pr_pc q2a) (pr_zc q2a) (pr_ps q2a) (pr_zs q2a) (fst o2') (pr_sz0 q2a))) by exact V2.
  destruct (v_prove_s _ _ _ _ _ _ _ _ V2' H3 H3') as ((T3 & C3 & S3) & _ & _).
  assert (T4 : vt t4 t4').
  { unfold put_new in K, K'. rewrite P2, Ed, P2, skipn_app_same in K. rewrite P2', Ed', P2', skipn_app_same in K'.
    assert (LL : length (hs_zk s1') = length (hs_zk s1)) by (rewrite Ec, Ec', !app_length; congruence). rewrite LL in K'.
    exact (v_cmp_puts _ _ _ _ _ _ _ _ T3 E2 K K'). }
  eapply v_pops; [|exact H|exact H']. unfold vprd. cbn. auto.
Qed.
End F.
