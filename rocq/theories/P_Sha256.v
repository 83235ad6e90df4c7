(** The circuit and the plain compression functions compute FIPS 180-4 SHA-256. *)
From Coq Require Import List NArith ZArith Bool Arith Lia.
From Verif Require Import L_Bits L_Res M_EmpInteger M_Trace M_Utils M_Sha256 S_Sha256.
Import ListNotations.
Local Open Scope N_scope.

(** * Constants *)
Lemma h_consts : map N_of_bits sha256_h = H256.
Proof. vm_compute. reflexivity. Qed.
Lemma k_consts : map N_of_bits sha256_k = K256.
Proof. vm_compute. reflexivity. Qed.
Lemma plain_k_consts : plain_sha256_k = K256.
Proof. vm_compute. reflexivity. Qed.

Definition w32 (x : Integer) : Prop := length x = 32%nat.
Definition u32 (x : N) : Prop := x < 2 ^ 32.

Lemma N_of_bits_u32 x : w32 x -> u32 (N_of_bits x).
Proof. unfold w32, u32; intro H. pose proof (N_of_bits_lt x). rewrite H in H0. exact H0. Qed.

Lemma h_w32 : Forall w32 sha256_h.
Proof. unfold sha256_h. apply Forall_map, Forall_forall. intros; unfold w32, int_of.
  apply bits_of_N_length. Qed.
Lemma k_w32 : Forall w32 sha256_k.
Proof. unfold sha256_k. apply Forall_map, Forall_forall. intros; unfold w32, int_of.
  apply bits_of_N_length. Qed.
Lemma k_u32 : Forall u32 plain_sha256_k.
Proof. repeat constructor. Qed.

(** * Word operations *)
Lemma rrot_int_eq x s : (s <= length x)%nat ->
  rrot_int x s = skipn s x ++ firstn s x.
Proof.
  intro H. unfold rrot_int, ixor, bxor, ishr, ishl.
  rewrite Nat.min_l by lia.
  assert (E : firstn (length x) (repeat false (length x - s) ++ x)
              = repeat false (length x - s) ++ firstn s x).
  { rewrite firstn_app, repeat_length.
    rewrite firstn_all2 by (rewrite repeat_length; lia).
    f_equal. f_equal. lia. }
  rewrite E. rewrite map2_app by (rewrite skipn_length, repeat_length; reflexivity).
  f_equal.
  - rewrite <- (bxor_false_r (skipn s x) (length x - s)) at 2 by apply skipn_length.
    reflexivity.
  - change (bxor (repeat false s) (firstn s x) = firstn s x).
    rewrite bxor_comm. apply bxor_false_r. rewrite firstn_length. lia.
Qed.

Lemma rrot_int_length x s : (s <= length x)%nat -> length (rrot_int x s) = length x.
Proof. intro. rewrite rrot_int_eq by assumption. rewrite app_length, skipn_length, firstn_length. lia. Qed.

Lemma ishr_length x s : length (ishr x s) = length x.
Proof. unfold ishr. rewrite app_length, skipn_length, repeat_length. lia. Qed.

Lemma N_of_bits_skipn s x : N_of_bits (skipn s x) = N.shiftr (N_of_bits x) (N.of_nat s).
Proof.
  apply N.bits_inj; intro i. rewrite N.shiftr_spec'.
  replace i with (N.of_nat (N.to_nat i)) by apply N2Nat.id.
  rewrite <- Nat2N.inj_add, !testbit_N_of_bits.
  generalize (N.to_nat i). clear. intro i. revert x. induction s; intro x; cbn.
  - now rewrite Nat.add_0_r.
  - destruct x; cbn. destruct i; reflexivity. rewrite IHs. now rewrite Nat.add_succ_r.
Qed.

Lemma N_of_bits_firstn s x : N_of_bits (firstn s x) = N_of_bits x mod 2 ^ N.of_nat s.
Proof.
  apply N.bits_inj; intro i.
  replace i with (N.of_nat (N.to_nat i)) by apply N2Nat.id.
  generalize (N.to_nat i). clear i. intro i.
  rewrite testbit_N_of_bits.
  destruct (Nat.lt_ge_cases i s).
  - rewrite N.mod_pow2_bits_low by lia. rewrite testbit_N_of_bits.
    revert x i H. induction s; intros; [lia|]. destruct x; cbn; [destruct i; reflexivity|].
    destruct i; [reflexivity|]. apply IHs. lia.
  - rewrite N.mod_pow2_bits_high by lia. apply nth_overflow. rewrite firstn_length. lia.
Qed.

Lemma N_of_ishr x s : N_of_bits (ishr x s) = N.shiftr (N_of_bits x) (N.of_nat s).
Proof.
  unfold ishr. rewrite N_of_bits_app, N_of_bits_repeat_false, N.mul_0_r, N.add_0_r.
  apply N_of_bits_skipn.
Qed.

Lemma rrot_u32_ROTR x s : rrot_u32 x s = ROTR s x.
Proof. reflexivity. Qed.

Lemma rotr_bit x s i : u32 x -> s < 32 -> i < 32 ->
  N.testbit (ROTR s x) i = N.testbit x ((i + s) mod 32).
Proof.
  intros Hx Hs Hi. unfold ROTR, mask32. rewrite N.lor_spec, N.shiftr_spec'.
  rewrite N.mod_pow2_bits_low by assumption.
  destruct (N.lt_ge_cases (i + s) 32).
  - rewrite N.mod_small by assumption. rewrite N.shiftl_spec_low by lia. apply orb_false_r.
  - rewrite (testbit_high x 32 (i + s) Hx H). rewrite orb_false_l.
    rewrite N.shiftl_spec_high' by lia. f_equal.
    replace (i + s) with ((i + s - 32) + 1 * 32) at 1 by lia.
    rewrite N.mod_add by lia. rewrite N.mod_small by lia. lia.
Qed.

Lemma ROTR_u32 x s : u32 x -> u32 (ROTR s x).
Proof.
  intro H. unfold u32, ROTR. apply lor_lt. apply shiftr_lt; exact H.
  apply N.mod_lt. discriminate.
Qed.

Lemma N_of_rrot x s : w32 x -> (s < 32)%nat ->
  N_of_bits (rrot_int x s) = ROTR (N.of_nat s) (N_of_bits x).
Proof.
  intros Hx Hs. unfold w32 in Hx.
  apply N.bits_inj; intro i.
  destruct (N.lt_ge_cases i 32) as [Hi|Hi].
  - rewrite rotr_bit by (try apply N_of_bits_u32; try assumption; lia).
    rewrite rrot_int_eq by lia.
    replace i with (N.of_nat (N.to_nat i)) by apply N2Nat.id.
    rewrite testbit_N_of_bits.
    replace ((N.of_nat (N.to_nat i) + N.of_nat s) mod 32)
      with (N.of_nat ((N.to_nat i + s) mod 32)).
    2:{ change 32 with (N.of_nat 32). rewrite <- Nat2N.inj_add.
        rewrite <- (N2Nat.id ((_ mod N.of_nat 32)%N)). f_equal.
        rewrite N2Nat.inj_mod, !Nat2N.id. reflexivity. }
    rewrite testbit_N_of_bits.
    destruct (Nat.lt_ge_cases (N.to_nat i + s) 32).
    + rewrite Nat.mod_small by assumption.
      rewrite app_nth1 by (rewrite skipn_length; lia).
      rewrite Nat.add_comm. generalize (N.to_nat i). clear. intro i.
      revert x. induction s; intro x; cbn. reflexivity. destruct x; cbn.
      destruct i; reflexivity. apply IHs.
    + rewrite app_nth2 by (rewrite skipn_length; lia). rewrite skipn_length.
      replace ((N.to_nat i + s) mod 32)%nat with (N.to_nat i - (length x - s))%nat.
      2:{ replace (N.to_nat i + s)%nat with ((N.to_nat i + s - 32) + 1 * 32)%nat by lia.
          rewrite Nat.mod_add by lia. rewrite Nat.mod_small by lia. lia. }
      assert (H0 : (N.to_nat i - (length x - s) < s)%nat) by lia.
      generalize (N.to_nat i - (length x - s))%nat H0. clear. intros k Hk.
      revert x k Hk. induction s; intros; [lia|]. destruct x; cbn; [destruct k; reflexivity|].
      destruct k; [reflexivity|]. apply IHs. lia.
  - rewrite (testbit_high (N_of_bits (rrot_int x s)) 32 i).
    rewrite (testbit_high (ROTR _ _) 32 i); try reflexivity; try assumption.
    apply ROTR_u32, N_of_bits_u32, Hx.
    apply N_of_bits_u32. unfold w32. rewrite rrot_int_length; lia. assumption.
Qed.

Lemma add32_comm x y : add32 x y = add32 y x.
Proof. unfold add32. now rewrite N.add_comm. Qed.
Lemma add32_assoc x y z : add32 (add32 x y) z = add32 x (add32 y z).
Proof.
  unfold add32. rewrite N.add_mod_idemp_l, N.add_mod_idemp_r by discriminate.
  now rewrite N.add_assoc.
Qed.
Lemma add32_u32 x y : u32 (add32 x y).
Proof. unfold u32, add32. apply N.mod_lt. discriminate. Qed.

Lemma ch_eq x y z : u32 x -> u32 y -> u32 z ->
  N.lxor (N.land x (N.lxor y z)) z = Ch x y z.
Proof.
  intros Hx Hy Hz. unfold Ch.
  assert (E : NOT32 x = N.lnot x 32).
  { unfold NOT32, mask32. rewrite N.lnot_sub_low. reflexivity.
    destruct x; [reflexivity|]. apply N.log2_lt_pow2; [lia|]. exact Hx. }
  rewrite E. apply N.bits_inj; intro i.
  rewrite !N.lxor_spec, !N.land_spec, N.lxor_spec.
  destruct (N.lt_ge_cases i 32) as [Hi|Hi].
  - rewrite N.lnot_spec_low by assumption.
    destruct (N.testbit x i), (N.testbit y i), (N.testbit z i); reflexivity.
  - rewrite (testbit_high x 32 i), (testbit_high y 32 i), (testbit_high z 32 i) by assumption.
    destruct (N.testbit (N.lnot x 32) i); reflexivity.
Qed.

Lemma maj_eq x y z :
  N.lxor (N.land (N.lxor x y) (N.lxor x z)) x = Maj x y z.
Proof.
  unfold Maj. apply N.bits_inj; intro i.
  rewrite !N.lxor_spec, !N.land_spec, !N.lxor_spec.
  destruct (N.testbit x i), (N.testbit y i), (N.testbit z i); reflexivity.
Qed.

Lemma N_of_iadd a b : w32 a -> w32 b -> N_of_bits (iadd a b) = add32 (N_of_bits a) (N_of_bits b).
Proof.
  unfold w32; intros Ha Hb. unfold iadd. rewrite N_of_badd by congruence. rewrite Ha. reflexivity.
Qed.
Lemma N_of_ixor a b : w32 a -> w32 b -> N_of_bits (ixor a b) = N.lxor (N_of_bits a) (N_of_bits b).
Proof. unfold w32; intros. apply N_of_bits_bxor. congruence. Qed.
Lemma N_of_iand a b : w32 a -> w32 b -> N_of_bits (iand a b) = N.land (N_of_bits a) (N_of_bits b).
Proof. unfold w32; intros. apply N_of_bits_band. congruence. Qed.

Lemma w32_iadd a b : w32 a -> w32 b -> w32 (iadd a b).
Proof. unfold w32, iadd; intros. rewrite badd_length; congruence. Qed.
Lemma w32_ixor a b : w32 a -> w32 b -> w32 (ixor a b).
Proof. unfold w32, ixor; intros. rewrite bxor_length; congruence. Qed.
Lemma w32_iand a b : w32 a -> w32 b -> w32 (iand a b).
Proof. unfold w32, iand; intros. rewrite band_length; congruence. Qed.
Lemma w32_rrot a s : w32 a -> (s < 32)%nat -> w32 (rrot_int a s).
Proof. unfold w32; intros. rewrite rrot_int_length; lia. Qed.
Lemma w32_ishr a s : w32 a -> w32 (ishr a s).
Proof. unfold w32; intros. now rewrite ishr_length. Qed.

Ltac w32_tac :=
  repeat match goal with
  | |- w32 (iadd _ _) => apply w32_iadd
  | |- w32 (ixor _ _) => apply w32_ixor
  | |- w32 (iand _ _) => apply w32_iand
  | |- w32 (ishr _ _) => apply w32_ishr
  | |- w32 (rrot_int _ _) => apply w32_rrot; [| lia]
  end; try assumption.
Ltac push_N :=
  repeat first
    [ rewrite N_of_iadd by w32_tac | rewrite N_of_ixor by w32_tac
    | rewrite N_of_iand by w32_tac | rewrite N_of_rrot by (w32_tac || lia)
    | rewrite N_of_ishr ].

(** * Message schedule *)
Lemma map_nth_N w i : N_of_bits (wi w i) = nthw (map N_of_bits w) i.
Proof. unfold wi, nthw. change 0 with (N_of_bits []) at 1. now rewrite map_nth. Qed.

Lemma nth_w32 w i : Forall w32 w -> (i < length w)%nat -> w32 (wi w i).
Proof. intros H Hi. exact (proj1 (Forall_nth w32 w) H i [] Hi). Qed.

Lemma sched_shuffle a b c d :
  add32 (add32 (add32 a b) c) d = add32 (add32 (add32 d c) b) a.
Proof.
  rewrite (add32_comm (add32 (add32 d c) b) a), (add32_comm (add32 d c) b).
  rewrite (add32_comm d c). now rewrite <- !add32_assoc.
Qed.

Lemma w_next_ok w : Forall w32 w -> (16 <= length w)%nat ->
  w32 (w_next w) /\ N_of_bits (w_next w) = sched_next (map N_of_bits w).
Proof.
  intros HF Hl. unfold w_next, sched_next. rewrite map_length.
  assert (H15 := nth_w32 w (length w - 15) HF ltac:(lia)).
  assert (H2 := nth_w32 w (length w - 2) HF ltac:(lia)).
  assert (H16 := nth_w32 w (length w - 16) HF ltac:(lia)).
  assert (H7 := nth_w32 w (length w - 7) HF ltac:(lia)).
  cbv zeta. split; [w32_tac|].
  push_N. rewrite !map_nth_N.
  change (N.of_nat 3) with 3; change (N.of_nat 7) with 7; change (N.of_nat 18) with 18;
  change (N.of_nat 17) with 17; change (N.of_nat 19) with 19; change (N.of_nat 10) with 10.
  fold (SHR 3 (nthw (map N_of_bits w) (length w - 15))).
  fold (SHR 10 (nthw (map N_of_bits w) (length w - 2))).
  fold (sigma0 (nthw (map N_of_bits w) (length w - 15))).
  fold (sigma1 (nthw (map N_of_bits w) (length w - 2))).
  apply sched_shuffle.
Qed.

Lemma w_extend_ok n w : Forall w32 w -> (16 <= length w)%nat ->
  Forall w32 (w_extend n w) /\ map N_of_bits (w_extend n w) = sched n (map N_of_bits w).
Proof.
  revert w; induction n; intros w HF Hl; cbn [w_extend sched]; [auto|].
  destruct (w_next_ok w HF Hl) as [A B].
  destruct (IHn (w ++ [w_next w])) as [C D].
  - apply Forall_app; auto.
  - rewrite app_length; cbn; lia.
  - split; [exact C|]. rewrite D, map_app. cbn [map]. now rewrite B.
Qed.

(** * Rounds *)
Definition w32_8 (s : int8) : Prop :=
  let '(a, b, c, d, e, f, g, h) := s in
  w32 a /\ w32 b /\ w32 c /\ w32 d /\ w32 e /\ w32 f /\ w32 g /\ w32 h.
Definition N8 (s : int8) : st8 :=
  let '(a, b, c, d, e, f, g, h) := s in
  (N_of_bits a, N_of_bits b, N_of_bits c, N_of_bits d,
   N_of_bits e, N_of_bits f, N_of_bits g, N_of_bits h).

Lemma t1_shuffle h k s1 ch w :
  add32 (add32 (add32 (add32 h k) s1) ch) w = add32 (add32 (add32 (add32 h s1) ch) k) w.
Proof.
  f_equal. rewrite (add32_assoc h k s1), (add32_comm k s1), <- (add32_assoc h s1 k).
  rewrite (add32_assoc (add32 h s1) k ch), (add32_comm k ch), <- add32_assoc. reflexivity.
Qed.

Lemma int_round_ok s k w : w32_8 s -> w32 k -> w32 w ->
  w32_8 (int_round s (k, w)) /\
  N8 (int_round s (k, w)) = round (N8 s) (N_of_bits k, N_of_bits w).
Proof.
  destruct s as [[[[[[[a b] c] d] e] f] g] h]. cbn [w32_8].
  intros (Ha & Hb & Hc & Hd & He & Hf & Hg & Hh) Hk Hw.
  unfold int_round. cbv zeta. cbn [fst snd].
  split; [cbn [w32_8]; repeat split; w32_tac|].
  cbn [N8]. unfold round. cbn [fst snd]. cbv zeta.
  push_N.
  rewrite ch_eq by (apply N_of_bits_u32; assumption). rewrite maj_eq.
  rewrite (t1_shuffle (N_of_bits h) (N_of_bits k)). reflexivity.
Qed.

Lemma rounds_ok ks ws s : w32_8 s -> Forall w32 ks -> Forall w32 ws ->
  w32_8 (fold_left int_round (combine ks ws) s) /\
  N8 (fold_left int_round (combine ks ws) s) =
  fold_left round (combine (map N_of_bits ks) (map N_of_bits ws)) (N8 s).
Proof.
  revert ws s; induction ks as [|k ks IH]; intros ws s Hs Hks Hws; [cbn; auto|].
  destruct ws as [|w ws]; [cbn; auto|].
  inversion Hks; inversion Hws; subst.
  destruct (int_round_ok s k w) as [A B]; try assumption.
  cbn [combine map fold_left]. rewrite <- B. apply IH; assumption.
Qed.

Lemma chunk_compress_ok H chunk :
  Forall w32 H -> length H = 8%nat -> Forall w32 chunk -> length chunk = 16%nat ->
  Forall w32 (chunk_compress H chunk) /\ length (chunk_compress H chunk) = 8%nat /\
  map N_of_bits (chunk_compress H chunk) = compress (map N_of_bits H) (map N_of_bits chunk).
Proof.
  intros HF HL CF CL.
  destruct (w_extend_ok 48 chunk CF ltac:(lia)) as [WF WE].
  do 9 (destruct H as [|? H]; try discriminate HL). clear HL.
  repeat match goal with K : Forall _ (_ :: _) |- _ => inversion K; clear K; subst end.
  unfold chunk_compress, compress. rewrite <- WE, <- k_consts.
  unfold wi; cbn [nth].
  match goal with |- context [fold_left int_round ?L ?s] =>
    destruct (rounds_ok sha256_k (w_extend 48 chunk) s) as [A B];
    [cbn [w32_8]; repeat split; assumption | apply k_w32 | exact WF |] end.
  cbn [map st_of nthw nth]. cbn [N8] in B.
  unfold st_of, nthw. cbn [nth].
  rewrite <- B. clear B.
  destruct (fold_left int_round _ _) as [[[[[[[a b] c] d] e] f] g] h].
  cbn [w32_8] in A. destruct A as (Ha & Hb & Hc & Hd & He & Hf & Hg & Hh).
  cbn [N8 list_of map2 map]. split; [|split; [reflexivity|]].
  - repeat constructor; w32_tac.
  - push_N. reflexivity.
Qed.

(** * The plain compression function *)
Lemma u32add_add32 x y : u32add x y = add32 x y.
Proof. reflexivity. Qed.

Lemma lxor_u32 x y : u32 x -> u32 y -> u32 (N.lxor x y).
Proof. apply lxor_lt. Qed.

Lemma pw_next_ok w : pw_next w = sched_next w.
Proof.
  unfold pw_next, sched_next. cbv zeta. rewrite !rrot_u32_ROTR.
  unfold un. fold (nthw w (length w - 15)) (nthw w (length w - 2))
    (nthw w (length w - 16)) (nthw w (length w - 7)).
  fold (SHR 3 (nthw w (length w - 15))). fold (SHR 10 (nthw w (length w - 2))).
  fold (sigma0 (nthw w (length w - 15))). fold (sigma1 (nthw w (length w - 2))).
  rewrite !u32add_add32.
  apply sched_shuffle.
Qed.

Lemma pw_extend_ok n w : pw_extend n w = sched n w.
Proof. revert w; induction n; intro w; cbn; [reflexivity|]. now rewrite pw_next_ok, IHn. Qed.

Definition u32_8 (s : st8) : Prop :=
  let '(a, b, c, d, e, f, g, h) := s in
  u32 a /\ u32 b /\ u32 c /\ u32 d /\ u32 e /\ u32 f /\ u32 g /\ u32 h.

Lemma plain_round_ok s kw : u32_8 s ->
  u32_8 (plain_round s kw) /\ plain_round s kw = round s kw.
Proof.
  destruct s as [[[[[[[a b] c] d] e] f] g] h]. cbn [u32_8].
  intros (Ha & Hb & Hc & Hd & He & Hf & Hg & Hh).
  unfold plain_round. cbv zeta.
  split; [cbn [u32_8]; repeat split; try assumption; apply add32_u32|].
  unfold round. cbv zeta. rewrite !u32add_add32, !rrot_u32_ROTR.
  rewrite ch_eq by assumption. rewrite maj_eq, (t1_shuffle h (fst kw)). reflexivity.
Qed.

Lemma plain_rounds_ok l s : u32_8 s ->
  u32_8 (fold_left plain_round l s) /\ fold_left plain_round l s = fold_left round l s.
Proof.
  revert s; induction l as [|kw l IH]; intros s Hs; [cbn; auto|].
  destruct (plain_round_ok s kw Hs) as [A B].
  cbn [fold_left]. rewrite <- B. apply IH; assumption.
Qed.

Lemma byte_be8 b : b < 256 -> length (bits_of_byte b) = 8%nat.
Proof. intros. apply be_of_N_length. Qed.

Lemma N_of_be_app l1 l2 :
  N_of_be (l1 ++ l2) = N_of_be l1 * 2 ^ N.of_nat (length l2) + N_of_be l2.
Proof. unfold N_of_be. rewrite rev_app_distr, N_of_bits_app, rev_length. lia. Qed.

Lemma N_of_be_of_N n x : x < 2 ^ N.of_nat n -> N_of_be (be_of_N n x) = x.
Proof. intro. unfold N_of_be, be_of_N. rewrite rev_involutive. now apply N_of_bits_of_N_small. Qed.

Lemma be_of_N_of_be n l : length l = n -> be_of_N n (N_of_be l) = l.
Proof.
  intro H. unfold be_of_N, N_of_be. rewrite bits_of_N_of_bits' by (rewrite rev_length; exact H).
  apply rev_involutive.
Qed.

Definition byte (x : N) : Prop := x < 256.

Lemma lor_add_disj a b n : b < 2 ^ n -> N.lor (N.shiftl a n) b = a * 2 ^ n + b.
Proof.
  intro H. rewrite N.shiftl_mul_pow2. rewrite <- N.lxor_lor, <- N.add_nocarry_lxor.
  - reflexivity.
  - apply N.bits_inj; intro i. rewrite N.land_spec, N.bits_0.
    destruct (N.lt_ge_cases i n).
    + now rewrite N.mul_pow2_bits_low.
    + rewrite (testbit_high b n i) by assumption. apply andb_false_r.
  - apply N.bits_inj; intro i. rewrite N.land_spec, N.bits_0.
    destruct (N.lt_ge_cases i n).
    + now rewrite N.mul_pow2_bits_low.
    + rewrite (testbit_high b n i) by assumption. apply andb_false_r.
Qed.

Lemma load_word a b c d : byte a -> byte b -> byte c -> byte d ->
  N.lor (N.lor (N.lor (N.shiftl a 24) (N.shiftl b 16)) (N.shiftl c 8)) d =
  N_of_be (bits_of_byte a ++ bits_of_byte b ++ bits_of_byte c ++ bits_of_byte d).
Proof.
  intros Ha Hb Hc Hd. unfold byte in *.
  rewrite !N_of_be_app. rewrite !app_length. rewrite !byte_be8 by assumption.
  unfold bits_of_byte. rewrite !N_of_be_of_N by assumption.
  change (N.of_nat (8 + (8 + 8))) with 24. change (N.of_nat (8 + 8)) with 16.
  change (N.of_nat 8) with 8.
  replace (N.shiftl b 16) with (N.shiftl (N.shiftl b 8) 8) by (now rewrite N.shiftl_shiftl).
  replace (N.shiftl a 24) with (N.shiftl (N.shiftl (N.shiftl a 8) 8) 8)
    by (now rewrite !N.shiftl_shiftl).
  rewrite <- !N.shiftl_lor.
  rewrite (lor_add_disj a b 8), (lor_add_disj _ c 8), (lor_add_disj _ d 8) by assumption.
  change (2 ^ 24) with (2 ^ 8 * 2 ^ 8 * 2 ^ 8). change (2 ^ 16) with (2 ^ 8 * 2 ^ 8).
  generalize (2 ^ 8); intro p. nia.
Qed.

Lemma bits_of_bytes_app a b : bits_of_bytes (a ++ b) = bits_of_bytes a ++ bits_of_bytes b.
Proof. unfold bits_of_bytes. apply flat_map_app. Qed.
Lemma bits_of_bytes_length l : length (bits_of_bytes l) = (8 * length l)%nat.
Proof.
  unfold bits_of_bytes, bits_of_byte. induction l; cbn [flat_map length]; [reflexivity|].
  rewrite app_length, be_of_N_length. lia.
Qed.

Lemma words_load n chunk : length chunk = (4 * n)%nat -> Forall byte chunk ->
  map (fun i => load_be32 chunk (4 * i)) (seq 0 n) = words (bits_of_bytes chunk).
Proof.
  revert chunk; induction n; intros chunk HL HF.
  - destruct chunk; [reflexivity|discriminate].
  - do 4 (destruct chunk as [|? chunk]; [cbn in HL; lia|]).
    rename n0 into a, n1 into b, n2 into c, n3 into d.
    repeat match goal with K : Forall _ (_ :: _) |- _ => inversion K; clear K; subst end.
    unfold words in *. cbn [seq map].
    change (a :: b :: c :: d :: chunk) with ([a;b;c;d] ++ chunk) at 3.
    rewrite bits_of_bytes_app.
    rewrite chunks_app.
    2: lia.
    2: now rewrite bits_of_bytes_length.
    cbn [map]. f_equal.
    + unfold load_be32, un. cbn [nth Nat.add Nat.mul]. rewrite load_word by assumption.
      unfold bits_of_bytes. cbn [flat_map]. rewrite app_nil_r. reflexivity.
    + rewrite <- IHn; try assumption. 2: cbn in HL; lia.
      rewrite <- seq_shift, map_map. apply map_ext_in. intros i _.
      unfold load_be32, un.
      replace (4 * S i)%nat with (S (S (S (S (4 * i))))) by lia.
      reflexivity.
Qed.

Lemma plain_chunk_compress_ok H chunk :
  Forall u32 H -> length H = 8%nat -> Forall byte chunk -> length chunk = 64%nat ->
  Forall u32 (plain_chunk_compress H chunk) /\ length (plain_chunk_compress H chunk) = 8%nat /\
  plain_chunk_compress H chunk = compress H (words (bits_of_bytes chunk)).
Proof.
  intros HF HL CF CL.
  do 9 (destruct H as [|? H]; try discriminate HL). clear HL.
  repeat match goal with K : Forall u32 (_ :: _) |- _ => inversion K; clear K; subst end.
  unfold plain_chunk_compress, compress.
  rewrite (words_load 16 chunk) by assumption.
  rewrite pw_extend_ok, plain_k_consts. unfold un, st_of, nthw. cbn [nth].
  match goal with |- context [fold_left plain_round ?L ?s] =>
    destruct (plain_rounds_ok L s) as [A B];
    [cbn [u32_8]; repeat split; assumption |] end.
  rewrite <- B. clear B.
  destruct (fold_left plain_round _ _) as [[[[[[[a b] c] d] e] f] g] h].
  cbn [list_of map2]. split; [|split; [reflexivity|]].
  - repeat constructor; apply add32_u32.
  - reflexivity.
Qed.
