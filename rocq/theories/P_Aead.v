(** Two-party AES-GCM: model against SP 800-38D, for arbitrary sequences of calls. *)
From Coq Require Import List NArith Bool Arith Lia.
From Verif Require Import L_Bits L_Res L_Xor M_EmpInteger M_Utils M_Bristol M_Block M_Ole2k M_Shares M_Aead.
From Verif Require Import S_Codec S_Gcm S_Aes P_Gf128 P_Utils P_Shares P_Ole2k P_AesNet P_Gcm.
Import ListNotations.
Local Open Scope N_scope.
Local Opaque mulBlock gf_mul invBlock computeKS computeAES_KS.

(** * Powers *)
Definition pows (a : N) (k : nat) : list N := map (fun i => gf_pow a (S i)) (seq 0 k).
Lemma pows_S a k : pows a (S k) = pows a k ++ [gf_pow a (S k)].
Proof. unfold pows. rewrite seq_S, map_app. reflexivity. Qed.
Lemma pows_length a k : length (pows a k) = k.
Proof. unfold pows. now rewrite map_length, seq_length. Qed.
Lemma pows_blk a k : blk a -> Forall blk (pows a k).
Proof. intro H. unfold pows. apply Forall_map. apply Forall_forall. intros. now apply gf_pow_blk. Qed.
Lemma pows_1 a : blk a -> pows a 1 = [a].
Proof. intro H. unfold pows. cbn [seq map gf_pow]. now rewrite gf_mul_1_r. Qed.
Lemma pows_firstn a k n : (n <= k)%nat -> firstn n (pows a k) = pows a n.
Proof.
  intro H. unfold pows. rewrite firstn_map. f_equal.
  replace k with (n + (k - n))%nat by lia. rewrite seq_app, firstn_app, seq_length, Nat.sub_diag, firstn_O, app_nil_r.
  apply firstn_all2. rewrite seq_length. lia.
Qed.
Lemma last_snoc (l : list N) x d : last (l ++ [x]) d = x.
Proof. apply last_last. Qed.
Lemma extend_hs_ok f : forall a k, blk a -> extend_hs f a (pows a (S k)) = pows a (S k + f).
Proof.
  induction f as [|f IH]; intros a k H; cbn [extend_hs]; [now rewrite Nat.add_0_r|].
  rewrite (pows_S a k), last_snoc, <- pows_S.
  rewrite mulBlock_gf by (auto using gf_pow_blk).
  change (gf_mul a (gf_pow a (S k))) with (gf_pow a (S (S k))). rewrite <- pows_S.
  rewrite IH by exact H. f_equal. lia.
Qed.
Lemma hs_upto_ok a k len : blk a -> hs_upto (pows a (S k)) len = pows a (Nat.max (S k) len).
Proof.
  intro H. unfold hs_upto.
  replace (nth 0 (pows a (S k)) 0) with a.
  2:{ unfold pows. cbn [seq map nth gf_pow]. symmetry. now apply gf_mul_1_r. }
  rewrite pows_length, extend_hs_ok by exact H. f_equal. lia.
Qed.
Lemma gf_pow_mul a b n : blk a -> blk b -> gf_mul (gf_pow a n) (gf_pow b n) = gf_pow (gf_mul a b) n.
Proof.
  intros Ha Hb. induction n as [|n IH]; cbn [gf_pow]; [apply gf_mul_1_l, gf_one_blk|].
  rewrite <- IH. assert (Hp : blk (gf_pow a n)) by (now apply gf_pow_blk).
  assert (Hq : blk (gf_pow b n)) by (now apply gf_pow_blk).
  rewrite (gf_mul_swap _ b), <- (gf_mul_assoc a (gf_pow a n)) by auto using gf_mul_blk.
  rewrite gf_mul_swap. apply gf_mul_assoc; auto using gf_mul_blk.
Qed.

(** * Sums *)
Lemma xor_fold_acc l : forall r, fold_left N.lxor l r = N.lxor r (xor_all l).
Proof.
  unfold xor_all. induction l as [|x l IH]; intro r; cbn [fold_left]; [now rewrite N.lxor_0_r|].
  rewrite IH, (IH (N.lxor 0 x)). now rewrite N.lxor_0_l, N.lxor_assoc.
Qed.
Lemma xor_all_cons x l : xor_all (x :: l) = N.lxor x (xor_all l).
Proof. unfold xor_all at 1. cbn [fold_left]. now rewrite xor_fold_acc, N.lxor_0_l. Qed.
Lemma xor_all_map2 : forall a b, length a = length b ->
  N.lxor (xor_all a) (xor_all b) = xor_all (map2 N.lxor a b).
Proof.
  induction a as [|x a IH]; intros [|y b] H; try discriminate; [reflexivity|].
  cbn [map2]. rewrite !xor_all_cons, <- IH by (cbn in H; lia). xor_solve.
Qed.
Lemma xor_all_blk l : Forall blk l -> blk (xor_all l).
Proof. induction 1; [reflexivity|]. rewrite xor_all_cons. now apply lxor_blk. Qed.

Fixpoint poly (h : N) (l : list N) : N :=
  match l with [] => 0 | x :: t => gf_mul (N.lxor (poly h t) x) h end.
Lemma poly_ghash h l : ghash_spec h (rev l) = poly h l.
Proof.
  induction l as [|x l IH]; [reflexivity|]. cbn [rev poly]. rewrite <- IH. unfold ghash_spec.
  now rewrite fold_left_app.
Qed.
Lemma poly_blk h l : blk h -> blk (poly h l).
Proof. intro H. destruct l; [reflexivity|]. cbn [poly]. now apply gf_mul_blk. Qed.
Lemma poly_sum h : blk h -> forall l k, Forall blk l ->
  xor_all (map2 gf_mul l (map (fun i => gf_pow h (S i)) (seq k (length l)))) = gf_mul (poly h l) (gf_pow h k).
Proof.
  intro Hh. induction l as [|x l IH]; intros k F; cbn [length seq map map2 poly].
  - now rewrite gf_mul_0_l.
  - inversion F as [|? ? Hx Hl]; subst. rewrite xor_all_cons, (IH (S k)) by assumption.
    rewrite gf_mul_add_l, gf_mul_add_l. cbn [gf_pow].
    assert (P : blk (gf_pow h k)) by (now apply gf_pow_blk).
    assert (Q : blk (poly h l)) by (now apply poly_blk).
    rewrite !gf_mul_assoc by auto using gf_mul_blk. apply N.lxor_comm.
Qed.
Lemma map2_pows a b : blk a -> blk b -> forall l k m, Forall blk l -> 
  map2 gf_mul (map2 gf_mul l (map (fun i => gf_pow a (S i)) (seq k (length l + m)))) (map (fun i => gf_pow b (S i)) (seq k (length l))) =
  map2 gf_mul l (map (fun i => gf_pow (gf_mul a b) (S i)) (seq k (length l))).
Proof.
  intros Ha Hb. induction l as [|x l IH]; intros k m F; [reflexivity|]. inversion F as [|? ? Hx Hl]; subst.
  cbn [length Nat.add seq map map2]. f_equal.
  - rewrite <- gf_pow_mul, gf_mul_assoc by (auto using gf_pow_blk). reflexivity.
  - now apply IH.
Qed.

(** * The oblivious GHASH *)
Definition gfr_ok (g : N -> N -> N) : Prop :=
  (forall b, additive (fun a => g a b)) /\ (forall a, additive (g a)) /\
  (forall a b, blk a -> blk b -> g a b = gf_mul a b).
Lemma gfr_gf_mul : gfr_ok gf_mul.
Proof. split; [exact (proj1 gf_mul_bi)|split; [exact (proj2 gf_mul_bi)|reflexivity]]. Qed.
Lemma gfr_mulBlock : gfr_ok mulBlock.
Proof. split; [exact (proj1 mulBlock_bi)|split; [exact (proj2 mulBlock_bi)|exact mulBlock_gf]]. Qed.

Definition ole_rand_ok (r : ole_rand) (n : nat) : Prop :=
  length (raw0 r) = n /\ length (raw1 r) = n /\
  Forall (fun x => length x = 128%nat) (raw0 r) /\ Forall (fun x => length x = 128%nat) (raw1 r).

Definition set_hs (p : party) (hs : list N) : party :=
  {| p_gc_h := p_gc_h p; p_mul_hs := hs; p_gc_z0 := p_gc_z0 p; p_gc_z := p_gc_z p; p_open_z := p_open_z p |}.

Section G.
Variable gfr : N -> N -> N.
Hypothesis GFR : gfr_ok gfr.

Lemma map2_gfr : forall l m, Forall blk l -> Forall blk m -> map2 gfr l m = map2 gf_mul l m.
Proof.
  induction l as [|x l IH]; intros [|y m] F G; try reflexivity. inversion F; inversion G; subst.
  cbn [map2]. f_equal; [now apply GFR|now apply IH].
Qed.
Lemma map2_mulBlock : forall l m, Forall blk l -> Forall blk m -> map2 mulBlock l m = map2 gf_mul l m.
Proof.
  induction l as [|x l IH]; intros [|y m] F G; try reflexivity. inversion F; inversion G; subst.
  cbn [map2]. f_equal; [now apply mulBlock_gf|now apply IH].
Qed.
Lemma map2_gf_blk : forall l m, Forall blk m -> Forall blk (map2 gf_mul l m).
Proof.
  induction l as [|x l IH]; intros [|y m] G; try constructor. 
  - inversion G; subst. now apply gf_mul_blk.
  - inversion G; subst. now apply IH.
Qed.

Lemma obv_ghash_ok a b ha hb ka kb ins r : blk ha -> blk hb -> Forall blk ins ->
  p_mul_hs a = pows ha (S ka) -> p_mul_hs b = pows hb (S kb) -> ole_rand_ok r (length ins) ->
  exists oa ob, obv_ghash gfr a b ins r =
    Ok (set_hs a (pows ha (Nat.max (S ka) (length ins))), set_hs b (pows hb (Nat.max (S kb) (length ins))), oa, ob) /\
    N.lxor oa ob = ghash_spec (gf_mul ha hb) (rev ins).
Proof.
  intros Ha Hb Hi Ea Eb (R0 & R1 & F0 & F1). unfold obv_ghash. rewrite Ea, Eb.
  change (pows ha (S ka)) with (gf_pow ha 1 :: map (fun i => gf_pow ha (S i)) (seq 1 ka)) at 1.
  change (pows hb (S kb)) with (gf_pow hb 1 :: map (fun i => gf_pow hb (S i)) (seq 1 kb)) at 1.
  cbv iota. rewrite !hs_upto_ok by assumption.
  unfold ghash_in_alice, ghash_in_bob. rewrite pows_firstn by lia.
  set (m := (Nat.max (S ka) (length ins) - length ins)%nat).
  assert (M : Nat.max (S ka) (length ins) = (length ins + m)%nat) by lia.
  assert (L1 : length (map2 mulBlock ins (pows ha (Nat.max (S ka) (length ins)))) = length ins).
  { rewrite map2_length, pows_length. lia. }
  pose proof (ole_run_ok gfr (proj1 GFR) (proj1 (proj2 GFR))
    (map2 mulBlock ins (pows ha (Nat.max (S ka) (length ins)))) (pows hb (length ins)) (raw0 r) (raw1 r)) as O.
  rewrite L1, pows_length in O. specialize (O eq_refl R0 R1 F0 F1 (pows_blk _ _ Hb)).
  destruct (ole_run gfr (raw0 r) (raw1 r) _ _) as [oa ob]. destruct O as (LA & LB & EQ).
  exists (xor_all oa), (xor_all ob). split; [reflexivity|].
  rewrite xor_all_map2 by congruence. rewrite EQ, map2_mulBlock by (auto using pows_blk).
  rewrite map2_gfr by (auto using pows_blk, map2_gf_blk).
  unfold pows. rewrite M, map2_pows by assumption.
  rewrite poly_sum by (auto using gf_mul_blk). rewrite poly_ghash. cbn [gf_pow].
  apply gf_mul_1_r. apply poly_blk. now apply gf_mul_blk.
Qed.
End G.

(** * Calls and the state invariant *)
(** what a call leaves behind: its variable IV, payload length, and sec_type *)
Record call := { c_iv : list N; c_len : nat; c_sec : bool }.
(** the GCM keystream bytes of a call *)
Definition call_ks (E : N -> N) (fiv : list N) (c : call) : list N :=
  firstn (c_len c) (keystream E ((c_len c + 15) / 16) (inc32 (j0_of (fiv ++ c_iv c)))).
Definition call_ej0 (E : N -> N) (fiv : list N) (c : call) : N := E (j0_of (fiv ++ c_iv c)).

Record aead_inv (ek : Integer) (E : N -> N) (fiv : list N) (hist : list call) (s : aead) : Prop := {
  i_key : g_key (st_gc s) = ek;
  i_fixed : g_fixed (st_gc s) = str_to_int fiv;
  i_hs : exists a b ka kb, blk a /\ blk b /\ gf_mul a b = E 0 /\
           p_mul_hs (st_a s) = pows a (S ka) /\ p_mul_hs (st_b s) = pows b (S kb);
  i_h : N.lxor (p_gc_h (st_a s)) (p_gc_h (st_b s)) = E 0;
  i_h_a : blk (p_gc_h (st_a s));
  i_h_b : blk (p_gc_h (st_b s));
  i_z0 : Forall2 (fun p c => N.lxor (fst p) (snd p) = call_ej0 E fiv c /\ blk (fst p) /\ blk (snd p))
           (combine (p_gc_z0 (st_a s)) (p_gc_z0 (st_b s))) hist;
  i_z0_a : length (p_gc_z0 (st_a s)) = length hist;
  i_z0_b : length (p_gc_z0 (st_b s)) = length hist;
  i_open_a : p_open_z (st_a s) = map (fun c => rev (call_ks E fiv c)) (filter (fun c => negb (c_sec c)) hist);
  i_open_b : p_open_z (st_b s) = p_open_z (st_a s);
  i_gcz : Forall2 (fun p c => map2 N.lxor (fst p) (snd p) = rev (call_ks E fiv c) /\
                     length (fst p) = c_len c /\ length (snd p) = c_len c /\
                     Forall (fun x => x < 256) (fst p) /\ Forall (fun x => x < 256) (snd p))
            (combine (p_gc_z (st_a s)) (p_gc_z (st_b s))) (filter c_sec hist);
  i_gcz_a : length (p_gc_z (st_a s)) = length (filter c_sec hist);
  i_gcz_b : length (p_gc_z (st_b s)) = length (filter c_sec hist);
  i_zk_h : k_h (st_zk s) = bits_of_N 128 (p_gc_h (st_a s));
  i_zk_z0 : k_z0 (st_zk s) = map (bits_of_N 128) (p_gc_z0 (st_a s));
  i_zk_z : k_z (st_zk s) = map (flat_map (bits_of_N 8)) (p_gc_z (st_a s)) }.

Definition bytes_ok (l : list N) := Forall (fun b => b < 256) l.

Definition nblocks (aad c : list N) : nat := ((length aad + 15) / 16 + (length c + 15) / 16 + 1)%nat.
Definition mk_call (iv : list N) (n : nat) (sec : bool) : call := {| c_iv := iv; c_len := n; c_sec := sec |}.
Definition rand_ok (r : call_rand) (aad c : list N) : Prop :=
  length (m_z0 r) = 128%nat /\ length (m_z r) = (8 * length c)%nat /\ ole_rand_ok (m_ole r) (nblocks aad c).
Lemma pad16_div l : (length (pad16 l) = 16 * ((length l + 15) / 16))%nat.
Proof. unfold pad16. rewrite app_length, repeat_length, ctr_pad. reflexivity. Qed.
Lemma tag_blocks_length aad c : length (tag_blocks aad c) = nblocks aad c.
Proof.
  unfold tag_blocks. rewrite map_length. apply chunks_length; [lia|].
  rewrite rev_length, tag_buffer_ok. unfold gcm_ghash_input, nblocks.
  rewrite !app_length, !pad16_div, !be_enc_length. lia.
Qed.
Lemma tag_blocks_blk aad c : bytes_ok aad -> bytes_ok c -> Forall blk (tag_blocks aad c).
Proof.
  intros Ha Hc. destruct (tag_blocks_ok aad c Ha Hc) as [E F]. rewrite <- E in F.
  apply Forall_rev in F. now rewrite rev_involutive in F.
Qed.
Lemma xor_arr_bytes : forall a b, bytes_ok a -> bytes_ok b -> bytes_ok (xor_arr a b).
Proof.
  unfold xor_arr. induction a as [|x a IH]; intros [|y b] Ha Hb; try constructor; inversion Ha; inversion Hb; subst.
  - now apply (lxor_lt _ _ 8).
  - now apply IH.
Qed.
Lemma set_hs_push p x hs : set_hs (push_z0 p x) hs = push_z0 (set_hs p hs) x.
Proof. reflexivity. Qed.
Lemma xor_arr_assoc : forall a b c, xor_arr (xor_arr a b) c = xor_arr a (xor_arr b c).
Proof.
  unfold xor_arr. induction a as [|x a IH]; intros [|y b] [|z c]; try reflexivity. cbn [map2].
  now rewrite N.lxor_assoc, IH.
Qed.
Lemma xor_arr_comm : forall a b, xor_arr a b = xor_arr b a.
Proof.
  unfold xor_arr. induction a as [|x a IH]; intros [|y b]; try reflexivity. cbn [map2]. now rewrite N.lxor_comm, IH.
Qed.
Lemma Forall2_combine_snoc {A B C} (P : A * B -> C -> Prop) la lb lc a b c :
  length la = length lb -> Forall2 P (combine la lb) lc -> P (a, b) c ->
  Forall2 P (combine (la ++ [a]) (lb ++ [b])) (lc ++ [c]).
Proof.
  intros L F H. assert (E : combine (la ++ [a]) (lb ++ [b]) = combine la lb ++ [(a, b)]).
  { clear F. revert lb L. induction la as [|x la IH]; intros [|y lb] L; try discriminate; [reflexivity|].
    cbn [app combine]. now rewrite IH by (cbn in L; lia). }
  rewrite E. apply Forall2_app; [exact F|]. constructor; [exact H|constructor].
Qed.
Lemma tag_from_ghash aad c h z : bytes_ok aad -> bytes_ok c ->
  rev (bytes_of_block (N.lxor (ghash_spec h (rev (tag_blocks aad c))) z)) = gcm_tag_from h z aad c.
Proof.
  intros Ha Hc. rewrite (proj1 (tag_blocks_ok aad c Ha Hc)), rev_bytes_of_block. reflexivity.
Qed.
(** the state after a call: fields as pushed *)
Definition after (s : aead) (n1 : Integer) (ha hb : list N) (z0a z0b : N) (sec : bool) (za zb z : list N) : aead :=
  let a := push_z0 (set_hs (st_a s) ha) z0a in
  let b := push_z0 (set_hs (st_b s) hb) z0b in
  {| st_gc := {| g_key := g_key (st_gc s); g_nonce := n1; g_fixed := g_fixed (st_gc s) |};
     st_a := if sec then push_gc_z a (rev za) else push_open a z;
     st_b := if sec then push_gc_z b (rev zb) else push_open b z;
     st_zk := {| k_h := k_h (st_zk s); k_z0 := k_z0 (st_zk s) ++ [bits_of_N 128 z0a];
                 k_z := if sec then k_z (st_zk s) ++ [flat_map (bits_of_N 8) (rev za)] else k_z (st_zk s) |} |}.


Section K.
Variable ek : Integer.
Variable E : N -> N.
Variable fiv : list N.
Lemma keystream_length m n : length (keystream E m n) = (16 * m)%nat.
Proof. unfold keystream. rewrite (flat_map_length_const _ 16) by (intro; apply be_enc_length). now rewrite seq_length. Qed.
Lemma call_ks_length c : length (call_ks E fiv c) = c_len c.
Proof.
  unfold call_ks. rewrite firstn_length, keystream_length, ctr_pad. lia.
Qed.
Lemma call_ks_bytes c : bytes_ok (call_ks E fiv c).
Proof. apply Forall_firstn'. unfold keystream. apply Forall_flat_map, Forall_forall. intros. apply be_enc_bytes. Qed.
Lemma ctext_bytes iv p : bytes_ok p -> bytes_ok (gcm_ctext E (fiv ++ iv) p).
Proof.
  intro H. unfold gcm_ctext, gctr_spec. rewrite <- xor_arr_keystream. apply xor_arr_bytes; [exact H|].
  exact (call_ks_bytes (mk_call iv (length p) false)).
Qed.
Lemma ctext_length iv p : length (gcm_ctext E (fiv ++ iv) p) = length p.
Proof.
  unfold gcm_ctext, gctr_spec, xor_str. rewrite map_length, combine_length, keystream_length, ctr_pad. lia.
Qed.
Lemma ctext_xor iv p sec : xor_arr p (call_ks E fiv (mk_call iv (length p) sec)) = gcm_ctext E (fiv ++ iv) p.
Proof. unfold call_ks, gcm_ctext, gctr_spec. cbn [c_len c_iv mk_call]. apply xor_arr_keystream. Qed.
Lemma after_inv hist s n1 ha hb ka kb hsa hsb z0a z0b sec za zb z iv n :
  hsa = pows ha (S ka) -> hsb = pows hb (S kb) -> aead_inv ek E fiv hist s -> blk ha -> blk hb -> gf_mul ha hb = E 0 ->
  N.lxor z0a z0b = call_ej0 E fiv (mk_call iv n sec) -> blk z0a -> blk z0b ->
  (sec = true -> map2 N.lxor za zb = call_ks E fiv (mk_call iv n sec) /\ length za = n /\ length zb = n /\ bytes_ok za /\ bytes_ok zb) ->
  (sec = false -> z = rev (call_ks E fiv (mk_call iv n sec))) ->
  aead_inv ek E fiv (hist ++ [mk_call iv n sec])
    (after s n1 hsa hsb z0a z0b sec za zb z).
Proof.
  intros Ea Eb I Ba Bb Hh Hz B1 B2 Hs Hn. destruct I.
  assert (Flt : forall (c : call), filter c_sec (hist ++ [c]) = filter c_sec hist ++ (if c_sec c then [c] else [])).
  { intro c. rewrite filter_app. cbn [filter]. now destruct (c_sec c). }
  assert (Fln : forall (c : call), filter (fun c => negb (c_sec c)) (hist ++ [c]) = filter (fun c => negb (c_sec c)) hist ++ (if c_sec c then [] else [c])).
  { intro c. rewrite filter_app. cbn [filter]. now destruct (c_sec c). }
  constructor; rewrite ?Flt, ?Fln; cbn [mk_call c_sec after st_gc st_a st_b st_zk g_key g_fixed k_h k_z0 k_z];
    try assumption.
  - exists ha, hb, ka, kb. destruct sec; cbn; auto.
  - destruct sec; cbn; assumption.
  - destruct sec; cbn; assumption.
  - destruct sec; cbn; assumption.
  - destruct sec; cbn [p_gc_z0 push_gc_z push_z0 push_open set_hs];
    (apply Forall2_combine_snoc; [congruence|assumption|]); cbn; auto.
  - destruct sec; cbn; rewrite !app_length; cbn; lia.
  - destruct sec; cbn; rewrite !app_length; cbn; lia.
  - destruct sec; cbn [p_open_z push_gc_z push_z0 push_open set_hs].
    + now rewrite app_nil_r.
    + rewrite map_app, i_open_a0. cbn [map]. now rewrite (Hn eq_refl).
  - destruct sec; cbn; congruence.
  - destruct sec; cbn [p_gc_z push_gc_z push_z0 push_open set_hs].
    + destruct (Hs eq_refl) as (EQ & L1 & L2 & C1 & C2).
      apply Forall2_combine_snoc; [congruence|assumption|]. cbn [fst snd c_len mk_call].
      rewrite !rev_length. split; [|auto using Forall_rev].
      rewrite map2_rev by congruence. now rewrite EQ.
    + now rewrite app_nil_r.
  - destruct sec; cbn; rewrite !app_length; cbn; lia.
  - destruct sec; cbn; rewrite !app_length; cbn; lia.
  - destruct sec; cbn; assumption.
  - destruct sec; cbn; rewrite map_app, i_zk_z1; reflexivity.
  - destruct sec; cbn [p_gc_z push_gc_z push_z0 push_open set_hs]; [|assumption].
    rewrite map_app, i_zk_z2. reflexivity.
Qed.
End K.

Lemma verdict_honest hash tag out other rnd :
  dec_verdict hash tag out (dec_msg1 hash other rnd) (dec_msg2 other rnd) =
  bytes_eqb tag (rev (bytes_of_block (N.lxor out other))).
Proof.
  unfold dec_verdict, com_open, dec_msg1, dec_msg2, com_commit. cbn [fst snd].
  replace (bytes_eqb _ (hash (bytes_of_block other ++ rnd))) with true; [reflexivity|].
  symmetry. now apply bytes_eqb_spec.
Qed.

(** BOB's accepted opening is fixed by the commitment, or the hash has a collision *)
Theorem verdict_binding hash tag out com o1 o2 :
  fst o1 < 2 ^ 128 -> fst o2 < 2 ^ 128 ->
  dec_verdict hash tag out com o1 = true -> dec_verdict hash tag out com o2 = true ->
  fst o1 = fst o2 \/ exists x y : list N, x <> y /\ hash x = hash y.
Proof.
  intros B1 B2. unfold dec_verdict, com_open.
  destruct (bytes_eqb com (hash (bytes_of_block (fst o1) ++ snd o1))) eqn:E1; [|discriminate].
  destruct (bytes_eqb com (hash (bytes_of_block (fst o2) ++ snd o2))) eqn:E2; [|discriminate].
  intros _ _. apply bytes_eqb_spec in E1, E2. rewrite E1 in E2.
  destruct (list_eq_dec N.eq_dec (bytes_of_block (fst o1) ++ snd o1) (bytes_of_block (fst o2) ++ snd o2)) as [X|X].
  2:{ right. eauto. }
  left.
  assert (L : forall x, length (bytes_of_block x) = 16%nat) by (intro x; rewrite bytes_of_block_le; apply le_enc_length).
  apply (f_equal (firstn 16)) in X. rewrite !firstn_app, !L, Nat.sub_diag, !firstn_O, !app_nil_r in X.
  rewrite !firstn_all2 in X by (rewrite L; lia). rewrite !bytes_of_block_le in X.
  apply (f_equal le_val) in X. rewrite !le_val_enc in X. rewrite !N.mod_small in X by assumption. exact X.
Qed.

Section A.
Variable ks enc : bristol.
Variable gfr : N -> N -> N.
Hypothesis GFR : gfr_ok gfr.
Variable ek : Integer.
Variable E : N -> N.
Hypothesis CIP : cipher_ok enc ek E.
Variable fiv : list N.
Hypothesis V1 : length fiv = 4%nat.
Hypothesis V2 : bytes_ok fiv.

Lemma aead_new_ok key mh r ro : computeKS ks key = Ok ek -> length mh = 128%nat -> blk r -> r <> 0 -> ole_rand_ok ro 1 ->
  exists s, aead_new ks enc gfr key (str_to_int fiv) mh r ro = Ok s /\ aead_inv ek E fiv [] s.
Proof.
  intros HK Hm Hr Hr0 (R0 & R1 & F0 & F1). unfold aead_new.
  rewrite HK. cbn [bind]. unfold computeH.
  change (int_of 128 0) with (bits_of_N 128 0). rewrite (proj1 CIP 0). cbn [bind].
  assert (LH : length (bits_of_N 128 (E 0)) = 128%nat) by apply bits_of_N_length.
  destruct (itb_share mh _ Hm LH) as (ha & hb & Ea & Eb & Ex & Ba & Bb & Em). rewrite Ea, Eb. cbn [bind].
  rewrite N_of_bits_of_N_small in Ex by (apply (proj2 CIP)).
  pose proof (ole_run_ok gfr (proj1 GFR) (proj1 (proj2 GFR)) [r] [hb] (raw0 ro) (raw1 ro) eq_refl R0 R1 F0 F1
    (Forall_cons (P := fun y => y < 2 ^ 128) hb Bb (Forall_nil _))) as O.
  destruct (ole_run gfr (raw0 ro) (raw1 ro) [r] [hb]) as [[|oa [|]] [|ob [|]]]; destruct O as (LA & LB & EQ);
    try discriminate LA; try discriminate LB.
  cbn [map2] in EQ. apply (f_equal (fun l => nth 0 l 0)) in EQ. cbn [nth] in EQ. rewrite (proj2 (proj2 GFR)) in EQ by assumption.
  eexists. split; [reflexivity|].
  constructor; cbn [st_gc st_a st_b st_zk g_key g_fixed p_mul_hs p_gc_h p_gc_z0 p_open_z p_gc_z k_h k_z0 k_z map filter combine length];
    try reflexivity; try constructor; try assumption.
  exists (invBlock r), (gf_mul r (E 0)), 0%nat, 0%nat.
  assert (BH : blk (E 0)) by (apply (proj2 CIP)).
  split; [now apply invBlock_blk|]. split; [now apply gf_mul_blk|]. split; [|split].
  - rewrite gf_mul_assoc by (auto using invBlock_blk). rewrite (gf_mul_comm (invBlock r)) by (auto using invBlock_blk).
    rewrite invBlock_ok by assumption. now apply gf_mul_1_l.
  - symmetry. apply pows_1. now apply invBlock_blk.
  - rewrite pows_1 by (now apply gf_mul_blk). f_equal.
    rewrite mulBlock_gf by assumption. rewrite <- Ex, gf_mul_add_r.
    rewrite <- EQ. xor_solve.
Qed.

(** ** One call *)






Theorem encrypt_ok hist s msga msgb aad iv sec r :
  aead_inv ek E fiv hist s -> bytes_ok msga -> bytes_ok aad -> length iv = 8%nat -> bytes_ok iv ->
  rand_ok r aad msga -> (sec = false -> msgb = msga) ->
  exists s', encrypt enc gfr s msga msgb aad iv sec r =
    Ok (s', gcm_ae E (fiv ++ iv) msga aad, gcm_ae E (fiv ++ iv) msga aad) /\
    aead_inv ek E fiv (hist ++ [mk_call iv (length msga) sec]) s'.
Proof.
  intros I Bm Ba L8 Biv (Rz0 & Rz & Ro) Hpub. unfold encrypt.
  destruct (key_material_ok enc ek E (proj1 CIP) (st_gc s) fiv iv (length msga) (i_key _ _ _ _ _ I) (i_fixed _ _ _ _ _ I) V1 V2 L8 Biv)
    as (Z & n1 & EZ & LZ & BZ). rewrite EZ. cbn [bind]. clear EZ.
  set (j0 := j0_of (fiv ++ iv)) in *.
  assert (LH : length (bits_of_N 128 (E j0)) = 128%nat) by apply bits_of_N_length.
  destruct (itb_share _ _ Rz0 LH) as (z0a & z0b & Ea & Eb & Ex & B1 & B2 & _). rewrite Ea, Eb. cbn [bind].
  rewrite N_of_bits_of_N_small in Ex by (apply (proj2 CIP)). clear LH Ea Eb.
  destruct (i_hs _ _ _ _ _ I) as (ha & hb & ka & kb & Bha & Bhb & Hh & Eha & Ehb).
  set (c := gcm_ctext E (fiv ++ iv) msga).
  assert (Bc : bytes_ok c) by (apply ctext_bytes; assumption).
  assert (Lc : length c = length msga) by apply ctext_length.
  assert (KS : bytes_be Z = call_ks E fiv (mk_call iv (length msga) sec)) by exact BZ.
  assert (Ro' : ole_rand_ok (m_ole r) (length (tag_blocks aad c))).
  { rewrite tag_blocks_length. unfold nblocks in *. rewrite Lc. exact Ro. }
  assert (TB : Forall blk (tag_blocks aad c)) by (apply tag_blocks_blk; assumption).
  assert (TAG : forall oa ob, N.lxor oa ob = ghash_spec (gf_mul ha hb) (rev (tag_blocks aad c)) ->
     rev (bytes_of_block (N.lxor (N.lxor oa z0a) (N.lxor ob z0b))) = gcm_tag E (fiv ++ iv) aad c /\
     rev (bytes_of_block (N.lxor (N.lxor ob z0b) (N.lxor oa z0a))) = gcm_tag E (fiv ++ iv) aad c).
  { intros oa ob EQ. unfold gcm_tag. fold j0. rewrite <- Ex, <- Hh, <- tag_from_ghash by assumption. rewrite <- EQ.
    rewrite (N.lxor_comm (N.lxor ob z0b)), (lxor4 oa z0a). auto. }
  destruct sec; cbn [negb].
  - destruct (itc_share _ _ _ Rz LZ) as (za & zb & Eza & Ezb & Exz & L1 & L2 & Bza & Bzb). rewrite Eza, Ezb. cbn [bind].
    assert (EC : xor_arr (xor_arr msga za) zb = c).
    { rewrite xor_arr_assoc. unfold xor_arr at 2. rewrite Exz, KS. apply ctext_xor. }
    rewrite EC. destruct (list_eq_dec N.eq_dec c c) as [_|X]; [|now elim X].
    destruct (obv_ghash_ok gfr GFR (push_gc_z (push_z0 (st_a s) z0a) (rev za)) (push_gc_z (push_z0 (st_b s) z0b) (rev zb))
      ha hb ka kb (tag_blocks aad c) (m_ole r) Bha Bhb TB Eha Ehb Ro') as (oa & ob & Eo & Es).
    rewrite Eo. cbn [bind]. destruct (TAG oa ob Es) as [-> ->].
    eexists. split; [reflexivity|].
    set (hsa := pows ha (Nat.max (S ka) (length (tag_blocks aad c)))).
    set (hsb := pows hb (Nat.max (S kb) (length (tag_blocks aad c)))).
    assert (Xa : hsa = pows ha (S (Nat.max (S ka) (length (tag_blocks aad c)) - 1))) by (unfold hsa; f_equal; lia).
    assert (Xb : hsb = pows hb (S (Nat.max (S kb) (length (tag_blocks aad c)) - 1))) by (unfold hsb; f_equal; lia).
    clearbody hsa hsb. clear Eo.
    assert (Hs : true = true -> map2 N.lxor za zb = call_ks E fiv (mk_call iv (length msga) true) /\ length za = length msga /\ length zb = length msga /\ bytes_ok za /\ bytes_ok zb).
    { intros _. rewrite <- KS. auto. }
    assert (Hn : true = false -> [] = rev (call_ks E fiv (mk_call iv (length msga) true))).
    { intro H; discriminate H. }
    pose proof (after_inv ek E fiv hist s n1 ha hb _ _ hsa hsb z0a z0b true za zb [] iv (length msga) Xa Xb I Bha Bhb Hh Ex B1 B2 Hs Hn) as X.
    unfold after in X. cbn [set_hs push_gc_z push_z0 push_open p_gc_h p_mul_hs p_gc_z0 p_gc_z p_open_z k_h k_z0 k_z] in X |- *. exact X.
  - rewrite (Hpub eq_refl). cbn [bind].
    assert (EC : xor_arr msga (rev (reveal_as 8 Z)) = c).
    { unfold reveal_as. rewrite (bytes_be_rev_reveal _ _ LZ), KS. apply ctext_xor. }
    rewrite EC. destruct (list_eq_dec N.eq_dec c c) as [_|X]; [|now elim X].
    destruct (obv_ghash_ok gfr GFR (push_open (push_z0 (st_a s) z0a) (reveal_as 8 Z)) (push_open (push_z0 (st_b s) z0b) (reveal_as 8 Z))
      ha hb ka kb (tag_blocks aad c) (m_ole r) Bha Bhb TB Eha Ehb Ro') as (oa & ob & Eo & Es).
    rewrite Eo. cbn [bind]. destruct (TAG oa ob Es) as [-> ->].
    eexists. split; [reflexivity|].
    set (hsa := pows ha (Nat.max (S ka) (length (tag_blocks aad c)))).
    set (hsb := pows hb (Nat.max (S kb) (length (tag_blocks aad c)))).
    assert (Xa : hsa = pows ha (S (Nat.max (S ka) (length (tag_blocks aad c)) - 1))) by (unfold hsa; f_equal; lia).
    assert (Xb : hsb = pows hb (S (Nat.max (S kb) (length (tag_blocks aad c)) - 1))) by (unfold hsb; f_equal; lia).
    clearbody hsa hsb. clear Eo.
    assert (Hs : false = true -> map2 N.lxor (@nil N) (@nil N) = call_ks E fiv (mk_call iv (length msga) false) /\ length (@nil N) = length msga /\ length (@nil N) = length msga /\ bytes_ok [] /\ bytes_ok []).
    { intro H; discriminate H. }
    assert (Hn : false = false -> (reveal_as 8 Z) = rev (call_ks E fiv (mk_call iv (length msga) false))).
    { intros _. rewrite <- KS, <- (bytes_be_rev_reveal _ _ LZ), rev_involutive. reflexivity. }
    pose proof (after_inv ek E fiv hist s n1 ha hb _ _ hsa hsb z0a z0b false [] [] (reveal_as 8 Z) iv (length msga) Xa Xb I Bha Bhb Hh Ex B1 B2 Hs Hn) as X.
    unfold after in X. cbn [set_hs push_gc_z push_z0 push_open p_gc_h p_mul_hs p_gc_z0 p_gc_z p_open_z k_h k_z0 k_z] in X |- *. exact X.
Qed.

Lemma decrypt_shares_ok hist s ctxt aad iv sec r :
  aead_inv ek E fiv hist s -> bytes_ok ctxt -> bytes_ok aad -> length iv = 8%nat -> bytes_ok iv ->
  rand_ok r aad ctxt ->
  exists s' oa ob, decrypt_shares enc gfr s ctxt aad iv sec r =
    Ok (s', gcm_ctext E (fiv ++ iv) ctxt,
        if sec then None else Some (gcm_ctext E (fiv ++ iv) ctxt), oa, ob) /\
    rev (bytes_of_block (N.lxor oa ob)) = gcm_tag E (fiv ++ iv) aad ctxt /\
    aead_inv ek E fiv (hist ++ [mk_call iv (length ctxt) sec]) s'.
Proof.
  intros I Bc Ba L8 Biv (Rz0 & Rz & Ro). unfold decrypt_shares.
  destruct (key_material_ok enc ek E (proj1 CIP) (st_gc s) fiv iv (length ctxt) (i_key _ _ _ _ _ I) (i_fixed _ _ _ _ _ I) V1 V2 L8 Biv)
    as (Z & n1 & EZ & LZ & BZ). rewrite EZ. cbn [bind]. clear EZ.
  set (j0 := j0_of (fiv ++ iv)) in *.
  assert (LH : length (bits_of_N 128 (E j0)) = 128%nat) by apply bits_of_N_length.
  destruct (itb_share _ _ Rz0 LH) as (z0a & z0b & Ea & Eb & Ex & B1 & B2 & _). rewrite Ea, Eb. cbn [bind].
  rewrite N_of_bits_of_N_small in Ex by (apply (proj2 CIP)). clear LH Ea Eb.
  destruct (i_hs _ _ _ _ _ I) as (ha & hb & ka & kb & Bha & Bhb & Hh & Eha & Ehb).
  assert (KS : bytes_be Z = call_ks E fiv (mk_call iv (length ctxt) sec)) by exact BZ.
  assert (Ro' : ole_rand_ok (m_ole r) (length (tag_blocks aad ctxt))) by (now rewrite tag_blocks_length).
  assert (TB : Forall blk (tag_blocks aad ctxt)) by (apply tag_blocks_blk; assumption).
  assert (TAG : forall oa ob, N.lxor oa ob = ghash_spec (gf_mul ha hb) (rev (tag_blocks aad ctxt)) ->
     rev (bytes_of_block (N.lxor (N.lxor oa z0a) (N.lxor ob z0b))) = gcm_tag E (fiv ++ iv) aad ctxt).
  { intros oa ob EQ. unfold gcm_tag. fold j0. rewrite <- Ex, <- Hh, <- tag_from_ghash by assumption. rewrite <- EQ.
    rewrite (lxor4 oa z0a). reflexivity. }
  destruct sec; cbn [negb].
  - destruct (itc_share _ _ _ Rz LZ) as (za & zb & Eza & Ezb & Exz & L1 & L2 & Bza & Bzb). rewrite Eza, Ezb. cbn [bind].
    assert (EC : xor_arr (xor_arr zb za) ctxt = gcm_ctext E (fiv ++ iv) ctxt).
    { rewrite (xor_arr_comm zb), xor_arr_comm. unfold xor_arr at 2. rewrite Exz, KS. apply ctext_xor. }
    rewrite EC.
    destruct (obv_ghash_ok gfr GFR (push_gc_z (push_z0 (st_a s) z0a) (rev za)) (push_gc_z (push_z0 (st_b s) z0b) (rev zb))
      ha hb ka kb (tag_blocks aad ctxt) (m_ole r) Bha Bhb TB Eha Ehb Ro') as (oa & ob & Eo & Es).
    rewrite Eo. cbn [bind].
    eexists _, _, _. split; [reflexivity|]. split; [exact (TAG oa ob Es)|].
    set (hsa := pows ha (Nat.max (S ka) (length (tag_blocks aad ctxt)))).
    set (hsb := pows hb (Nat.max (S kb) (length (tag_blocks aad ctxt)))).
    assert (Xa : hsa = pows ha (S (Nat.max (S ka) (length (tag_blocks aad ctxt)) - 1))) by (unfold hsa; f_equal; lia).
    assert (Xb : hsb = pows hb (S (Nat.max (S kb) (length (tag_blocks aad ctxt)) - 1))) by (unfold hsb; f_equal; lia).
    clearbody hsa hsb. clear Eo.
    assert (Hs : true = true -> map2 N.lxor za zb = call_ks E fiv (mk_call iv (length ctxt) true) /\ length za = length ctxt /\ length zb = length ctxt /\ bytes_ok za /\ bytes_ok zb).
    { intros _. rewrite <- KS. auto. }
    assert (Hn : true = false -> [] = rev (call_ks E fiv (mk_call iv (length ctxt) true))).
    { intro H; discriminate H. }
    pose proof (after_inv ek E fiv hist s n1 ha hb _ _ hsa hsb z0a z0b true za zb [] iv (length ctxt) Xa Xb I Bha Bhb Hh Ex B1 B2 Hs Hn) as X.
    unfold after in X. cbn [set_hs push_gc_z push_z0 push_open p_gc_h p_mul_hs p_gc_z0 p_gc_z p_open_z k_h k_z0 k_z] in X |- *. exact X.
  - cbn [bind].
    assert (EC : xor_arr ctxt (rev (reveal_as 8 Z)) = gcm_ctext E (fiv ++ iv) ctxt).
    { unfold reveal_as. rewrite (bytes_be_rev_reveal _ _ LZ), KS. apply ctext_xor. }
    rewrite EC.
    destruct (obv_ghash_ok gfr GFR (push_open (push_z0 (st_a s) z0a) (reveal_as 8 Z)) (push_open (push_z0 (st_b s) z0b) (reveal_as 8 Z))
      ha hb ka kb (tag_blocks aad ctxt) (m_ole r) Bha Bhb TB Eha Ehb Ro') as (oa & ob & Eo & Es).
    rewrite Eo. cbn [bind].
    eexists _, _, _. split; [reflexivity|]. split; [exact (TAG oa ob Es)|].
    set (hsa := pows ha (Nat.max (S ka) (length (tag_blocks aad ctxt)))).
    set (hsb := pows hb (Nat.max (S kb) (length (tag_blocks aad ctxt)))).
    assert (Xa : hsa = pows ha (S (Nat.max (S ka) (length (tag_blocks aad ctxt)) - 1))) by (unfold hsa; f_equal; lia).
    assert (Xb : hsb = pows hb (S (Nat.max (S kb) (length (tag_blocks aad ctxt)) - 1))) by (unfold hsb; f_equal; lia).
    clearbody hsa hsb. clear Eo.
    assert (Hs : false = true -> map2 N.lxor (@nil N) (@nil N) = call_ks E fiv (mk_call iv (length ctxt) false) /\ length (@nil N) = length ctxt /\ length (@nil N) = length ctxt /\ bytes_ok [] /\ bytes_ok []).
    { intro H; discriminate H. }
    assert (Hn : false = false -> (reveal_as 8 Z) = rev (call_ks E fiv (mk_call iv (length ctxt) false))).
    { intros _. rewrite <- KS, <- (bytes_be_rev_reveal _ _ LZ), rev_involutive. reflexivity. }
    pose proof (after_inv ek E fiv hist s n1 ha hb _ _ hsa hsb z0a z0b false [] [] (reveal_as 8 Z) iv (length ctxt) Xa Xb I Bha Bhb Hh Ex B1 B2 Hs Hn) as X.
    unfold after in X. cbn [set_hs push_gc_z push_z0 push_open p_gc_h p_mul_hs p_gc_z0 p_gc_z p_open_z k_h k_z0 k_z] in X |- *. exact X.
Qed.

Variable hash : list N -> list N.

Theorem decrypt_ok hist s ctxt tag aad iv sec r rnda rndb :
  aead_inv ek E fiv hist s -> bytes_ok ctxt -> bytes_ok aad -> length iv = 8%nat -> bytes_ok iv ->
  rand_ok r aad ctxt ->
  exists s', decrypt enc gfr hash s ctxt tag aad iv sec r rnda rndb =
    Ok (s', (gcm_ctext E (fiv ++ iv) ctxt, bytes_eqb tag (gcm_tag E (fiv ++ iv) aad ctxt)),
        (if sec then None else Some (gcm_ctext E (fiv ++ iv) ctxt),
         bytes_eqb tag (gcm_tag E (fiv ++ iv) aad ctxt))) /\
    aead_inv ek E fiv (hist ++ [mk_call iv (length ctxt) sec]) s'.
Proof.
  intros I Bc Ba L8 Biv R. unfold decrypt.
  destruct (decrypt_shares_ok hist s ctxt aad iv sec r I Bc Ba L8 Biv R) as (s' & oa & ob & EQ & T & I').
  rewrite EQ. cbn [bind]. rewrite !verdict_honest, (N.lxor_comm ob oa), T.
  exists s'. split; [reflexivity|exact I'].
Qed.

(** * Arbitrary sequences of calls on one object *)
Definition aop_wf (o : aop) : Prop :=
  match o with
  | OpEnc ma mb aad iv sec r =>
      bytes_ok ma /\ bytes_ok aad /\ length iv = 8%nat /\ bytes_ok iv /\ rand_ok r aad ma /\ (sec = false -> mb = ma)
  | OpDec c t aad iv sec r ra rb =>
      bytes_ok c /\ bytes_ok aad /\ length iv = 8%nat /\ bytes_ok iv /\ rand_ok r aad c
  end.
Definition aop_spec (o : aop) : aout :=
  match o with
  | OpEnc ma mb aad iv sec r =>
      OutEnc (gcm_ae E (fiv ++ iv) ma aad) (gcm_ae E (fiv ++ iv) ma aad)
  | OpDec c t aad iv sec r ra rb =>
      let m := gcm_ctext E (fiv ++ iv) c in
      let v := if list_eq_dec N.eq_dec t (gcm_tag E (fiv ++ iv) aad c) then true else false in
      OutDec (m, v) (if sec then None else Some m, v)
  end.
Definition aop_call (o : aop) : call :=
  match o with
  | OpEnc ma _ _ iv sec _ => mk_call iv (length ma) sec
  | OpDec c _ _ iv sec _ _ _ => mk_call iv (length c) sec
  end.

Theorem aops_ok os : forall hist s, aead_inv ek E fiv hist s -> Forall aop_wf os ->
  exists s', aops_run enc gfr hash s os = Ok (s', map aop_spec os) /\ aead_inv ek E fiv (hist ++ map aop_call os) s'.
Proof.
  induction os as [|o os IH]; intros hist s I F.
  - exists s. cbn [map]. rewrite app_nil_r. split; [reflexivity|exact I].
  - inversion F as [|? ? Ho Hos]; subst. cbn [aops_run map].
    assert (X : exists s1, aop_run enc gfr hash s o = Ok (s1, aop_spec o) /\ aead_inv ek E fiv (hist ++ [aop_call o]) s1).
    { destruct o as [ma mb aad iv sec r|c t aad iv sec r ra rb]; cbn [aop_wf] in Ho; cbn [aop_run aop_spec aop_call].
      - destruct Ho as (H1 & H2 & H3 & H4 & H5 & H6).
        destruct (encrypt_ok hist s ma mb aad iv sec r I H1 H2 H3 H4 H5 H6) as (s1 & EQ & I1).
        rewrite EQ. cbn [bind]. eauto.
      - destruct Ho as (H1 & H2 & H3 & H4 & H5).
        destruct (decrypt_ok hist s c t aad iv sec r ra rb I H1 H2 H3 H4 H5) as (s1 & EQ & I1).
        rewrite EQ. cbn [bind]. eauto. }
    destruct X as (s1 & EQ & I1). rewrite EQ. cbn [bind].
    destruct (IH _ _ I1 Hos) as (s' & E' & I'). rewrite E'. cbn [bind]. exists s'. split; [reflexivity|].
    now rewrite <- app_assoc in I'.
Qed.

(** * A corrupted BOB in decrypt *)
(** replaying ALICE's own commitment and opening makes ALICE accept the zero tag *)
Theorem reflection out rnd :
  dec_verdict hash (repeat 0 16) out (dec_msg1 hash out rnd) (dec_msg2 out rnd) = true.
Proof. rewrite verdict_honest, N.lxor_nilpotent. reflexivity. Qed.
End A.
