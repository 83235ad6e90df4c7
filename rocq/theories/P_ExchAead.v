(** The two programs of the AEAD object, run together under any schedule. *)
From Coq Require Import List NArith Bool Arith Lia.
From Verif Require Import L_Bits L_Res L_Xor S_Sched S_Codec S_Gcm M_EmpInteger M_Utils M_Bristol M_Block M_Ole2k M_Shares M_Commit M_Aead M_Exch.
From Verif Require Import P_Utils P_Gf128 P_Shares P_Ole2k P_AesNet P_Gcm P_Aead P_Sched P_Exch.
Import ListNotations.
Local Open Scope N_scope.
Local Opaque mulBlock gf_mul invBlock computeKS computeAES_KS bytes_of_block block_of_bytes.

Lemma blk_round b : blk b -> block_of_bytes (bytes_of_block b) = b.
Proof.
  intro H. rewrite bytes_of_block_le, block_of_bytes_le by apply le_enc_bytes. rewrite le_val_enc.
  apply N.mod_small. exact H.
Qed.
Lemma blk_len b : length (bytes_of_block b) = 16%nat.
Proof. rewrite bytes_of_block_le. apply le_enc_length. Qed.
Lemma firstn_eq {A} n (a b : list A) : length a = n -> firstn n (a ++ b) = a.
Proof. intros <-. now rewrite firstn_app, Nat.sub_diag, firstn_O, app_nil_r, firstn_all. Qed.
Lemma skipn_eq {A} n (a b : list A) : length a = n -> skipn n (a ++ b) = b.
Proof. intros <-. rewrite skipn_app, Nat.sub_diag, skipn_all. reflexivity. Qed.
(** receiving exactly what is next on the channel *)
Lemma solo_recv {A} c n (k : list N -> proc A) so si bs rest p' so' si' : get si c = bs ++ rest -> length bs = n ->
  solo (k bs) so (put si c rest) p' so' si' -> solo (Recv c n k) so si p' so' si'.
Proof.
  intros G L H. eapply solo_step.
  - apply ARecv. rewrite G, app_length. lia.
  - rewrite G, firstn_eq, skipn_eq by assumption. exact H.
Qed.

(** * OLE over GF(2^128) *)
Lemma solo_send_blocks c : forall l so si,
  solo (p_send_blocks c l) so si (Ret tt) (put so c (get so c ++ flat_map bytes_of_block l)) si.
Proof.
  induction l as [|x l IH]; intros so si; cbn [p_send_blocks flat_map].
  - rewrite app_nil_r, put_get. constructor.
  - eapply solo_step; [constructor|].
    replace (put so c (get so c ++ bytes_of_block x ++ flat_map bytes_of_block l))
      with (put (put so c (get so c ++ bytes_of_block x)) c (get (put so c (get so c ++ bytes_of_block x)) c ++ flat_map bytes_of_block l))
      by (now rewrite put_put, get_put_same, app_assoc).
    apply IH.
Qed.
Definition row_ok (row : list N) : Prop := length row = 128%nat /\ Forall blk row.
Lemma row_bytes row : Forall blk row -> map block_of_bytes (chunks 16 (flat_map bytes_of_block row)) = row.
Proof.
  intro F. rewrite chunks_flat_map by (try lia; apply blk_len). rewrite map_map.
  induction F as [|x l H F IH]; [reflexivity|]. cbn [map]. now rewrite blk_round, IH.
Qed.
Lemma solo_recv_rows c : forall rows rest so si, Forall row_ok rows ->
  get si c = flat_map bytes_of_block (concat rows) ++ rest ->
  solo (p_recv_rows c (length rows)) so si (Ret rows) so (put si c rest).
Proof.
  induction rows as [|row rows IH]; intros rest so si F G; cbn [p_recv_rows length concat] in *.
  - rewrite put_get_eq by exact G. constructor.
  - inversion F as [|? ? [L B] F']; subst. rewrite flat_map_app, <- app_assoc in G.
    eapply solo_recv; [exact G| |].
    + rewrite (flat_map_length_const _ 16) by apply blk_len. rewrite L. reflexivity.
    + rewrite row_bytes by exact B. eapply solo_bind_ret.
      * apply (IH rest). { exact F'. } now rewrite get_put_same.
      * rewrite put_put. constructor.
Qed.

Definition ole_blk (r : ole_rand) : Prop := Forall (Forall blk) (raw0 r) /\ Forall (Forall blk) (raw1 r).
Lemma lxor_blk x y : blk x -> blk y -> blk (N.lxor x y).
Proof.
  intros Hx Hy. unfold blk in *. destruct (N.eq_dec (N.lxor x y) 0) as [->|E]; [reflexivity|].
  apply N.log2_lt_pow2; [lia|]. eapply N.le_lt_trans; [apply N.log2_lxor|].
  apply N.max_lub_lt.
  - destruct (N.eq_dec x 0) as [->|]; [reflexivity|]. apply N.log2_lt_pow2; lia.
  - destruct (N.eq_dec y 0) as [->|]; [reflexivity|]. apply N.log2_lt_pow2; lia.
Qed.
Lemma msgs_ok : forall ins r0 r1, Forall blk ins -> length r0 = length ins -> length r1 = length ins ->
  Forall row_ok r0 -> Forall row_ok r1 ->
  Forall row_ok (ole_send_msgs r0 r1 ins) /\ length (ole_send_msgs r0 r1 ins) = length ins.
Proof.
  unfold ole_send_msgs.
  induction ins as [|x ins IH]; intros [|a r0] [|b r1] Fi L0 L1 F0 F1; try discriminate; [now split|].
  inversion Fi as [|? ? Bx Fi']; inversion F0 as [|? ? [La Ba] F0']; inversion F1 as [|? ? [Lb Bb] F1']; subst.
  cbn in L0, L1. destruct (IH r0 r1 Fi' ltac:(lia) ltac:(lia) F0' F1') as [K1 K2].
  cbn [combine map fst snd length]. split; [|now f_equal]. constructor; [|exact K1]. split.
  - rewrite map_length, combine_length, La, Lb. reflexivity.
  - clear -Ba Bb Bx. revert b Bb. induction Ba as [|u a Hu Ba IH]; intros [|v b] Bb; cbn [combine map]; try constructor.
    + inversion Bb; subst. apply lxor_blk; [apply lxor_blk; assumption|exact Bx].
    + inversion Bb; subst. now apply IH.
Qed.
Lemma rows_join l : Forall (fun x => length x = 128%nat) l -> Forall (Forall blk) l -> Forall row_ok l.
Proof. induction 1; inversion 1; subst; constructor; [now split|auto]. Qed.

Section G.
Variable ks enc : bristol.
Variable gfr : N -> N -> N.
Hypothesis GFR : gfr_ok gfr.
Variable hash : list N -> list N.
Hypothesis HL : forall l, length (hash l) = DIGEST_SIZE.

Lemma inner_blk row : Forall blk row -> blk (inner_prod gfr row pack_base).
Proof.
  assert (PB : Forall blk pack_base).
  { apply Forall_forall. intros x Hx. unfold pack_base in Hx. apply in_map_iff in Hx as (j & <- & Hj).
    apply in_seq in Hj. unfold blk. rewrite N.shiftl_1_l. apply N.pow_lt_mono_r; lia. }
  unfold inner_prod. generalize pack_base PB. intros base PBb.
  assert (G : forall base row acc, Forall blk base -> Forall blk row -> blk acc ->
    blk (fold_left (fun r p => N.lxor r (gfr (fst p) (snd p))) (combine row base) acc)).
  { clear base row PB PBb. induction base as [|y base IH]; intros [|x row] acc F1 F2 A; cbn [combine fold_left]; try exact A.
    inversion F1; inversion F2; subst. apply IH; auto. cbn [fst snd]. apply lxor_blk; [exact A|].
    rewrite (proj2 (proj2 GFR)) by assumption. now apply gf_mul_blk. }
  intro F. apply G; auto. reflexivity.
Qed.
Lemma xor_all_outs l : Forall blk l -> blk (xor_all l).
Proof. apply xor_all_blk. Qed.
Lemma send_out_blk r0 : Forall (Forall blk) r0 -> Forall blk (ole_send_out gfr r0).
Proof. intro F. unfold ole_send_out. apply Forall_map. eapply Forall_impl; [|exact F]. exact inner_blk. Qed.
Lemma pick_blk (f : N * N * bool -> N) : (forall a b c, blk a -> blk b -> blk (f (a, b, c))) ->
  forall a b c, Forall blk a -> Forall blk b -> Forall blk (map f (combine (combine a b) c)).
Proof.
  intros Hf. induction a as [|x a IH]; intros [|y b] [|z c] Fa Fb; cbn [combine map]; try constructor.
  - inversion Fa; inversion Fb; subst. now apply Hf.
  - inversion Fa; inversion Fb; subst. now apply IH.
Qed.
Lemma rot_blk : forall r0 r1 ins, Forall (Forall blk) r0 -> Forall (Forall blk) r1 -> Forall (Forall blk) (rot_choose r0 r1 ins).
Proof.
  unfold rot_choose. induction r0 as [|a r0 IH]; intros [|b r1] [|x ins] F0 F1; cbn [combine map]; try constructor.
  - inversion F0; inversion F1; subst. cbn [fst snd]. apply pick_blk; try assumption. intros u v [] Hu Hv; cbn; assumption.
  - inversion F0; inversion F1; subst. now apply IH.
Qed.
Lemma recv_out_blk : forall rots msgs ins, Forall (Forall blk) rots -> Forall (Forall blk) msgs -> Forall blk (ole_recv_out gfr rots msgs ins).
Proof.
  unfold ole_recv_out. induction rots as [|a r0 IH]; intros [|b r1] [|x ins] F0 F1; cbn [combine map]; try constructor.
  - inversion F0; inversion F1; subst. cbn [fst snd]. apply inner_blk, pick_blk; try assumption.
    intros u v [] Hu Hv; cbn; [now apply lxor_blk|assumption].
  - inversion F0; inversion F1; subst. now apply IH.
Qed.

Lemma conv_ole2k r insA insB n : length insA = n -> length insB = n -> Forall blk insA -> ole_rand_ok r n -> ole_blk r ->
  conv (p_ole2k_send gfr r insA) (p_ole2k_recv gfr r insB)
    (fst (ole_run gfr (raw0 r) (raw1 r) insA insB)) (snd (ole_run gfr (raw0 r) (raw1 r) insA insB)).
Proof.
  intros LA LB F (R0 & R1 & F0 & F1) (B0 & B1).
  destruct (msgs_ok insA (raw0 r) (raw1 r) F ltac:(congruence) ltac:(congruence) (rows_join _ F0 B0) (rows_join _ F1 B1)) as [K1 K2].
  unfold p_ole2k_send, p_ole2k_recv, ole_run. cbn [fst snd]. eapply conv_ab.
  - eapply solo_bind_ret; [apply solo_send_blocks|]. apply solo_refl.
  - eapply solo_bind_ret.
    + replace (length insB) with (length (ole_send_msgs (raw0 r) (raw1 r) insA)) by congruence.
      apply (solo_recv_rows IO _ []). { exact K1. } cbn [get nobufs on_io put app]. now rewrite app_nil_r.
    + apply solo_refl.
Qed.

Lemma conv_ghash a b ins r a' b' oa ob : obv_ghash gfr a b ins r = Ok (a', b', oa, ob) ->
  Forall blk ins -> Forall blk (hs_upto (p_mul_hs a) (length ins)) -> ole_rand_ok r (length ins) -> ole_blk r ->
  conv (p_ghash gfr true a ins r) (p_ghash gfr false b ins r) (Ok (a', oa)) (Ok (b', ob)) /\ blk oa /\ blk ob.
Proof.
  unfold obv_ghash, p_ghash. destruct (p_mul_hs a) as [|h0 ta] eqn:Ea; [discriminate|].
  destruct (p_mul_hs b) as [|h1 tb] eqn:Eb; [discriminate|].
  assert (LA : forall h t, (length ins <= length (hs_upto (h :: t) (length ins)))%nat).
  { intros h t. unfold hs_upto. cbn [nth].
    assert (X : forall f l, length (extend_hs f h l) = (f + length l)%nat).
    { induction f as [|f IH]; intro l; cbn [extend_hs]; [reflexivity|]. rewrite IH, app_length. cbn. lia. }
    rewrite X. lia. }
  pose proof (LA h0 ta) as LA0. pose proof (LA h1 tb) as LB0.
  destruct (ole_run gfr (raw0 r) (raw1 r) _ _) as [la lb] eqn:EO. intros H Fi Fh R B.
  assert (E1 : a' = {| p_gc_h := p_gc_h a; p_mul_hs := hs_upto (h0 :: ta) (length ins); p_gc_z0 := p_gc_z0 a; p_gc_z := p_gc_z a; p_open_z := p_open_z a |}) by congruence.
  assert (E2 : b' = {| p_gc_h := p_gc_h b; p_mul_hs := hs_upto (h1 :: tb) (length ins); p_gc_z0 := p_gc_z0 b; p_gc_z := p_gc_z b; p_open_z := p_open_z b |}) by congruence.
  assert (E3 : oa = xor_all la) by congruence. assert (E4 : ob = xor_all lb) by congruence. subst a' b' oa ob. clear H.
  set (ha := hs_upto (h0 :: ta) (length ins)) in *. set (hb := hs_upto (h1 :: tb) (length ins)) in *.
  assert (L1 : length (ghash_in_alice ha ins) = length ins) by (unfold ghash_in_alice; rewrite map2_length; lia).
  assert (L2 : length (ghash_in_bob hb (length ins)) = length ins) by (unfold ghash_in_bob; rewrite firstn_length; lia).
  assert (FA : Forall blk (ghash_in_alice ha ins)).
  { unfold ghash_in_alice. rewrite map2_mulBlock by assumption. now apply map2_gf_blk. }
  pose proof (conv_ole2k r _ (ghash_in_bob hb (length ins)) (length ins) L1 L2 FA R B) as C. rewrite EO in C. cbn [fst snd] in C.
  split; [|split].
  - eapply conv_bind; [exact C|]. apply conv_ret.
  - assert (la = ole_send_out gfr (raw0 r)) as -> by (unfold ole_run in EO; congruence).
    apply xor_all_blk, send_out_blk, B.
  - assert (lb = ole_recv_out gfr (rot_choose (raw0 r) (raw1 r) (ghash_in_bob hb (length ins))) (ole_send_msgs (raw0 r) (raw1 r) (ghash_in_alice ha ins)) (ghash_in_bob hb (length ins))) as -> by (unfold ole_run in EO; congruence).
    destruct R as (R0 & R1 & F0 & F1). destruct B as (B0 & B1).
    apply xor_all_blk, recv_out_blk; [now apply rot_blk|].
    destruct (msgs_ok (ghash_in_alice ha ins) (raw0 r) (raw1 r) FA ltac:(congruence) ltac:(congruence) (rows_join _ F0 B0) (rows_join _ F1 B1)) as [K1 _].
    eapply Forall_impl; [|exact K1]. now intros x [_ X].
Qed.

(** * Two-message exchanges *)
(** encrypt, secret message: /repo/protocol/aead.h:240-256 *)
Lemma conv_swap {A B} n x (f : list N -> list N) (k : list N -> A) (l : list N -> B) :
  length x = n -> length (f x) = n ->
  conv (Send IO x (Recv IO n (fun c => Ret (k c)))) (Recv IO n (fun x => Send IO (f x) (Ret (l x)))) (k (f x)) (l x).
Proof.
  intros L1 L2. eapply conv_aba.
  - apply solo_one. constructor.
  - cbn [get nobufs on_io put app on_opt].
    eapply (solo_recv IO n _ _ _ x []); [cbn; now rewrite app_nil_r|exact L1|]. eapply solo_step; [constructor|]. constructor.
  - cbn [get nobufs on_io put app on_opt].
    eapply (solo_recv IO n _ _ _ (f x) []); [cbn; now rewrite app_nil_r|exact L2|]. constructor.
Qed.
(** decrypt, secret message: /repo/protocol/aead.h:387-395; BOB to ALICE *)
Lemma conv_from_bob {A B} n x (k : list N -> A) (b : B) : length x = n ->
  conv (Recv IO n (fun x => Ret (k x))) (Send IO x (Ret b)) (k x) b.
Proof.
  intros L. eapply conv_aba; [apply solo_refl|apply solo_one; constructor|].
  cbn [get nobufs on_io put app on_opt].
  eapply (solo_recv IO n _ _ _ x []); [cbn; now rewrite app_nil_r|exact L|]. constructor.
Qed.
(** the tags: /repo/protocol/aead.h:288-302 *)
Lemma conv_tags {A B} (x y : list N) n (k : list N -> A) (l : list N -> B) : length x = n -> length y = n ->
  conv (Send IO_OPT x (Flush IO_OPT (Recv IO n (fun o => Ret (k o)))))
       (Send IO y (Flush IO (Recv IO_OPT n (fun o => Ret (l o))))) (k y) (l x).
Proof.
  intros L1 L2. eapply conv_aba.
  - eapply solo_step; [constructor|]. apply solo_one. constructor.
  - eapply solo_step; [constructor|]. eapply solo_step; [constructor|].
    cbn [get nobufs on_io put app on_opt].
    eapply (solo_recv IO_OPT n _ _ _ x []); [cbn; now rewrite app_nil_r|exact L1|]. constructor.
  - cbn [get nobufs on_io put app on_opt].
    eapply (solo_recv IO n _ _ _ y []); [cbn; now rewrite app_nil_r|exact L2|]. constructor.
Qed.

(** * One call *)
Lemma share_material g a b iv len r Zz Z n1 : key_material enc g iv len = Ok (Zz, Z, n1) -> length Zz = 128%nat ->
  length (m_z0 r) = 128%nat ->
  exists z0a z0b, integer_to_block (m_z0 r) = Ok z0a /\ integer_to_block (bxor (m_z0 r) Zz) = Ok z0b /\ blk z0a /\ blk z0b /\
    let g' := {| g_key := g_key g; g_nonce := n1; g_fixed := g_fixed g |} in
    own_material enc true g a iv len r = Ok (g', push_z0 a z0a, z0a, Z) /\
    own_material enc false g b iv len r = Ok (g', push_z0 b z0b, z0b, Z).
Proof.
  intros K L R. destruct (itb_share _ _ R L) as (z0a & z0b & Ea & Eb & _ & B1 & B2 & _).
  exists z0a, z0b. repeat (split; [assumption|]). unfold own_material. rewrite K. cbn [bind]. rewrite Ea, Eb. now split.
Qed.

Lemma conv_encrypt s ma mb aad iv sec r s' oa ob Zz Z n1 :
  encrypt enc gfr s ma mb aad iv sec r = Ok (s', oa, ob) ->
  key_material enc (st_gc s) iv (N.of_nat (length ma)) = Ok (Zz, Z, n1) -> length Zz = 128%nat -> length Z = (8 * length ma)%nat ->
  length (m_z0 r) = 128%nat -> length (m_z r) = (8 * length ma)%nat ->
  Forall blk (tag_blocks aad (fst oa)) -> Forall blk (hs_upto (p_mul_hs (st_a s)) (length (tag_blocks aad (fst oa)))) ->
  ole_rand_ok (m_ole r) (length (tag_blocks aad (fst oa))) -> ole_blk (m_ole r) ->
  conv (p_encrypt enc gfr true (st_gc s) (st_a s) (length ma) ma aad iv sec r)
       (p_encrypt enc gfr false (st_gc s) (st_b s) (length ma) mb aad iv sec r)
       (Ok (st_gc s', st_a s', oa)) (Ok (st_gc s', st_b s', ob)).
Proof.
  intros H K LZz LZ R0 Rz T Hs Ro Bo. unfold encrypt in H. rewrite K in H. cbn [bind] in H.
  destruct (share_material (st_gc s) (st_a s) (st_b s) iv _ r Zz Z n1 K LZz R0) as (z0a & z0b & Ea & Eb & B1 & B2 & Oa & Ob).
  rewrite Ea, Eb in H. cbn [bind] in H. unfold p_encrypt, local. rewrite Oa, Ob. clear Oa Ob.
  eapply conv_rbind; [apply conv_ret|]. cbv beta iota zeta.
  set (g' := {| g_key := _; g_nonce := _; g_fixed := _ |}) in *.
  (* the tail, once both have the same ciphertext *)
  assert (TAIL : forall a b c, p_mul_hs a = p_mul_hs (st_a s) -> 
     (let* (a, b, outa, outb) := obv_ghash gfr a b (tag_blocks aad c) (m_ole r) in
      Ok (a, b, outa, outb))%res = obv_ghash gfr a b (tag_blocks aad c) (m_ole r) -> forall a' b' outa outb,
     obv_ghash gfr a b (tag_blocks aad c) (m_ole r) = Ok (a', b', outa, outb) -> fst oa = c ->
     conv (rbind (p_ghash gfr true a (tag_blocks aad c) (m_ole r)) (fun '(p, out) =>
             let out := N.lxor out z0a in
             Send IO_OPT (bytes_of_block out) (Flush IO_OPT (Recv IO 16 (fun o =>
               Ret (Ok (g', p, (c, rev (bytes_of_block (N.lxor out (block_of_bytes o)))))))))))
          (rbind (p_ghash gfr false b (tag_blocks aad c) (m_ole r)) (fun '(p, out) =>
             let out := N.lxor out z0b in
             Send IO (bytes_of_block out) (Flush IO (Recv IO_OPT 16 (fun o =>
               Ret (Ok (g', p, (c, rev (bytes_of_block (N.lxor out (block_of_bytes o)))))))))))
          (Ok (g', a', (c, rev (bytes_of_block (N.lxor (N.lxor outa z0a) (N.lxor outb z0b))))))
          (Ok (g', b', (c, rev (bytes_of_block (N.lxor (N.lxor outb z0b) (N.lxor outa z0a))))))).
  { intros a b c Eh _ a' b' outa outb EG <-. 
    rewrite <- Eh in Hs.
    destruct (conv_ghash a b _ _ a' b' outa outb EG T Hs Ro Bo) as (C & X1 & X2).
    eapply conv_rbind; [exact C|]. cbv beta iota zeta.
    pose proof (conv_tags (bytes_of_block (N.lxor outa z0a)) (bytes_of_block (N.lxor outb z0b)) 16
      (fun o => Ok (g', a', (fst oa, rev (bytes_of_block (N.lxor (N.lxor outa z0a) (block_of_bytes o))))))
      (fun o => Ok (g', b', (fst oa, rev (bytes_of_block (N.lxor (N.lxor outb z0b) (block_of_bytes o)))))) (blk_len _) (blk_len _)) as CT.
    cbv beta in CT. rewrite !blk_round in CT by now apply lxor_blk. exact CT. }
  destruct sec; cbn [negb] in *.
  - destruct (itc_share _ _ _ Rz LZ) as (za & zb & Eza & Ezb & _ & L1 & L2 & _). rewrite Eza, Ezb in H. cbn [bind] in H.
    set (c := xor_arr (xor_arr ma za) zb) in *.
    destruct (list_eq_dec N.eq_dec c c) as [_|X]; [|now elim X].
    destruct (obv_ghash gfr _ _ (tag_blocks aad c) (m_ole r)) as [[[[a' b'] outa] outb]| |] eqn:EG; try discriminate H. cbn [bind] in H.
    assert (Eo : oa = (c, rev (bytes_of_block (N.lxor (N.lxor outa z0a) (N.lxor outb z0b))))) by congruence.
    assert (Eo' : ob = (c, rev (bytes_of_block (N.lxor (N.lxor outb z0b) (N.lxor outa z0a))))) by congruence.
    assert (Es : st_gc s' = g' /\ st_a s' = a' /\ st_b s' = b').
    { assert (X := f_equal (fun x => match x with Ok (s, _, _) => (st_gc s, st_a s, st_b s) | _ => (st_gc s', st_a s', st_b s') end) H).
      cbn in X. repeat split; congruence. }
    destruct Es as (-> & -> & ->). clear H.
    unfold own_z. rewrite Eza, Ezb.
    eapply conv_rbind.
    + eapply conv_rbind; [apply conv_ret|]. cbv beta zeta.
      refine (conv_swap (length ma) (xor_arr ma za) (fun x => xor_arr x zb)
        (fun c => Ok (push_gc_z (push_z0 (st_a s) z0a) (rev za), c))
        (fun x => Ok (push_gc_z (push_z0 (st_b s) z0b) (rev zb), xor_arr x zb)) _ _).
      * unfold xor_arr. rewrite map2_length. lia.
      * unfold xor_arr. rewrite !map2_length. lia.
    + cbv beta iota. fold c. subst ob. rewrite Eo at 1.
      apply (TAIL (push_gc_z (push_z0 (st_a s) z0a) (rev za)) (push_gc_z (push_z0 (st_b s) z0b) (rev zb)) c eq_refl).
      * destruct (obv_ghash _ _ _ _ _) as [[[[? ?] ?] ?]| |]; reflexivity.
      * exact EG.
      * now rewrite Eo.
  - cbn [bind] in H. set (zr := rev (reveal_as 8 Z)) in *.
    destruct (list_eq_dec N.eq_dec (xor_arr ma zr) (xor_arr mb zr)) as [Ec|X]; [|discriminate H].
    set (c := xor_arr ma zr) in *. rewrite <- Ec in *.
    destruct (obv_ghash gfr _ _ (tag_blocks aad c) (m_ole r)) as [[[[a' b'] outa] outb]| |] eqn:EG; try discriminate H. cbn [bind] in H.
    assert (Eo : oa = (c, rev (bytes_of_block (N.lxor (N.lxor outa z0a) (N.lxor outb z0b))))) by congruence.
    assert (Eo' : ob = (c, rev (bytes_of_block (N.lxor (N.lxor outb z0b) (N.lxor outa z0a))))) by congruence.
    assert (Es : st_gc s' = g' /\ st_a s' = a' /\ st_b s' = b').
    { assert (X := f_equal (fun x => match x with Ok (s, _, _) => (st_gc s, st_a s, st_b s) | _ => (st_gc s', st_a s', st_b s') end) H).
      cbn in X. repeat split; congruence. }
    destruct Es as (-> & -> & ->). clear H.
    eapply conv_rbind; [apply conv_ret|]. cbv beta iota. fold zr. fold c. try rewrite <- Ec. subst ob. rewrite Eo at 1.
    apply (TAIL (push_open (push_z0 (st_a s) z0a) (reveal_as 8 Z)) (push_open (push_z0 (st_b s) z0b) (reveal_as 8 Z)) c eq_refl).
    * destruct (obv_ghash _ _ _ _ _) as [[[[? ?] ?] ?]| |]; reflexivity.
    * exact EG.
    * now rewrite Eo.
Qed.

Lemma conv_abab {A B} (p p1 : proc A) (q q1 : proc B) a b s s2 t : solo p nobufs nobufs p1 s nobufs ->
  solo q nobufs s q1 t nobufs -> solo p1 nobufs t (Ret a) s2 nobufs -> solo q1 nobufs s2 (Ret b) nobufs nobufs -> conv p q a b.
Proof.
  intros H1 H2 H3 H4. destruct (solo_A _ _ _ _ _ _ q H1) as [n1 K1].
  destruct (solo_B p1 _ _ _ _ _ _ H2) as [n2 K2]. destruct (solo_A _ _ _ _ _ _ q1 H3) as [n3 K3].
  destruct (solo_B (Ret a) _ _ _ _ _ _ H4) as [n4 K4].
  exists (n1 + (n2 + (n3 + n4)))%nat. eapply abs_trans; [exact K1|]. eapply abs_trans; [exact K2|].
  eapply abs_trans; [exact K3|exact K4].
Qed.
(** the commitments and the openings: /repo/protocol/aead.h:427-491 *)
Lemma conv_commit {A B} (x1 x2 x3 y1 y2 y3 : list N) n1 n2 n3 (k : list N -> list N -> list N -> A) (l : list N -> list N -> list N -> B) :
  length x1 = n1 -> length x2 = n2 -> length x3 = n3 -> length y1 = n1 -> length y2 = n2 -> length y3 = n3 ->
  conv (Send IO x1 (Flush IO (Recv IO_OPT n1 (fun c => Send IO x2 (Send IO x3 (Flush IO (Recv IO_OPT n2 (fun o => Recv IO_OPT n3 (fun r => Ret (k c o r))))))))))
       (Send IO_OPT y1 (Flush IO_OPT (Recv IO n1 (fun c => Send IO_OPT y2 (Send IO_OPT y3 (Flush IO_OPT (Recv IO n2 (fun o => Recv IO n3 (fun r => Ret (l c o r))))))))))
       (k y1 y2 y3) (l x1 x2 x3).
Proof.
  intros X1 X2 X3 Y1 Y2 Y3. eapply conv_abab.
  - eapply solo_step; [constructor|]. apply solo_one. constructor.
  - eapply solo_step; [constructor|]. eapply solo_step; [constructor|]. cbn [get nobufs on_io put app on_opt].
    eapply (solo_recv IO n1 _ _ _ x1 []); [cbn; now rewrite app_nil_r|exact X1|].
    eapply solo_step; [constructor|]. eapply solo_step; [constructor|]. apply solo_one. constructor.
  - cbn [get nobufs on_io put app on_opt].
    eapply (solo_recv IO_OPT n1 _ _ _ y1 (y2 ++ y3)); [cbn; now rewrite <- app_assoc|exact Y1|].
    eapply solo_step; [constructor|]. eapply solo_step; [constructor|]. eapply solo_step; [constructor|].
    cbn [get nobufs on_io put app on_opt].
    eapply (solo_recv IO_OPT n2 _ _ _ y2 y3); [reflexivity|exact Y2|].
    eapply (solo_recv IO_OPT n3 _ _ _ y3 []); [cbn; now rewrite app_nil_r|exact Y3|]. constructor.
  - cbn [get nobufs on_io put app on_opt].
    eapply (solo_recv IO n2 _ _ _ x2 x3); [reflexivity|exact X2|].
    eapply (solo_recv IO n3 _ _ _ x3 []); [cbn; now rewrite app_nil_r|exact X3|]. constructor.
Qed.

Lemma conv_decrypt s c t aad iv sec r ra rb s' ma va mb vb Zz Z n1 :
  decrypt enc gfr hash s c t aad iv sec r ra rb = Ok (s', (ma, va), (mb, vb)) ->
  key_material enc (st_gc s) iv (N.of_nat (length c)) = Ok (Zz, Z, n1) -> length Zz = 128%nat -> length Z = (8 * length c)%nat ->
  length (m_z0 r) = 128%nat -> length (m_z r) = (8 * length c)%nat ->
  length ra = rand_length -> length rb = rand_length ->
  Forall blk (tag_blocks aad c) -> Forall blk (hs_upto (p_mul_hs (st_a s)) (length (tag_blocks aad c))) ->
  ole_rand_ok (m_ole r) (length (tag_blocks aad c)) -> ole_blk (m_ole r) ->
  conv (p_decrypt enc gfr hash true (st_gc s) (st_a s) c t aad iv sec r ra)
       (p_decrypt enc gfr hash false (st_gc s) (st_b s) c t aad iv sec r rb)
       (Ok (st_gc s', st_a s', (Some ma, va))) (Ok (st_gc s', st_b s', (mb, vb))).
Proof.
  intros H K LZz LZ R0 Rz La Lb T Hs Ro Bo. unfold decrypt, decrypt_shares in H. rewrite K in H. cbn [bind] in H.
  destruct (share_material (st_gc s) (st_a s) (st_b s) iv _ r Zz Z n1 K LZz R0) as (z0a & z0b & Ea & Eb & B1 & B2 & Oa & Ob).
  rewrite Ea, Eb in H. cbn [bind] in H. unfold p_decrypt, local. rewrite Oa, Ob. clear Oa Ob.
  eapply conv_rbind; [apply conv_ret|]. cbv beta iota zeta.
  set (g' := {| g_key := _; g_nonce := _; g_fixed := _ |}) in *.
  assert (TAIL : forall a b m1 m2 a' b' outa outb, p_mul_hs a = p_mul_hs (st_a s) ->
     obv_ghash gfr a b (tag_blocks aad c) (m_ole r) = Ok (a', b', outa, outb) ->
     conv (rbind (p_ghash gfr true a (tag_blocks aad c) (m_ole r)) (fun '(p, out) =>
             let out := N.lxor out z0a in
             Send IO (dec_msg1 hash out ra) (Flush IO (Recv IO_OPT DIGEST_SIZE (fun com =>
             Send IO (bytes_of_block out) (Send IO ra (Flush IO (
             Recv IO_OPT 16 (fun o => Recv IO_OPT rand_length (fun rn =>
               Ret (Ok (g', p, (m1, dec_verdict hash t out com (block_of_bytes o, rn))))))))))))))
          (rbind (p_ghash gfr false b (tag_blocks aad c) (m_ole r)) (fun '(p, out) =>
             let out := N.lxor out z0b in
             Send IO_OPT (dec_msg1 hash out rb) (Flush IO_OPT (Recv IO DIGEST_SIZE (fun com =>
             Send IO_OPT (bytes_of_block out) (Send IO_OPT rb (Flush IO_OPT (
             Recv IO 16 (fun o => Recv IO rand_length (fun rn =>
               Ret (Ok (g', p, (m2, dec_verdict hash t out com (block_of_bytes o, rn)))))))))))))) 
          (Ok (g', a', (m1 : option (list N), dec_verdict hash t (N.lxor outa z0a) (dec_msg1 hash (N.lxor outb z0b) rb) (N.lxor outb z0b, rb))))
          (Ok (g', b', (m2 : option (list N), dec_verdict hash t (N.lxor outb z0b) (dec_msg1 hash (N.lxor outa z0a) ra) (N.lxor outa z0a, ra))))).
  { intros a b m1 m2 a' b' outa outb Eh EG. rewrite <- Eh in Hs.
    destruct (conv_ghash a b _ _ a' b' outa outb EG T Hs Ro Bo) as (C & X1 & X2).
    eapply conv_rbind; [exact C|]. cbv beta iota zeta.
    pose proof (conv_commit (dec_msg1 hash (N.lxor outa z0a) ra) (bytes_of_block (N.lxor outa z0a)) ra
      (dec_msg1 hash (N.lxor outb z0b) rb) (bytes_of_block (N.lxor outb z0b)) rb DIGEST_SIZE 16 rand_length
      (fun com o rn => Ok (g', a', (m1, dec_verdict hash t (N.lxor outa z0a) com (block_of_bytes o, rn))))
      (fun com o rn => Ok (g', b', (m2, dec_verdict hash t (N.lxor outb z0b) com (block_of_bytes o, rn))))
      (HL _) (blk_len _) La (HL _) (blk_len _) Lb) as CT.
    cbv beta in CT. rewrite !blk_round in CT by now apply lxor_blk. exact CT. }
  unfold dec_msg2 in H.
  destruct sec; cbn [negb] in *.
  - destruct (itc_share _ _ _ Rz LZ) as (za & zb & Eza & Ezb & _ & L1 & L2 & _). rewrite Eza, Ezb in H. cbn [bind] in H.
    destruct (obv_ghash gfr _ _ (tag_blocks aad c) (m_ole r)) as [[[[a' b'] outa] outb]| |] eqn:EG; try discriminate H. cbn [bind] in H.
    assert (Es := f_equal (fun x => match x with Ok (s, (m, v), (n, w)) => (st_gc s, st_a s, (Some m, v)) | _ => (st_gc s', st_a s', (None, va)) end) H).
    assert (Es' := f_equal (fun x => match x with Ok (s, (m, v), (n, w)) => (st_gc s, st_b s, (n, w)) | _ => (st_gc s', st_b s', (None, va)) end) H).
    cbn in Es, Es'. rewrite <- Es, <- Es'. clear H Es Es'.
    unfold own_z. rewrite Eza, Ezb.
    eapply conv_rbind.
    + eapply conv_rbind; [apply conv_ret|]. cbv beta zeta.
      exact (conv_from_bob (length c) zb (fun x => Ok (push_gc_z (push_z0 (st_a s) z0a) (rev za), Some (xor_arr (xor_arr x za) c)))
        (Ok (push_gc_z (push_z0 (st_b s) z0b) (rev zb), None)) L2).
    + cbv beta iota. eapply TAIL; [|exact EG]. reflexivity.
  - cbn [bind] in H. 
    destruct (obv_ghash gfr _ _ (tag_blocks aad c) (m_ole r)) as [[[[a' b'] outa] outb]| |] eqn:EG; try discriminate H. cbn [bind] in H.
    assert (Es := f_equal (fun x => match x with Ok (s, (m, v), (n, w)) => (st_gc s, st_a s, (Some m, v)) | _ => (st_gc s', st_a s', (None, va)) end) H).
    assert (Es' := f_equal (fun x => match x with Ok (s, (m, v), (n, w)) => (st_gc s, st_b s, (n, w)) | _ => (st_gc s', st_b s', (None, va)) end) H).
    cbn in Es, Es'. rewrite <- Es, <- Es'. clear H Es Es'.
    eapply conv_rbind; [apply conv_ret|]. cbv beta iota.
    eapply TAIL; [|exact EG]. reflexivity.
Qed.
End G.
