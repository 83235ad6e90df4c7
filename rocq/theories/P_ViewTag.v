(** The tag of the ciphertext given to decrypt, from what the parties receive; the theorems on the
    shipped AES circuits. *)
From Coq Require Import List NArith Bool Arith Lia.
From Verif Require Import L_Bits L_Res L_Xor S_Sched S_View S_Codec S_Aes S_Gcm M_EmpInteger M_Utils M_Bristol M_Block M_Ole2k M_Shares M_Commit M_Aead M_Exch M_View D_AesKs D_AesEnc.
From Verif Require Import P_Utils P_Gf128 P_Shares P_Ole2k P_AesNet P_Gcm P_Aead P_AeadInst P_Sched P_Exch P_ExchAead P_ExchSess P_View P_ViewAead P_ViewPriv P_ViewBob.
Import ListNotations.
Local Open Scope N_scope.
Local Opaque mulBlock gf_mul invBlock computeKS computeAES_KS bytes_of_block block_of_bytes key_material block_to_bool.

Lemma before_last_ok k a x r : length x = 16%nat -> length r = k -> before_last k (a ++ x ++ r) = x.
Proof.
  intros Lx Lr. unfold before_last. rewrite !app_length, Lx, Lr.
  replace (length a + (16 + k) - (16 + k))%nat with (length a) by lia. rewrite skipn_app, skipn_all, Nat.sub_diag. cbn [skipn app].
  rewrite firstn_app, Lx, Nat.sub_diag, firstn_O, app_nil_r. now apply firstn_all2, Nat.eq_le_incl.
Qed.
Lemma fold_more {A} (f : A -> bufs) : forall l x, fold_right (fun o b => more_in (f o) b) nobufs (l ++ [x]) =
  more_in (fold_right (fun o b => more_in (f o) b) nobufs l) (f x).
Proof.
  induction l as [|y l IH]; intro x; cbn [app fold_right].
  - now rewrite more_nil, nil_more.
  - now rewrite IH, more_assoc.
Qed.
Lemma map2_snoc {A B C} (f : A -> B -> C) : forall l x m y, length l = length m -> map2 f (l ++ [x]) (m ++ [y]) = map2 f l m ++ [f x y].
Proof. induction l as [|a l IH]; intros x [|b m] y L; try discriminate; cbn [app map2]; [reflexivity|]. f_equal. apply IH. cbn in L. congruence. Qed.

Theorem decrypt_views ks enc gfr hash ek E fiv key : gfr_ok gfr -> (forall l, length (hash l) = DIGEST_SIZE) ->
  cipher_ok enc ek E -> length fiv = 4%nat -> bytes_ok fiv -> computeKS ks key = Ok ek ->
  forall ins c t aad iv sec ra rb u, let all := ins ++ [InDec c t aad iv sec ra rb] in
  Forall ain_ok all -> arand_ok all u ->
  let m := gcm_ctext E (fiv ++ iv) c in let v := if list_eq_dec N.eq_dec t (gcm_tag E (fiv ++ iv) aad c) then true else false in
  exists pa oa pb ob sa sb, length oa = length ins /\ length ob = length ins /\
    runs_with_views (p_run ks enc gfr hash true key (str_to_int fiv) all u) (p_run ks enc gfr hash false key (str_to_int fiv) all u)
      (Ok (pa, oa ++ [PDec (Some m, v)])) (Ok (pb, ob ++ [PDec (if sec then None else Some m, v)])) sa sb /\
    rev (bytes_of_block (N.lxor (block_of_bytes (before_last rand_length (on_io sb))) (block_of_bytes (before_last rand_length (on_opt sa)))))
      = gcm_tag E (fiv ++ iv) aad c.
Proof.
  intros GFR HL CIP V1 V2 HK ins c t aad iv sec ra rb u all F (U1 & U2 & U3 & U4 & U5 & U6) m v.
  destruct (with_rands_ok all (ar_calls u) F U6) as [W B].
  apply Forall2_app_inv_l in U6 as (cs & cl & C1 & C2 & EC). inversion C2 as [|? cr ? ? Hc C3]; subst. inversion C3; subst. clear C2 C3.
  set (o := OpDec c t aad iv sec cr ra rb).
  assert (EO : map2 with_rand all (ar_calls u) = map2 with_rand ins cs ++ [o]).
  { unfold all. rewrite EC. apply map2_snoc. clear -C1. induction C1; cbn; congruence. }
  assert (LC : length (map2 with_rand ins cs) = length ins) by (clear -C1; induction C1; cbn; congruence).
  pose proof (fun o os => session_views ks enc gfr GFR hash HL ek E CIP fiv V1 V2 key (ar_mh u) (ar_r u) (ar_ro u) o os HK U1 U2 U3 U4 U5) as SV.
  unfold p_run. rewrite EO in *. cbv zeta in SV.
  set (ha := invBlock (ar_r u)) in *. set (hb := gf_mul (ar_r u) (E 0)) in *.
  assert (BE : forall x, blk (E x)) by apply (proj2 CIP).
  assert (Ba : blk ha) by now apply invBlock_blk. assert (Bb : blk hb) by (apply gf_mul_blk; auto).
  assert (Hh : gf_mul ha hb = E 0).
  { unfold hb. rewrite (gf_mul_assoc ha (ar_r u) (E 0) Ba U2 (BE 0)), (gf_mul_comm ha (ar_r u) Ba U2). unfold ha.
    rewrite invBlock_ok by assumption. now apply gf_mul_1_l. }
  assert (Wo : aop_wf o /\ aop_blk o).
  { split; [eapply Forall_forall; [exact W|apply in_or_app; right; now left]|eapply Forall_forall; [exact B|apply in_or_app; right; now left]]. }
  destruct (tag_shares enc gfr GFR ek E CIP fiv ha hb o Ba Bb Hh (proj1 Wo) (proj2 Wo)) as (X1 & X2 & X3).
  assert (EA : ops_A gfr hash E fiv ha (map2 with_rand ins cs ++ [o]) = more_in (ops_A gfr hash E fiv ha (map2 with_rand ins cs)) (op_A gfr hash E fiv ha o)) by apply fold_more.
  assert (EB : ops_B gfr hash E fiv ha hb (map2 with_rand ins cs ++ [o]) = more_in (ops_B gfr hash E fiv ha hb (map2 with_rand ins cs)) (op_B gfr hash E fiv ha hb o)) by apply fold_more.
  assert (OA : map (fun o => out_alice (aop_spec E fiv o)) (map2 with_rand ins cs ++ [o]) =
    map (fun o => out_alice (aop_spec E fiv o)) (map2 with_rand ins cs) ++ [PDec (Some m, v)]) by (rewrite map_app; reflexivity).
  assert (OB : map (fun o => out_bob (aop_spec E fiv o)) (map2 with_rand ins cs ++ [o]) =
    map (fun o => out_bob (aop_spec E fiv o)) (map2 with_rand ins cs) ++ [PDec (if sec then None else Some m, v)]) by (rewrite map_app; reflexivity).
  assert (SV1 : exists o1 os1, map2 with_rand ins cs ++ [o] = o1 :: os1) by (destruct (map2 with_rand ins cs); eexists _, _; reflexivity).
  destruct SV1 as (o1 & os1 & E1). rewrite E1 in *. specialize (SV o1 os1 W B). rewrite EA, EB, OA, OB in SV.
  do 6 eexists. split; [|split; [|split; [exact SV|]]]; [rewrite map_length; exact LC..|].
  assert (AI : length ra = rand_length /\ length rb = rand_length).
  { apply Forall_app in F as [_ F]. inversion F as [|? ? A _]. destruct A as (_ & _ & _ & _ & A1 & A2). now split. }
  destruct AI as [Lra Lrb].
  assert (Q1 : before_last rand_length (on_io (more_in (new_A gfr (ar_mh u) (ar_r u) (ar_ro u)) (more_in (ops_A gfr hash E fiv ha (map2 with_rand ins cs)) (op_A gfr hash E fiv ha o)))) = bytes_of_block (op_outa gfr o)).
  { unfold op_A, o. cbn [more_in on_io]. rewrite !app_assoc, <- app_assoc. apply before_last_ok; [apply blk_len|exact Lra]. }
  assert (Q2 : before_last rand_length (on_opt (more_in (ops_B gfr hash E fiv ha hb (map2 with_rand ins cs)) (op_B gfr hash E fiv ha hb o))) = bytes_of_block (op_outb gfr E fiv ha hb o)).
  { unfold op_B at 1. unfold o at 1. cbn [more_in on_opt]. rewrite !app_assoc, <- app_assoc. apply before_last_ok; [apply blk_len|exact Lrb]. }
  rewrite Q1, Q2, !blk_round by assumption. exact X3.
Qed.

(** * On the shipped circuits *)
Local Opaque aes_ks_file aes_enc_file aesE str_to_int.
Definition bytes (l : list N) : Prop := Forall (fun b => b < 256) l.

Theorem bob_view_files gfr hash : gfr_ok gfr -> (forall l, length (hash l) = DIGEST_SIZE) ->
  forall key fiv key' fiv', length key = 16%nat -> bytes key -> length key' = 16%nat -> bytes key' ->
  length fiv = 4%nat -> bytes fiv -> length fiv' = 4%nat -> bytes fiv' -> aesE key 0 <> 0 -> aesE key' 0 <> 0 ->
  forall ins ins', ins <> [] -> Forall2 (alike_bob (aesE key) fiv (aesE key') fiv') ins ins' -> Forall ain_ok ins -> Forall ain_ok ins' ->
  exists F G : arand -> arand,
    (forall u, arand_ok ins u -> arand_ok ins' (F u) /\ G (F u) = u) /\
    (forall u, arand_ok ins' u -> arand_ok ins (G u) /\ F (G u) = u) /\
    forall u, arand_ok ins u -> exists pa oa sa pa' oa' sa' pb ob sb,
      runs_with_views (p_run aes_ks_file aes_enc_file gfr hash true (str_to_int key) (str_to_int fiv) ins u)
                      (p_run aes_ks_file aes_enc_file gfr hash false (str_to_int key) (str_to_int fiv) ins u)
        (Ok (pa, oa)) (Ok (pb, ob)) sa sb /\
      runs_with_views (p_run aes_ks_file aes_enc_file gfr hash true (str_to_int key') (str_to_int fiv') ins' (F u))
                      (p_run aes_ks_file aes_enc_file gfr hash false (str_to_int key') (str_to_int fiv') ins' (F u))
        (Ok (pa', oa')) (Ok (pb, ob)) sa' sb /\
      bob_ots pb (F u) = bob_ots pb u.
Proof.
  intros GFR HL key fiv key' fiv' K1 K2 K1' K2' V1 V2 V1' V2' N1 N2 ins ins' NE AL A A'.
  pose proof (files_cipher_ok key K1 K2) as CIP. pose proof (files_cipher_ok key' K1' K2') as CIP'.
  exists (re (aesE key) fiv (aesE key') fiv' ins ins'), (re (aesE key') fiv' (aesE key) fiv ins' ins).
  split; [|split].
  - intros u U. destruct (re_ok gfr GFR hash (aesE key) fiv (aesE key') fiv' _ _ _ CIP CIP' N1 N2 ins ins' u AL A A' U) as (R1 & R2 & _). now split.
  - intros u U. destruct (re_ok gfr GFR hash (aesE key') fiv' (aesE key) fiv _ _ _ CIP' CIP N2 N1 ins' ins u (alike_bobs_sym _ _ _ _ _ _ AL) A' A U) as (R1 & R2 & _). now split.
  - exact (bob_view gfr GFR hash (aesE key) fiv (aesE key') fiv' _ _ _ CIP CIP' N1 N2 aes_ks_file (str_to_int key) (str_to_int key') HL
      (files_ks key K1 K2) (files_ks key' K1' K2') V1 V2 V1' V2' ins ins' NE AL A A').
Qed.
Theorem alice_view_files gfr hash : gfr_ok gfr -> (forall l, length (hash l) = DIGEST_SIZE) ->
  forall key fiv key' fiv', length key = 16%nat -> bytes key -> length key' = 16%nat -> bytes key' ->
  length fiv = 4%nat -> bytes fiv -> length fiv' = 4%nat -> bytes fiv' ->
  forall ins ins', ins <> [] -> Forall2 (alike_alice (aesE key) fiv (aesE key') fiv') ins ins' -> Forall ain_ok ins -> Forall ain_ok ins' ->
  forall u, arand_ok ins u -> arand_ok ins' u /\ exists pa oa sa pb ob sb pb' ob' sb',
    runs_with_views (p_run aes_ks_file aes_enc_file gfr hash true (str_to_int key) (str_to_int fiv) ins u)
                    (p_run aes_ks_file aes_enc_file gfr hash false (str_to_int key) (str_to_int fiv) ins u)
      (Ok (pa, oa)) (Ok (pb, ob)) sa sb /\
    runs_with_views (p_run aes_ks_file aes_enc_file gfr hash true (str_to_int key') (str_to_int fiv') ins' u)
                    (p_run aes_ks_file aes_enc_file gfr hash false (str_to_int key') (str_to_int fiv') ins' u)
      (Ok (pa, oa)) (Ok (pb', ob')) sa sb'.
Proof.
  intros GFR HL key fiv key' fiv' K1 K2 K1' K2' V1 V2 V1' V2'.
  exact (alice_view gfr GFR hash (aesE key) fiv (aesE key') fiv' _ _ _ (files_cipher_ok key K1 K2) (files_cipher_ok key' K1' K2')
    aes_ks_file (str_to_int key) (str_to_int key') HL (files_ks key K1 K2) (files_ks key' K1' K2') V1 V2 V1' V2').
Qed.
Theorem decrypt_views_files gfr hash : gfr_ok gfr -> (forall l, length (hash l) = DIGEST_SIZE) ->
  forall key fiv, length key = 16%nat -> bytes key -> length fiv = 4%nat -> bytes fiv ->
  forall ins c t aad iv sec ra rb u, let all := ins ++ [InDec c t aad iv sec ra rb] in
  Forall ain_ok all -> arand_ok all u ->
  let m := gcm_ctext (aesE key) (fiv ++ iv) c in
  let v := if list_eq_dec N.eq_dec t (gcm_tag (aesE key) (fiv ++ iv) aad c) then true else false in
  exists pa oa pb ob sa sb, length oa = length ins /\ length ob = length ins /\
    runs_with_views (p_run aes_ks_file aes_enc_file gfr hash true (str_to_int key) (str_to_int fiv) all u)
                    (p_run aes_ks_file aes_enc_file gfr hash false (str_to_int key) (str_to_int fiv) all u)
      (Ok (pa, oa ++ [PDec (Some m, v)])) (Ok (pb, ob ++ [PDec (if sec then None else Some m, v)])) sa sb /\
    rev (bytes_of_block (N.lxor (block_of_bytes (before_last rand_length (on_io sb))) (block_of_bytes (before_last rand_length (on_opt sa)))))
      = gcm_tag (aesE key) (fiv ++ iv) aad c.
Proof.
  intros GFR HL key fiv K1 K2 V1 V2.
  exact (decrypt_views aes_ks_file aes_enc_file gfr hash _ (aesE key) fiv (str_to_int key) GFR HL (files_cipher_ok key K1 K2) V1 V2 (files_ks key K1 K2)).
Qed.

(** * A rejected decryption shows more than the rejection *)
Definition k_one : list N := repeat 1 16.
Definition k_zero : list N := repeat 0 16.
Definition iv_zero : list N := repeat 0 8.
Definition fiv_zero : list N := repeat 0 4.
Lemma aes_values : map (aesE k_zero) [0; 1; 2] = [136792598789324718765670228683992083246; 118150650284846871594443245464813258074; 4698274276341916077299333525606170232] /\
  map (aesE k_one) [0; 1; 2] = [242826524151226073559572646436896697600; 303322327069428779673682649225417168764; 323274074693145131984399889166294618525].
Proof. vm_compute. split; reflexivity. Qed.
Lemma values_of (E : N -> N) a b c : map E [0; 1; 2] = [a; b; c] -> E 0 = a /\ E 1 = b /\ E 2 = c.
Proof. cbn [map]. intro H. injection H as -> -> ->. auto. Qed.
(** tag and key stream for the IV of zeros, from the values of the cipher *)
Lemma tag_values E h j x aad c : map E [0; 1; 2] = [h; j; x] -> gcm_tag E (fiv_zero ++ iv_zero) aad c = gcm_tag_from h j aad c.
Proof. intro H. apply values_of in H as (H1 & H2 & _). unfold gcm_tag. change (j0_of (fiv_zero ++ iv_zero)) with 1. now rewrite H1, H2. Qed.
Lemma text_values E h j x p : map E [0; 1; 2] = [h; j; x] -> length p = 16%nat ->
  gcm_ctext E (fiv_zero ++ iv_zero) p = xor_str p (be_enc 16 x).
Proof.
  intros H L. apply values_of in H as (_ & _ & H). unfold gcm_ctext, gctr_spec. change (inc32 (j0_of (fiv_zero ++ iv_zero))) with 2.
  rewrite L. unfold keystream. change ((16 + 15) / 16)%nat with 1%nat. cbn [seq map concat flat_map iter_inc]. rewrite H. now rewrite app_nil_r.
Qed.
Lemma ae_values E h j x p aad : map E [0; 1; 2] = [h; j; x] -> length p = 16%nat ->
  gcm_ae E (fiv_zero ++ iv_zero) p aad = (xor_str p (be_enc 16 x), gcm_tag_from h j aad (xor_str p (be_enc 16 x))).
Proof. intros H L. unfold gcm_ae. now rewrite (text_values E h j x p H L), (tag_values E h j x _ _ H). Qed.
Lemma ae_values_nil E h j x aad : map E [0; 1; 2] = [h; j; x] -> gcm_ae E (fiv_zero ++ iv_zero) [] aad = ([], gcm_tag_from h j aad []).
Proof. intros H. unfold gcm_ae. change (gcm_ctext E (fiv_zero ++ iv_zero) []) with (@nil N). now rewrite (tag_values E h j x _ _ H). Qed.

Definition rows_zero (n : nat) : ole_rand := {| raw0 := repeat (repeat 0 128) n; raw1 := repeat (repeat 0 128) n |}.
Lemma rows_zero_ok n : ole_rand_ok (rows_zero n) n /\ ole_blk (rows_zero n).
Proof.
  assert (B0 : Forall blk (repeat 0 128)). { apply Forall_forall. intros x H. apply repeat_spec in H. now subst. }
  assert (L0 : length (repeat 0 128) = 128%nat) by apply repeat_length.
  unfold ole_rand_ok, ole_blk, rows_zero. cbn [raw0 raw1]. revert B0 L0. generalize (repeat 0 128). intros l B0 L0.
  rewrite !repeat_length. repeat (split; try reflexivity); apply Forall_forall; intros x H; apply repeat_spec in H; now subst.
Qed.
(** one call on n bytes and k blocks of tag input *)
Definition some_rand (n k : nat) : arand :=
  {| ar_mh := repeat true 128; ar_r := 1; ar_ro := rows_zero 1;
     ar_calls := [{| m_z0 := repeat true 128; m_z := repeat true (8 * n); m_ole := rows_zero k |}] |}.
Lemma some_rand_ok i : arand_ok [i] (some_rand (length (in_data i)) (nblocks (in_aad i) (in_data i))).
Proof.
  unfold arand_ok, some_rand. cbn [ar_mh ar_r ar_ro ar_calls]. rewrite repeat_length.
  destruct (rows_zero_ok 1) as [R1 R2]. repeat (split; [assumption || reflexivity || discriminate|]). constructor; [|constructor].
  destruct (rows_zero_ok (nblocks (in_aad i) (in_data i))) as [R3 R4]. split; [|exact R4].
  unfold rand_ok. cbn [m_z0 m_z m_ole]. rewrite !repeat_length. auto.
Qed.

Theorem reject_refuted gfr hash : gfr_ok gfr -> (forall l, length (hash l) = DIGEST_SIZE) ->
  exists key fiv key' c t aad iv ra rb, length key = 16%nat /\ bytes key /\ length key' = 16%nat /\ bytes key' /\ length fiv = 4%nat /\ bytes fiv /\
  let ins := [InDec c t aad iv true ra rb] in
  Forall ain_ok ins /\ (exists u, arand_ok ins u) /\
  forall u u', arand_ok ins u -> arand_ok ins u' -> exists pa pb sa sb pa' pb' sa' sb' m,
    runs_with_views (p_run aes_ks_file aes_enc_file gfr hash true (str_to_int key) (str_to_int fiv) ins u)
                    (p_run aes_ks_file aes_enc_file gfr hash false (str_to_int key) (str_to_int fiv) ins u)
      (Ok (pa, [PDec (Some m, false)])) (Ok (pb, [PDec (None, false)])) sa sb /\
    runs_with_views (p_run aes_ks_file aes_enc_file gfr hash true (str_to_int key') (str_to_int fiv) ins u')
                    (p_run aes_ks_file aes_enc_file gfr hash false (str_to_int key') (str_to_int fiv) ins u')
      (Ok (pa', [PDec (Some m, false)])) (Ok (pb', [PDec (None, false)])) sa' sb' /\
    (sa, sb) <> (sa', sb').
Proof.
  intros GFR HL. exists k_zero, fiv_zero, k_one, [], (repeat 0 16), [], iv_zero, (repeat 0 16), (repeat 0 16).
  assert (BY : forall x n, x < 256 -> bytes (repeat x n)). { intros x n Hx. apply Forall_forall. intros y Hy. apply repeat_spec in Hy. now subst. }
  assert (K1 : length k_zero = 16%nat /\ bytes k_zero) by (split; [reflexivity|now apply BY]).
  assert (K2 : length k_one = 16%nat /\ bytes k_one) by (split; [reflexivity|now apply BY]).
  assert (K3 : length fiv_zero = 4%nat /\ bytes fiv_zero) by (split; [reflexivity|now apply BY]).
  destruct K1 as [K1 K1'], K2 as [K2 K2'], K3 as [K3 K3'].
  repeat (split; [assumption|]). intro ins.
  assert (AI : Forall ain_ok ins).
  { constructor; [|constructor]. cbn [ain_ok]. split; [constructor|split; [constructor|split; [reflexivity|]]].
    split; [exact (BY 0 8%nat eq_refl)|]. split; reflexivity. }
  split; [exact AI|]. split; [eexists; apply some_rand_ok|].
  intros u u' U U'. destruct aes_values as [V1 V2].
  pose proof (decrypt_views_files gfr hash GFR HL k_zero fiv_zero K1 K1' K3 K3' [] [] (repeat 0 16) [] iv_zero true (repeat 0 16) (repeat 0 16) u AI U) as D1.
  pose proof (decrypt_views_files gfr hash GFR HL k_one fiv_zero K2 K2' K3 K3' [] [] (repeat 0 16) [] iv_zero true (repeat 0 16) (repeat 0 16) u' AI U') as D2.
  cbv zeta in D1, D2. rewrite (tag_values _ _ _ _ [] [] V1) in D1. rewrite (tag_values _ _ _ _ [] [] V2) in D2.
  change (gcm_ctext (aesE k_zero) (fiv_zero ++ iv_zero) []) with (@nil N) in D1.
  change (gcm_ctext (aesE k_one) (fiv_zero ++ iv_zero) []) with (@nil N) in D2.
  assert (T1 : exists x, gcm_tag_from 136792598789324718765670228683992083246 118150650284846871594443245464813258074 [] [] = 88 :: x).
  { eexists. vm_compute. reflexivity. }
  assert (T2 : exists x, gcm_tag_from 242826524151226073559572646436896697600 303322327069428779673682649225417168764 [] [] = 228 :: x).
  { eexists. vm_compute. reflexivity. }
  destruct T1 as [x1 T1], T2 as [x2 T2]. rewrite T1 in D1. rewrite T2 in D2.
  destruct D1 as (pa & oa & pb & ob & sa & sb & L1 & L2 & R1 & X1). destruct D2 as (pa' & oa' & pb' & ob' & sa' & sb' & L1' & L2' & R2 & X2).
  destruct oa; [|discriminate L1]. destruct ob; [|discriminate L2]. destruct oa'; [|discriminate L1']. destruct ob'; [|discriminate L2'].
  exists pa, pb, sa, sb, pa', pb', sa', sb', [].
  destruct (list_eq_dec N.eq_dec (repeat 0 16) (88 :: x1)) as [Q|_] in R1; [discriminate Q|].
  destruct (list_eq_dec N.eq_dec (repeat 0 16) (228 :: x2)) as [Q|_] in R2; [discriminate Q|].
  split; [exact R1|]. split; [exact R2|]. intro Q. injection Q as <- <-. rewrite X1 in X2. discriminate X2.
Qed.
