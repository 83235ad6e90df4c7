(** Properties C98 and C99: what a party sees of a TLS session from the point conversion on, and the
    two primes of the curve P-256. *)
From Coq Require Import List NArith ZArith Bool Arith Lia Znumtheory.
From Verif Require Import L_Bits L_Res L_Modq S_Sched S_View S_Ec S_Codec S_Aes S_Gcm S_Tls.
From Verif Require Import M_Bn M_Ole M_E2f M_Exch M_Handshake M_Ole2k M_Shares M_Commit M_View M_LabView D_AesKs D_AesEnc.
From Verif Require Import P_Ole P_E2f P_ViewE2f P_ViewMask P_Aead P_AeadInst P_Handshake P_SymTls P_SymGcm P_SessView P_LabView2 P_LabView4 P_LabView5 P_WholeView P_Prime256.
From Verif Require C_LabView.
Import ListNotations.
Local Open Scope Z_scope.
Local Opaque aes_ks_file aes_enc_file aesE ms_spec key_block bn_buf session_opened tkeys_of.

(** ** C98: the point conversion, the circuits and the records together *)
(** The hypotheses are about the two premaster secrets m and m' only: the sessions open the same values,
    the GHASH keys are not zero, and the records look the same.  The shares s of ALICE, paired by F, then
    give sessions that BOB cannot tell apart: the messages and the result of the conversion are the same,
    and for these results the rest of the session is the same as in C93. *)
Theorem C98_bob : forall gfr, gfr_ok gfr -> forall hash : list N -> list N, (forall l, length (hash l) = DIGEST_SIZE) ->
  forall q rounds rc rs sh os cs cs', bound1000 q -> prime q ->
  Forall byte8 rc -> Forall byte8 rs -> opt_wf sh -> Forall fin_wf os -> (rounds = true -> tls_sizes rc rs sh os) ->
  cs <> [] -> ins_ok cs -> ins_ok cs' -> forall m m', 0 <= m < q -> 0 <= m' < q ->
  session_opened q rounds m 0 rc rs sh os (map gcall_in cs) = session_opened q rounds m' 0 rc rs sh os (map gcall_in cs) ->
  forall t xb yb xa ya xa' ya' y3 y3', ~ cong q xa xb -> ~ cong q xa' xb ->
  chord_sum q xa ya xb yb m y3 -> chord_sum q xa' ya' xb yb m' y3' ->
  h_nonzero (tkeys_of q m 0 rc rs sh) -> h_nonzero (tkeys_of q m' 0 rc rs sh) ->
  bob_calls_alike (tkeys_of q m 0 rc rs sh) (tkeys_of q m' 0 rc rs sh) cs cs' ->
  exists F G : e2f -> e2f,
    (forall s, share_ok q t s -> share_ok q t (F s) /\ G (F s) = s) /\
    (forall s, share_ok q t s -> share_ok q t (G s) /\ F (G s) = s) /\
    forall s, share_ok q t s -> exists oa va oa' va' ob vb,
      runs_with_views (p_e2f_online q true s xa ya) (p_e2f_online q false t xb yb) (Ok oa) (Ok ob) va vb /\
      runs_with_views (p_e2f_online q true (F s) xa' ya') (p_e2f_online q false t xb yb) (Ok oa') (Ok ob) va' vb /\
      (oa + ob) mod q = m /\ (oa' + ob) mod q = m' /\
      same_for_bob gfr hash q rounds oa oa' ob rc rs sh os cs cs' /\
      ((32 <= BN_num_bytes q)%nat -> same_for_bob_stream gfr hash q rounds oa oa' ob rc rs sh os cs cs').
Proof. exact bob_from_conversion. Qed.
Print Assumptions C98_bob.
Theorem C98_alice : forall gfr, gfr_ok gfr -> forall hash : list N -> list N, (forall l, length (hash l) = DIGEST_SIZE) ->
  forall q rounds rc rs sh os cs cs', bound1000 q -> prime q ->
  Forall byte8 rc -> Forall byte8 rs -> opt_wf sh -> Forall fin_wf os -> (rounds = true -> tls_sizes rc rs sh os) ->
  cs <> [] -> ins_ok cs -> ins_ok cs' -> forall m m', 0 <= m < q -> 0 <= m' < q ->
  session_opened q rounds m 0 rc rs sh os (map gcall_in cs) = session_opened q rounds m' 0 rc rs sh os (map gcall_in cs) ->
  forall t xb yb xb' yb' xa ya y3 y3', ~ cong q xa xb -> ~ cong q xa xb' ->
  chord_sum q xa ya xb yb m y3 -> chord_sum q xa ya xb' yb' m' y3' ->
  alice_calls_alike (tkeys_of q m 0 rc rs sh) (tkeys_of q m' 0 rc rs sh) cs cs' ->
  exists F G : e2f -> e2f,
    (forall s, share_ok q t s -> share_ok q t (F s) /\ G (F s) = s) /\
    (forall s, share_ok q t s -> share_ok q t (G s) /\ F (G s) = s) /\
    forall s, share_ok q t s -> exists oa va ob vb ob' vb',
      runs_with_views (p_e2f_online q true t xa ya) (p_e2f_online q false s xb yb) (Ok oa) (Ok ob) va vb /\
      runs_with_views (p_e2f_online q true t xa ya) (p_e2f_online q false (F s) xb' yb') (Ok oa) (Ok ob') va vb' /\
      (oa + ob) mod q = m /\ (oa + ob') mod q = m' /\
      same_for_alice gfr hash q rounds oa ob ob' rc rs sh os cs cs' /\
      ((32 <= BN_num_bytes q)%nat -> same_for_alice_stream gfr hash q rounds oa ob ob' rc rs sh os cs cs').
Proof. exact alice_from_conversion. Qed.
Print Assumptions C98_alice.

(** ** C99: the field and the group order of P-256 are primes *)
Theorem C99_field : prime (2 ^ 256 - 2 ^ 224 + 2 ^ 192 + 2 ^ 96 - 1).
Proof. exact field_prime. Qed.
Print Assumptions C99_field.
Theorem C99_order : prime 115792089210356248762697446949407573529996955224135760342422259061068512044369.
Proof. exact order_prime. Qed.
Print Assumptions C99_order.
(** so that the conversion on this field needs no hypothesis about the modulus *)
Theorem C99_conversion : forall ccrh ra rb Delta raw xa ya xb yb, length raw = 5%nat -> Forall (fun r => length r = 256%nat) raw ->
  exists s t, e2f_offline ccrh p256 256 ra rb Delta raw = Ok (s, t) /\
    (((e_a s + e_a t) mod p256 = 0 \/ xa mod p256 = xb mod p256) -> e2f_online p256 s t xa ya xb yb = Err) /\
    ((e_a s + e_a t) mod p256 <> 0 -> xa mod p256 <> xb mod p256 ->
     exists oa ob y3, e2f_online p256 s t xa ya xb yb = Ok (oa, ob) /\ 0 <= oa < p256 /\ 0 <= ob < p256 /\
       chord_sum p256 xa ya xb yb (oa + ob) y3).
Proof. exact conversion_p256. Qed.
Print Assumptions C99_conversion.

(** two sessions on P-256 with premaster secrets 300 and 301 that meet the hypotheses of C98_bob, for
    the records of C93_ex *)
Example C98_ex : let i := InEnc C_LabView.text_x [] [] C_LabView.iv_ex true in let i' := InEnc C_LabView.text_y [] [] C_LabView.iv_ex true in
  let K m := tkeys_of p256 m 0 (repeat 1%N 32) (repeat 2%N 32) None in let t := {| e_a := 3; e_b := 0; e_c := 0; e_bp := 0; e_cp := 0; e_r := 0; e_r2 := 0 |} in
  bound1000 p256 /\ prime p256 /\ (32 <= BN_num_bytes p256)%nat /\ tls_sizes (repeat 1%N 32) (repeat 2%N 32) None [] /\
  ins_ok [(false, i)] /\ ins_ok [(false, i')] /\
  session_opened p256 true 300 0 (repeat 1%N 32) (repeat 2%N 32) None [] (map gcall_in [(false, i)]) =
  session_opened p256 true 301 0 (repeat 1%N 32) (repeat 2%N 32) None [] (map gcall_in [(false, i)]) /\
  ~ cong p256 100 0 /\ ~ cong p256 99 0 /\ chord_sum p256 100 2000 0 0 300 (-6000) /\ chord_sum p256 99 1980 0 0 301 (-6020) /\
  h_nonzero (K 300) /\ h_nonzero (K 301) /\ bob_calls_alike (K 300) (K 301) [(false, i)] [(false, i')] /\ K 300 <> K 301 /\
  share_ok p256 t {| e_a := 1; e_b := 0; e_c := 0; e_bp := 0; e_cp := 0; e_r := 0; e_r2 := 0 |}.
Proof.
  intros i i' K t. destruct C_LabView.C93_ex as (N1 & N2 & AL & I1 & I2 & O & _ & NE & _). fold i i' in AL, I1, I2, O.
  assert (P1 : pms_of p256 200 100 = pms_of p256 300 0) by (vm_compute; reflexivity).
  assert (P2 : pms_of p256 201 100 = pms_of p256 301 0) by (vm_compute; reflexivity).
  assert (EW : C_LabView.p256w = p256) by (vm_compute; reflexivity).
  unfold C_LabView.keys_of in N1, N2, AL, NE. rewrite EW in N1, N2, AL, NE, O.
  pose proof (keys_sum p256 200 100 300 (repeat 1%N 32) (repeat 2%N 32) None P1) as K1.
  pose proof (keys_sum p256 201 100 301 (repeat 1%N 32) (repeat 2%N 32) None P2) as K2.
  rewrite K1 in N1, AL, NE. rewrite K2 in N2, AL, NE.
  split; [exact p256_bound|]. split; [exact p256_prime|]. split; [vm_compute; lia|]. split; [repeat split; constructor|].
  split; [exact I1|]. split; [exact I2|]. split.
  { etransitivity; [symmetry; exact (opened_sum p256 true 200 100 300 _ _ _ _ _ P1)|]. etransitivity; [exact O|]. exact (opened_sum p256 true 201 100 301 _ _ _ _ _ P2). }
  split; [intros [k H]; revert H; unfold p256; lia|]. split; [intros [k H]; revert H; unfold p256; lia|].
  split; [exists 20; repeat split|]. split; [exists 20; repeat split|].
  split; [exact N1|]. split; [exact N2|]. split; [exact AL|]. split; [exact NE|].
  unfold share_ok, triples_ok. cbn [e_a e_b e_c e_bp e_cp e_r e_r2 t]. split; [unfold p256; lia|]. split.
  - repeat split; exists 0; reflexivity.
  - intros [k H]. revert H. unfold p256. lia.
Qed.
(** and of C98_alice, for the records of C93_garbler_ex *)
Example C98_alice_ex : let i := InEnc [] [] C_LabView.aad_xy C_LabView.iv_ex true in let K m := tkeys_of p256 m 0 (repeat 1%N 32) (repeat 2%N 32) None in
  ins_ok [(false, i)] /\
  session_opened p256 true 300 0 (repeat 1%N 32) (repeat 2%N 32) None [] (map gcall_in [(false, i)]) =
  session_opened p256 true 301 0 (repeat 1%N 32) (repeat 2%N 32) None [] (map gcall_in [(false, i)]) /\
  ~ cong p256 0 100 /\ ~ cong p256 0 99 /\ chord_sum p256 0 0 100 2000 300 (-6000) /\ chord_sum p256 0 0 99 1980 301 (-6020) /\
  alice_calls_alike (K 300) (K 301) [(false, i)] [(false, i)] /\ K 300 <> K 301.
Proof.
  intros i K. destruct C_LabView.C93_garbler_ex as (AL & I1 & _ & NE & O). fold i in AL, I1, O.
  assert (P1 : pms_of p256 200 100 = pms_of p256 300 0) by (vm_compute; reflexivity).
  assert (P2 : pms_of p256 200 101 = pms_of p256 301 0) by (vm_compute; reflexivity).
  assert (EW : C_LabView.p256w = p256) by (vm_compute; reflexivity).
  unfold C_LabView.keys_of in AL, NE. rewrite EW in AL, NE, O.
  pose proof (keys_sum p256 200 100 300 (repeat 1%N 32) (repeat 2%N 32) None P1) as K1.
  pose proof (keys_sum p256 200 101 301 (repeat 1%N 32) (repeat 2%N 32) None P2) as K2.
  rewrite K1 in AL, NE. rewrite K2 in AL, NE. split; [exact I1|]. split.
  { etransitivity; [symmetry; exact (opened_sum p256 true 200 100 300 _ _ _ _ _ P1)|]. etransitivity; [exact O|]. exact (opened_sum p256 true 200 101 301 _ _ _ _ _ P2). }
  split; [intros [k H]; revert H; unfold p256; lia|]. split; [intros [k H]; revert H; unfold p256; lia|].
  split; [exists 20; repeat split|]. split; [exists 20; repeat split|]. split; [exact AL|exact NE].
Qed.
(** the check of C99 on a composite number: 341 = 11 * 31 passes Fermat's test to base 2, and the check
    accepts 5, which divides 10 and 30, but not 17 and 2 *)
Example C99_ex : 2 ^ 340 mod 341 = 1 /\ witness 341 2 5 = true /\ witness 341 2 17 = false /\ witness 341 2 2 = false /\ witness 31 3 5 = true.
Proof. vm_compute. repeat split. Qed.
