(** The half-public digest: the secret first block goes through the circuit, the
    public tail through the plain code; together they are FIPS 180-4 SHA-256. *)
From Coq Require Import List NArith ZArith Bool Arith Lia.
From Verif Require Import L_Bits L_Res M_EmpInteger M_Trace M_Utils M_Sha256 S_Sha256
  P_Sha256 P_Sha256Msg.
Import ListNotations.
Local Open Scope N_scope.
Local Opaque chunk_compress plain_chunk_compress compress.

(** * Array writes *)
Lemma setn_length l i v : (i < length l)%nat -> length (setn l i v) = length l.
Proof. intro. unfold setn. rewrite !app_length, firstn_length, skipn_length. cbn. lia. Qed.

Lemma setn_app pre l k v : setn (pre ++ l) (length pre + k) v = pre ++ setn l k v.
Proof.
  unfold setn. rewrite firstn_app, firstn_all2 by lia.
  replace (length pre + k - length pre)%nat with k by lia.
  rewrite skipn_app, skipn_all2 by lia.
  replace (S (length pre + k) - length pre)%nat with (S k) by lia.
  now rewrite <- app_assoc.
Qed.

Lemma firstn_setn_S l i v : (i < length l)%nat -> firstn (S i) (setn l i v) = firstn i l ++ [v].
Proof.
  intro H. unfold setn. rewrite firstn_app, firstn_length, Nat.min_l by lia.
  rewrite (firstn_all2 (firstn i l)) by (rewrite firstn_length; lia).
  replace (S i - i)%nat with 1%nat by lia. reflexivity.
Qed.

Lemma Forall_setn (P : N -> Prop) l i v : Forall P l -> P v -> Forall P (setn l i v).
Proof.
  intros Hl Hv. unfold setn. apply Forall_app; split; [|constructor; [exact Hv|]].
  - rewrite <- (firstn_skipn i l) in Hl. apply Forall_app in Hl. tauto.
  - rewrite <- (firstn_skipn (S i) l) in Hl. apply Forall_app in Hl. tauto.
Qed.

Lemma zero_fill_spec fuel data i lim :
  (lim - i <= fuel)%nat -> (i <= lim)%nat -> (lim <= length data)%nat ->
  length (zero_fill fuel data i lim) = length data /\
  firstn lim (zero_fill fuel data i lim) = firstn i data ++ repeat 0 (lim - i).
Proof.
  revert data i; induction fuel; intros data i Hf Hi Hl; cbn [zero_fill].
  - assert (i = lim) by lia; subst. rewrite Nat.sub_diag. cbn. now rewrite app_nil_r.
  - destruct (Nat.ltb_spec i lim).
    + destruct (IHfuel (setn data i 0) (S i)) as [A B]; try lia.
      { rewrite setn_length; lia. }
      rewrite A, B. rewrite setn_length by lia. rewrite firstn_setn_S by lia.
      split; [reflexivity|]. rewrite <- app_assoc.
      replace (lim - i)%nat with (S (lim - S i)) by lia. reflexivity.
    + assert (i = lim) by lia; subst. rewrite Nat.sub_diag. cbn. now rewrite app_nil_r.
Qed.

(** * The byte loop *)
Definition absorb (bytes : list N) (d : list N) : list N :=
  fold_left compress (map words (chunks 512 (bits_of_bytes bytes))) d.

Lemma absorb_block b d : length b = 64%nat -> absorb b d = compress d (words (bits_of_bytes b)).
Proof.
  intro H. unfold absorb. rewrite chunks_small.
  - reflexivity.
  - lia.
  - intro E. apply (f_equal (@length bool)) in E. rewrite bits_of_bytes_length, H in E. discriminate.
  - rewrite bits_of_bytes_length; lia.
Qed.

Lemma absorb_app a b d n : length a = (64 * n)%nat -> absorb (a ++ b) d = absorb b (absorb a d).
Proof.
  intro H. unfold absorb. rewrite bits_of_bytes_app.
  rewrite (chunks_app_mult 512 n) by (try rewrite bits_of_bytes_length; lia).
  rewrite map_app. apply fold_left_app.
Qed.

Definition goodN (h : list N) : Prop := Forall u32 h /\ length h = 8%nat.

Lemma tail_loop p : forall cur d data b,
  Forall byte p -> Forall byte cur -> goodN d -> length data = 64%nat ->
  (length cur < 64)%nat -> firstn (length cur) data = cur -> b < 2 ^ 64 ->
  exists full rest n s,
    fold_left tail_byte p (mkTail d data (length cur) b) = s /\
    cur ++ p = full ++ rest /\ length full = (64 * n)%nat /\
    length rest = t_len s /\ (t_len s < 64)%nat /\ length (t_data s) = 64%nat /\
    firstn (t_len s) (t_data s) = rest /\
    t_dig s = absorb full d /\ goodN (t_dig s) /\
    t_bits s = (b + 512 * N.of_nat n) mod 2 ^ 64.
Proof.
  induction p as [|x p IH]; intros cur d data b Hp Hc Hd Hl Hcl Hf Hb.
  - exists [], cur, 0%nat. eexists. split; [reflexivity|]. cbn [t_dig t_data t_len t_bits].
    rewrite app_nil_r. repeat split; try assumption; try reflexivity; try apply Hd.
    change (N.of_nat 0) with 0. rewrite N.mul_0_r, N.add_0_r. symmetry. apply N.mod_small. exact Hb.
  - inversion Hp; subst.
    cbn [fold_left]. unfold tail_byte at 2. cbn [t_dig t_data t_len t_bits].
    assert (Hf2 : firstn (S (length cur)) (setn data (length cur) x) = cur ++ [x]).
    { rewrite firstn_setn_S by lia. now rewrite Hf. }
    assert (Hc2 : Forall byte (cur ++ [x])).
    { apply Forall_app; split; [assumption|constructor; [assumption|constructor]]. }
    destruct (Nat.eqb_spec (S (length cur)) 64) as [E|E].
    + assert (Hdata : setn data (length cur) x = cur ++ [x]).
      { rewrite <- Hf2. symmetry. apply firstn_all2. rewrite setn_length; lia. }
      assert (L64 : length (cur ++ [x]) = 64%nat) by (rewrite app_length; cbn; lia).
      rewrite Hdata.
      destruct (plain_chunk_compress_ok d (cur ++ [x]) (proj1 Hd) (proj2 Hd) Hc2 L64)
        as (A & B & C).
      destruct (IH [] (plain_chunk_compress d (cur ++ [x])) (cur ++ [x]) ((b + 512) mod 2 ^ 64))
        as (full & rest & n & s & G1 & G2 & G3 & G4 & G5 & G6 & G7 & G8 & G9 & G10);
        try assumption.
      { constructor. } { split; assumption. } { cbn; lia. } { reflexivity. }
      { apply N.mod_lt. discriminate. }
      exists ((cur ++ [x]) ++ full), rest, (S n), s. cbn [length] in G1.
      split; [exact G1|]. cbn [app] in G2.
      split. { rewrite <- app_assoc. rewrite <- G2. now rewrite <- app_assoc. }
      split. { rewrite app_length, L64, G3. lia. }
      repeat (split; [assumption|]).
      split. { rewrite (absorb_app _ _ _ 1) by (rewrite L64; reflexivity).
               rewrite (absorb_block (cur ++ [x])) by assumption. rewrite <- C. exact G8. }
      split; [assumption|].
      rewrite G10. rewrite N.add_mod_idemp_l by discriminate. f_equal. lia.
    + destruct (IH (cur ++ [x]) d (setn data (length cur) x) b)
        as (full & rest & n & s & G1 & G2 & G); try assumption.
      { rewrite setn_length; lia. } { rewrite app_length; cbn; lia. }
      { rewrite app_length; cbn [length]. rewrite Nat.add_1_r. exact Hf2. }
      exists full, rest, n, s.
      split. { rewrite <- G1. rewrite app_length; cbn [length]. now rewrite Nat.add_1_r. }
      split. { rewrite <- G2. now rewrite <- app_assoc. }
      exact G.
Qed.

(** * Closing the last block(s) *)
Definition be8 (x : N) : list N :=
  [N.shiftr x 56 mod 256; N.shiftr x 48 mod 256; N.shiftr x 40 mod 256;
   N.shiftr x 32 mod 256; N.shiftr x 24 mod 256; N.shiftr x 16 mod 256;
   N.shiftr x 8 mod 256; x mod 256].

Lemma bits8_mod x : bits_of_N 8 (x mod 256) = bits_of_N 8 x.
Proof. change 256 with (2 ^ N.of_nat 8). apply bits_of_N_mod. Qed.

Lemma be8_bits x : be_of_N 64 x = bits_of_bytes (be8 x).
Proof.
  unfold be8, bits_of_bytes, bits_of_byte, be_of_N. cbn [flat_map].
  rewrite !bits8_mod.
  rewrite (bits_of_N_app 8 56), (bits_of_N_app 8 48), (bits_of_N_app 8 40),
    (bits_of_N_app 8 32), (bits_of_N_app 8 24), (bits_of_N_app 8 16), (bits_of_N_app 8 8).
  rewrite !N.shiftr_shiftr. rewrite !rev_app_distr. rewrite app_nil_r, <- !app_assoc.
  reflexivity.
Qed.
Lemma be8_byte x : Forall byte (be8 x).
Proof. unfold be8. repeat constructor; apply N.mod_lt; discriminate. Qed.

Lemma set8 data pre x : length data = 64%nat -> length pre = 56%nat -> firstn 56 data = pre ->
  setn (setn (setn (setn (setn (setn (setn (setn data
    63 (x mod 256)) 62 (N.shiftr x 8 mod 256)) 61 (N.shiftr x 16 mod 256))
    60 (N.shiftr x 24 mod 256)) 59 (N.shiftr x 32 mod 256)) 58 (N.shiftr x 40 mod 256))
    57 (N.shiftr x 48 mod 256)) 56 (N.shiftr x 56 mod 256) = pre ++ be8 x.
Proof.
  intros Hl Hp Hf. rewrite <- (firstn_skipn 56 data). rewrite Hf.
  assert (L8 : length (skipn 56 data) = 8%nat) by (rewrite skipn_length; lia).
  destruct (skipn 56 data) as [|a [|b [|c [|d [|e [|f [|g [|h [|]]]]]]]]]; try discriminate L8.
  change 63%nat with (56 + 7)%nat; change 62%nat with (56 + 6)%nat;
  change 61%nat with (56 + 5)%nat; change 60%nat with (56 + 4)%nat;
  change 59%nat with (56 + 3)%nat; change 58%nat with (56 + 2)%nat;
  change 57%nat with (56 + 1)%nat.
  replace (setn (pre ++ _)) with (setn (pre ++ [a;b;c;d;e;f;g;h])) by reflexivity.
  rewrite <- Hp. rewrite !setn_app.
  replace (length pre) with (length pre + 0)%nat at 1 by lia. rewrite setn_app. reflexivity.
Qed.

(** what the closing code feeds to the compression function *)
Lemma opt_tail_blocks junk d pub :
  length junk = 64%nat -> Forall byte pub -> goodN d ->
  exists n, opt_tail junk d pub =
    absorb (pub ++ 128 :: repeat 0 n ++ be8 ((512 + 8 * N.of_nat (length pub)) mod 2 ^ 64)) d
    /\ (n = (119 - length pub mod 64) mod 64)%nat
    /\ goodN (opt_tail junk d pub).
Proof.
  intros Hj Hp Hd.
  destruct (tail_loop pub [] d junk 512)
    as (full & rest & n & s & G1 & G2 & G3 & G4 & G5 & G6 & G7 & G8 & G9 & G10);
    try assumption; try constructor; try (cbn; lia).
  cbn [app] in G2. cbn [length] in G1.
  unfold opt_tail. rewrite G1.
  assert (Hrest : Forall byte rest).
  { rewrite G2 in Hp. apply Forall_app in Hp. tauto. }
  assert (Hmod : (length pub mod 64 = t_len s)%nat).
  { rewrite G2, app_length, G3, G4. rewrite Nat.add_comm, Nat.mul_comm, Nat.mod_add by lia.
    apply Nat.mod_small. exact G5. }
  assert (Hbl : ((t_bits s + N.of_nat (t_len s) * 8) mod 2 ^ 64 =
                (512 + 8 * N.of_nat (length pub)) mod 2 ^ 64)).
  { rewrite G10. rewrite N.add_mod_idemp_l by discriminate. f_equal.
    rewrite G2, app_length, G3, G4. lia. }
  rewrite Hmod.
  set (L := t_len s) in *. set (bl := (512 + 8 * N.of_nat (length pub)) mod 2 ^ 64) in *.
  destruct (Nat.ltb_spec L 56) as [H56|H56].
  - exists (55 - L)%nat.
    rewrite Hbl.
    destruct (zero_fill_spec 64 (setn (t_data s) L 128) (S L) 56) as [Z1 Z2]; try lia.
    { rewrite setn_length; lia. }
    rewrite (set8 _ (rest ++ 128 :: repeat 0 (55 - L)) bl).
    2:{ rewrite Z1, setn_length; lia. }
    2:{ rewrite app_length; cbn [length]. rewrite repeat_length. lia. }
    2:{ rewrite Z2, firstn_setn_S by lia. rewrite G7, <- app_assoc.
        replace (56 - S L)%nat with (55 - L)%nat by lia. reflexivity. }
    assert (LB : length ((rest ++ 128 :: repeat 0 (55 - L)) ++ be8 bl) = 64%nat).
    { rewrite !app_length; cbn [length be8]. rewrite repeat_length. lia. }
    assert (BB : Forall byte ((rest ++ 128 :: repeat 0 (55 - L)) ++ be8 bl)).
    { apply Forall_app; split; [|apply be8_byte]. apply Forall_app; split; [assumption|].
      constructor; [reflexivity|]. apply Forall_forall. intros z Hz.
      apply repeat_spec in Hz. subst. reflexivity. }
    destruct (plain_chunk_compress_ok (t_dig s) _ (proj1 G9) (proj2 G9) BB LB) as (A & B & C).
    split; [|split; [|split; assumption]].
    + rewrite C, G2, <- (app_assoc full rest). rewrite (absorb_app full _ d n) by assumption.
      rewrite <- G8. rewrite <- absorb_block by assumption.
      f_equal. rewrite <- app_assoc. reflexivity.
    + replace (119 - L)%nat with ((55 - L) + 1 * 64)%nat by lia.
      rewrite Nat.mod_add by lia. symmetry. apply Nat.mod_small. lia.
  - exists (119 - L)%nat.
    rewrite Hbl.
    destruct (zero_fill_spec 64 (setn (t_data s) L 128) (S L) 64) as [Z1 Z2]; try lia.
    { rewrite setn_length; lia. }
    set (zf := zero_fill 64 (setn (t_data s) L 128) (S L) 64) in *.
    assert (Ez : zf = rest ++ 128 :: repeat 0 (63 - L)).
    { rewrite <- (firstn_all2 zf (n := 64)) by (rewrite Z1, setn_length; lia).
      rewrite Z2, firstn_setn_S by lia. rewrite G7, <- app_assoc.
      replace (64 - S L)%nat with (63 - L)%nat by lia. reflexivity. }
    assert (Lz : length zf = 64%nat) by (rewrite Z1, setn_length; lia).
    assert (Bz : Forall byte zf).
    { rewrite Ez. apply Forall_app; split; [assumption|].
      constructor; [reflexivity|]. apply Forall_forall. intros z Hz.
      apply repeat_spec in Hz. subst. reflexivity. }
    destruct (plain_chunk_compress_ok (t_dig s) zf (proj1 G9) (proj2 G9) Bz Lz) as (A & B & C).
    rewrite (set8 _ (repeat 0 56) bl).
    2:{ unfold memset0. rewrite app_length, repeat_length, skipn_length. lia. }
    2:{ apply repeat_length. }
    2:{ unfold memset0. rewrite firstn_app, repeat_length, Nat.sub_diag, firstn_O, app_nil_r.
        apply firstn_all2. rewrite repeat_length; lia. }
    assert (LB : length (repeat 0 56 ++ be8 bl) = 64%nat) by reflexivity.
    assert (BB : Forall byte (repeat 0 56 ++ be8 bl)).
    { apply Forall_app; split; [|apply be8_byte].
      apply Forall_forall. intros z Hz. apply repeat_spec in Hz. subst. reflexivity. }
    destruct (plain_chunk_compress_ok _ _ A B BB LB) as (A2 & B2 & C2).
    split; [|split; [|split; assumption]].
    + rewrite C2, C, G2, <- (app_assoc full rest). rewrite (absorb_app full _ d n) by assumption.
      rewrite <- G8. rewrite <- !absorb_block by assumption.
      rewrite <- (absorb_app zf _ _ 1) by (rewrite Lz; reflexivity).
      f_equal. rewrite Ez. rewrite <- app_assoc. f_equal. cbn [app]. f_equal.
      rewrite app_assoc. rewrite <- repeat_app. f_equal. f_equal. lia.
    + symmetry. apply Nat.mod_small. lia.
Qed.

Lemma bits_zeros n : bits_of_bytes (repeat 0 n) = repeat false (8 * n).
Proof.
  induction n; [reflexivity|]. cbn [repeat]. replace (8 * S n)%nat with (8 + 8 * n)%nat by lia.
  rewrite repeat_app, <- IHn. reflexivity.
Qed.

(** FIPS padding of [B ++ public bytes] *)
Lemma pad_bytes B pub : length B = 512%nat ->
  pad (B ++ bits_of_bytes pub) =
  B ++ bits_of_bytes (pub ++ 128 :: repeat 0 ((119 - length pub mod 64) mod 64) ++
                      be8 ((512 + 8 * N.of_nat (length pub)) mod 2 ^ 64)).
Proof.
  intro HB. unfold pad. rewrite <- app_assoc. f_equal.
  rewrite bits_of_bytes_app. f_equal.
  change (128 :: ?x) with ([128] ++ x). rewrite !bits_of_bytes_app.
  rewrite <- be8_bits. rewrite app_length, bits_of_bytes_length, HB.
  change (bits_of_bytes [128]) with ([true] ++ repeat false 7).
  rewrite bits_zeros. rewrite <- !app_assoc. f_equal.
  rewrite app_assoc. rewrite <- repeat_app. f_equal.
  - f_equal. unfold pad_zeros.
    pose proof (Nat.div_mod (length pub) 64 ltac:(lia)) as E.
    pose proof (Nat.mod_upper_bound (length pub) 64 ltac:(lia)).
    set (q := (length pub / 64)%nat) in *. set (r := (length pub mod 64)%nat) in *.
    replace ((512 + 8 * length pub) mod 512)%nat with (8 * r)%nat.
    2:{ replace (512 + 8 * length pub)%nat with (8 * r + (S q) * 512)%nat by lia.
        rewrite Nat.mod_add by lia. symmetry. apply Nat.mod_small. lia. }
    destruct (Nat.lt_ge_cases r 56).
    + replace (447 + 512 - 8 * r)%nat with ((447 - 8 * r) + 1 * 512)%nat by lia.
      rewrite Nat.mod_add by lia. rewrite Nat.mod_small by lia.
      replace (119 - r)%nat with ((55 - r) + 1 * 64)%nat by lia.
      rewrite Nat.mod_add by lia. rewrite Nat.mod_small by lia. lia.
    + rewrite Nat.mod_small by lia. rewrite Nat.mod_small by lia. lia.
  - unfold be_of_N. f_equal.
    replace (2 ^ 64) with (2 ^ N.of_nat 64) by reflexivity. rewrite bits_of_N_mod.
    f_equal. lia.
Qed.

Lemma fold_left_cons {A B} (f : A -> B -> A) l b a :
  fold_left f (b :: l) a = fold_left f l (f a b).
Proof. reflexivity. Qed.

Lemma opt_tail_ok junk B pub :
  length junk = 64%nat -> length B = 512%nat -> Forall byte pub ->
  goodN (compress H256 (words B)) ->
  opt_tail junk (compress H256 (words B)) pub = sha256_words (B ++ bits_of_bytes pub) /\
  goodN (opt_tail junk (compress H256 (words B)) pub).
Proof.
  intros Hj HB Hp Hg.
  destruct (opt_tail_blocks junk _ pub Hj Hp Hg) as (n & E & En & G).
  split; [|exact G]. rewrite E, En. unfold sha256_words. rewrite (pad_bytes B pub HB).
  rewrite chunks_app by (try lia; exact HB). rewrite map_cons, fold_left_cons.
  unfold absorb. reflexivity.
Qed.

(** * reveal of the concatenated chaining value *)
Lemma reverse_concat_ok l : reverse_concat [] l = concat l.
Proof.
  unfold reverse_concat.
  assert (H : forall l a, fold_left (fun r i : list bool => r ++ i) l a = a ++ concat l).
  { clear. induction l as [|x l IH]; intro a; cbn; [now rewrite app_nil_r|].
    rewrite IH. now rewrite app_assoc. }
  apply (H l []).
Qed.

Lemma chunks_concat_all {A} n (l : list (list A)) :
  (n > 0)%nat -> Forall (fun c => length c = n) l -> chunks n (concat l) = l.
Proof.
  intro Hn. induction l as [|x l IH]; intro HF; [apply chunks_nil|].
  inversion HF; subst. cbn [concat]. rewrite chunks_app by auto. f_equal. auto.
Qed.

Lemma reveal_dig d : good d -> reveal_as 32 (reverse_concat [] d) = map N_of_bits d.
Proof.
  intros [H _]. unfold reveal_as. rewrite reverse_concat_ok.
  rewrite chunks_concat_all; [reflexivity|lia|exact H].
Qed.

Lemma concat_length_all {A} n (l : list (list A)) :
  Forall (fun c => length c = n) l -> length (concat l) = (n * length l)%nat.
Proof.
  induction l as [|x l IH]; intro HF; [cbn; lia|].
  inversion HF; subst. cbn [concat length]. rewrite app_length, IH by assumption. lia.
Qed.

(** chaining value of the secret block as words *)
Definition sec_iv (sec : Integer) : list Integer :=
  chunk_compress sha256_h (map (@rev bool) (chunks 32 (rev sec))).

Lemma sec_iv_ok sec : length sec = 512%nat ->
  good (sec_iv sec) /\ map N_of_bits (sec_iv sec) = compress H256 (words (rev sec)).
Proof.
  intro HL. unfold sec_iv.
  destruct (chunk_compress_ok sha256_h (map (@rev bool) (chunks 32 (rev sec)))) as (A & B & C).
  - apply h_w32.
  - reflexivity.
  - apply (chunks32_w32 _ 16). rewrite rev_length. exact HL.
  - rewrite map_length. apply chunks_length; [lia|]. rewrite rev_length; exact HL.
  - split; [split; assumption|]. rewrite C, h_consts, N_of_be_words. reflexivity.
Qed.

Lemma good_map d : good d -> goodN (map N_of_bits d).
Proof.
  intros [A B]. split; [|rewrite map_length; exact B].
  apply Forall_map. eapply Forall_impl; [|exact A]. intros; now apply N_of_bits_u32.
Qed.

Lemma fresh64_length : length fresh64 = 64%nat.
Proof. reflexivity. Qed.

(** * The three ways opt_digest runs *)
Definition push_in (st : sha_st) (p : list N) : sha_st :=
  mkSha true (gc_out_open st) (zk_in_open st) (iv_in_hashes st ++ [p]) (iv_out_hash st)
        (zk_iv_in_hashes st) (iv_in_hash st) (pos st + 1)%Z (zpos st) (evs st).
Definition push_zk (st : sha_st) (z : Integer) : sha_st :=
  mkSha (gc_in_open st) (gc_out_open st) true (iv_in_hashes st) (iv_out_hash st)
        (zk_iv_in_hashes st ++ [z]) (iv_in_hash st) (pos st) (zpos st + 1)%Z (evs st).

Lemma opt_shape st sec pub : length sec = 512%nat ->
  let iv := sec_iv sec in
  let piv := map N_of_bits iv in
  let ev := [EvCompress; EvReveal PUBLIC 256] in
  (forall zk, opt_digest st sec pub false zk =
     Ok (log st ev, opt_tail fresh64 piv pub)) /\
  (gc_in_open st = false ->
   opt_digest st sec pub true false =
     Ok (log (push_in st piv) ev, opt_tail fresh64 piv pub)) /\
  (gc_in_open st = true ->
   opt_digest st sec pub true false =
     (let* p := read_at (iv_in_hashes st) (pos st) in Ok (st, opt_tail fresh64 p pub))%res) /\
  (zk_in_open st = false ->
   opt_digest st sec pub true true =
     (let* p := read_at (iv_in_hashes st) (zpos st + 1) in
      Ok (log (push_zk st (iconcat [] iv)) [EvCompress], opt_tail fresh64 p pub))%res) /\
  (zk_in_open st = true ->
   opt_digest st sec pub true true =
     (let* p := read_at (iv_in_hashes st) (zpos st) in Ok (st, opt_tail fresh64 p pub))%res).
Proof.
  intro HL. cbv zeta.
  destruct (sec_iv_ok sec HL) as [G _].
  assert (RL : length (reverse_concat [] (sec_iv sec)) = 256%nat).
  { rewrite reverse_concat_ok. rewrite (concat_length_all 32) by apply G.
    rewrite (proj2 G). reflexivity. }
  unfold opt_digest, opt_update.
  rewrite (split_words_ok sec 16) by exact HL.
  rewrite HL. cbn [Nat.eqb CHUNKLEN negb bind].
  change (negb (512 =? CHUNKLEN)%nat) with false. cbv iota.
  fold (sec_iv sec).
  rewrite RL, (reveal_dig _ G).
  split; [|split; [|split; [|split]]].
  - intros zk. reflexivity.
  - intros ->. reflexivity.
  - intros ->. cbn [negb]. destruct (read_at _ _); reflexivity.
  - intros ->. cbn [negb log iv_in_hashes zpos]. destruct (read_at _ _); reflexivity.
  - intros ->. cbn [negb]. destruct (read_at _ _); reflexivity.
Qed.

(** C02 *)
Lemma opt_digest_correct st sec pub zk :
  length sec = 512%nat -> Forall byte pub ->
  exists st' w, opt_digest st sec pub false zk = Ok (st', w) /\
    w = sha256_words (rev sec ++ bits_of_bytes pub).
Proof.
  intros HL Hp. destruct (opt_shape st sec pub HL) as (E & _).
  eexists _, _. split; [apply E|].
  destruct (sec_iv_ok sec HL) as [G W]. rewrite W.
  apply opt_tail_ok; try assumption; try reflexivity.
  - rewrite rev_length; exact HL.
  - rewrite <- W. now apply good_map.
Qed.
