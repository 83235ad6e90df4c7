(** Byte-order, concatenation and string helpers of cipher/utils.h (C54-C56). *)
From Coq Require Import List NArith ZArith Bool Arith Lia.
From Verif Require Import L_Bits L_Res M_EmpInteger M_Utils S_Codec S_Sha256 P_Hmac P_Prf.
Import ListNotations.
Local Open Scope N_scope.

(** * Positional encodings *)
Lemma be_enc_length n x : length (be_enc n x) = n.
Proof. revert x; induction n as [|n IH]; intro x; [reflexivity|]. cbn [be_enc]. rewrite app_length, IH. cbn. lia. Qed.
Lemma le_enc_length n x : length (le_enc n x) = n.
Proof. revert x; induction n as [|n IH]; intro x; [reflexivity|]. cbn [le_enc length]. now rewrite IH. Qed.

Lemma be_enc_rev n x : be_enc n x = rev (le_enc n x).
Proof. revert x; induction n as [|n IH]; intro x; [reflexivity|]. cbn [be_enc le_enc rev]. now rewrite IH. Qed.

Lemma be_val_rev l : be_val l = le_val (rev l).
Proof.
  unfold be_val, le_val. rewrite <- fold_left_rev_right. rewrite rev_involutive || idtac.
  generalize (rev l) as m. induction m as [|b m IH]; [reflexivity|]. cbn [fold_right]. rewrite IH. lia.
Qed.
Lemma le_val_rev l : le_val l = be_val (rev l).
Proof. now rewrite be_val_rev, rev_involutive. Qed.

Lemma le_val_enc n x : le_val (le_enc n x) = x mod 256 ^ N.of_nat n.
Proof.
  revert x; induction n as [|n IH]; intro x.
  { cbn. now rewrite N.mod_1_r. }
  cbn [le_enc le_val fold_right]. fold (le_val (le_enc n (x / 256))). rewrite IH.
  rewrite Nat2N.inj_succ, N.pow_succ_r'. rewrite N.mod_mul_r by (try apply N.pow_nonzero; lia). reflexivity.
Qed.
Lemma be_val_enc n x : be_val (be_enc n x) = x mod 256 ^ N.of_nat n.
Proof. now rewrite be_val_rev, be_enc_rev, rev_involutive, le_val_enc. Qed.

Lemma le_enc_val l : Forall (fun b => b < 256) l -> le_enc (length l) (le_val l) = l.
Proof.
  induction 1 as [|b l Hb Hl IH]; [reflexivity|].
  cbn [length le_enc le_val fold_right]. fold (le_val l).
  replace ((b + 256 * le_val l) mod 256) with b.
  2:{ rewrite N.mul_comm, N.mod_add by lia. now rewrite N.mod_small. }
  replace ((b + 256 * le_val l) / 256) with (le_val l).
  2:{ rewrite N.mul_comm, N.div_add by lia. rewrite N.div_small by assumption. lia. }
  now rewrite IH.
Qed.
Lemma be_enc_val l : Forall (fun b => b < 256) l -> be_enc (length l) (be_val l) = l.
Proof.
  intro H. rewrite be_enc_rev, be_val_rev, <- rev_length, le_enc_val.
  - apply rev_involutive.
  - now apply Forall_rev.
Qed.
Lemma le_enc_bytes n x : Forall (fun b => b < 256) (le_enc n x).
Proof. revert x; induction n as [|n IH]; intro x; constructor; [apply N.mod_lt; lia|apply IH]. Qed.
Lemma be_enc_bytes n x : Forall (fun b => b < 256) (be_enc n x).
Proof. rewrite be_enc_rev. apply Forall_rev, le_enc_bytes. Qed.
Lemma le_val_lt l : Forall (fun b => b < 256) l -> le_val l < 256 ^ N.of_nat (length l).
Proof.
  induction 1 as [|b l Hb Hl IH]; [cbn; lia|]. cbn [length le_val fold_right]. fold (le_val l).
  rewrite Nat2N.inj_succ, N.pow_succ_r'. lia.
Qed.
Lemma be_val_lt l : Forall (fun b => b < 256) l -> be_val l < 256 ^ N.of_nat (length l).
Proof. intro H. rewrite be_val_rev, <- rev_length. apply le_val_lt. now apply Forall_rev. Qed.

(** * Blocks and bytes *)
Lemma chunks8_le n x :
  map N_of_bits (chunks 8 (bits_of_N (8 * n) x)) = le_enc n x.
Proof.
  revert x; induction n as [|n IH]; intro x; [reflexivity|].
  replace (8 * S n)%nat with (8 + 8 * n)%nat by lia.
  rewrite bits_of_N_app, chunks_app by (try apply bits_of_N_length; lia).
  cbn [map le_enc]. rewrite N_of_bits_of_N. f_equal.
  rewrite <- IH. do 3 f_equal. rewrite N.shiftr_div_pow2. reflexivity.
Qed.

Lemma bytes_of_block_le b : bytes_of_block b = le_enc 16 b.
Proof. exact (chunks8_le 16 b). Qed.

Lemma block_of_bytes_le l : Forall (fun b => b < 256) l -> block_of_bytes l = le_val l.
Proof.
  unfold block_of_bytes. induction 1 as [|b l Hb Hl IH]; [reflexivity|].
  cbn [flat_map]. rewrite N_of_bits_app, IH, bits_of_N_length, N_of_bits_of_N_small by exact Hb.
  cbn [le_val fold_right]. fold (le_val l). reflexivity.
Qed.

Lemma rev_flat_map_le ins : rev (flat_map (le_enc 16) (rev ins)) = flat_map (be_enc 16) ins.
Proof.
  induction ins as [|b ins IH]; [reflexivity|]. cbn [rev flat_map].
  rewrite flat_map_app, rev_app_distr, IH. cbn [flat_map]. now rewrite app_nil_r, be_enc_rev.
Qed.

Lemma block_to_hex_be ins : block_to_hex ins = flat_map (be_enc 16) ins.
Proof.
  unfold block_to_hex. rewrite <- rev_flat_map_le. f_equal. apply flat_map_ext, bytes_of_block_le.
Qed.

Lemma chunks_flat_map {A B} (f : A -> list B) n l : (n > 0)%nat ->
  (forall a, length (f a) = n) -> chunks n (flat_map f l) = map f l.
Proof.
  intros Hn Hf. induction l as [|a l IH]; [reflexivity|].
  cbn [flat_map map]. rewrite chunks_app by auto. now rewrite IH.
Qed.

Lemma flat_map_length_const {A B} (f : A -> list B) n l :
  (forall a, length (f a) = n) -> length (flat_map f l) = (n * length l)%nat.
Proof.
  intro Hf. induction l as [|a l IH]; [cbn; lia|]. cbn [flat_map length]. rewrite app_length, IH, Hf. lia.
Qed.

Lemma hex_to_block_be ins : Forall (fun b => b < 2 ^ 128) ins ->
  hex_to_block (flat_map (be_enc 16) ins) = Ok ins.
Proof.
  intro H. unfold hex_to_block.
  rewrite (flat_map_length_const _ 16) by (intro; apply be_enc_length).
  rewrite Nat.mul_comm, Nat.mod_mul by lia. cbn [Nat.eqb].
  rewrite <- rev_flat_map_le, rev_involutive.
  rewrite chunks_flat_map by (try (intro; apply le_enc_length); lia).
  f_equal. rewrite map_map, map_rev, rev_involutive.
  rewrite <- (map_id ins) at 2. apply map_ext_in. intros b Hb.
  rewrite block_of_bytes_le by apply le_enc_bytes. rewrite le_val_enc.
  apply N.mod_small. rewrite Forall_forall in H. apply H in Hb. exact Hb.
Qed.

Lemma Forall_concat_inv {A} (P : A -> Prop) (l : list (list A)) :
  Forall P (concat l) -> Forall (Forall P) l.
Proof.
  induction l as [|x l IH]; intro H; constructor.
  - now apply Forall_app in H.
  - apply IH. now apply Forall_app in H.
Qed.

Lemma hex_round_trip bytes : (length bytes mod 16 = 0)%nat -> Forall (fun b => b < 256) bytes ->
  exists bl, hex_to_block bytes = Ok bl /\ block_to_hex bl = bytes /\
    Forall (fun b => b < 2 ^ 128) bl /\ length bl = (length bytes / 16)%nat.
Proof.
  intros Hl Hb. unfold hex_to_block. rewrite Hl. cbn [Nat.eqb].
  eexists. split; [reflexivity|].
  pose proof (Nat.div_mod (length bytes) 16 ltac:(lia)) as D. rewrite Hl, Nat.add_0_r in D.
  assert (L : length (rev bytes) = (16 * (length bytes / 16))%nat) by (rewrite rev_length; lia).
  assert (FB : Forall (Forall (fun b => b < 256)) (chunks 16 (rev bytes))).
  { apply Forall_concat_inv. rewrite chunks_concat by lia. now apply Forall_rev. }
  assert (FL := chunks_all_length 16 (rev bytes) _ ltac:(lia) L).
  split; [|split].
  - unfold block_to_hex. rewrite rev_involutive. rewrite <- (rev_involutive bytes) at 2. f_equal.
    rewrite <- (chunks_concat 16 (rev bytes)) at 2 by lia. rewrite flat_map_concat_map, map_map.
    f_equal. rewrite <- (map_id (chunks 16 (rev bytes))) at 2. apply map_ext_in. intros c Hc.
    rewrite Forall_forall in FB, FL. specialize (FB c Hc). specialize (FL c Hc). cbn beta in *.
    rewrite bytes_of_block_le, block_of_bytes_le by exact FB.
    rewrite <- FL at 1. now apply le_enc_val.
  - apply Forall_rev. apply Forall_map. rewrite Forall_forall in *. intros c Hc.
    rewrite block_of_bytes_le by (apply FB, Hc).
    specialize (FL c Hc). specialize (FB c Hc). apply le_val_lt in FB. rewrite FL in FB. exact FB.
  - rewrite rev_length, map_length. apply chunks_length; [lia|exact L].
Qed.

Lemma hex_to_block_err bytes : (length bytes mod 16 <> 0)%nat -> hex_to_block bytes = Err.
Proof. intro H. unfold hex_to_block. destruct (Nat.eqb_spec (length bytes mod 16) 0); [contradiction|reflexivity]. Qed.

(** * Concatenation *)
Lemma iconcat_concat r ins : iconcat r ins = concat (rev ins) ++ r.
Proof.
  unfold iconcat. revert r; induction ins as [|x l IH]; intro a; [reflexivity|]. cbn [fold_left rev].
  rewrite IH, concat_app. cbn. rewrite app_nil_r, <- app_assoc. reflexivity.
Qed.
Lemma fold_app_concat {A} (l : list (list A)) a : fold_left (fun r i => r ++ i) l a = a ++ concat l.
Proof.
  revert a; induction l as [|x l IH]; intro a; cbn; [now rewrite app_nil_r|]. now rewrite IH, app_assoc.
Qed.
Lemma concat_opt_eq r ins : concat_opt r ins = iconcat r ins.
Proof. unfold concat_opt. rewrite iconcat_concat, fold_app_concat. reflexivity. Qed.
Lemma move_concat_eq r ins : move_concat r ins = iconcat r ins.
Proof. reflexivity. Qed.
Lemma reverse_concat_eq r ins : reverse_concat r ins = r ++ concat ins.
Proof. apply fold_app_concat. Qed.

(** extracting an element of a big-endian concatenation *)
Lemma extract_concat ins r i x :
  nth_error ins i = Some x ->
  extract_integer (iconcat r ins) (length r + length (concat (firstn i ins))) (length x) = Ok x.
Proof.
  intro H. apply nth_error_split in H. destruct H as (l1 & l2 & -> & <-).
  rewrite firstn_app, Nat.sub_diag, firstn_all, firstn_O, app_nil_r.
  rewrite iconcat_concat, rev_app_distr. cbn [rev]. rewrite !concat_app. cbn [concat].
  rewrite app_nil_r.
  assert (LR : forall l : list (list bool), length (concat (rev l)) = length (concat l)).
  { induction l as [|y l IH]; [reflexivity|]. cbn [rev concat]. rewrite concat_app, !app_length, IH.
    cbn. rewrite app_nil_r. lia. }
  unfold extract_integer. rewrite !app_length, !LR.
  destruct (Nat.leb_spec (length r + length (concat l1) + length x)
    (length (concat l2) + length x + length (concat l1) + length r)) as [_|C]; [|lia].
  f_equal. rewrite <- !app_assoc, skipn_app, LR.
  rewrite skipn_all2 by (rewrite LR; lia).
  match goal with |- context [skipn ?k (x ++ _)] => replace k with 0%nat by lia end.
  rewrite skipn_O. cbn [app]. rewrite firstn_app, Nat.sub_diag, firstn_all, firstn_O.
  now rewrite app_nil_r.
Qed.

(** intvec_to_int on equally wide elements *)
Lemma ixor_shl_disjoint (a b : list bool) :
  forall n, length a = n ->
  bxor (a ++ repeat false (length b)) (repeat false n ++ b) = a ++ b.
Proof.
  intros n <-. unfold bxor. rewrite map2_app by (rewrite repeat_length; reflexivity).
  f_equal.
  - fold (bxor a (repeat false (length a))). now apply bxor_false_r.
  - fold (bxor (repeat false (length b)) b). rewrite bxor_comm. now apply bxor_false_r.
Qed.

Lemma concat_len_const (w : nat) (l : list (list bool)) :
  Forall (fun x => length x = w) l -> length (concat l) = (w * length l)%nat.
Proof. induction 1 as [|x l Hx Hl IH]; cbn [concat length]; [lia|]. rewrite app_length, IH, Hx. lia. Qed.

Definition iv_step (tmp : Integer) (len s : nat) (out : Integer) (p : nat * Integer) : Integer :=
  ixor out (ishl (ixor tmp (snd p)) ((len - 1 - fst p) * s)).

Lemma ixor_zero_l n x : length x = n -> ixor (int_of n 0) x = x.
Proof. intro H. unfold ixor, int_of. rewrite bits_of_N_0, bxor_comm. now apply bxor_false_r. Qed.

Lemma iresize_up w n x : length x = w -> (w <= n)%nat -> iresize x n = x ++ repeat false (n - w).
Proof. intros <- H. unfold iresize. now rewrite firstn_all2 by lia. Qed.

Lemma iv_fold w (ins : list Integer) : forall k len done,
  Forall (fun x => length x = w) ins -> (k + length ins = len)%nat ->
  length done = (w * k)%nat ->
  fold_left (iv_step (int_of (w * len) 0) len w)
    (combine (seq k (length ins)) (map (fun x => iresize x (w * len)) ins))
    (repeat false (w * length ins) ++ done)
  = concat (rev ins) ++ done.
Proof.
  induction ins as [|x ins IH]; intros k len done HF Hk Hd.
  { cbn. rewrite Nat.mul_0_r. reflexivity. }
  inversion HF as [|? ? Hx HF']; subst.
  cbn [length seq map combine fold_left].
  assert (S : iv_step (int_of (length x * (k + S (length ins))) 0) (k + S (length ins)) (length x)
     (repeat false (length x * S (length ins)) ++ done) (k, iresize x (length x * (k + S (length ins))))
     = repeat false (length x * length ins) ++ x ++ done).
  { unfold iv_step. cbn [fst snd].
    rewrite (iresize_up (length x)) by (auto; nia).
    rewrite ixor_zero_l by (rewrite app_length, repeat_length; nia).
    unfold ishl. rewrite app_length, repeat_length.
    replace ((k + S (length ins) - 1 - k) * length x)%nat with (length x * length ins)%nat by nia.
    replace (length x + (length x * (k + S (length ins)) - length x))%nat
      with (length x * length ins + (length x + length x * k))%nat by nia.
    rewrite <- (repeat_length false (length x * length ins)) at 1.
    rewrite firstn_app_2, firstn_app, firstn_all2 by lia.
    replace (length x + length x * k - length x)%nat with (length x * k)%nat by lia.
    assert (R : firstn (length x * k) (repeat false (length x * (k + S (length ins)) - length x))
                = repeat false (length x * k)).
    { replace (length x * (k + S (length ins)) - length x)%nat
        with (length x * k + length x * length ins)%nat by nia.
      rewrite repeat_app, firstn_app, firstn_all2 by (rewrite repeat_length; lia).
      rewrite repeat_length, Nat.sub_diag, firstn_O. apply app_nil_r. }
    rewrite R.
    replace (length x * S (length ins))%nat with (length x * length ins + length x)%nat by lia.
    rewrite repeat_app, <- app_assoc. unfold ixor, bxor.
    rewrite map2_app by reflexivity. f_equal.
    - fold (bxor (repeat false (length x * length ins)) (repeat false (length x * length ins))).
      rewrite bxor_nilpotent, repeat_length. reflexivity.
    - rewrite map2_app by (rewrite repeat_length; reflexivity). f_equal.
      + fold (bxor (repeat false (length x)) x). rewrite bxor_comm. now apply bxor_false_r.
      + fold (bxor done (repeat false (length x * k))). now apply bxor_false_r. }
  rewrite S. rewrite (IH (Datatypes.S k) (k + Datatypes.S (length ins))%nat (x ++ done)).
  - cbn [rev]. rewrite concat_app. cbn. now rewrite app_nil_r, <- app_assoc.
  - exact HF'.
  - lia.
  - rewrite app_length. nia.
Qed.

Lemma intvec_to_int_ok w ins : ins <> [] -> Forall (fun x => length x = w) ins ->
  exists ins', intvec_to_int ins = Ok (iconcat [] ins, ins').
Proof.
  intros Hn HF. destruct ins as [|x t]; [congruence|]. unfold intvec_to_int.
  eexists. f_equal. f_equal.
  assert (Hx : length x = w) by now inversion HF.
  rewrite Hx, iconcat_concat.
  pose proof (iv_fold w (x :: t) 0 (length (x :: t)) [] HF eq_refl) as E.
  rewrite !app_nil_r in *. rewrite <- E by (cbn; lia).
  rewrite <- (bits_of_N_0 (w * length (x :: t))). reflexivity.
Qed.

(** value of a concatenation of words, most significant first *)
Lemma iconcat_value r ins :
  N_of_bits (iconcat r ins) =
  fold_left (fun acc x => acc * 2 ^ N.of_nat (length x) + N_of_bits x) ins (N_of_bits r).
Proof.
  unfold iconcat. revert r; induction ins as [|x l IH]; intro r; [reflexivity|].
  cbn [fold_left]. rewrite IH, N_of_bits_app. f_equal. lia.
Qed.

(** * Strings *)
Lemma str_to_int_bits str : rev (str_to_int str) = bits_of_bytes str.
Proof. unfold str_to_int. rewrite Nat.mul_comm. apply rev_int_of_array. Qed.

Lemma str_to_int_value str : Forall (fun b => b < 256) str ->
  N_of_bits (str_to_int str) = be_val str /\ length (str_to_int str) = (8 * length str)%nat.
Proof.
  intro H. unfold str_to_int, int_of_array.
  assert (L : length (flat_map (bits_of_N 8) (rev str)) = (8 * length str)%nat).
  { rewrite (flat_map_length_const _ 8) by (intro; apply bits_of_N_length). now rewrite rev_length. }
  rewrite firstn_all2 by lia. split; [|exact L].
  rewrite be_val_rev. apply block_of_bytes_le. now apply Forall_rev.
Qed.

Lemma byte_extract v j : N.shiftr (N.land v (N.shiftl 255 (8 * j))) (8 * j) = (v / 256 ^ j) mod 256.
Proof.
  rewrite N.shiftr_land, N.shiftr_shiftl_l by lia. rewrite N.sub_diag, N.shiftl_0_r.
  change 255 with (N.ones 8). rewrite N.land_ones, N.shiftr_div_pow2, N.pow_mul_r. reflexivity.
Qed.

Lemma fmt02x_hex b : b < 256 -> fmt02x b = hex_byte b.
Proof.
  intro H. unfold fmt02x, hex_byte.
  assert (Hd : forall d, d < 16 -> hexdigit d = hex_char d).
  { intros d Hd. assert (X : forallb (fun d => hexdigit d =? hex_char d)
        (map N.of_nat (seq 0 16)) = true) by reflexivity.
    rewrite forallb_forall in X. apply N.eqb_eq, X. apply in_map_iff. exists (N.to_nat d).
    split; [lia|]. apply in_seq. lia. }
  rewrite !Hd; auto. apply N.mod_lt; lia. apply N.div_lt_upper_bound; lia.
Qed.

Lemma be_enc_step n x : be_enc (S n) x = (x / 256 ^ N.of_nat n) mod 256 :: be_enc n x.
Proof.
  revert x; induction n as [|n IH]; intro x.
  { cbn. now rewrite N.div_1_r. }
  change (be_enc (S (S n)) x) with (be_enc (S n) (x / 256) ++ [x mod 256]).
  rewrite IH. cbn [app be_enc]. f_equal. rewrite N.div_div by (try apply N.pow_nonzero; lia).
  now rewrite Nat2N.inj_succ, N.pow_succ_r'.
Qed.

Lemma flat_map_cons {A B} (f : A -> list B) a l : flat_map f (a :: l) = f a ++ flat_map f l.
Proof. reflexivity. Qed.

Lemma int_to_hex32_ok ws : int_to_hex32 ws = hex_text (flat_map (be_enc 4) ws).
Proof.
  unfold int_to_hex32, hex_text.
  induction ws as [|w ws IH]; [reflexivity|].
  rewrite !flat_map_cons, flat_map_app, IH. f_equal.
  cbn [flat_map]. rewrite !byte_extract, !fmt02x_hex by (apply N.mod_lt; lia).
  rewrite !be_enc_step. cbn [flat_map be_enc]. reflexivity.
Qed.

Lemma int_to_hex64_ok ws : int_to_hex64 ws = hex_text (flat_map (be_enc 8) ws).
Proof.
  unfold int_to_hex64, hex_text.
  induction ws as [|w ws IH]; [reflexivity|].
  rewrite !flat_map_cons, flat_map_app, IH. f_equal.
  cbn [flat_map]. rewrite !byte_extract, !fmt02x_hex by (apply N.mod_lt; lia).
  rewrite !be_enc_step. cbn [flat_map be_enc]. reflexivity.
Qed.

Lemma hex_char_inj a b : a < 16 -> b < 16 -> hex_char a = hex_char b -> a = b.
Proof.
  intros Ha Hb E.
  assert (X : forallb (fun a => forallb (fun b => implb (hex_char a =? hex_char b) (a =? b))
    (map N.of_nat (seq 0 16))) (map N.of_nat (seq 0 16)) = true) by reflexivity.
  assert (I : forall d, d < 16 -> In d (map N.of_nat (seq 0 16))).
  { intros d Hd. apply in_map_iff. exists (N.to_nat d). split; [lia|]. apply in_seq. lia. }
  rewrite forallb_forall in X. specialize (X a (I a Ha)). rewrite forallb_forall in X.
  specialize (X b (I b Hb)). rewrite E, N.eqb_refl in X. now apply N.eqb_eq.
Qed.

Lemma hex_text_inj l1 : forall l2, Forall (fun b => b < 256) l1 -> Forall (fun b => b < 256) l2 ->
  hex_text l1 = hex_text l2 -> l1 = l2.
Proof.
  induction l1 as [|a l1 IH]; intros [|b l2] H1 H2 E; try discriminate; [reflexivity|].
  inversion H1; inversion H2; subst. cbn [hex_text flat_map hex_byte app] in E.
  injection E as E1 E2 E3.
  apply hex_char_inj in E1; try (apply N.div_lt_upper_bound; lia).
  apply hex_char_inj in E2; try (apply N.mod_lt; lia).
  f_equal.
  - rewrite (N.div_mod' a 16), (N.div_mod' b 16). congruence.
  - apply IH; auto.
Qed.

Lemma flat_be_enc_inj n (Hn : (n > 0)%nat) ws1 ws2 :
  Forall (fun w => w < 256 ^ N.of_nat n) ws1 -> Forall (fun w => w < 256 ^ N.of_nat n) ws2 ->
  flat_map (be_enc n) ws1 = flat_map (be_enc n) ws2 -> ws1 = ws2.
Proof.
  intros H1 H2 E. apply (f_equal (chunks n)) in E.
  rewrite !chunks_flat_map in E by (auto using be_enc_length).
  apply (f_equal (map be_val)) in E. rewrite !map_map in E.
  assert (X : forall ws, Forall (fun w => w < 256 ^ N.of_nat n) ws ->
     map (fun x => be_val (be_enc n x)) ws = ws).
  { intros ws H. rewrite <- (map_id ws) at 2. apply map_ext_in. intros w Hw.
    rewrite be_val_enc. apply N.mod_small. rewrite Forall_forall in H. now apply H. }
  now rewrite !X in E.
Qed.

Lemma Forall_flat_be n ws : Forall (fun b => b < 256) (flat_map (be_enc n) ws).
Proof. induction ws; [constructor|]. cbn [flat_map]. apply Forall_app. split; [apply be_enc_bytes|assumption]. Qed.

Lemma int_to_hex32_inj ws1 ws2 : Forall (fun w => w < 2 ^ 32) ws1 -> Forall (fun w => w < 2 ^ 32) ws2 ->
  int_to_hex32 ws1 = int_to_hex32 ws2 -> ws1 = ws2.
Proof.
  intros H1 H2 E. rewrite !int_to_hex32_ok in E.
  apply hex_text_inj in E; try apply Forall_flat_be.
  apply (flat_be_enc_inj 4) in E; auto; lia.
Qed.
Lemma int_to_hex64_inj ws1 ws2 : Forall (fun w => w < 2 ^ 64) ws1 -> Forall (fun w => w < 2 ^ 64) ws2 ->
  int_to_hex64 ws1 = int_to_hex64 ws2 -> ws1 = ws2.
Proof.
  intros H1 H2 E. rewrite !int_to_hex64_ok in E.
  apply hex_text_inj in E; try apply Forall_flat_be.
  apply (flat_be_enc_inj 8) in E; auto; lia.
Qed.
