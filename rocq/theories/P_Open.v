(** What the garbled circuit of a session opens. *)
From Coq Require Import List NArith ZArith Bool Arith Lia.
From Verif Require Import L_Bits L_Res L_PTree S_Netlist M_EmpInteger M_Utils M_Bristol M_Bn M_Sym M_SymOn M_SymSess.
From Verif Require Import M_Sha256 M_Hmac M_Handshake M_Aead.
From Verif Require Import S_Sha256 S_Hmac S_Open P_Sha256 P_Sha256Msg P_Sha256Opt P_Hmac P_Prf P_SymVal.
Import ListNotations.
Local Open Scope N_scope.
Local Open Scope sym_scope.

Definition opn (s : cst) : list (owner * list bool) := openings (c_tr s).

(** * Programs that open nothing *)
Definition quiet {A} (m : M A) : Prop := forall s a s', m s = Ok (a, s') -> opn s' = opn s.
Lemma q_ret {A} (a : A) : quiet (mret a).
Proof. intros s b s' E. injection E as _ <-. reflexivity. Qed.
Lemma q_bind {A B} (m : M A) (k : A -> M B) : quiet m -> (forall a, quiet (k a)) -> quiet (mbind m k).
Proof.
  intros H K s b s' E. unfold mbind in E. destruct (m s) as [[a t]| |] eqn:Em; try discriminate E. cbn in E.
  rewrite (K _ _ _ _ E). exact (H _ _ _ Em).
Qed.
Lemma q_lift {A} (r : res A) : quiet (lift r).
Proof. intros s b s' E. unfold lift in E. destruct r; try discriminate E. injection E as _ <-. reflexivity. Qed.
Lemma q_gand a b : quiet (gand a b). Proof. intros s c s' E. injection E as _ <-. reflexivity. Qed.
Lemma q_gxor a b : quiet (gxor a b). Proof. intros s c s' E. injection E as _ <-. reflexivity. Qed.
Lemma q_gnot a : quiet (gnot a). Proof. intros s c s' E. injection E as _ <-. reflexivity. Qed.
Lemma q_gfeed p bs : quiet (gfeed p bs). Proof. intros s c s' E. injection E as _ <-. reflexivity. Qed.
#[local] Hint Resolve q_ret q_lift q_gand q_gxor q_gnot q_gfeed : quiet.
Ltac qs := repeat first
  [ match goal with |- quiet (mbind _ _) => apply q_bind; [|intro] end
  | match goal with |- quiet (if ?c then _ else _) => destruct c end
  | match goal with |- quiet (match ?x with pair _ _ => _ end) => destruct x end
  | solve [auto with quiet] ].
Lemma q_szip g a b : (forall x y, quiet (g x y)) -> quiet (szip g a b).
Proof. intros H; revert b; induction a as [|x a IH]; intros [|y b]; cbn [szip]; qs. Qed.
Lemma q_sxor a b : quiet (sxor a b). Proof. apply q_szip; auto with quiet. Qed.
Lemma q_sand a b : quiet (sand a b). Proof. apply q_szip; auto with quiet. Qed.
Lemma q_sadd_c a : forall c b, quiet (sadd_c c a b).
Proof. induction a as [|x a IH]; intros c [|y b]; cbn [sadd_c]; try apply q_ret. destruct a, b; qs. Qed.
Lemma q_ssub_c a : forall c b, quiet (ssub_c c a b).
Proof. induction a as [|x a IH]; intros c [|y b]; cbn [ssub_c]; try apply q_ret. destruct a, b; qs. Qed.
Lemma q_sadd a b : quiet (sadd a b). Proof. apply q_sadd_c. Qed.
Lemma q_ssub a b : quiet (ssub a b). Proof. apply q_ssub_c. Qed.
#[local] Hint Resolve q_sxor q_sand q_sadd q_ssub : quiet.
Lemma q_sgeq a b : quiet (sgeq a b). Proof. unfold sgeq. qs. Qed.
Lemma q_sselect a s b : quiet (sselect a s b). Proof. apply q_szip; intros; qs. Qed.
Lemma q_srrot x n : quiet (srrot x n). Proof. apply q_sxor. Qed.
#[local] Hint Resolve q_sgeq q_sselect q_srrot : quiet.
Lemma q_saddmod a b Q : quiet (saddmod a b Q). Proof. unfold saddmod. cbv zeta. qs. Qed.
Lemma q_saddmod_bn a b q : quiet (saddmod_bn a b q). Proof. apply q_saddmod. Qed.
Lemma q_gate w g : quiet (sgate_step w g). Proof. destruct g; cbn [sgate_step]; qs. Qed.
#[local] Hint Resolve q_gate q_saddmod_bn : quiet.
Lemma q_run_gates gs : forall w, quiet (srun_gates gs w).
Proof. induction gs as [|g gs IH]; intro w; cbn [srun_gates]; qs. Qed.
#[local] Hint Resolve q_run_gates : quiet.
Lemma q_bristol c a b : quiet (sbristol c a b). Proof. unfold sbristol. qs. Qed.
#[local] Hint Resolve q_bristol : quiet.
Lemma q_KS c k : quiet (scomputeKS c k). Proof. apply q_bristol. Qed.
Lemma q_AES c k m : quiet (scomputeAES c k m). Proof. unfold scomputeAES. qs. Qed.
#[local] Hint Resolve q_KS q_AES : quiet.
Lemma q_siter {S} (f : S -> M S) n : (forall x, quiet (f x)) -> forall x, quiet (siter n f x).
Proof. intros H. induction n as [|n IH]; intro x; cbn [siter]; qs. Qed.
Lemma q_sfold {S A} (f : S -> A -> M S) l : (forall x a, quiet (f x a)) -> forall x, quiet (sfold f l x).
Proof. intros H. induction l as [|a l IH]; intro x; cbn [sfold]; qs. Qed.
Lemma q_w_next w : quiet (on_w_next w). Proof. unfold on_w_next. cbv zeta. qs. Qed.
Lemma q_round s kw : quiet (on_round s kw).
Proof. destruct s as [[[[[[[a b] c] d] e] f] g] h]. unfold on_round. qs. Qed.
Lemma q_compress ih ch : quiet (on_compress ih ch).
Proof.
  unfold on_compress. apply q_bind; [apply q_siter, q_w_next|intro]. apply q_bind; [apply q_sfold, q_round|intro].
  destruct a0 as [[[[[[[? ?] ?] ?] ?] ?] ?] ?]. qs.
Qed.
#[local] Hint Resolve q_compress : quiet.
Lemma q_rest d data idx : quiet (on_rest d data idx).
Proof. unfold on_rest. apply q_bind; [qs|]. intro. apply q_sfold, q_compress. Qed.
#[local] Hint Resolve q_rest : quiet.
Lemma q_update st p ro : quiet (on_update st p ro). Proof. unfold on_update. qs. Qed.
Lemma q_digest st p ro : quiet (on_digest st p ro). Proof. apply q_update. Qed.
Lemma q_rounds_update st p ri : quiet (on_rounds_update st p ri). Proof. unfold on_rounds_update. qs. Qed.
Lemma q_rounds_digest st p ri : quiet (on_rounds_digest st p ri). Proof. apply q_rounds_update. Qed.
#[local] Hint Resolve q_update q_digest q_rounds_digest : quiet.
Lemma q_pad_step a b p : quiet (on_pad_step a b p). Proof. unfold on_pad_step. qs. Qed.
Lemma q_hinit h k : quiet (on_hinit h k).
Proof.
  unfold on_hinit. cbv zeta. apply q_bind; [qs|]. intros [? ?].
  apply q_bind; [apply q_siter; intro; apply q_pad_step|]. intros [? ?]. qs.
Qed.
Lemma q_feed_words l : quiet (on_feed_words l). Proof. induction l; cbn [on_feed_words]; qs. Qed.
#[local] Hint Resolve q_hinit q_feed_words : quiet.
Lemma q_rounds_hmac h m ri ro : quiet (on_rounds_hmac h m ri ro). Proof. unfold on_rounds_hmac. qs. Qed.
#[local] Hint Resolve q_rounds_hmac : quiet.
Lemma q_rounds_step A ri ro st : quiet (on_rounds_step A ri ro st).
Proof. destruct st as [[? ?] ?]. unfold on_rounds_step. cbv zeta. qs. Qed.
Lemma q_rounds_compute h r n l sd ri ro : quiet (on_rounds_compute h r n l sd ri ro).
Proof.
  unfold on_rounds_compute. cbv zeta. apply q_bind; [qs|]. intro.
  apply q_bind; [apply q_siter; intro; apply q_rounds_step|]. intros [[? ?] ?]. qs.
Qed.
Lemma q_pms s pa pb : quiet (on_pms s pa pb). Proof. unfold on_pms. qs. Qed.
#[local] Hint Resolve q_rounds_compute q_pms : quiet.
Lemma q_aead_new ks enc k iv : quiet (on_aead_new ks enc k iv). Proof. unfold on_aead_new. qs. Qed.
Lemma q_inc c n : quiet (on_inc c n). Proof. unfold on_inc. qs. Qed.
#[local] Hint Resolve q_aead_new q_inc : quiet.
Lemma q_gctr enc m : forall k r n, quiet (on_gctr enc m k r n).
Proof. induction m as [|m IH]; intros k r n; cbn [on_gctr]; qs. Qed.
Lemma q_set_nonce e f iv : quiet (on_set_nonce e f iv). Proof. unfold on_set_nonce. cbv zeta. qs. Qed.
#[local] Hint Resolve q_gctr q_set_nonce : quiet.

(** * Openings *)
Lemma mb_inv {A B} (m : M A) (k : A -> M B) s y : mbind m k s = Ok y -> exists a t, m s = Ok (a, t) /\ k a t = Ok y.
Proof. unfold mbind. destruct (m s) as [[a t]| |]; cbn; intro E; try discriminate E. eauto. Qed.
Lemma lift_inv {A} (r : res A) s a t : lift r s = Ok (a, t) -> r = Ok a /\ t = s.
Proof. unfold lift. destruct r; cbn; intro E; try discriminate E. injection E as <- <-. auto. Qed.
Lemma tri_inv {A B} s (m : M A) (r : res B) R a s' : tri s m r R -> m s = Ok (a, s') ->
  exists b, r = Ok b /\ wf s' /\ ext s s' /\ R s' a b.
Proof. unfold tri. intros T E. rewrite E in T. destruct r as [b| |]; try contradiction. exists b. auto. Qed.
Lemma tri_okv {A B} s (m : M A) (v : B) R a s' : tri s m (Ok v) R -> m s = Ok (a, s') ->
  wf s' /\ ext s s' /\ R s' a v.
Proof. unfold tri. intros T E. rewrite E in T. exact T. Qed.
Lemma ok_pair {A B} (a a' : A) (b b' : B) : Ok (a, b) = Ok (a', b') -> a = a' /\ b = b'.
Proof. intro E. injection E as <- <-. auto. Qed.
Ltac mi E := let a := fresh "x" in let t := fresh "t" in let E1 := fresh "E" in
  apply mb_inv in E; destruct E as (a & t & E1 & E).
Ltac li E := apply lift_inv in E; let E1 := fresh "E" in destruct E as [E1 ->].

Lemma open_reveal s w v a s' : wf s -> rel s w v -> greveal honest OPub w s = Ok (a, s') ->
  opn s' = opn s ++ [(OPub, v)].
Proof. intros W R E. injection E as _ <-. unfold opn. cbn [c_tr openings]. fold (V s). now rewrite (rel_vals _ _ _ R). Qed.
Lemma open_open8 s w v a s' : wf s -> rels s w v -> on_open8 honest w s = Ok (a, s') ->
  opn s' = opn s ++ [(OPub, reverse_concat [] v)].
Proof.
  intros W R E. unfold on_open8 in E. mi E. injection E as _ <-.
  eapply open_reveal; [exact W| |exact E0]. apply rel_rconcat; [exact R|constructor].
Qed.
Lemma keep_update st p ro s st' d s' : on_update st p ro s = Ok (st', d, s') -> on_in_open st' = on_in_open st.
Proof.
  unfold on_update. destruct (negb _). { intro E. li E. discriminate. }
  intro E. mi E. mi E. mi E. destruct x1 as [st1 d1]. mi E. injection E as <- <- <-.
  clear E0 E1 E3. destruct ro; [destruct (on_out_open st)|].
  - mi E2. injection E2 as <- _ _. reflexivity.
  - mi E2. injection E2 as <- _ _. reflexivity.
  - mi E2. injection E2 as <- _ _. reflexivity.
Qed.

Local Opaque on_compress on_h sha256_h compress H256 on_digest on_padding hmac_bits opt_hmac_core ipad words chunk_compress on_opt_hmac on_opt_update on_open8 A_i.
Lemma concat_words d : good d -> concat d = flat_map (bits_of_N 32) (map N_of_bits d).
Proof.
  intros [F _]. induction F as [|w d Hw F IH]; [reflexivity|]. cbn [concat map flat_map]. rewrite IH. f_equal.
  symmetry. replace 32%nat with (length w) by exact Hw. apply bits_of_N_of_bits.
Qed.
Lemma open_opt_update s a x v pub a' p s' : wf s -> rel s x v -> length v = 512%nat ->
  on_opt_update honest a x pub true s = Ok (a', p, s') ->
  opn s' = opn s ++ (if on_in_open a then [] else [open_words (compress H256 (words (rev v)))]) /\ on_in_open a' = true.
Proof.
  Local Transparent on_opt_update.
  intros W R L E. unfold on_opt_update in E. destruct (negb _). { li E. discriminate. }
  mi E. li E0. mi E. destruct x1 as [a1 p1]. injection E as <- <- <-.
  destruct (on_in_open a) eqn:O; cbn [negb] in E0.
  - mi E0. li E. injection E0 as <- _ <-. rewrite app_nil_r. auto.
  - mi E0. mi E0. injection E0 as <- _ <-. split; [|reflexivity].
    pose proof (rel_words _ _ _ R) as RW. rewrite E1 in RW. rewrite (split_words_ok v 16 L) in RW. cbn [resrel] in RW.
    destruct (tri_okv _ _ _ _ _ _ (tri_compress s _ _ _ _ W (rels_h s) RW) E) as (W1 & X & R1).
    rewrite (open_open8 _ _ _ _ _ W1 R1 E2), (q_compress _ _ _ _ _ E). do 3 f_equal.
    fold (sec_iv v). destruct (sec_iv_ok v L) as [G C]. rewrite reverse_concat_ok, (concat_words _ G), C. reflexivity.
Qed.
Local Opaque on_opt_update.
Section H.
Variable key : Integer.
Let sk := rev key.
Lemma open_opt_hmac s h b m msg h' r s' : wf s -> vhmac s h b -> hinv key m b ->
  on_opt_hmac honest h msg true true s = Ok (h', r, s') ->
  opn s' = opn s ++ (if on_in_open (onh_sha h) then [] else [open_words (inner_state sk)]) /\
  on_in_open (onh_sha h') = true.
Proof.
  Local Transparent on_opt_hmac.
  intros W Hv Hi E. unfold on_opt_hmac in E. mi E. destruct x as [a1 d]. mi E. mi E. destruct x0 as [a2 d2].
  injection E as <- <- <-. cbn [onh_sha].
  destruct (open_opt_update _ _ _ _ _ _ _ _ W (vh_i _ _ _ Hv) (hi_il _ _ _ Hi) E0) as [O F].
  rewrite (keep_update _ _ _ _ _ _ _ E2). split; [|exact F].
  rewrite (q_digest _ _ _ _ _ _ E2), (q_feed_words _ _ _ _ E1), O.
  destruct (on_in_open (onh_sha h)); [reflexivity|]. unfold inner_state, sk. now rewrite (hi_i _ _ _ Hi).
Qed.
Local Opaque on_opt_hmac.
Lemma mac_open msg d : is_mac key msg d -> (OPub, reverse_concat [] d) = open_words (words (hmac_bits sk msg)).
Proof.
  intro H. unfold open_words. f_equal. rewrite reverse_concat_ok, (concat_words _ (proj1 H)), (is_mac_words _ _ _ H). reflexivity.
Qed.
Lemma open_phash seed n : Forall byte seed -> forall j s h b m A r x s', wf s -> vhmac s h b -> hinv key m b -> m <> UseRounds ->
  Forall byte A -> bits_of_bytes A = A_i sk (bits_of_bytes seed) j ->
  siter (S n) (on_phash_step honest seed true true) (h, A, r) s = Ok (x, s') ->
  opn s' = opn s ++ (if on_in_open (onh_sha h) then [] else [open_words (inner_state sk)]) ++
           map (fun i => open_words (words (A_i sk (bits_of_bytes seed) i))) (seq (S j) (S n)) /\
  on_in_open (onh_sha (fst (fst x))) = true.
Proof.
  intro Hs. induction n as [|n IH]; intros j s h b m A r x s' W Hv Hi Hm BA HA E.
  all: change (siter (S ?k) ?f ?y) with (mbind (f y) (siter k f)) in E; mi E;
    unfold on_phash_step in E0; mi E0; destruct x1 as [h1 dd1]; mi E0; mi E0; destruct x2 as [h2 dd2];
    injection E0 as <- <-.
  all: destruct (open_opt_hmac _ _ _ _ _ _ _ _ W Hv Hi E1) as [O1 F1].
  all: destruct (tri_inv _ _ _ _ _ _ (tri_opt_hmac s h b A true true W Hv) E1) as ([b1 d1] & B1 & W1 & X1 & V1 & R1);
    cbn [fst snd] in V1, R1.
  all: destruct (opt_hmac_step key m b A true true Hi BA (fun _ => Hm)) as (b1' & d1' & B1' & M1 & Hi1); unfold opt_hmac in B1';
    rewrite B1 in B1'; apply ok_pair in B1' as [<- <-].
  all: pose proof (open_open8 _ _ _ _ _ W1 R1 E2) as O2; rewrite (mac_open _ _ M1), HA in O2.
  all: destruct (tri_okv _ _ _ _ _ _ (tri_open8 _ _ _ W1 R1) E2) as (W2 & X2 & ->).
  all: rewrite (reveal_dig _ (proj1 M1)), (is_mac_words _ _ _ M1), HA in E3; try rewrite (reveal_dig _ (proj1 M1)), (is_mac_words _ _ _ M1), HA in E.
  all: change (hmac_bits sk (A_i sk (bits_of_bytes seed) j)) with (A_i sk (bits_of_bytes seed) (S j)) in O2.
  all: set (w := mac_words (rev key) (A_i sk (bits_of_bytes seed) j)) in *.
  all: assert (HA' : bits_of_bytes (be_bytes w) = A_i sk (bits_of_bytes seed) (S j))
    by (rewrite be_bytes_ok; unfold w; apply mac_words_bits).
  all: apply (vhmac_mono _ _ _ _ W1 W2 X2) in V1.
  all: destruct (open_opt_hmac _ _ _ _ _ _ _ _ W2 V1 Hi1 E3) as [O3 F3]; rewrite F1, app_nil_r in O3.
  - injection E as <- <-. cbn [fst]. split; [|exact F3]. rewrite O3, O2, O1, <- app_assoc. reflexivity.
  - destruct (tri_inv _ _ _ _ _ _ (tri_opt_hmac _ _ _ (be_bytes w ++ seed) true true W2 V1) E3) as ([b3 d3] & B3 & W3 & X3 & V3 & R3);
      cbn [fst snd] in V3, R3.
    destruct (opt_hmac_step key UseOpt b1 (be_bytes w ++ seed) true true) as (b3' & d3' & B3' & M3 & Hi3).
    { exact Hi1. } { apply Forall_app; split; [apply be_bytes_byte|exact Hs]. } { discriminate. }
    unfold opt_hmac in B3'. rewrite B3 in B3'. apply ok_pair in B3' as [<- <-].
    destruct (IH (S j) _ _ _ UseOpt _ _ _ _ W3 V3 Hi3 ltac:(discriminate) (be_bytes_byte w) HA' E) as [O F].
    split; [|exact F]. rewrite O, F3, O3, O2, O1, <- !app_assoc. reflexivity.
Qed.
End H.
