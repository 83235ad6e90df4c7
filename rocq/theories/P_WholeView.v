(** What a party sees of a TLS session from the point conversion on: the conversion (P_ViewE2f), the
    circuits and the records (P_LabView5) together. *)
From Coq Require Import List NArith ZArith Bool Arith Lia Znumtheory.
From Verif Require Import L_Bits L_Res L_Modq S_Sched S_View S_Ec S_Circuit S_Lower S_GarbleView S_Codec S_Aes S_Gcm S_Tls S_Open.
From Verif Require S_Netlist.
From Verif Require Import M_EmpInteger M_Utils M_Bristol M_Bn M_Sym M_SymOn M_SymOff M_SymSess M_Block M_Ole2k M_Shares M_Commit M_Garble M_GarbleTr M_Handshake.
From Verif Require Import M_E2f M_Aead M_Exch M_View M_LabRec M_LabView D_AesKs D_AesEnc.
From Verif Require Import P_Ole P_E2f P_Exch P_View P_ViewInv P_ViewE2f.
From Verif Require Import P_Gf128 P_Aead P_AeadInst P_Garble P_GarbleOpt P_Sha256Opt P_Handshake P_SymTls P_SymGcm P_SessView P_Stream P_StreamView P_Labels.
From Verif Require Import P_ViewPriv P_LabView2 P_LabView3 P_LabView4 P_LabView5.
Import ListNotations.
Local Open Scope N_scope.
Local Opaque aes_ks_file aes_enc_file aesE str_to_int ms_spec key_block on_session lower gf_mul bytes_of_block block_of_bytes premaster.

(** two sessions, with ALICE's shares pa and pa' of the premaster secret and BOB's share pb, are the same for
    BOB on the two-phase backends: the conclusion of C93_evaluator *)
Definition same_for_bob (gfr : N -> N -> N) (hash : list N -> list N) (q : Z) (rounds : bool) (pa pa' pb : Z) (rc rs : list N) (sh : option (list N)) (os : list fin_op) (cs cs' : list (bool * ain)) : Prop :=
  forall sigma aes Hash fixk lab delta, getLSB delta = true -> forall orc' junk, let reqs := map gcall_in cs in
  let K := tkeys_of q pa pb rc rs sh in let K' := tkeys_of q pa' pb rc rs sh in
  exists x s1 s2 y s' g e n op,
  on_session honest aes_ks_file aes_enc_file q rounds (gcm_calls pa pb rc rs sh os reqs) cst0 = Ok (x, s1) /\
  on_session honest aes_ks_file aes_enc_file q rounds (gcm_calls pa' pb rc rs sh os reqs) cst0 = Ok (x, s2) /\
  off_session orc' junk aes_ks_file aes_enc_file q rounds (map announce (gcm_calls pa pb rc rs sh os reqs)) cst0 = Ok (y, s') /\
  let on1 := lower (c_tr s1) in let on2 := lower (c_tr s2) in let off := lower (c_tr s') in
  f_run sigma aes fixk lab delta f_init_g f_init_e [] off = Ok (g, e, []) /\
  n_run sigma aes Hash fixk lab delta (fg_out g) (fe_GC e) (fe_pub e) n_init on1 = Ok (n, op) /\
  let l := ne_w n in let gs := S_GarbleView.gates 0 on1 in
  (NoDup (unknown_points sigma delta gs l) ->
   (forall p, In p (unknown_points sigma delta gs l) -> ~ In p (known_points sigma gs l)) ->
   let aes' p := N.lxor (aes p) (S_GarbleView.shift sigma delta gs l (fst (spec_run [] on1)) (fst (spec_run [] on2)) p) in
   let lab' k := N.lxor (lab k) (if xorb (nth k (inputs on1) false) (nth k (inputs on2) false) then delta else 0) in
   exists g' n' op',
    f_run sigma aes' fixk lab' delta f_init_g f_init_e [] off = Ok (g', e, []) /\
    f_sent sigma aes' fixk lab' delta f_init_g off = f_sent sigma aes fixk lab delta f_init_g off /\
    n_run sigma aes' Hash fixk lab' delta (fg_out g') (fe_GC e) (fe_pub e) n_init on2 = Ok (n', op') /\
    ne_w n' = ne_w n /\ saw false op' = saw false op /\
    n_sent sigma aes' Hash fixk lab' delta (fg_out g') (fe_GC e) (fe_pub e) n_init on2 =
    n_sent sigma aes Hash fixk lab delta (fg_out g) (fe_GC e) (fe_pub e) n_init on1 /\
    records_same_bob gfr hash K K' (os_sh x) (ng_w n) (ne_w n) (ng_w n') op op' cs cs').
(** and on the streaming backends: the conclusion of C93_stream_evaluator *)
Definition same_for_bob_stream (gfr : N -> N -> N) (hash : list N -> list N) (q : Z) (rounds : bool) (pa pa' pb : Z) (rc rs : list N) (sh : option (list N)) (os : list fin_op) (cs cs' : list (bool * ain)) : Prop :=
  forall sigma aes Hash fixk Kc rnd lab delta, getLSB delta = true -> blk delta ->
  (forall x, blk (sigma x)) -> (forall x, blk (aes x)) -> (forall i, blk (fixk i)) -> (forall i, blk (Kc i)) -> (forall i, blk (lab i)) ->
  forall bs, let reqs := map gcall_in cs in
  let K := tkeys_of q pa pb rc rs sh in let K' := tkeys_of q pa' pb rc rs sh in
  exists x s1 s2,
  on_session honest aes_ks_file aes_enc_file q rounds (gcm_calls pa pb rc rs sh os reqs) cst0 = Ok (x, s1) /\
  on_session honest aes_ks_file aes_enc_file q rounds (gcm_calls pa' pb rc rs sh os reqs) cst0 = Ok (x, s2) /\
  let on1 := lower (c_tr s1) in let on2 := lower (c_tr s2) in
  let s0 := o_init Kc rnd delta bs in
  (clean_run sigma aes Hash fixk Kc rnd lab delta s0 [] [] on1 ->
   exists o op, o_run sigma aes Hash fixk Kc rnd lab delta s0 on1 = Ok (o, op) /\
   let l := oe_w o in let gs := live_gates 0 [] on1 in
   ((forall i, (i < length l)%nat -> S_Circuit.kind (fold_left S_Circuit.kind_step on1 []) i = None -> ~ special (N.lxor (lbl l i) delta)) ->
    NoDup (unknown_points sigma delta gs l) -> (forall p, In p (unknown_points sigma delta gs l) -> ~ In p (known_points sigma gs l)) ->
    let aes' p := N.lxor (aes p) (S_GarbleView.shift sigma delta gs l (fst (spec_run [] on1)) (fst (spec_run [] on2)) p) in
    exists o' op', o_run sigma aes' Hash fixk Kc rnd lab delta s0 on2 = Ok (o', op') /\
     oe_w o' = oe_w o /\ oe_f o' = oe_f o /\ saw false op' = saw false op /\
     o_msgs sigma aes' Hash fixk Kc rnd lab delta s0 on2 = o_msgs sigma aes Hash fixk Kc rnd lab delta s0 on1 /\
     records_same_bob gfr hash K K' (os_sh x) (og_w o) (oe_w o) (og_w o') op op' cs cs')).
(** two sessions with BOB's shares pb and pb' are the same for ALICE on the two-phase backends: the
    conclusion of C93_garbler *)
Definition same_for_alice (gfr : N -> N -> N) (hash : list N -> list N) (q : Z) (rounds : bool) (pa pb pb' : Z) (rc rs : list N) (sh : option (list N)) (os : list fin_op) (cs cs' : list (bool * ain)) : Prop :=
  forall sigma aes Hash fixk lab delta, getLSB delta = true -> forall orc' junk, let reqs := map gcall_in cs in
  exists x s1 s2 y s' g e n n' op op',
  on_session honest aes_ks_file aes_enc_file q rounds (gcm_calls pa pb rc rs sh os reqs) cst0 = Ok (x, s1) /\
  on_session honest aes_ks_file aes_enc_file q rounds (gcm_calls pa pb' rc rs sh os reqs) cst0 = Ok (x, s2) /\
  off_session orc' junk aes_ks_file aes_enc_file q rounds (map announce (gcm_calls pa pb rc rs sh os reqs)) cst0 = Ok (y, s') /\
  f_run sigma aes fixk lab delta f_init_g f_init_e [] (lower (c_tr s')) = Ok (g, e, []) /\
  n_run sigma aes Hash fixk lab delta (fg_out g) (fe_GC e) (fe_pub e) n_init (lower (c_tr s1)) = Ok (n, op) /\
  n_run sigma aes Hash fixk lab delta (fg_out g) (fe_GC e) (fe_pub e) n_init (lower (c_tr s2)) = Ok (n', op') /\
  ng_w n' = ng_w n /\ saw true op' = saw true op /\
  snd (n_sent sigma aes Hash fixk lab delta (fg_out g) (fe_GC e) (fe_pub e) n_init (lower (c_tr s1))) =
  snd (n_sent sigma aes Hash fixk lab delta (fg_out g) (fe_GC e) (fe_pub e) n_init (lower (c_tr s2))) /\
  records_same_alice gfr hash (os_sh x) (ng_w n) (ne_w n) (ne_w n') op op' cs cs'.
(** and on the streaming backends: the conclusion of C93_stream_garbler *)
Definition same_for_alice_stream (gfr : N -> N -> N) (hash : list N -> list N) (q : Z) (rounds : bool) (pa pb pb' : Z) (rc rs : list N) (sh : option (list N)) (os : list fin_op) (cs cs' : list (bool * ain)) : Prop :=
  forall sigma aes Hash fixk Kc rnd lab delta, getLSB delta = true -> blk delta ->
  (forall x, blk (sigma x)) -> (forall x, blk (aes x)) -> (forall i, blk (fixk i)) -> (forall i, blk (Kc i)) -> (forall i, blk (lab i)) ->
  forall bs, let reqs := map gcall_in cs in
  exists x s1 s2,
  on_session honest aes_ks_file aes_enc_file q rounds (gcm_calls pa pb rc rs sh os reqs) cst0 = Ok (x, s1) /\
  on_session honest aes_ks_file aes_enc_file q rounds (gcm_calls pa pb' rc rs sh os reqs) cst0 = Ok (x, s2) /\
  let on1 := lower (c_tr s1) in let on2 := lower (c_tr s2) in
  let rnd' m := xorb (rnd m) (xorb (nth m (buffered_inputs bs on1) false) (nth m (buffered_inputs bs on2) false)) in
  let s0 := o_init Kc rnd delta bs in let s0' := o_init Kc rnd' delta bs in
  (clean_run sigma aes Hash fixk Kc rnd lab delta s0 [] [] on1 -> clean_run sigma aes Hash fixk Kc rnd' lab delta s0' [] [] on2 ->
   exists o op o' op', o_run sigma aes Hash fixk Kc rnd lab delta s0 on1 = Ok (o, op) /\ o_run sigma aes Hash fixk Kc rnd' lab delta s0' on2 = Ok (o', op') /\
    og_w o' = og_w o /\ og_f o' = og_f o /\ saw true op' = saw true op /\
    o_msgs sigma aes Hash fixk Kc rnd' lab delta s0' on2 = o_msgs sigma aes Hash fixk Kc rnd lab delta s0 on1 /\
    records_same_alice gfr hash (os_sh x) (og_w o) (oe_w o) (oe_w o') op op' cs cs').

(** * The result of the conversion *)
Section Q.
Variable q : Z.
Hypothesis Hq : bound1000 q.
Hypothesis Pq : prime q.
Lemma conversion_result s t xa ya xb yb m y3 oa ob va vb : triples_ok q s t -> ~ cong q (e_a s + e_a t) 0 -> ~ cong q xa xb ->
  (0 <= m < q)%Z -> chord_sum q xa ya xb yb m y3 ->
  runs_with_views (p_e2f_online q true s xa ya) (p_e2f_online q false t xb yb) (Ok oa) (Ok ob) va vb ->
  (0 <= oa < q)%Z /\ (0 <= ob < q)%Z /\ ((oa + ob) mod q)%Z = m.
Proof.
  intros T N X Hm Cm R.
  assert (W : ~ cong q (e2f_wsum s t xa xb) 0).
  { unfold e2f_wsum. exact (mul_not_0 q Pq _ _ N (cong_neq q xa xb X)). }
  destruct (online_ok q Hq s t xa ya xb yb Pq T W) as (oa1 & ob1 & E & Ra & Rb & y & Ch).
  assert (B : both (e2f_online q s t xa ya xb yb) (Ok oa1) (Ok ob1)) by (rewrite E; split; reflexivity).
  destruct (lconv_of_conv _ _ _ _ (conv_online q Hq s t xa ya xb yb _ _ B)) as (u & v & _ & _ & L).
  assert (R1 : runs_with_views (p_e2f_online q true s xa ya) (p_e2f_online q false t xb yb) (Ok oa1) (Ok ob1) v u).
  { apply lconv_runs; [apply wp_online; exact Hq|apply wp_online; exact Hq|exact L]. }
  destruct (views_unique _ _ _ _ _ _ _ _ _ _ R R1) as (Ea & Eb & _). injection Ea as ->. injection Eb as ->.
  split; [exact Ra|]. split; [exact Rb|].
  assert (X' : ~ congr q xa xb) by (rewrite congr_cong by (destruct Hq; lia); exact X).
  destruct (chord_unique _ _ _ _ _ _ _ _ _ Pq X' Ch Cm) as [C _]. red in C. now rewrite (Z.mod_small m) in C by exact Hm.
Qed.
End Q.

(** the values opened and the keys are determined by the premaster secret *)
Lemma pms_sum q pa pb m : ((pa + pb) mod q)%Z = m -> (0 <= m < q)%Z -> pms_of q pa pb = pms_of q m 0.
Proof. intros H R. unfold pms_of. now rewrite H, Z.add_0_r, Z.mod_small by exact R. Qed.
Lemma opened_sum q rounds pa pb m rc rs sh os cs : pms_of q pa pb = pms_of q m 0 ->
  session_opened q rounds pa pb rc rs sh os cs = session_opened q rounds m 0 rc rs sh os cs.
Proof. intro H. unfold session_opened. now rewrite H. Qed.
Lemma keys_sum q pa pb m rc rs sh : pms_of q pa pb = pms_of q m 0 -> tkeys_of q pa pb rc rs sh = tkeys_of q m 0 rc rs sh.
Proof. intro H. unfold tkeys_of. now rewrite H. Qed.

(** * From the conversion on *)
Section W.
Variable gfr : N -> N -> N.
Hypothesis GFR : gfr_ok gfr.
Variable hash : list N -> list N.
Hypothesis HL : forall l, length (hash l) = DIGEST_SIZE.
Variables (q : Z) (rounds : bool) (rc rs : list N) (sh : option (list N)) (os : list fin_op) (cs cs' : list (bool * ain)).
Hypothesis Hq : bound1000 q.
Hypothesis Pq : prime q.
Hypothesis Hc : Forall byte8 rc.
Hypothesis Hs : Forall byte8 rs.
Hypothesis Hh : opt_wf sh.
Hypothesis Ho : Forall fin_wf os.
Hypothesis Hz : rounds = true -> tls_sizes rc rs sh os.
Hypothesis NE : cs <> [].
Hypothesis AI : ins_ok cs.
Hypothesis AI' : ins_ok cs'.
Variables (m m' : Z).
Hypothesis Rm : (0 <= m < q)%Z.
Hypothesis Rm' : (0 <= m' < q)%Z.
Hypothesis HO : session_opened q rounds m 0 rc rs sh os (map gcall_in cs) = session_opened q rounds m' 0 rc rs sh os (map gcall_in cs).

Theorem bob_from_conversion t xb yb xa ya xa' ya' y3 y3' : ~ cong q xa xb -> ~ cong q xa' xb ->
  chord_sum q xa ya xb yb m y3 -> chord_sum q xa' ya' xb yb m' y3' ->
  h_nonzero (tkeys_of q m 0 rc rs sh) -> h_nonzero (tkeys_of q m' 0 rc rs sh) ->
  bob_calls_alike (tkeys_of q m 0 rc rs sh) (tkeys_of q m' 0 rc rs sh) cs cs' ->
  exists F G : e2f -> e2f,
    (forall s, share_ok q t s -> share_ok q t (F s) /\ G (F s) = s) /\
    (forall s, share_ok q t s -> share_ok q t (G s) /\ F (G s) = s) /\
    forall s, share_ok q t s -> exists oa va oa' va' ob vb,
      runs_with_views (p_e2f_online q true s xa ya) (p_e2f_online q false t xb yb) (Ok oa) (Ok ob) va vb /\
      runs_with_views (p_e2f_online q true (F s) xa' ya') (p_e2f_online q false t xb yb) (Ok oa') (Ok ob) va' vb /\
      ((oa + ob) mod q)%Z = m /\ ((oa' + ob) mod q)%Z = m' /\
      same_for_bob gfr hash q rounds oa oa' ob rc rs sh os cs cs' /\
      ((32 <= BN_num_bytes q)%nat -> same_for_bob_stream gfr hash q rounds oa oa' ob rc rs sh os cs cs').
Proof.
  intros X X' Ch Ch' N0 N0' AL. destruct (bob_e2f q Hq Pq t xb yb xa ya xa' ya' X X') as (F & G & B1 & B2 & V).
  exists F, G. split; [exact B1|]. split; [exact B2|]. intros s S.
  destruct (V s S) as (oa & va & oa' & va' & ob & vb & R & R'). exists oa, va, oa', va', ob, vb.
  split; [exact R|]. split; [exact R'|].
  destruct S as (S1 & S2 & S3). destruct (B1 s (conj S1 (conj S2 S3))) as ((_ & T2 & T3) & _).
  destruct (conversion_result q Hq Pq _ _ _ _ _ _ _ _ _ _ _ _ S2 S3 X Rm Ch R) as (Ra & Rb & Em).
  destruct (conversion_result q Hq Pq _ _ _ _ _ _ _ _ _ _ _ _ T2 T3 X' Rm' Ch' R') as (Ra' & _ & Em').
  split; [exact Em|]. split; [exact Em'|].
  pose proof (pms_sum q oa ob m Em Rm) as P1. pose proof (pms_sum q oa' ob m' Em' Rm') as P2.
  pose proof HO as HO'. rewrite <- (opened_sum q rounds oa ob m _ _ _ _ _ P1), <- (opened_sum q rounds oa' ob m' _ _ _ _ _ P2) in HO'.
  rewrite <- (keys_sum q oa ob m rc rs sh P1) in N0, AL. rewrite <- (keys_sum q oa' ob m' rc rs sh P2) in N0', AL.
  split.
  - intros sigma aes Hash fixk lab delta Hd orc' junk.
    exact (evaluator_whole gfr GFR hash HL sigma aes Hash fixk lab delta Hd orc' junk q rounds oa ob rc rs sh os cs cs' Ra Rb Hc Hs Hh Ho Hz NE AI AI' oa' Ra' HO' N0 N0' AL).
  - intros Q32 sigma aes Hash fixk Kc rnd lab delta Hd Bd Bs Ba Bf Bk Bl bs.
    exact (stream_evaluator_whole gfr GFR hash HL sigma aes Hash fixk Kc rnd lab delta Hd Bd Bs Ba Bf Bk Bl bs q rounds oa ob rc rs sh os cs cs' Q32 Ra Rb Hc Hs Hh Ho Hz NE AI AI' oa' Ra' HO' N0 N0' AL).
Qed.
Theorem alice_from_conversion t xb yb xb' yb' xa ya y3 y3' : ~ cong q xa xb -> ~ cong q xa xb' ->
  chord_sum q xa ya xb yb m y3 -> chord_sum q xa ya xb' yb' m' y3' ->
  alice_calls_alike (tkeys_of q m 0 rc rs sh) (tkeys_of q m' 0 rc rs sh) cs cs' ->
  exists F G : e2f -> e2f,
    (forall s, share_ok q t s -> share_ok q t (F s) /\ G (F s) = s) /\
    (forall s, share_ok q t s -> share_ok q t (G s) /\ F (G s) = s) /\
    forall s, share_ok q t s -> exists oa va ob vb ob' vb',
      runs_with_views (p_e2f_online q true t xa ya) (p_e2f_online q false s xb yb) (Ok oa) (Ok ob) va vb /\
      runs_with_views (p_e2f_online q true t xa ya) (p_e2f_online q false (F s) xb' yb') (Ok oa) (Ok ob') va vb' /\
      ((oa + ob) mod q)%Z = m /\ ((oa + ob') mod q)%Z = m' /\
      same_for_alice gfr hash q rounds oa ob ob' rc rs sh os cs cs' /\
      ((32 <= BN_num_bytes q)%nat -> same_for_alice_stream gfr hash q rounds oa ob ob' rc rs sh os cs cs').
Proof.
  intros X X' Ch Ch' AL. destruct (alice_e2f q Hq Pq t xb yb xb' yb' xa ya X X') as (F & G & B1 & B2 & V).
  exists F, G. split; [exact B1|]. split; [exact B2|]. intros s S.
  destruct (V s S) as (oa & va & ob & vb & ob' & vb' & R & R'). exists oa, va, ob, vb, ob', vb'.
  split; [exact R|]. split; [exact R'|].
  destruct S as (S1 & S2 & S3). destruct (B1 s (conj S1 (conj S2 S3))) as ((_ & T2 & T3) & _).
  rewrite (Z.add_comm (e_a s)) in S3. rewrite (Z.add_comm (e_a (F s))) in T3.
  destruct (conversion_result q Hq Pq _ _ _ _ _ _ _ _ _ _ _ _ (share_sym q _ _ S2) S3 X Rm Ch R) as (Ra & Rb & Em).
  destruct (conversion_result q Hq Pq _ _ _ _ _ _ _ _ _ _ _ _ (share_sym q _ _ T2) T3 X' Rm' Ch' R') as (_ & Rb' & Em').
  split; [exact Em|]. split; [exact Em'|].
  pose proof (pms_sum q oa ob m Em Rm) as P1. pose proof (pms_sum q oa ob' m' Em' Rm') as P2.
  pose proof HO as HO'. rewrite <- (opened_sum q rounds oa ob m _ _ _ _ _ P1), <- (opened_sum q rounds oa ob' m' _ _ _ _ _ P2) in HO'.
  rewrite <- (keys_sum q oa ob m rc rs sh P1), <- (keys_sum q oa ob' m' rc rs sh P2) in AL.
  split.
  - intros sigma aes Hash fixk lab delta Hd orc' junk.
    exact (garbler_whole gfr GFR hash HL sigma aes Hash fixk lab delta Hd orc' junk q rounds oa ob rc rs sh os cs cs' Ra Rb Hc Hs Hh Ho Hz NE AI AI' ob' Rb' HO' AL).
  - intros Q32 sigma aes Hash fixk Kc rnd lab delta Hd Bd Bs Ba Bf Bk Bl bs.
    exact (stream_garbler_whole gfr GFR hash HL sigma aes Hash fixk Kc rnd lab delta Hd Bd Bs Ba Bf Bk Bl bs q rounds oa ob rc rs sh os cs cs' Q32 Ra Rb Hc Hs Hh Ho Hz NE AI AI' ob' Rb' HO' AL).
Qed.
End W.
