(** Property C93: what a whole TLS session tells a party, circuits and records together, on the
    parties' own labels.  Another session, with another share of the premaster secret at the peer and
    other plaintexts of the peer, looks the same when the values of C88 are the same and the records
    look the same (the same ciphertexts and tags): the party's labels, opened values and messages of
    the circuits (C89, C92) and its objects, results and messages of the records (C73, C74) are the
    same for some other choice of what the party does not know. *)
From Coq Require Import List NArith ZArith Bool Arith Lia.
From Verif Require Import L_Bits L_Res S_Sched S_View S_Circuit S_Lower S_GarbleView S_Codec S_Aes S_Gcm S_Tls S_Open.
From Verif Require S_Netlist.
From Verif Require Import M_EmpInteger M_Utils M_Bristol M_Bn M_Sym M_SymOn M_SymOff M_SymSess M_Block M_Ole2k M_Shares M_Commit M_Garble M_GarbleTr M_Handshake.
From Verif Require Import M_Aead M_Exch M_View M_LabRec M_LabView D_AesKs D_AesEnc.
From Verif Require Import P_Gf128 P_Aead P_AeadInst P_Garble P_GarbleOpt P_Sha256Opt P_Handshake P_SymTls P_SymGcm P_SessView P_Stream P_StreamView P_Labels.
From Verif Require Import P_View P_ViewPriv P_ViewTag P_LabRec P_LabView2 P_LabView3 P_LabView4 P_LabView5 P_LabView6.
Import ListNotations.
Local Open Scope N_scope.
Local Opaque aes_ks_file aes_enc_file aesE str_to_int ms_spec key_block on_session lower gf_mul bytes_of_block block_of_bytes.

(** ** C93 *)
(** The programs below are those of C90; they also return the two objects. *)
Theorem C93_programs : forall gfr hash alice labels op sh cs v,
  P_View.peq (l_session gfr hash alice labels op sh (rr_c v) (rr_oc v) (rr_s v) (rr_os v) (lcalls cs (rr_calls v)))
      (rbind (l_run gfr hash alice labels op sh cs v) (fun r => Ret (Ok (snd r)))).
Proof. exact run_outputs. Qed.
Print Assumptions C93_programs.
(** The random values of the records in the two sessions are in bijection. *)
Theorem C93_pairing : forall gfr, gfr_ok gfr -> forall hash : list N -> list N, (forall l, length (hash l) = DIGEST_SIZE) ->
  forall K K' B sh cs cs', tkeys_ok K -> tkeys_ok K' -> h_nonzero K -> h_nonzero K' -> bob_calls_alike K K' cs cs' -> ins_ok cs -> ins_ok cs' ->
  (forall v, rrand_ok cs v -> rrand_ok cs' (partner K K' B sh cs cs' v) /\ partner K' K B sh cs' cs (partner K K' B sh cs cs' v) = v) /\
  (forall v', rrand_ok cs' v' -> rrand_ok cs (partner K' K B sh cs' cs v') /\ partner K K' B sh cs cs' (partner K' K B sh cs' cs v') = v').
Proof. intros gfr GFR hash HL. exact (partners gfr GFR hash). Qed.
Print Assumptions C93_pairing.
(** The evaluator (BOB) on the two-phase backends. *)
Theorem C93_evaluator : forall gfr, gfr_ok gfr -> forall hash : list N -> list N, (forall l, length (hash l) = DIGEST_SIZE) ->
  forall sigma aes Hash fixk lab delta, getLSB delta = true -> forall orc' junk, forall q rounds pa pb rc rs sh os cs cs', (0 <= pa < q)%Z -> (0 <= pb < q)%Z ->
  Forall byte8 rc -> Forall byte8 rs -> opt_wf sh -> Forall fin_wf os -> (rounds = true -> tls_sizes rc rs sh os) ->
  cs <> [] -> ins_ok cs -> ins_ok cs' -> let K := tkeys_of q pa pb rc rs sh in let reqs := map gcall_in cs in
  forall pa', (0 <= pa' < q)%Z -> session_opened q rounds pa pb rc rs sh os reqs = session_opened q rounds pa' pb rc rs sh os reqs ->
  let K' := tkeys_of q pa' pb rc rs sh in
  h_nonzero K -> h_nonzero K' -> bob_calls_alike K K' cs cs' ->
  exists x s1 s2 y s' g e n op,
  on_session honest aes_ks_file aes_enc_file q rounds (gcm_calls pa pb rc rs sh os reqs) cst0 = Ok (x, s1) /\
  on_session honest aes_ks_file aes_enc_file q rounds (gcm_calls pa' pb rc rs sh os reqs) cst0 = Ok (x, s2) /\
  off_session orc' junk aes_ks_file aes_enc_file q rounds (map announce (gcm_calls pa pb rc rs sh os reqs)) cst0 = Ok (y, s') /\
  let on1 := lower (c_tr s1) in let on2 := lower (c_tr s2) in let off := lower (c_tr s') in
  f_run sigma aes fixk lab delta f_init_g f_init_e [] off = Ok (g, e, []) /\
  n_run sigma aes Hash fixk lab delta (fg_out g) (fe_GC e) (fe_pub e) n_init on1 = Ok (n, op) /\
  let l := ne_w n in let gs := S_GarbleView.gates 0 on1 in
  (NoDup (unknown_points sigma delta gs l) ->
   (forall p, In p (unknown_points sigma delta gs l) -> ~ In p (known_points sigma gs l)) ->
   let aes' p := N.lxor (aes p) (S_GarbleView.shift sigma delta gs l (fst (spec_run [] on1)) (fst (spec_run [] on2)) p) in
   let lab' k := N.lxor (lab k) (if xorb (nth k (inputs on1) false) (nth k (inputs on2) false) then delta else 0) in
   exists g' n' op',
    f_run sigma aes' fixk lab' delta f_init_g f_init_e [] off = Ok (g', e, []) /\
    f_sent sigma aes' fixk lab' delta f_init_g off = f_sent sigma aes fixk lab delta f_init_g off /\
    n_run sigma aes' Hash fixk lab' delta (fg_out g') (fe_GC e) (fe_pub e) n_init on2 = Ok (n', op') /\
    ne_w n' = ne_w n /\ saw false op' = saw false op /\
    n_sent sigma aes' Hash fixk lab' delta (fg_out g') (fe_GC e) (fe_pub e) n_init on2 =
    n_sent sigma aes Hash fixk lab delta (fg_out g) (fe_GC e) (fe_pub e) n_init on1 /\
    records_same_bob gfr hash K K' (os_sh x) (ng_w n) (ne_w n) (ng_w n') op op' cs cs').
Proof. intros gfr GFR hash HL. exact (evaluator_whole gfr GFR hash HL). Qed.
Print Assumptions C93_evaluator.
(** The garbler (ALICE) on the two-phase backends. *)
Theorem C93_garbler : forall gfr, gfr_ok gfr -> forall hash : list N -> list N, (forall l, length (hash l) = DIGEST_SIZE) ->
  forall sigma aes Hash fixk lab delta, getLSB delta = true -> forall orc' junk, forall q rounds pa pb rc rs sh os cs cs', (0 <= pa < q)%Z -> (0 <= pb < q)%Z ->
  Forall byte8 rc -> Forall byte8 rs -> opt_wf sh -> Forall fin_wf os -> (rounds = true -> tls_sizes rc rs sh os) ->
  cs <> [] -> ins_ok cs -> ins_ok cs' -> let K := tkeys_of q pa pb rc rs sh in let reqs := map gcall_in cs in
  forall pb', (0 <= pb' < q)%Z -> session_opened q rounds pa pb rc rs sh os reqs = session_opened q rounds pa pb' rc rs sh os reqs ->
  alice_calls_alike K (tkeys_of q pa pb' rc rs sh) cs cs' ->
  exists x s1 s2 y s' g e n n' op op',
  on_session honest aes_ks_file aes_enc_file q rounds (gcm_calls pa pb rc rs sh os reqs) cst0 = Ok (x, s1) /\
  on_session honest aes_ks_file aes_enc_file q rounds (gcm_calls pa pb' rc rs sh os reqs) cst0 = Ok (x, s2) /\
  off_session orc' junk aes_ks_file aes_enc_file q rounds (map announce (gcm_calls pa pb rc rs sh os reqs)) cst0 = Ok (y, s') /\
  f_run sigma aes fixk lab delta f_init_g f_init_e [] (lower (c_tr s')) = Ok (g, e, []) /\
  n_run sigma aes Hash fixk lab delta (fg_out g) (fe_GC e) (fe_pub e) n_init (lower (c_tr s1)) = Ok (n, op) /\
  n_run sigma aes Hash fixk lab delta (fg_out g) (fe_GC e) (fe_pub e) n_init (lower (c_tr s2)) = Ok (n', op') /\
  ng_w n' = ng_w n /\ saw true op' = saw true op /\
  snd (n_sent sigma aes Hash fixk lab delta (fg_out g) (fe_GC e) (fe_pub e) n_init (lower (c_tr s1))) =
  snd (n_sent sigma aes Hash fixk lab delta (fg_out g) (fe_GC e) (fe_pub e) n_init (lower (c_tr s2))) /\
  records_same_alice gfr hash (os_sh x) (ng_w n) (ne_w n) (ne_w n') op op' cs cs'.
Proof. intros gfr GFR hash HL. exact (garbler_whole gfr GFR hash HL). Qed.
Print Assumptions C93_garbler.
(** BOB on the streaming backends. *)
Theorem C93_stream_evaluator : forall gfr, gfr_ok gfr -> forall hash : list N -> list N, (forall l, length (hash l) = DIGEST_SIZE) ->
  forall sigma aes Hash fixk Kc rnd lab delta, getLSB delta = true -> blk delta ->
  (forall x, blk (sigma x)) -> (forall x, blk (aes x)) -> (forall i, blk (fixk i)) -> (forall i, blk (Kc i)) -> (forall i, blk (lab i)) ->
  forall bs, forall q rounds pa pb rc rs sh os cs cs', (32 <= BN_num_bytes q)%nat -> (0 <= pa < q)%Z -> (0 <= pb < q)%Z ->
  Forall byte8 rc -> Forall byte8 rs -> opt_wf sh -> Forall fin_wf os -> (rounds = true -> tls_sizes rc rs sh os) ->
  cs <> [] -> ins_ok cs -> ins_ok cs' -> let K := tkeys_of q pa pb rc rs sh in let reqs := map gcall_in cs in
  forall pa', (0 <= pa' < q)%Z -> session_opened q rounds pa pb rc rs sh os reqs = session_opened q rounds pa' pb rc rs sh os reqs ->
  let K' := tkeys_of q pa' pb rc rs sh in
  h_nonzero K -> h_nonzero K' -> bob_calls_alike K K' cs cs' ->
  exists x s1 s2,
  on_session honest aes_ks_file aes_enc_file q rounds (gcm_calls pa pb rc rs sh os reqs) cst0 = Ok (x, s1) /\
  on_session honest aes_ks_file aes_enc_file q rounds (gcm_calls pa' pb rc rs sh os reqs) cst0 = Ok (x, s2) /\
  let on1 := lower (c_tr s1) in let on2 := lower (c_tr s2) in
  let s0 := o_init Kc rnd delta bs in
  (clean_run sigma aes Hash fixk Kc rnd lab delta s0 [] [] on1 ->
   exists o op, o_run sigma aes Hash fixk Kc rnd lab delta s0 on1 = Ok (o, op) /\
   let l := oe_w o in let gs := live_gates 0 [] on1 in
   ((forall i, (i < length l)%nat -> S_Circuit.kind (fold_left S_Circuit.kind_step on1 []) i = None -> ~ special (N.lxor (lbl l i) delta)) ->
    NoDup (unknown_points sigma delta gs l) -> (forall p, In p (unknown_points sigma delta gs l) -> ~ In p (known_points sigma gs l)) ->
    let aes' p := N.lxor (aes p) (S_GarbleView.shift sigma delta gs l (fst (spec_run [] on1)) (fst (spec_run [] on2)) p) in
    exists o' op', o_run sigma aes' Hash fixk Kc rnd lab delta s0 on2 = Ok (o', op') /\
     oe_w o' = oe_w o /\ oe_f o' = oe_f o /\ saw false op' = saw false op /\
     o_msgs sigma aes' Hash fixk Kc rnd lab delta s0 on2 = o_msgs sigma aes Hash fixk Kc rnd lab delta s0 on1 /\
     records_same_bob gfr hash K K' (os_sh x) (og_w o) (oe_w o) (og_w o') op op' cs cs')).
Proof. intros gfr GFR hash HL. exact (stream_evaluator_whole gfr GFR hash HL). Qed.
Print Assumptions C93_stream_evaluator.
(** ALICE on the streaming backends. *)
Theorem C93_stream_garbler : forall gfr, gfr_ok gfr -> forall hash : list N -> list N, (forall l, length (hash l) = DIGEST_SIZE) ->
  forall sigma aes Hash fixk Kc rnd lab delta, getLSB delta = true -> blk delta ->
  (forall x, blk (sigma x)) -> (forall x, blk (aes x)) -> (forall i, blk (fixk i)) -> (forall i, blk (Kc i)) -> (forall i, blk (lab i)) ->
  forall bs, forall q rounds pa pb rc rs sh os cs cs', (32 <= BN_num_bytes q)%nat -> (0 <= pa < q)%Z -> (0 <= pb < q)%Z ->
  Forall byte8 rc -> Forall byte8 rs -> opt_wf sh -> Forall fin_wf os -> (rounds = true -> tls_sizes rc rs sh os) ->
  cs <> [] -> ins_ok cs -> ins_ok cs' -> let K := tkeys_of q pa pb rc rs sh in let reqs := map gcall_in cs in
  forall pb', (0 <= pb' < q)%Z -> session_opened q rounds pa pb rc rs sh os reqs = session_opened q rounds pa pb' rc rs sh os reqs ->
  alice_calls_alike K (tkeys_of q pa pb' rc rs sh) cs cs' ->
  exists x s1 s2,
  on_session honest aes_ks_file aes_enc_file q rounds (gcm_calls pa pb rc rs sh os reqs) cst0 = Ok (x, s1) /\
  on_session honest aes_ks_file aes_enc_file q rounds (gcm_calls pa pb' rc rs sh os reqs) cst0 = Ok (x, s2) /\
  let on1 := lower (c_tr s1) in let on2 := lower (c_tr s2) in
  let rnd' m := xorb (rnd m) (xorb (nth m (buffered_inputs bs on1) false) (nth m (buffered_inputs bs on2) false)) in
  let s0 := o_init Kc rnd delta bs in let s0' := o_init Kc rnd' delta bs in
  (clean_run sigma aes Hash fixk Kc rnd lab delta s0 [] [] on1 -> clean_run sigma aes Hash fixk Kc rnd' lab delta s0' [] [] on2 ->
   exists o op o' op', o_run sigma aes Hash fixk Kc rnd lab delta s0 on1 = Ok (o, op) /\ o_run sigma aes Hash fixk Kc rnd' lab delta s0' on2 = Ok (o', op') /\
    og_w o' = og_w o /\ og_f o' = og_f o /\ saw true op' = saw true op /\
    o_msgs sigma aes Hash fixk Kc rnd' lab delta s0' on2 = o_msgs sigma aes Hash fixk Kc rnd lab delta s0 on1 /\
    records_same_alice gfr hash (os_sh x) (og_w o) (oe_w o) (oe_w o') op op' cs cs').
Proof. intros gfr GFR hash HL. exact (stream_garbler_whole gfr GFR hash HL). Qed.
Print Assumptions C93_stream_garbler.

(** two sessions over the 256-bit field with different premaster secrets, in which ALICE sends
    different messages of one block with the same ciphertext and tag *)
Definition p256w : Z := (2 ^ 256 - 2 ^ 224 + 2 ^ 192 + 2 ^ 96 - 1)%Z.
Definition keys_of (pa pb : Z) : tkeys := tkeys_of p256w pa pb (repeat 1 32) (repeat 2 32) None.
Definition key_x : list N := [241; 35; 19; 101; 113; 23; 148; 123; 56; 66; 100; 147; 85; 102; 66; 211].
Definition key_y : list N := [78; 171; 187; 35; 92; 39; 162; 86; 165; 68; 229; 46; 63; 49; 71; 185].
Lemma keys_vals : (tk_c (keys_of 200 100) = key_x /\ tk_fc (keys_of 200 100) = [216; 211; 190; 121]) /\
  (tk_c (keys_of 201 100) = key_y /\ tk_fc (keys_of 201 100) = [181; 172; 166; 201]) /\ pms_of p256w 200 101 = pms_of p256w 201 100 /\
  aesE (tk_s (keys_of 200 100)) 0 <> 0 /\ aesE (tk_s (keys_of 201 100)) 0 <> 0 /\ aesE key_x 0 <> 0 /\ aesE key_y 0 <> 0.
Proof. vm_compute. repeat split; discriminate. Qed.
Lemma keys_pms a b c d : pms_of p256w a b = pms_of p256w c d -> keys_of a b = keys_of c d.
Proof. intro H. unfold keys_of, tkeys_of. now rewrite H. Qed.
Local Opaque keys_of.
Definition iv_ex : list N := [1; 2; 3; 4; 5; 6; 7; 8].
Definition text_x : list N := [219; 213; 117; 250; 159; 57; 206; 136; 238; 174; 117; 166; 197; 124; 247; 81].
Definition text_y : list N := [252; 120; 52; 210; 46; 218; 249; 15; 210; 195; 93; 161; 14; 3; 143; 91].
Definition aad_xy : list N := [204; 101; 124; 95; 95; 188; 184; 193; 134; 188; 175; 216; 209; 17; 249; 33].
Lemma same_ae : gcm_ae (aesE key_y) ([181; 172; 166; 201] ++ iv_ex) text_y [] = gcm_ae (aesE key_x) ([216; 211; 190; 121] ++ iv_ex) text_x [] /\
  gcm_ae (aesE key_y) ([181; 172; 166; 201] ++ iv_ex) [] aad_xy = gcm_ae (aesE key_x) ([216; 211; 190; 121] ++ iv_ex) [] aad_xy.
Proof. vm_compute. split; reflexivity. Qed.
Definition rand_ex (k : nat) : rrand := {| rr_c := 5; rr_oc := rows_zero 1; rr_s := 7; rr_os := rows_zero 1; rr_calls := [rows_zero k] |}.
Lemma rand_ex_ok c : rrand_ok [c] (rand_ex (nblocks (in_aad (snd c)) (in_data (snd c)))).
Proof.
  unfold rrand_ok, rand_ex. cbn [rr_c rr_oc rr_s rr_os rr_calls]. destruct (rows_zero_ok 1) as [R1 R2].
  split; [reflexivity|]. split; [discriminate|]. split; [exact R1|]. split; [exact R2|].
  split; [reflexivity|]. split; [discriminate|]. split; [exact R1|]. split; [exact R2|]. constructor; [apply rows_zero_ok|constructor].
Qed.
Example C93_ex : let i := InEnc text_x [] [] iv_ex true in let i' := InEnc text_y [] [] iv_ex true in
  let K := keys_of 200 100 in let K' := keys_of 201 100 in
  h_nonzero K /\ h_nonzero K' /\ bob_calls_alike K K' [(false, i)] [(false, i')] /\ ins_ok [(false, i)] /\ ins_ok [(false, i')] /\
  session_opened p256w true 200 100 (repeat 1 32) (repeat 2 32) None [] (map gcall_in [(false, i)]) =
  session_opened p256w true 201 100 (repeat 1 32) (repeat 2 32) None [] (map gcall_in [(false, i)]) /\
  rrand_ok [(false, i)] (rand_ex (nblocks (in_aad i) (in_data i))) /\ K <> K' /\ text_x <> text_y.
Proof.
  intros i i' K K'. destruct keys_vals as ([V1 W1] & [V2 W2] & _ & N1 & N2 & N3 & N4).
  fold K in V1, W1, N1. fold K' in V2, W2, N2.
  split; [split; [rewrite V1|]; assumption|]. split; [split; [rewrite V2|]; assumption|]. split; [|split; [|split; [|split; [|split]]]].
  - constructor; [|constructor]. split; [reflexivity|]. cbn [fst snd i i' alike_bob]. do 4 (split; [reflexivity|]). split; [|discriminate].
    unfold kE, kf. rewrite V1, V2, W1, W2. exact (proj1 same_ae).
  - repeat constructor; discriminate.
  - repeat constructor; discriminate.
  - rewrite !nothing_opened by repeat constructor. reflexivity.
  - exact (rand_ex_ok (false, i)).
  - split; [intro Q; apply (f_equal tk_c) in Q; rewrite V1, V2 in Q; discriminate Q|discriminate].
Qed.
(** for ALICE, with BOB's share changed: no message and additional data with the same tag *)
Example C93_garbler_ex : let i := InEnc [] [] aad_xy iv_ex true in let K := keys_of 200 100 in let K' := keys_of 200 101 in
  alice_calls_alike K K' [(false, i)] [(false, i)] /\ ins_ok [(false, i)] /\ rrand_ok [(false, i)] (rand_ex (nblocks (in_aad i) (in_data i))) /\ K <> K' /\
  session_opened p256w true 200 100 (repeat 1 32) (repeat 2 32) None [] (map gcall_in [(false, i)]) =
  session_opened p256w true 200 101 (repeat 1 32) (repeat 2 32) None [] (map gcall_in [(false, i)]).
Proof.
  intros i K K'. destruct keys_vals as ([V1 W1] & [V2 W2] & Q & _). assert (EQ : K' = keys_of 201 100) by exact (keys_pms 200 101 201 100 Q).
  rewrite <- EQ in V2, W2. fold K in V1, W1. split; [|split; [|split; [|split]]].
  - constructor; [|constructor]. split; [reflexivity|]. cbn [fst snd i alike_alice]. do 4 (split; [reflexivity|]).
    unfold kE, kf. rewrite V1, V2, W1, W2. exact (proj2 same_ae).
  - repeat constructor; discriminate.
  - exact (rand_ex_ok (false, i)).
  - intro E. apply (f_equal tk_c) in E. rewrite V1, V2 in E. discriminate E.
  - rewrite !nothing_opened by repeat constructor. reflexivity.
Qed.
