(** What the garbled circuits of a whole session tell each party: C83 and C84 applied to the circuit
    of the session. *)
From Coq Require Import List NArith ZArith Bool Arith Lia.
From Verif Require Import L_Bits L_Res S_Circuit S_Lower S_GarbleView.
From Verif Require S_Netlist.
From Verif Require Import S_Codec S_Aes S_Gcm S_Tls S_Open M_EmpInteger M_Utils M_Bristol M_Bn M_Sym M_SymOn M_SymOff M_SymSess.
From Verif Require Import M_Block M_Shares M_Garble M_GarbleTr M_Handshake D_AesKs D_AesEnc.
From Verif Require Import P_Lower P_Garble P_GarbleView P_GarbleView2 P_Aead P_AeadInst P_Sha256Opt P_Handshake P_Sym P_SymTls P_SymGcm P_Session2 M_LabRec P_Labels P_Open2 P_Open3.
Import ListNotations.
Local Open Scope N_scope.
Local Opaque aes_ks_file aes_enc_file aesE str_to_int gcm_ctext key_block ms_spec tls_opened.

Lemma sess_shape orc' junk ks enc q rounds cs x s : Forall (sizes_ok q rounds) cs ->
  on_session honest ks enc q rounds cs cst0 = Ok (x, s) ->
  exists y s', off_session orc' junk ks enc q rounds (map announce cs) cst0 = Ok (y, s') /\
    S_Netlist.shape (c_tr s') = S_Netlist.shape (c_tr s).
Proof.
  intros Z E. pose proof (sim_session honest orc' junk ks enc q rounds cs Z cst0 cst0 eq_refl eq_refl) as C. rewrite E in C.
  destruct (off_session _ _ _ _ _ _ _ _) as [[y s']| |]; try contradiction. destruct C as (_ & C & _). cbn [snd fst] in C.
  exists y, s'. auto.
Qed.
Section V.
Variables (sigma aes : N -> N) (Hash : list N -> N) (fixk lab : nat -> N) (delta : N).
Hypothesis Hd : getLSB delta = true.
Variables (orc' : list S_Netlist.nev -> nat -> bool) (junk : nat -> bool) (ks enc : bristol) (q : Z) (rounds : bool).

Theorem evaluator_session cs1 cs2 x1 s1 x2 s2 : Forall (sizes_ok q rounds) cs1 -> Forall (sizes_ok q rounds) cs2 ->
  map announce cs1 = map announce cs2 ->
  on_session honest ks enc q rounds cs1 cst0 = Ok (x1, s1) -> on_session honest ks enc q rounds cs2 cst0 = Ok (x2, s2) ->
  S_Netlist.openings (c_tr s1) = S_Netlist.openings (c_tr s2) ->
  let on1 := lower (c_tr s1) in let on2 := lower (c_tr s2) in
  exists y s', off_session orc' junk ks enc q rounds (map announce cs1) cst0 = Ok (y, s') /\
  let off := lower (c_tr s') in
  exists g e n op, f_run sigma aes fixk lab delta f_init_g f_init_e [] off = Ok (g, e, []) /\
  n_run sigma aes Hash fixk lab delta (fg_out g) (fe_GC e) (fe_pub e) n_init on1 = Ok (n, op) /\
  let l := ne_w n in let gs := S_GarbleView.gates 0 on1 in
  (NoDup (unknown_points sigma delta gs l) ->
   (forall p, In p (unknown_points sigma delta gs l) -> ~ In p (known_points sigma gs l)) ->
   let aes' p := N.lxor (aes p) (shift sigma delta gs l (fst (spec_run [] on1)) (fst (spec_run [] on2)) p) in
   let lab' k := N.lxor (lab k) (if xorb (nth k (inputs on1) false) (nth k (inputs on2) false) then delta else 0) in
   exists g' n' op',
    f_run sigma aes' fixk lab' delta f_init_g f_init_e [] off = Ok (g', e, []) /\
    f_sent sigma aes' fixk lab' delta f_init_g off = f_sent sigma aes fixk lab delta f_init_g off /\
    n_run sigma aes' Hash fixk lab' delta (fg_out g') (fe_GC e) (fe_pub e) n_init on2 = Ok (n', op') /\
    Forall2 seen (map low_open (S_Netlist.openings (c_tr s2))) op' /\
    ne_w n' = ne_w n /\
    (forall ws, low_bits (ne_w n) ws = bxor (low_bits (ng_w n') ws) (ev s2 ws)) /\
    n_sent sigma aes' Hash fixk lab' delta (fg_out g') (fe_GC e) (fe_pub e) n_init on2 =
    n_sent sigma aes Hash fixk lab delta (fg_out g) (fe_GC e) (fe_pub e) n_init on1).
Proof.
  intros Z1 Z2 A E1 E2 O on1 on2.
  destruct (sess_shape orc' junk ks enc q rounds cs1 x1 s1 Z1 E1) as (y & s' & F & H1).
  destruct (sess_shape orc' junk ks enc q rounds cs2 x2 s2 Z2 E2) as (y2 & s2' & F2 & H2).
  rewrite <- A, F in F2. injection F2 as <- <-.
  exists y, s'. split; [exact F|]. intro off.
  pose proof (session_sound _ _ _ _ _ _ _ E1) as S1.
  assert (M1 : map shape off = map shape on1) by (apply lower_shape; exact H1).
  assert (M2 : map shape on1 = map shape on2) by (apply lower_shape; rewrite <- H1; exact H2).
  assert (W : wf 0 on1 = true) by (apply lower_wf; exact S1).
  assert (T : told BOB (snd (spec_run [] on1)) = told BOB (snd (spec_run [] on2))) by (unfold on1, on2; rewrite !lower_run; cbn [snd]; now rewrite O).
  destruct (two_phase_ok sigma aes Hash fixk lab delta Hd off on1 M1 W) as (n & op & R & _).
  unfold two_phase in R. destruct (f_run _ _ _ _ _ _ _ _ off) as [[[g e] c]| |] eqn:Ef; try discriminate R. cbn [bind] in R.
  assert (c = []) as ->.
  { destruct (f_run_ok sigma aes fixk lab delta off f_init_g f_init_e) as (g0 & e0 & _ & _ & _ & Ef0 & _). rewrite Ef in Ef0. congruence. }
  exists g, e, n, op. split; [reflexivity|]. split; [exact R|]. intros l gs N1 N2 aes' lab'.
  destruct (evaluator_view sigma aes Hash fixk lab delta Hd off on1 on2 M1 M2 W T g e n op Ef R N1 N2) as (g' & n' & op' & P1 & P2 & P3 & P4 & P5 & P6).
  fold l gs aes' lab' in P1, P2, P3, P4, P5, P6.
  exists g', n', op'. split; [exact P1|]. split; [exact P2|]. split; [exact P3|].
  split; [unfold on2 in P4; rewrite lower_run in P4; exact P4|]. split; [exact P5|]. split; [|exact P6].
  unfold l in P5. rewrite <- P5.
  assert (W2 : wf 0 on2 = true) by (apply lower_wf; exact (session_sound _ _ _ _ _ _ _ E2)).
  destruct (two_phase_ok sigma aes' Hash fixk lab' delta Hd off on2 (eq_trans M1 M2) W2) as (n2 & op2 & R2 & _ & _ & L2 & _).
  unfold two_phase in R2. rewrite P1 in R2. cbn [bind] in R2. rewrite P3 in R2. injection R2 as <- <-.
  unfold on2 in L2. rewrite lower_run in L2. cbn [fst] in L2.
  intro ws. apply low_bits_xor with (delta := delta); assumption.
Qed.
Theorem garbler_session cs1 cs2 x1 s1 x2 s2 : Forall (sizes_ok q rounds) cs1 -> Forall (sizes_ok q rounds) cs2 ->
  map announce cs1 = map announce cs2 ->
  on_session honest ks enc q rounds cs1 cst0 = Ok (x1, s1) -> on_session honest ks enc q rounds cs2 cst0 = Ok (x2, s2) ->
  S_Netlist.openings (c_tr s1) = S_Netlist.openings (c_tr s2) ->
  let on1 := lower (c_tr s1) in let on2 := lower (c_tr s2) in
  exists y s', off_session orc' junk ks enc q rounds (map announce cs1) cst0 = Ok (y, s') /\
  exists g e n n' op op', f_run sigma aes fixk lab delta f_init_g f_init_e [] (lower (c_tr s')) = Ok (g, e, []) /\
    n_run sigma aes Hash fixk lab delta (fg_out g) (fe_GC e) (fe_pub e) n_init on1 = Ok (n, op) /\
    n_run sigma aes Hash fixk lab delta (fg_out g) (fe_GC e) (fe_pub e) n_init on2 = Ok (n', op') /\
    ng_w n' = ng_w n /\
    snd (n_sent sigma aes Hash fixk lab delta (fg_out g) (fe_GC e) (fe_pub e) n_init on1) =
    snd (n_sent sigma aes Hash fixk lab delta (fg_out g) (fe_GC e) (fe_pub e) n_init on2).
Proof.
  intros Z1 Z2 A E1 E2 O on1 on2.
  destruct (sess_shape orc' junk ks enc q rounds cs1 x1 s1 Z1 E1) as (y & s' & F & H1).
  destruct (sess_shape orc' junk ks enc q rounds cs2 x2 s2 Z2 E2) as (y2 & s2' & F2 & H2).
  rewrite <- A, F in F2. injection F2 as <- <-.
  exists y, s'. split; [exact F|]. set (off := lower (c_tr s')).
  assert (M1 : map shape off = map shape on1) by (apply lower_shape; exact H1).
  assert (M2 : map shape on1 = map shape on2) by (apply lower_shape; rewrite <- H1; exact H2).
  assert (W : wf 0 on1 = true) by (apply lower_wf; exact (session_sound _ _ _ _ _ _ _ E1)).
  assert (T : told ALICE (snd (spec_run [] on1)) = told ALICE (snd (spec_run [] on2))) by (unfold on1, on2; rewrite !lower_run; cbn [snd]; now rewrite O).
  destruct (f_run_ok sigma aes fixk lab delta off f_init_g f_init_e) as (g & e & _ & _ & _ & Ef & _).
  destruct (garbler_view sigma aes Hash fixk lab delta Hd off on1 on2 M1 M2 W T g e Ef) as (n & n' & op & op' & P1 & P2 & P3 & P4).
  exists g, e, n, n', op, op'. auto 10.
Qed.
End V.

(** ** The TLS session *)
(** everything a session opens, from the specification *)
Definition session_opened (q : Z) (rounds : bool) (pa pb : Z) (rc rs : list N) (sh : option (list N)) (os : list fin_op) (cs : list gcall) :
    list (S_Netlist.owner * list bool) :=
  let pms := pms_of q pa pb in
  let ms := ms_spec pms rc rs sh in
  let kb := key_block ms rc rs in
  tls_opened rounds pms ms rc rs sh (map fin_pair os) ++
    flat_map (fun c => if ga_sec c then [] else
      [open_bytes (gc_ks (aesE (tls_client_key kb)) (aesE (tls_server_key kb)) (tls_client_iv kb) (tls_server_iv kb) c)]) cs.
Lemma tls_announce pa pb pa' pb' rc rs sh os cs :
  map announce (gcm_calls pa pb rc rs sh os cs) = map announce (gcm_calls pa' pb' rc rs sh os cs).
Proof. unfold gcm_calls, tls_calls. rewrite !map_app. cbn [map]. do 2 f_equal. destruct sh; reflexivity. Qed.
Section T.
Variables (sigma aes : N -> N) (Hash : list N -> N) (fixk lab : nat -> N) (delta : N).
Hypothesis Hd : getLSB delta = true.
Variables (orc' : list S_Netlist.nev -> nat -> bool) (junk : nat -> bool) (q : Z) (rounds : bool).
Variables (pa pb pa' pb' : Z) (rc rs : list N) (sh : option (list N)) (os : list fin_op) (cs : list gcall).
Hypothesis Ha : (0 <= pa < q)%Z.
Hypothesis Hb : (0 <= pb < q)%Z.
Hypothesis Ha' : (0 <= pa' < q)%Z.
Hypothesis Hb' : (0 <= pb' < q)%Z.
Hypothesis Hc : Forall byte8 rc.
Hypothesis Hs : Forall byte8 rs.
Hypothesis Hh : opt_wf sh.
Hypothesis Ho : Forall fin_wf os.
Hypothesis Hg : Forall gcall_wf cs.
Hypothesis Hz : rounds = true -> tls_sizes rc rs sh os.
Hypothesis HO : session_opened q rounds pa pb rc rs sh os cs = session_opened q rounds pa' pb' rc rs sh os cs.

Theorem evaluator_tls : exists x1 s1 x2 s2 y s' g e n op,
  on_session honest aes_ks_file aes_enc_file q rounds (gcm_calls pa pb rc rs sh os cs) cst0 = Ok (x1, s1) /\
  on_session honest aes_ks_file aes_enc_file q rounds (gcm_calls pa' pb' rc rs sh os cs) cst0 = Ok (x2, s2) /\
  off_session orc' junk aes_ks_file aes_enc_file q rounds (map announce (gcm_calls pa pb rc rs sh os cs)) cst0 = Ok (y, s') /\
  let on1 := lower (c_tr s1) in let on2 := lower (c_tr s2) in let off := lower (c_tr s') in
  f_run sigma aes fixk lab delta f_init_g f_init_e [] off = Ok (g, e, []) /\
  n_run sigma aes Hash fixk lab delta (fg_out g) (fe_GC e) (fe_pub e) n_init on1 = Ok (n, op) /\
  let l := ne_w n in let gs := S_GarbleView.gates 0 on1 in
  (NoDup (unknown_points sigma delta gs l) ->
   (forall p, In p (unknown_points sigma delta gs l) -> ~ In p (known_points sigma gs l)) ->
   let aes' p := N.lxor (aes p) (shift sigma delta gs l (fst (spec_run [] on1)) (fst (spec_run [] on2)) p) in
   let lab' k := N.lxor (lab k) (if xorb (nth k (inputs on1) false) (nth k (inputs on2) false) then delta else 0) in
   exists g' n' op',
    f_run sigma aes' fixk lab' delta f_init_g f_init_e [] off = Ok (g', e, []) /\
    f_sent sigma aes' fixk lab' delta f_init_g off = f_sent sigma aes fixk lab delta f_init_g off /\
    n_run sigma aes' Hash fixk lab' delta (fg_out g') (fe_GC e) (fe_pub e) n_init on2 = Ok (n', op') /\
    ne_w n' = ne_w n /\
    (forall ws, low_bits (ne_w n) ws = bxor (low_bits (ng_w n') ws) (ev s2 ws)) /\
    n_sent sigma aes' Hash fixk lab' delta (fg_out g') (fe_GC e) (fe_pub e) n_init on2 =
    n_sent sigma aes Hash fixk lab delta (fg_out g) (fe_GC e) (fe_pub e) n_init on1).
Proof.
  destruct (gcm_opened q rounds pa pb rc rs sh os cs Ha Hb Hc Hs Hh Ho Hg) as (x1 & s1 & E1 & O1).
  destruct (gcm_opened q rounds pa' pb' rc rs sh os cs Ha' Hb' Hc Hs Hh Ho Hg) as (x2 & s2 & E2 & O2).
  assert (O : S_Netlist.openings (c_tr s1) = S_Netlist.openings (c_tr s2)) by (rewrite O1, O2; exact HO).
  destruct (evaluator_session sigma aes Hash fixk lab delta Hd orc' junk _ _ q rounds _ _ x1 s1 x2 s2
    (gcm_sizes_ok q rounds pa pb rc rs sh os cs Ha Hb Hz Hg) (gcm_sizes_ok q rounds pa' pb' rc rs sh os cs Ha' Hb' Hz Hg)
    (tls_announce pa pb pa' pb' rc rs sh os cs) E1 E2 O) as (y & s' & F & g & e & n & op & Ef & R & K).
  exists x1, s1, x2, s2, y, s', g, e, n, op. split; [exact E1|]. split; [exact E2|]. split; [exact F|].
  intros on1 on2 off. split; [exact Ef|]. split; [exact R|]. intros l gs N1 N2.
  destruct (K N1 N2) as (g' & n' & op' & P1 & P2 & P3 & _ & P5 & P6 & P7). exists g', n', op'. auto 10.
Qed.
Theorem garbler_tls : exists x1 s1 x2 s2 y s' g e n n' op op',
  on_session honest aes_ks_file aes_enc_file q rounds (gcm_calls pa pb rc rs sh os cs) cst0 = Ok (x1, s1) /\
  on_session honest aes_ks_file aes_enc_file q rounds (gcm_calls pa' pb' rc rs sh os cs) cst0 = Ok (x2, s2) /\
  off_session orc' junk aes_ks_file aes_enc_file q rounds (map announce (gcm_calls pa pb rc rs sh os cs)) cst0 = Ok (y, s') /\
  f_run sigma aes fixk lab delta f_init_g f_init_e [] (lower (c_tr s')) = Ok (g, e, []) /\
  n_run sigma aes Hash fixk lab delta (fg_out g) (fe_GC e) (fe_pub e) n_init (lower (c_tr s1)) = Ok (n, op) /\
  n_run sigma aes Hash fixk lab delta (fg_out g) (fe_GC e) (fe_pub e) n_init (lower (c_tr s2)) = Ok (n', op') /\
  ng_w n' = ng_w n /\
  snd (n_sent sigma aes Hash fixk lab delta (fg_out g) (fe_GC e) (fe_pub e) n_init (lower (c_tr s1))) =
  snd (n_sent sigma aes Hash fixk lab delta (fg_out g) (fe_GC e) (fe_pub e) n_init (lower (c_tr s2))).
Proof.
  destruct (gcm_opened q rounds pa pb rc rs sh os cs Ha Hb Hc Hs Hh Ho Hg) as (x1 & s1 & E1 & O1).
  destruct (gcm_opened q rounds pa' pb' rc rs sh os cs Ha' Hb' Hc Hs Hh Ho Hg) as (x2 & s2 & E2 & O2).
  assert (O : S_Netlist.openings (c_tr s1) = S_Netlist.openings (c_tr s2)) by (rewrite O1, O2; exact HO).
  destruct (garbler_session sigma aes Hash fixk lab delta Hd orc' junk _ _ q rounds _ _ x1 s1 x2 s2
    (gcm_sizes_ok q rounds pa pb rc rs sh os cs Ha Hb Hz Hg) (gcm_sizes_ok q rounds pa' pb' rc rs sh os cs Ha' Hb' Hz Hg)
    (tls_announce pa pb pa' pb' rc rs sh os cs) E1 E2 O) as (y & s' & F & g & e & n & n' & op & op' & Ef & R & R' & P1 & P2).
  exists x1, s1, x2, s2, y, s', g, e, n, n', op, op'. auto 12.
Qed.
End T.
(** in rounds mode, without Finished messages and with secret records only, nothing is opened *)
Lemma nothing_opened q pa pb rc rs sh cs : Forall (fun c => ga_sec c = true) cs -> session_opened q true pa pb rc rs sh [] cs = [].
Proof.
  intro F. unfold session_opened. Local Transparent tls_opened. unfold tls_opened. cbn [map flat_map app].
  induction F as [|c cs Hc F IH]; [reflexivity|]. cbn [flat_map]. rewrite Hc. exact IH.
Qed.
(** in rounds mode the opened values are the verify data and the public key streams *)
Lemma rounds_equal q pa pb pa' pb' rc rs sh os cs :
  let ms := ms_spec (pms_of q pa pb) rc rs sh in let ms' := ms_spec (pms_of q pa' pb') rc rs sh in
  let kb := key_block ms rc rs in let kb' := key_block ms' rc rs in
  Forall (fun o => fin_vd ms o = fin_vd ms' o) os ->
  Forall (fun c => ga_sec c = false ->
    gc_ks (aesE (tls_client_key kb)) (aesE (tls_server_key kb)) (tls_client_iv kb) (tls_server_iv kb) c =
    gc_ks (aesE (tls_client_key kb')) (aesE (tls_server_key kb')) (tls_client_iv kb') (tls_server_iv kb') c) cs ->
  session_opened q true pa pb rc rs sh os cs = session_opened q true pa' pb' rc rs sh os cs.
Proof.
  intros ms ms' kb kb' F G. unfold session_opened. cbv zeta. fold ms ms'. fold kb kb'. unfold tls_opened. cbn [app]. clearbody kb kb'. clearbody ms ms'.
  refine (f_equal2 (@app _) _ _).
  - clear G. induction F as [|o os Ho F IH]; [cbn [map flat_map]; reflexivity|]. cbn [map flat_map]. rewrite IH. refine (f_equal (fun u => u ++ _) _).
    destruct o as [l t|l t]; cbn [fin_vd fin_pair fst snd] in *; now rewrite Ho.
  - induction G as [|c cs Hc G IH]; [cbn [flat_map]; reflexivity|]. cbn [flat_map]. rewrite IH. refine (f_equal (fun u => u ++ _) _). destruct (ga_sec c); [reflexivity|]. now rewrite (Hc eq_refl).
Qed.
