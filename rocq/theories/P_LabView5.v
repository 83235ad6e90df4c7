(** What a TLS session tells each party, circuits and records together. *)
From Coq Require Import List NArith ZArith Bool Arith Lia.
From Verif Require Import L_Bits L_Res L_Xor S_Sched S_View S_Lower S_GarbleView S_Codec S_Aes S_Gcm S_Tls S_Open.
From Verif Require S_Netlist S_Circuit P_AesNet.
From Verif Require Import M_EmpInteger M_Utils M_Bristol M_Bn M_Sym M_SymOn M_SymOff M_SymSess M_Block M_Ole2k M_Shares M_Commit M_Garble M_GarbleTr M_Handshake.
From Verif Require Import M_Aead M_Exch M_View M_LabRec M_LabView.
From Verif Require Import D_AesKs D_AesEnc P_Utils P_Gf128 P_Shares P_Gcm P_Aead P_AeadInst P_Sched P_Exch P_ExchAead P_ExchSess.
From Verif Require Import P_Lower P_Garble P_GarbleOpt P_Sha256Opt P_Handshake P_Session2 P_Sym P_SymTls P_SymGcm P_Labels P_Open2 P_Open3 P_SessView P_Det P_Stream P_StreamView P_Live P_Live2.
From Verif Require Import P_View P_ViewPriv P_ViewBob P_LabRec P_LabSess P_LabView P_LabView2 P_LabView3 P_LabView4.
Import ListNotations.
Local Open Scope N_scope.
Local Opaque mulBlock gf_mul invBlock computeKS computeAES_KS bytes_of_block block_of_bytes key_material block_to_bool
  aes_ks_file aes_enc_file aesE EK str_to_int gcm_ctext re_r key_block ms_spec tls_opened.

(** the keys and fixed nonce parts of the two objects *)
Record tkeys := { tk_c : list N; tk_s : list N; tk_fc : list N; tk_fs : list N }.
Definition tkeys_of (q pa pb : Z) (rc rs : list N) (sh : option (list N)) : tkeys :=
  let kb := key_block (ms_spec (pms_of q pa pb) rc rs sh) rc rs in
  {| tk_c := tls_client_key kb; tk_s := tls_server_key kb; tk_fc := tls_client_iv kb; tk_fs := tls_server_iv kb |}.
Definition h_nonzero (K : tkeys) : Prop := aesE (tk_c K) 0 <> 0 /\ aesE (tk_s K) 0 <> 0.
Definition bob_calls_alike (K K' : tkeys) := Forall2 (same_bob (tk_c K) (tk_s K) (tk_fc K) (tk_fs K) (tk_c K') (tk_s K') (tk_fc K') (tk_fs K')).
Definition alice_calls_alike (K K' : tkeys) := Forall2 (same_alice (tk_c K) (tk_s K) (tk_fc K) (tk_fs K) (tk_c K') (tk_s K') (tk_fc K') (tk_fs K')).
Definition ins_ok (cs : list (bool * ain)) : Prop := Forall (fun c => ain_ok (snd c)) cs.
(** the random values of the second session, given BOB's shares of H *)
Definition partner (K K' : tkeys) (B : list N) (sh : list (list S_Netlist.wire)) (cs cs' : list (bool * ain)) (v : rrand) : rrand :=
  re_v (tk_c K) (tk_s K) (tk_fc K) (tk_fs K) (tk_c K') (tk_s K') (tk_fc K') (tk_fs K')
    (N_of_bits (low_bits B (nth 0 sh []))) (N_of_bits (low_bits B (nth 1 sh []))) cs cs' v.
Lemma nonzero_k K : h_nonzero K -> forall s, kE (tk_c K) (tk_s K) s 0 <> 0.
Proof. intros [H1 H2] []; assumption. Qed.
Lemma bob_alike_sym K K' cs cs' : bob_calls_alike K K' cs cs' -> bob_calls_alike K' K cs' cs.
Proof.
  unfold bob_calls_alike. induction 1 as [|c c' cs cs' [Hs H] F IH]; constructor; [|exact IH].
  split; [now symmetry|]. rewrite Hs. now apply alike_bob_sym.
Qed.
Definition tkeys_ok (K : tkeys) : Prop := key_ok (tk_c K) /\ key_ok (tk_s K) /\ iv_ok (tk_fc K) /\ iv_ok (tk_fs K).
Lemma tkeys_of_ok q pa pb rc rs sh : tkeys_ok (tkeys_of q pa pb rc rs sh).
Proof. exact (tls_keys_ok (ms_spec (pms_of q pa pb) rc rs sh) rc rs). Qed.

Section G.
Variable gfr : N -> N -> N.
Hypothesis GFR : gfr_ok gfr.
Variable hash : list N -> list N.
Hypothesis HL : forall l, length (hash l) = DIGEST_SIZE.

(** partners pair the random values of the two sessions *)
Theorem partners K K' B sh cs cs' : tkeys_ok K -> tkeys_ok K' -> h_nonzero K -> h_nonzero K' -> bob_calls_alike K K' cs cs' -> ins_ok cs -> ins_ok cs' ->
  (forall v, rrand_ok cs v -> rrand_ok cs' (partner K K' B sh cs cs' v) /\ partner K' K B sh cs' cs (partner K K' B sh cs cs' v) = v) /\
  (forall v', rrand_ok cs' v' -> rrand_ok cs (partner K' K B sh cs' cs v') /\ partner K K' B sh cs cs' (partner K' K B sh cs' cs v') = v').
Proof.
  intros (A1 & A2 & _) (B1 & B2 & _) N0 N0' AL I1 I2. split; intros v R.
  - exact (re_v_ok gfr GFR hash _ _ _ _ _ _ _ _ A1 A2 B1 B2 (nonzero_k K N0) (nonzero_k K' N0') _ _ cs cs' v AL I1 I2 R).
  - exact (re_v_ok gfr GFR hash _ _ _ _ _ _ _ _ B1 B2 A1 A2 (nonzero_k K' N0') (nonzero_k K N0) _ _ cs' cs v (bob_alike_sym K K' cs cs' AL) I2 I1 R).
Qed.

(** the records of two sessions are the same for BOB: its objects, its outputs, what it received, and
    what it got from the OTs *)
Definition records_same_bob (K K' : tkeys) (sh : list (list S_Netlist.wire)) (A B A' : list N) (op op' : M_Garble.opened) (cs cs' : list (bool * ain)) : Prop :=
  forall v, rrand_ok cs v -> let v' := partner K K' B sh cs cs' v in
  exists xa sa xa' sa' c t out sb,
    runs_with_views (l_run gfr hash true A (saw true op) sh cs v) (l_run gfr hash false B (saw false op) sh cs v) (Ok xa) (Ok (c, t, out)) sa sb /\
    runs_with_views (l_run gfr hash true A' (saw true op') sh cs' v') (l_run gfr hash false B (saw false op') sh cs' v') (Ok xa') (Ok (c, t, out)) sa' sb /\
    lab_ots c t cs' v' = lab_ots c t cs v.
(** and for ALICE *)
Definition records_same_alice (sh : list (list S_Netlist.wire)) (A B B' : list N) (op op' : M_Garble.opened) (cs cs' : list (bool * ain)) : Prop :=
  forall v, rrand_ok cs v -> rrand_ok cs' v /\
  exists c t out sa xb sb xb' sb',
    runs_with_views (l_run gfr hash true A (saw true op) sh cs v) (l_run gfr hash false B (saw false op) sh cs v) (Ok (c, t, out)) (Ok xb) sa sb /\
    runs_with_views (l_run gfr hash true A (saw true op') sh cs' v) (l_run gfr hash false B' (saw false op') sh cs' v) (Ok (c, t, out)) (Ok xb') sa sb'.

Lemma saw_same alice (T : list (S_Netlist.owner * list bool)) op op' : (forall o, In o (map fst T) -> o = S_Netlist.OPub) ->
  Forall2 S_Circuit.seen (map low_open T) op -> Forall2 S_Circuit.seen (map low_open T) op' -> saw alice op = saw alice op'.
Proof.
  revert op op'. induction T as [|[o v] T IH]; intros op op' H F F'; inversion F as [|? x ? op0 S F0]; inversion F' as [|? x' ? op0' S' F0']; subst; [reflexivity|].
  cbn [saw map]. fold (saw alice op0) (saw alice op0'). rewrite (IH op0 op0' ltac:(intros; apply H; now right) F0 F0'). f_equal.
  pose proof (H o (or_introl eq_refl)) as ->. destruct x as [[p g] e], x' as [[p' g'] e']. cbn in S, S'.
  destruct S as [-> [-> ->]], S' as [-> [-> ->]]. reflexivity.
Qed.

(** ** The records part *)
Section R.
Variables (q : Z) (rounds : bool) (pa pb pa' pb' : Z) (rc rs : list N) (sh : option (list N)) (os : list fin_op) (cs cs' : list (bool * ain)).
Hypothesis Ha : (0 <= pa < q)%Z.
Hypothesis Hb : (0 <= pb < q)%Z.
Hypothesis Ha' : (0 <= pa' < q)%Z.
Hypothesis Hb' : (0 <= pb' < q)%Z.
Hypothesis Hc : Forall byte8 rc.
Hypothesis Hs : Forall byte8 rs.
Hypothesis Hh : opt_wf sh.
Hypothesis Ho : Forall fin_wf os.
Hypothesis Hz : rounds = true -> tls_sizes rc rs sh os.
Let K := tkeys_of q pa pb rc rs sh.
Let K' := tkeys_of q pa' pb' rc rs sh.
Hypothesis NE : cs <> [].
Hypothesis AI : ins_ok cs.
Hypothesis AI' : ins_ok cs'.
Lemma gin_wf l : ins_ok l -> Forall gcall_wf (map gcall_in l).
Proof.
  intro F. apply Forall_map. eapply Forall_impl; [|exact F]. intros [s i] H. cbn [snd] in H. unfold gcall_wf, gcall_in, gcall_of. cbn [ga_iv lc_in snd].
  destruct i; cbn [ain_ok in_iv] in *; destruct H as (_ & _ & H1 & H2 & _); auto.
Qed.
Variables (x : on_sess) (s1 s2 : cst) (op op' : M_Garble.opened).
Hypothesis E1 : on_session honest aes_ks_file aes_enc_file q rounds (gcm_calls pa pb rc rs sh os (map gcall_in cs)) cst0 = Ok (x, s1).
Hypothesis E2 : on_session honest aes_ks_file aes_enc_file q rounds (gcm_calls pa' pb' rc rs sh os (map gcall_in cs)) cst0 = Ok (x, s2).
Hypothesis S1 : Forall2 S_Circuit.seen (map low_open (S_Netlist.openings (c_tr s1))) op.
Hypothesis S2 : Forall2 S_Circuit.seen (map low_open (S_Netlist.openings (c_tr s2))) op'.

Lemma sess_values : exists hc hs wl, os_sh x = hc :: hs :: wl /\
  map (ev s1) (hc :: hs :: wl) = bits_of_N 128 (aesE (tk_c K) 0) :: bits_of_N 128 (aesE (tk_s K) 0) ::
    flat_map (gc_sh (aesE (tk_c K)) (aesE (tk_s K)) (tk_fc K) (tk_fs K)) (map gcall_in cs) /\
  map (ev s2) (hc :: hs :: wl) = bits_of_N 128 (aesE (tk_c K') 0) :: bits_of_N 128 (aesE (tk_s K') 0) ::
    flat_map (gc_sh (aesE (tk_c K')) (aesE (tk_s K')) (tk_fc K') (tk_fs K')) (map gcall_in cs) /\
  let opd := flat_map (fun c => if ga_sec c then [] else [str_to_int (gc_ks (aesE (tk_c K)) (aesE (tk_s K)) (tk_fc K) (tk_fs K) c)]) (map gcall_in cs) in
  let opd' := flat_map (fun c => if ga_sec c then [] else [str_to_int (gc_ks (aesE (tk_c K')) (aesE (tk_s K')) (tk_fc K') (tk_fs K') c)]) (map gcall_in cs) in
  (forall alice, skipn (length (saw alice op) - length opd) (saw alice op) = opd) /\
  (forall alice, skipn (length (saw alice op') - length opd') (saw alice op') = opd').
Proof.
  pose proof (gin_wf cs AI) as Wg.
  destruct (gcm_wires (fun _ _ => false) (fun _ => false) q rounds pa pb rc rs sh os (map gcall_in cs) Ha Hb Hc Hs Hh Ho Wg Hz) as (x1 & t1 & _ & _ & F1 & _ & _ & _ & V1).
  destruct (gcm_wires (fun _ _ => false) (fun _ => false) q rounds pa' pb' rc rs sh os (map gcall_in cs) Ha' Hb' Hc Hs Hh Ho Wg Hz) as (x2 & t2 & _ & _ & F2 & _ & _ & _ & V2).
  pose proof (eq_trans (eq_sym F1) E1) as X1. injection X1 as -> ->. pose proof (eq_trans (eq_sym F2) E2) as X2. injection X2 as -> ->.
  pose proof (gcm_openings q rounds pa pb rc rs sh os _ x s1 Ha Hb Hc Hs Hh Ho Wg E1) as O1.
  pose proof (gcm_openings q rounds pa' pb' rc rs sh os _ x s2 Ha' Hb' Hc Hs Hh Ho Wg E2) as O2. cbv zeta in O1, O2.
  rewrite opened_pub in O1, O2. rewrite O1 in S1. rewrite O2 in S2.
  destruct (os_sh x) as [|hc [|hs wl]]; try discriminate V1.
  exists hc, hs, wl. split; [reflexivity|]. split; [exact V1|]. split; [exact V2|]. split; intro alice.
  - exact (saw_last alice _ _ _ S1).
  - exact (saw_last alice _ _ _ S2).
Qed.
Lemma bob_part A B A' : h_nonzero K -> h_nonzero K' -> bob_calls_alike K K' cs cs' ->
  Forall (splits s1 A B) (os_sh x) -> Forall (splits s2 A' B) (os_sh x) -> records_same_bob K K' (os_sh x) A B A' op op' cs cs'.
Proof.
  intros N0 N0' AL P1 P2 v RK. destruct (tkeys_of_ok q pa pb rc rs sh) as (A1 & A2 & A3 & A4). destruct (tkeys_of_ok q pa' pb' rc rs sh) as (B1 & B2 & B3 & B4).
  fold K in A1, A2, A3, A4. fold K' in B1, B2, B3, B4.
  destruct sess_values as (hc & hs & wl & EX & V1 & V2 & Oa & Ob). cbv zeta in Oa, Ob. rewrite EX in *. cbv zeta. unfold partner. cbn [nth].
  destruct (same_reqs _ _ _ _ _ _ _ _ _ (bob_req (tk_c K) (tk_s K) (tk_fc K) (tk_fs K) (tk_c K') (tk_s K') (tk_fc K') (tk_fs K')) cs cs' AL) as [GQ OQ].
  rewrite GQ in OQ. rewrite OQ in Ob.
  exact (records_bob gfr GFR hash HL _ _ _ _ _ _ _ _ A1 A2 A3 A4 B1 B2 B3 B4 (nonzero_k K N0) (nonzero_k K' N0') s1 A B hc hs wl (saw true op) (saw false op)
    s2 A' (saw true op') (saw false op') cs cs' v P1 P2 V1 V2 (Oa true) (Oa false) (Ob true) (Ob false) NE AI AI' AL RK).
Qed.
Lemma alice_part A B B' : alice_calls_alike K K' cs cs' ->
  Forall (splits s1 A B) (os_sh x) -> Forall (splits s2 A B') (os_sh x) -> records_same_alice (os_sh x) A B B' op op' cs cs'.
Proof.
  intros AL P1 P2 v RK. destruct (tkeys_of_ok q pa pb rc rs sh) as (A1 & A2 & A3 & A4). destruct (tkeys_of_ok q pa' pb' rc rs sh) as (B1 & B2 & B3 & B4).
  fold K in A1, A2, A3, A4. fold K' in B1, B2, B3, B4.
  destruct sess_values as (hc & hs & wl & EX & V1 & V2 & Oa & Ob). cbv zeta in Oa, Ob. rewrite EX in *.
  destruct (same_reqs _ _ _ _ _ _ _ _ _ (fun c c' H => conj (proj1 (alice_req _ _ _ _ _ _ _ _ c c' H)) (fun _ => proj2 (alice_req _ _ _ _ _ _ _ _ c c' H))) cs cs' AL) as [GQ OQ].
  rewrite GQ in OQ. rewrite OQ in Ob.
  exact (records_alice gfr GFR hash HL _ _ _ _ _ _ _ _ A1 A2 A3 A4 B1 B2 B3 B4 s1 A B hc hs wl (saw true op) (saw false op)
    s2 B' (saw true op') (saw false op') cs cs' v P1 P2 V1 V2 (Oa true) (Oa false) (Ob true) (Ob false) NE AI AI' AL RK).
Qed.
End R.

Local Transparent tls_opened.
Lemma all_public q rounds pa pb rc rs sh os cs o : In o (map fst (session_opened q rounds pa pb rc rs sh os cs)) -> o = S_Netlist.OPub.
Proof.
  unfold session_opened, tls_opened. cbv zeta.
  set (P := fun l : list (S_Netlist.owner * list bool) => forall o, In o (map fst l) -> o = S_Netlist.OPub). revert o.
  assert (Pn : P []) by (intros o []). assert (Pa : forall a b, P a -> P b -> P (a ++ b)).
  { intros a b X Y o H. rewrite map_app in H. apply in_app_or in H as [H|H]; auto. }
  assert (Pm : forall {T} (f : T -> S_Netlist.owner * list bool) l, (forall t, fst (f t) = S_Netlist.OPub) -> P (map f l)).
  { intros T f l H o I. rewrite map_map in I. apply in_map_iff in I as (t & <- & _). apply H. }
  assert (Pf : forall {T} (f : T -> list (S_Netlist.owner * list bool)) l, (forall t, P (f t)) -> P (flat_map f l)).
  { intros T f l H. induction l as [|t l IH]; [exact Pn|]. cbn [flat_map]. now apply Pa. }
  assert (P1 : forall x, fst x = S_Netlist.OPub -> P [x]) by (intros x H o [<-|[]]; exact H).
  assert (Pp : forall b k l n, P (prf_opened b k l n)).
  { intros. unfold prf_opened. apply Pa; [destruct b; [now apply P1|exact Pn]|]. apply Pm. reflexivity. }
  apply (fun H : P _ => H).
  apply Pa; [apply Pa|].
  - destruct rounds; [exact Pn|]. apply Pa; apply Pp.
  - apply Pf. intro t. apply Pa; [destruct rounds; [exact Pn|apply Pp]|now apply P1].
  - apply Pf. intro t. destruct (ga_sec t); [exact Pn|now apply P1].
Qed.
Local Opaque tls_opened.

(** ** The two-phase backends *)
Section T.
Variables (sigma aes : N -> N) (Hash : list N -> N) (fixk lab : nat -> N) (delta : N).
Hypothesis Hd : getLSB delta = true.
Variables (orc' : list S_Netlist.nev -> nat -> bool) (junk : nat -> bool) (q : Z) (rounds : bool).
Variables (pa pb : Z) (rc rs : list N) (sh : option (list N)) (os : list fin_op) (cs cs' : list (bool * ain)).
Hypothesis Ha : (0 <= pa < q)%Z.
Hypothesis Hb : (0 <= pb < q)%Z.
Hypothesis Hc : Forall byte8 rc.
Hypothesis Hs : Forall byte8 rs.
Hypothesis Hh : opt_wf sh.
Hypothesis Ho : Forall fin_wf os.
Hypothesis Hz : rounds = true -> tls_sizes rc rs sh os.
Hypothesis NE : cs <> [].
Hypothesis AI : ins_ok cs.
Hypothesis AI' : ins_ok cs'.
Let K := tkeys_of q pa pb rc rs sh.
Let reqs := map gcall_in cs.

Lemma run_facts aes0 lab0 (off : list S_Circuit.instr) s g e n op calls x : on_session honest aes_ks_file aes_enc_file q rounds calls cst0 = Ok (x, s) ->
  map S_Circuit.shape off = map S_Circuit.shape (lower (c_tr s)) ->
  f_run sigma aes0 fixk lab0 delta f_init_g f_init_e [] off = Ok (g, e, []) ->
  n_run sigma aes0 Hash fixk lab0 delta (fg_out g) (fe_GC e) (fe_pub e) n_init (lower (c_tr s)) = Ok (n, op) ->
  Forall2 S_Circuit.seen (map low_open (S_Netlist.openings (c_tr s))) op /\ Forall (splits s (ng_w n) (ne_w n)) (os_sh x).
Proof.
  intros E M F R. assert (W : S_Circuit.wf 0 (lower (c_tr s)) = true) by (apply lower_wf; exact (session_sound _ _ _ _ _ _ _ E)).
  destruct (two_phase_ok sigma aes0 Hash fixk lab0 delta Hd off (lower (c_tr s)) M W) as (n2 & op2 & R2 & S2 & _ & L2 & _).
  unfold two_phase in R2. rewrite F in R2. cbn [bind] in R2. rewrite R in R2. injection R2 as <- <-. rewrite lower_run in S2, L2. cbn [fst snd] in S2, L2.
  split; [exact S2|]. apply Forall_forall. intros ws _. unfold splits. apply low_bits_xor with (delta := delta); assumption.
Qed.

Theorem evaluator_whole pa' : (0 <= pa' < q)%Z -> session_opened q rounds pa pb rc rs sh os reqs = session_opened q rounds pa' pb rc rs sh os reqs ->
  let K' := tkeys_of q pa' pb rc rs sh in
  h_nonzero K -> h_nonzero K' -> bob_calls_alike K K' cs cs' ->
  exists x s1 s2 y s' g e n op,
  on_session honest aes_ks_file aes_enc_file q rounds (gcm_calls pa pb rc rs sh os reqs) cst0 = Ok (x, s1) /\
  on_session honest aes_ks_file aes_enc_file q rounds (gcm_calls pa' pb rc rs sh os reqs) cst0 = Ok (x, s2) /\
  off_session orc' junk aes_ks_file aes_enc_file q rounds (map announce (gcm_calls pa pb rc rs sh os reqs)) cst0 = Ok (y, s') /\
  let on1 := lower (c_tr s1) in let on2 := lower (c_tr s2) in let off := lower (c_tr s') in
  f_run sigma aes fixk lab delta f_init_g f_init_e [] off = Ok (g, e, []) /\
  n_run sigma aes Hash fixk lab delta (fg_out g) (fe_GC e) (fe_pub e) n_init on1 = Ok (n, op) /\
  let l := ne_w n in let gs := S_GarbleView.gates 0 on1 in
  (NoDup (unknown_points sigma delta gs l) ->
   (forall p, In p (unknown_points sigma delta gs l) -> ~ In p (known_points sigma gs l)) ->
   let aes' p := N.lxor (aes p) (S_GarbleView.shift sigma delta gs l (fst (S_Circuit.spec_run [] on1)) (fst (S_Circuit.spec_run [] on2)) p) in
   let lab' k := N.lxor (lab k) (if xorb (nth k (inputs on1) false) (nth k (inputs on2) false) then delta else 0) in
   exists g' n' op',
    f_run sigma aes' fixk lab' delta f_init_g f_init_e [] off = Ok (g', e, []) /\
    f_sent sigma aes' fixk lab' delta f_init_g off = f_sent sigma aes fixk lab delta f_init_g off /\
    n_run sigma aes' Hash fixk lab' delta (fg_out g') (fe_GC e) (fe_pub e) n_init on2 = Ok (n', op') /\
    ne_w n' = ne_w n /\ saw false op' = saw false op /\
    n_sent sigma aes' Hash fixk lab' delta (fg_out g') (fe_GC e) (fe_pub e) n_init on2 =
    n_sent sigma aes Hash fixk lab delta (fg_out g) (fe_GC e) (fe_pub e) n_init on1 /\
    records_same_bob K K' (os_sh x) (ng_w n) (ne_w n) (ng_w n') op op' cs cs').
Proof.
  intros Ha' HO K' N0 N0' AL. pose proof (gin_wf cs AI) as Hg. fold reqs in Hg.
  destruct (gcm_opened q rounds pa pb rc rs sh os reqs Ha Hb Hc Hs Hh Ho Hg) as (x1 & s1 & E1 & O1).
  destruct (gcm_opened q rounds pa' pb rc rs sh os reqs Ha' Hb Hc Hs Hh Ho Hg) as (x2 & s2 & E2 & O2).
  assert (O : S_Netlist.openings (c_tr s1) = S_Netlist.openings (c_tr s2)) by (rewrite O1, O2; exact HO).
  assert (A : Forall2 (alike S_Netlist.OB) (gcm_calls pa pb rc rs sh os reqs) (gcm_calls pa' pb rc rs sh os reqs)) by (apply tls_alike; [discriminate|reflexivity]).
  destruct (same_inputs S_Netlist.OB _ _ q rounds _ _ x1 s1 x2 s2 ltac:(discriminate) A E1 E2 O) as (<- & _).
  pose proof (gcm_sizes_ok q rounds pa pb rc rs sh os reqs Ha Hb Hz Hg) as Z1. pose proof (gcm_sizes_ok q rounds pa' pb rc rs sh os reqs Ha' Hb Hz Hg) as Z2.
  pose proof (tls_announce pa pb pa' pb rc rs sh os reqs) as TA.
  destruct (evaluator_session sigma aes Hash fixk lab delta Hd orc' junk _ _ q rounds _ _ x1 s1 x1 s2 Z1 Z2 TA E1 E2 O) as (y & s' & F & g & e & n & op & Ef & R & KK).
  destruct (sess_shape orc' junk _ _ q rounds _ x1 s1 Z1 E1) as (y1 & t1 & F1 & H1). pose proof (eq_trans (eq_sym F1) F) as X1. injection X1 as -> ->.
  destruct (sess_shape orc' junk _ _ q rounds _ x1 s2 Z2 E2) as (y2 & t2 & F2 & H2). rewrite <- TA in F2. pose proof (eq_trans (eq_sym F2) F) as X2. injection X2 as -> ->.
  exists x1, s1, s2, y, s', g, e, n, op. split; [exact E1|]. split; [exact E2|]. split; [exact F|].
  intros on1 on2 off. split; [exact Ef|]. split; [exact R|]. intros l gs N1 N2 aes' lab'.
  destruct (KK N1 N2) as (g' & n' & op' & P1 & P2 & P3 & P4 & P5 & _ & P7). exists g', n', op'.
  fold on1 on2 l gs in P1, P2, P3, P7. fold aes' lab' in P1, P2, P3, P7. fold off in P1, P2.
  destruct (run_facts aes lab off s1 g e n op _ x1 E1 (lower_shape _ _ H1) Ef R) as [S1 L1].
  destruct (run_facts aes' lab' off s2 g' e n' op' _ x1 E2 (lower_shape _ _ H2) P1 P3) as [S2 L2].
  rewrite P5 in L2.
  split; [exact P1|]. split; [exact P2|]. split; [exact P3|]. split; [exact P5|]. split.
  { symmetry. apply (saw_same false (S_Netlist.openings (c_tr s1)) op op'); [|exact S1|rewrite O; exact S2]. rewrite O1. intros o I. apply (all_public _ _ _ _ _ _ _ _ _ o I). }
  split; [exact P7|].
  exact (bob_part q rounds pa pb pa' pb rc rs sh os cs cs' Ha Hb Ha' Hb Hc Hs Hh Ho Hz NE AI AI' x1 s1 s2 op op' E1 E2 S1 S2 _ _ _ N0 N0' AL L1 L2).
Qed.
Theorem garbler_whole pb' : (0 <= pb' < q)%Z -> session_opened q rounds pa pb rc rs sh os reqs = session_opened q rounds pa pb' rc rs sh os reqs ->
  alice_calls_alike K (tkeys_of q pa pb' rc rs sh) cs cs' ->
  exists x s1 s2 y s' g e n n' op op',
  on_session honest aes_ks_file aes_enc_file q rounds (gcm_calls pa pb rc rs sh os reqs) cst0 = Ok (x, s1) /\
  on_session honest aes_ks_file aes_enc_file q rounds (gcm_calls pa pb' rc rs sh os reqs) cst0 = Ok (x, s2) /\
  off_session orc' junk aes_ks_file aes_enc_file q rounds (map announce (gcm_calls pa pb rc rs sh os reqs)) cst0 = Ok (y, s') /\
  f_run sigma aes fixk lab delta f_init_g f_init_e [] (lower (c_tr s')) = Ok (g, e, []) /\
  n_run sigma aes Hash fixk lab delta (fg_out g) (fe_GC e) (fe_pub e) n_init (lower (c_tr s1)) = Ok (n, op) /\
  n_run sigma aes Hash fixk lab delta (fg_out g) (fe_GC e) (fe_pub e) n_init (lower (c_tr s2)) = Ok (n', op') /\
  ng_w n' = ng_w n /\ saw true op' = saw true op /\
  snd (n_sent sigma aes Hash fixk lab delta (fg_out g) (fe_GC e) (fe_pub e) n_init (lower (c_tr s1))) =
  snd (n_sent sigma aes Hash fixk lab delta (fg_out g) (fe_GC e) (fe_pub e) n_init (lower (c_tr s2))) /\
  records_same_alice (os_sh x) (ng_w n) (ne_w n) (ne_w n') op op' cs cs'.
Proof.
  intros Hb' HO AL. pose proof (gin_wf cs AI) as Hg. fold reqs in Hg.
  destruct (gcm_opened q rounds pa pb rc rs sh os reqs Ha Hb Hc Hs Hh Ho Hg) as (x1 & s1 & E1 & O1).
  destruct (gcm_opened q rounds pa pb' rc rs sh os reqs Ha Hb' Hc Hs Hh Ho Hg) as (x2 & s2 & E2 & O2).
  assert (O : S_Netlist.openings (c_tr s1) = S_Netlist.openings (c_tr s2)) by (rewrite O1, O2; exact HO).
  assert (A : Forall2 (alike S_Netlist.OA) (gcm_calls pa pb rc rs sh os reqs) (gcm_calls pa pb' rc rs sh os reqs)) by (apply tls_alike; [reflexivity|discriminate]).
  destruct (same_inputs S_Netlist.OA _ _ q rounds _ _ x1 s1 x2 s2 ltac:(discriminate) A E1 E2 O) as (<- & _).
  pose proof (gcm_sizes_ok q rounds pa pb rc rs sh os reqs Ha Hb Hz Hg) as Z1. pose proof (gcm_sizes_ok q rounds pa pb' rc rs sh os reqs Ha Hb' Hz Hg) as Z2.
  pose proof (tls_announce pa pb pa pb' rc rs sh os reqs) as TA.
  destruct (garbler_session sigma aes Hash fixk lab delta Hd orc' junk _ _ q rounds _ _ x1 s1 x1 s2 Z1 Z2 TA E1 E2 O) as (y & s' & F & g & e & n & n' & op & op' & Ef & R & R' & P1 & P2).
  destruct (sess_shape orc' junk _ _ q rounds _ x1 s1 Z1 E1) as (y1 & t1 & F1 & H1). pose proof (eq_trans (eq_sym F1) F) as X1. injection X1 as -> ->.
  destruct (sess_shape orc' junk _ _ q rounds _ x1 s2 Z2 E2) as (y2 & t2 & F2 & H2). rewrite <- TA in F2. pose proof (eq_trans (eq_sym F2) F) as X2. injection X2 as -> ->.
  destruct (run_facts aes lab _ s1 g e n op _ x1 E1 (lower_shape _ _ H1) Ef R) as [S1 L1].
  destruct (run_facts aes lab _ s2 g e n' op' _ x1 E2 (lower_shape _ _ H2) Ef R') as [S2 L2]. rewrite P1 in L2.
  exists x1, s1, s2, y, s', g, e, n, n', op, op'. repeat (split; [assumption|]). split.
  { symmetry. apply (saw_same true (S_Netlist.openings (c_tr s1)) op op'); [|exact S1|rewrite O; exact S2]. rewrite O1. intros o I. apply (all_public _ _ _ _ _ _ _ _ _ o I). }
  split; [exact P2|].
  exact (alice_part q rounds pa pb pa pb' rc rs sh os cs cs' Ha Hb Ha Hb' Hc Hs Hh Ho Hz NE AI AI' x1 s1 s2 op op' E1 E2 S1 S2 _ _ _ AL L1 L2).
Qed.
End T.

(** ** The streaming backends *)
Section S.
Variables (sigma aes : N -> N) (Hash : list N -> N) (fixk Kc : nat -> N) (rnd : nat -> bool) (lab : nat -> N) (delta : N).
Hypothesis Hd : getLSB delta = true.
Hypothesis Bd : blk delta.
Hypothesis Bs : forall x, blk (sigma x).
Hypothesis Ba : forall x, blk (aes x).
Hypothesis Bf : forall i, blk (fixk i).
Hypothesis Bk : forall i, blk (Kc i).
Hypothesis Bl : forall i, blk (lab i).
Variables (bs : nat) (q : Z) (rounds : bool) (pa pb : Z) (rc rs : list N) (sh : option (list N)) (os : list fin_op) (cs cs' : list (bool * ain)).
Hypothesis Hq : (32 <= BN_num_bytes q)%nat.
Hypothesis Ha : (0 <= pa < q)%Z.
Hypothesis Hb : (0 <= pb < q)%Z.
Hypothesis Hc : Forall byte8 rc.
Hypothesis Hs : Forall byte8 rs.
Hypothesis Hh : opt_wf sh.
Hypothesis Ho : Forall fin_wf os.
Hypothesis Hz : rounds = true -> tls_sizes rc rs sh os.
Hypothesis NE : cs <> [].
Hypothesis AI : ins_ok cs.
Hypothesis AI' : ins_ok cs'.
Let K := tkeys_of q pa pb rc rs sh.
Let reqs := map gcall_in cs.
Lemma stream_facts aes0 rnd0 pa0 pb0 x s o op : (forall x, blk (aes0 x)) ->
  on_session honest aes_ks_file aes_enc_file q rounds (gcm_calls pa0 pb0 rc rs sh os reqs) cst0 = Ok (x, s) ->
  clean_run sigma aes0 Hash fixk Kc rnd0 lab delta (o_init Kc rnd0 delta bs) [] [] (lower (c_tr s)) ->
  o_run sigma aes0 Hash fixk Kc rnd0 lab delta (o_init Kc rnd0 delta bs) (lower (c_tr s)) = Ok (o, op) ->
  Forall2 S_Circuit.seen (map low_open (S_Netlist.openings (c_tr s))) op /\ Forall (splits s (og_w o) (oe_w o)) (os_sh x).
Proof.
  intros Ba0 E Cl R.
  assert (FM : exists c l, gcm_calls pa0 pb0 rc rs sh os reqs = c :: l /\ sets_master c).
  { unfold gcm_calls. destruct sh; eexists; eexists; (split; [reflexivity|exact I]). }
  destruct FM as (c & cl & EC & Mc). rewrite EC in E.
  destruct (stream_session sigma aes0 Hash fixk Kc rnd0 lab delta Hd Bd Bs Ba0 Bf Bk Bl bs _ _ q rounds c cl x s net_live_ks net_live_enc Hq Mc E Cl) as (o2 & op2 & R2 & S2 & L2 & _).
  pose proof (eq_trans (eq_sym R) R2) as X. injection X as <- <-. split; assumption.
Qed.
Theorem stream_evaluator_whole pa' : (0 <= pa' < q)%Z -> session_opened q rounds pa pb rc rs sh os reqs = session_opened q rounds pa' pb rc rs sh os reqs ->
  let K' := tkeys_of q pa' pb rc rs sh in
  h_nonzero K -> h_nonzero K' -> bob_calls_alike K K' cs cs' ->
  exists x s1 s2,
  on_session honest aes_ks_file aes_enc_file q rounds (gcm_calls pa pb rc rs sh os reqs) cst0 = Ok (x, s1) /\
  on_session honest aes_ks_file aes_enc_file q rounds (gcm_calls pa' pb rc rs sh os reqs) cst0 = Ok (x, s2) /\
  let on1 := lower (c_tr s1) in let on2 := lower (c_tr s2) in
  let s0 := o_init Kc rnd delta bs in
  (clean_run sigma aes Hash fixk Kc rnd lab delta s0 [] [] on1 ->
   exists o op, o_run sigma aes Hash fixk Kc rnd lab delta s0 on1 = Ok (o, op) /\
   let l := oe_w o in let gs := live_gates 0 [] on1 in
   ((forall i, (i < length l)%nat -> S_Circuit.kind (fold_left S_Circuit.kind_step on1 []) i = None -> ~ special (N.lxor (lbl l i) delta)) ->
    NoDup (unknown_points sigma delta gs l) -> (forall p, In p (unknown_points sigma delta gs l) -> ~ In p (known_points sigma gs l)) ->
    let aes' p := N.lxor (aes p) (S_GarbleView.shift sigma delta gs l (fst (S_Circuit.spec_run [] on1)) (fst (S_Circuit.spec_run [] on2)) p) in
    exists o' op', o_run sigma aes' Hash fixk Kc rnd lab delta s0 on2 = Ok (o', op') /\
     oe_w o' = oe_w o /\ oe_f o' = oe_f o /\ saw false op' = saw false op /\
     o_msgs sigma aes' Hash fixk Kc rnd lab delta s0 on2 = o_msgs sigma aes Hash fixk Kc rnd lab delta s0 on1 /\
     records_same_bob K K' (os_sh x) (og_w o) (oe_w o) (og_w o') op op' cs cs')).
Proof.
  intros Ha' HO K' N0 N0' AL. pose proof (gin_wf cs AI) as Hg. fold reqs in Hg.
  destruct (gcm_opened q rounds pa pb rc rs sh os reqs Ha Hb Hc Hs Hh Ho Hg) as (x1 & s1 & E1 & O1).
  destruct (gcm_opened q rounds pa' pb rc rs sh os reqs Ha' Hb Hc Hs Hh Ho Hg) as (x2 & s2 & E2 & O2).
  assert (O : S_Netlist.openings (c_tr s1) = S_Netlist.openings (c_tr s2)) by (rewrite O1, O2; exact HO).
  assert (A : Forall2 (alike S_Netlist.OB) (gcm_calls pa pb rc rs sh os reqs) (gcm_calls pa' pb rc rs sh os reqs)) by (apply tls_alike; [discriminate|reflexivity]).
  destruct (same_inputs S_Netlist.OB _ _ q rounds _ _ x1 s1 x2 s2 ltac:(discriminate) A E1 E2 O) as (<- & _).
  exists x1, s1, s2. split; [exact E1|]. split; [exact E2|]. intros on1 on2 s0 Cl.
  destruct (stream_evaluator_session sigma aes Hash fixk Kc rnd lab delta Hd Bd Bs Ba Bf Bk Bl bs _ _ q rounds _ _ x1 s1 x1 s2 A E1 E2 O Cl) as (o & op & R & KK).
  exists o, op. split; [exact R|]. intros l gs Sp N1 N2 aes'.
  destruct (KK Sp N1 N2) as (o' & op' & P1 & _ & P3 & P4 & P5 & P6 & P7 & _). exists o', op'.
  destruct (stream_facts aes rnd pa pb x1 s1 o op Ba E1 Cl R) as [S1 L1].
  destruct (stream_facts aes' rnd pa' pb x1 s2 o' op' P7 E2 P6 P1) as [S2 L2]. rewrite P3 in L2.
  split; [exact P1|]. split; [exact P3|]. split; [exact P4|]. split.
  { symmetry. apply (saw_same false (S_Netlist.openings (c_tr s1)) op op'); [|exact S1|rewrite O; exact S2]. rewrite O1. intros i I. apply (all_public _ _ _ _ _ _ _ _ _ i I). }
  split; [exact P5|].
  exact (bob_part q rounds pa pb pa' pb rc rs sh os cs cs' Ha Hb Ha' Hb Hc Hs Hh Ho Hz NE AI AI' x1 s1 s2 op op' E1 E2 S1 S2 _ _ _ N0 N0' AL L1 L2).
Qed.
Theorem stream_garbler_whole pb' : (0 <= pb' < q)%Z -> session_opened q rounds pa pb rc rs sh os reqs = session_opened q rounds pa pb' rc rs sh os reqs ->
  alice_calls_alike K (tkeys_of q pa pb' rc rs sh) cs cs' ->
  exists x s1 s2,
  on_session honest aes_ks_file aes_enc_file q rounds (gcm_calls pa pb rc rs sh os reqs) cst0 = Ok (x, s1) /\
  on_session honest aes_ks_file aes_enc_file q rounds (gcm_calls pa pb' rc rs sh os reqs) cst0 = Ok (x, s2) /\
  let on1 := lower (c_tr s1) in let on2 := lower (c_tr s2) in
  let rnd' m := xorb (rnd m) (xorb (nth m (buffered_inputs bs on1) false) (nth m (buffered_inputs bs on2) false)) in
  let s0 := o_init Kc rnd delta bs in let s0' := o_init Kc rnd' delta bs in
  (clean_run sigma aes Hash fixk Kc rnd lab delta s0 [] [] on1 -> clean_run sigma aes Hash fixk Kc rnd' lab delta s0' [] [] on2 ->
   exists o op o' op', o_run sigma aes Hash fixk Kc rnd lab delta s0 on1 = Ok (o, op) /\ o_run sigma aes Hash fixk Kc rnd' lab delta s0' on2 = Ok (o', op') /\
    og_w o' = og_w o /\ og_f o' = og_f o /\ saw true op' = saw true op /\
    o_msgs sigma aes Hash fixk Kc rnd' lab delta s0' on2 = o_msgs sigma aes Hash fixk Kc rnd lab delta s0 on1 /\
    records_same_alice (os_sh x) (og_w o) (oe_w o) (oe_w o') op op' cs cs').
Proof.
  intros Hb' HO AL. pose proof (gin_wf cs AI) as Hg. fold reqs in Hg.
  destruct (gcm_opened q rounds pa pb rc rs sh os reqs Ha Hb Hc Hs Hh Ho Hg) as (x1 & s1 & E1 & O1).
  destruct (gcm_opened q rounds pa pb' rc rs sh os reqs Ha Hb' Hc Hs Hh Ho Hg) as (x2 & s2 & E2 & O2).
  assert (O : S_Netlist.openings (c_tr s1) = S_Netlist.openings (c_tr s2)) by (rewrite O1, O2; exact HO).
  assert (A : Forall2 (alike S_Netlist.OA) (gcm_calls pa pb rc rs sh os reqs) (gcm_calls pa pb' rc rs sh os reqs)) by (apply tls_alike; [reflexivity|discriminate]).
  destruct (same_inputs S_Netlist.OA _ _ q rounds _ _ x1 s1 x2 s2 ltac:(discriminate) A E1 E2 O) as (<- & _).
  exists x1, s1, s2. split; [exact E1|]. split; [exact E2|]. intros on1 on2 rnd' s0 s0' Cl Cl'.
  destruct (stream_garbler_session sigma aes Hash fixk Kc rnd lab delta Hd Bd Bs Ba Bf Bk Bl bs _ _ q rounds _ _ x1 s1 x1 s2 A E1 E2 O Cl Cl') as (o & op & o' & op' & P1 & P2 & P3 & P4 & P5 & _).
  destruct (stream_facts aes rnd pa pb x1 s1 o op Ba E1 Cl P1) as [S1 L1].
  destruct (stream_facts aes rnd' pa pb' x1 s2 o' op' Ba E2 Cl' P2) as [S2 L2]. rewrite P3 in L2.
  exists o, op, o', op'. split; [exact P1|]. split; [exact P2|]. split; [exact P3|]. split; [exact P4|]. split.
  { symmetry. apply (saw_same true (S_Netlist.openings (c_tr s1)) op op'); [|exact S1|rewrite O; exact S2]. rewrite O1. intros i I. apply (all_public _ _ _ _ _ _ _ _ _ i I). }
  split; [exact P5|].
  exact (alice_part q rounds pa pb pa pb' rc rs sh os cs cs' Ha Hb Ha Hb' Hc Hs Hh Ho Hz NE AI AI' x1 s1 s2 op op' E1 E2 S1 S2 _ _ _ AL L1 L2).
Qed.
End S.
End G.
