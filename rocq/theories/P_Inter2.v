(** Sessions in which circuits and records take turns on the channel: the requests of each call and the
    values on the wires that it turns into shares. *)
From Coq Require Import List NArith ZArith Bool Arith Lia.
From Verif Require Import L_Bits L_Res L_Xor S_Sched S_Lower S_Codec S_Aes S_Gcm S_Tls S_Open.
From Verif Require S_Netlist S_Circuit P_AesNet.
From Verif Require Import M_EmpInteger M_Utils M_Bristol M_Bn M_Sym M_SymOn M_SymSess M_Block M_Ole2k M_Shares M_Commit M_Garble M_Handshake.
From Verif Require Import M_Aead M_Exch M_View M_LabRec M_Inter.
From Verif Require Import D_AesKs D_AesEnc P_Gf128 P_Utils P_Shares P_Gcm P_Aead P_AeadInst P_Sched P_Exch P_ExchAead P_ExchSess.
From Verif Require Import P_Sha256Opt P_Handshake P_Session2 P_Sym P_SymTls P_SymGcm P_Labels P_Open2 P_Open3 P_LabRec P_LabSess P_Inter.
From Verif Require P_SymVal P_Open P_Live P_Live2.
Import ListNotations.
Local Open Scope N_scope.
Local Opaque aes_ks_file aes_enc_file aesE EK str_to_int gcm_ctext key_block ms_spec tls_opened mulBlock invBlock bytes_of_block block_of_bytes.

Notation odo := (on_do honest aes_ks_file aes_enc_file).
Notation oses := (on_session honest aes_ks_file aes_enc_file).
Notation oitems := (items honest aes_ks_file aes_enc_file).

(** * One call *)
Lemma do_sh x c s x' s' : odo x c s = Ok (x', s') ->
  match c with
  | NAead _ => exists h, os_sh x' = os_sh x ++ [h]
  | NEncrypt _ _ _ _ | NDecrypt _ _ _ _ => exists z0 z, os_sh x' = os_sh x ++ [z0; z]
  | _ => os_sh x' = os_sh x
  end.
Proof.
  destruct c; cbn [on_do]; intro E.
  - P_Open.mi E. injection E as <- <-. reflexivity.
  - P_Open.mi E. injection E as <- <-. reflexivity.
  - P_Open.mi E. injection E as <- <-. reflexivity.
  - P_Open.mi E. destruct x0. injection E as <- <-. reflexivity.
  - P_Open.mi E. destruct x0. injection E as <- <-. reflexivity.
  - P_Open.mi E. destruct x0. injection E as <- <-. cbn. eauto.
  - unfold on_crypt_call in E. P_Open.mi E. P_Open.mi E. destruct x1. injection E as <- <-. cbn. eauto.
  - unfold on_crypt_call in E. P_Open.mi E. P_Open.mi E. destruct x1. injection E as <- <-. cbn. eauto.
Qed.
(** what is known of a state of the session *)
Definition at_ (x : on_sess) (s : cst) : Prop := exists v, P_SymVal.wf s /\ P_SymVal.vsess s x v.
Lemma at_calls x s cs x' s' : at_ x s -> sfold odo cs x s = Ok (x', s') -> at_ x' s' /\ P_SymVal.ext s s'.
Proof.
  intros (v & W & V) E. pose proof (P_SymVal.tri_calls aes_ks_file aes_enc_file cs s x v W V) as T. unfold P_SymVal.tri in T. rewrite E in T.
  destruct (v_calls aes_ks_file aes_enc_file cs v) as [v'| |]; try contradiction. destruct T as (W' & X & V'). split; [exists v'; auto|exact X].
Qed.
Lemma at_do x s c x' s' : at_ x s -> odo x c s = Ok (x', s') -> at_ x' s' /\ P_SymVal.ext s s'.
Proof.
  intros A E. apply (at_calls x s [c] x' s' A). cbn [sfold]. unfold mbind. rewrite E. reflexivity.
Qed.
Lemma sfold_cons c cs x s x' s' : sfold odo (c :: cs) x s = Ok (x', s') -> exists x1 s1, odo x c s = Ok (x1, s1) /\ sfold odo cs x1 s1 = Ok (x', s').
Proof. cbn [sfold]. intro E. P_Open.mi E. eauto. Qed.
Lemma sfold_app_ok cs1 : forall cs2 x s x1 s1, sfold odo cs1 x s = Ok (x1, s1) -> sfold odo (cs1 ++ cs2) x s = sfold odo cs2 x1 s1.
Proof.
  induction cs1 as [|c cs1 IH]; intros cs2 x s x1 s1 E; cbn [app sfold] in *.
  - injection E as <- <-. reflexivity.
  - P_Open.mi E. unfold mbind. rewrite E0. cbn [bind fst snd]. apply IH, E.
Qed.
(** the requests of a call are what it adds to the trace *)
Lemma seg_low (s s' : cst) : P_SymVal.ext s s' ->
  lower (c_tr s') = lower (c_tr s) ++ map low (rev (firstn (length (c_tr s') - length (c_tr s)) (c_tr s'))).
Proof.
  intros [l E]. rewrite E, app_length, Nat.add_sub, firstn_app, Nat.sub_diag, firstn_all, firstn_O, app_nil_r.
  unfold lower. rewrite rev_app_distr, map_app. reflexivity.
Qed.
Lemma skipn_add {A} (l r : list A) : skipn (length l) (l ++ r) = r.
Proof. now rewrite skipn_app, Nat.sub_diag, skipn_all. Qed.
(** the items contain the calls and, put together, the circuit *)
Lemma items_whole : forall cs x s x' s', at_ x s -> sfold odo (map on_of cs) x s = Ok (x', s') ->
  exists its, oitems cs x s = Ok its /\ map it_call its = cs /\ lower (c_tr s') = lower (c_tr s) ++ flat_map it_seg its.
Proof.
  induction cs as [|c cs IH]; intros x s x' s' A E.
  - injection E as <- <-. exists []. cbn. now rewrite app_nil_r.
  - cbn [map] in E. apply sfold_cons in E as (x1 & s1 & E1 & E). destruct (at_do _ _ _ _ _ A E1) as [A1 X].
    destruct (IH _ _ _ _ A1 E) as (its & I1 & I2 & I3). cbn [items]. rewrite E1, I1. cbn [bind]. eexists. split; [reflexivity|].
    cbn [map it_call flat_map it_seg]. split; [now f_equal|]. rewrite I3, (seg_low _ _ X), <- app_assoc. reflexivity.
Qed.
Lemma on_of_rec o : on_of (CRec o) = to_call (gcall_of o).
Proof. unfold on_of, to_call, gcall_of. cbn. destruct (lc_in o), (lc_srv o); reflexivity. Qed.
Definition plain (c : on_call) : Prop := match c with NAead _ | NEncrypt _ _ _ _ | NDecrypt _ _ _ _ => False | _ => True end.
Lemma tls_plain pa pb rc rs sh os : Forall plain (tls_calls pa pb rc rs sh os).
Proof.
  unfold tls_calls. destruct sh; cbn [app]; repeat (constructor; [exact I|]); apply Forall_map, Forall_forall; intros [a b|a b] _; exact I.
Qed.
Lemma gcm_first pa pb rc rs sh os cs : exists c t, gcm_calls pa pb rc rs sh os cs = c :: t /\ P_Live2.sets_master c.
Proof. unfold gcm_calls. destruct sh; eexists; eexists; (split; [reflexivity|exact I]). Qed.
Lemma at0 q rounds : at_ (mkOnSess (on_hs_new q rounds) [] [] []) cst0.
Proof.
  exists {| v_hs := hs_new q rounds; v_aeads := []; v_out := []; v_sh := [] |}. split; [split; [reflexivity|exact I]|].
  constructor; [|constructor|reflexivity|constructor]. repeat (constructor; cbn; auto).
Qed.

(** * The session on any backend *)
Section B.
Variables (J SA SB : Type).
Variable st : list S_Circuit.instr -> J -> Prop.
Variables (fA : J -> SA) (fB : J -> SB).
Variables (labA : SA -> list N) (labB : SB -> list N) (sawA : SA -> list (list bool)) (sawB : SB -> list (list bool)).
Variables (q : Z) (rounds : bool).
Variable tf : list S_Netlist.nev.    (* the trace of the whole session *)
Definition part (t : list S_Netlist.nev) : Prop := exists t2, tf = t2 ++ t.
Hypothesis HST : forall t, part t -> exists j, st (lower t) j.
Hypothesis HB : forall c cs x s j, P_Live2.sets_master c -> oses q rounds (c :: cs) cst0 = Ok (x, s) -> part (c_tr s) -> st (lower (c_tr s)) j ->
  Forall (splits s (labA (fA j)) (labB (fB j))) (os_sh x) /\
  exists op, sawA (fA j) = saw true op /\ sawB (fB j) = saw false op /\ Forall2 S_Circuit.seen (map low_open (S_Netlist.openings (c_tr s))) op.

Variables (pa pb : Z) (rc rs : list N) (sh : option (list N)) (os : list fin_op).
Hypothesis Ha : (0 <= pa < q)%Z.
Hypothesis Hb : (0 <= pb < q)%Z.
Hypothesis Hc : Forall byte8 rc.
Hypothesis Hs : Forall byte8 rs.
Hypothesis Hh : opt_wf sh.
Hypothesis Ho : Forall fin_wf os.
Hypothesis Hz : rounds = true -> tls_sizes rc rs sh os.
Notation kb := (key_block (ms_spec (pms_of q pa pb) rc rs sh) rc rs).
Notation kc := (tls_client_key kb).
Notation ksv := (tls_server_key kb).
Notation fc := (tls_client_iv kb).
Notation fs := (tls_server_iv kb).
Notation gd := (good J SA SB st fA fB labA labB sawA sawB kc ksv fc fs).
Notation calls l := (gcm_calls pa pb rc rs sh os (map gcall_of l)).
Notation x0 := (mkOnSess (on_hs_new q rounds) [] [] []).
Lemma calls_ok l : Forall lcall_wf l -> exists x s, sfold odo (calls l) x0 cst0 = Ok (x, s) /\
  map (ev s) (os_sh x) = bits_of_N 128 (aesE kc 0) :: bits_of_N 128 (aesE ksv 0) :: flat_map (gc_sh (aesE kc) (aesE ksv) fc fs) (map gcall_of l) /\
  S_Netlist.openings (c_tr s) = tls_opened rounds (pms_of q pa pb) (ms_spec (pms_of q pa pb) rc rs sh) rc rs sh (map fin_pair os) ++
    map (pair S_Netlist.OPub) (flat_map (fun c => if ga_sec c then [] else [str_to_int (gc_ks (aesE kc) (aesE ksv) fc fs c)]) (map gcall_of l)).
Proof.
  intro W. pose proof (gcalls_wf l W) as Wg.
  destruct (gcm_wires (fun _ _ => false) (fun _ => false) q rounds pa pb rc rs sh os (map gcall_of l) Ha Hb Hc Hs Hh Ho Wg Hz) as (x & s & _ & _ & E & _ & _ & _ & V).
  pose proof (gcm_openings q rounds pa pb rc rs sh os _ x s Ha Hb Hc Hs Hh Ho Wg E) as O. cbv zeta in O. rewrite opened_pub in O.
  exists x, s. split; [exact E|]. split; [exact V|exact O].
Qed.
Lemma calls_snoc l o : calls (l ++ [o]) = calls l ++ [on_of (CRec o)].
Proof. rewrite on_of_rec. unfold gcm_calls, record_calls. rewrite !map_app, <- app_assoc. reflexivity. Qed.
Lemma calls_app l l2 : calls (l ++ l2) = calls l ++ map on_of (map CRec l2).
Proof.
  unfold gcm_calls, record_calls. rewrite !map_app, <- app_assoc. cbn [app]. do 4 f_equal. rewrite !map_map. apply map_ext. intro o. symmetry. apply on_of_rec.
Qed.
Lemma part_ext s1 s2 : P_SymVal.ext s1 s2 -> part (c_tr s2) -> part (c_tr s1).
Proof. intros [l E] [t F]. exists (t ++ l). now rewrite F, E, app_assoc. Qed.
Lemma sh2 {A} (f : A -> list bool) (a : list A) (z0 z : A) (u : list (list bool)) v0 v : map f (a ++ [z0; z]) = u ++ [v0; v] -> f z0 = v0 /\ f z = v.
Proof.
  rewrite map_app. cbn [map]. intro E. change [f z0; f z] with ([f z0] ++ [f z]) in E. change [v0; v] with ([v0] ++ [v]) in E.
  rewrite !app_assoc in E. apply app_inj_tail in E as [E ->]. apply app_inj_tail in E as [_ ->]. auto.
Qed.
Lemma ev_len s ws v : ev s ws = v -> length ws = length v.
Proof. intros <-. unfold ev. now rewrite map_length. Qed.

(** the records *)
Lemma good_recs : forall l2 l1 x s xf sf j, Forall lcall_wf (l1 ++ l2) -> sfold odo (calls l1) x0 cst0 = Ok (x, s) ->
  sfold odo (calls (l1 ++ l2)) x0 cst0 = Ok (xf, sf) -> c_tr sf = tf -> st (lower (c_tr s)) j ->
  exists its jf, oitems (map CRec l2) x s = Ok its /\ gd (lower (c_tr s)) j 2 its l2 jf /\ st (lower tf) jf /\ (its = [] -> l2 = []).
Proof.
  induction l2 as [|o l2 IH]; intros l1 x s xf sf j W E EF T Sj.
  - rewrite app_nil_r in EF. rewrite E in EF. injection EF as -> ->. rewrite <- T. exists [], j. cbn. repeat split; try assumption. constructor. exact Sj.
  - destruct (at_calls _ _ _ _ _ (at0 q rounds) E) as [A _].
    assert (W1 : Forall lcall_wf (l1 ++ [o])).
    { apply Forall_app in W as [W1 W2]. apply Forall_app. split; [exact W1|]. constructor; [now inversion W2|constructor]. }
    replace (l1 ++ o :: l2) with ((l1 ++ [o]) ++ l2) in * by now rewrite <- app_assoc.
    destruct (calls_ok (l1 ++ [o]) W1) as (x1 & s1 & E1 & V & O).
    pose proof E1 as E2. rewrite calls_snoc, (sfold_app_ok _ _ _ _ _ _ E) in E2. apply sfold_cons in E2 as (x2 & s2 & D & E2). injection E2 as -> ->.
    destruct (at_do _ _ _ _ _ A D) as [A1 X].
    pose proof EF as X2. rewrite calls_app, (sfold_app_ok _ _ _ _ _ _ E1) in X2. destruct (at_calls _ _ _ _ _ A1 X2) as [_ X3]. clear X2.
    assert (P1 : part (c_tr s1)) by (apply (part_ext _ _ X3); rewrite T; exists []; reflexivity).
    destruct (HST _ P1) as [j1 S1].
    destruct (IH (l1 ++ [o]) x1 s1 xf sf j1 W E1 EF T S1) as (its & jf & I1 & I2 & I3 & _).
    destruct (gcm_first pa pb rc rs sh os (map gcall_of (l1 ++ [o]))) as (c & t & EC & M).
    pose proof E1 as E3. rewrite EC in E3. destruct (HB c t x1 s1 j1 M E3 P1 S1) as (Sp & op & SA1 & SB1 & Se).
    pose proof (do_sh _ _ _ _ _ D) as Q.
    assert (Q' : exists z0 z, os_sh x1 = os_sh x ++ [z0; z]) by (rewrite on_of_rec in Q; unfold to_call in Q; destruct (ga_enc (gcall_of o)); exact Q).
    clear Q. destruct Q' as (z0 & z & Q).
    cbn [map items]. rewrite D, I1. cbn [bind]. eexists _, jf. split; [reflexivity|]. split; [|split; [exact I3|discriminate]].
    rewrite (seg_low _ _ X) in I2, S1.
    rewrite Q, skipn_add.
    rewrite map_app, flat_map_app in V. cbn [map flat_map gc_sh app] in V. rewrite Q in V.
    change (bits_of_N 128 (aesE kc 0) :: bits_of_N 128 (aesE ksv 0) :: ?a ++ ?b) with ((bits_of_N 128 (aesE kc 0) :: bits_of_N 128 (aesE ksv 0) :: a) ++ b) in V.
    apply sh2 in V as [V0 V1].
    rewrite Q in Sp. apply Forall_app in Sp as [_ Sp].
    assert (Wo : lcall_wf o) by (apply Forall_app in W1 as [_ W1]; now inversion W1).
    assert (OL : in_sec (lc_in o) = false -> forall alice, last (saw alice op) [] = str_to_int (gc_ks (aesE kc) (aesE ksv) fc fs (gcall_of o))).
    { intros NS alice. rewrite O in Se. pose proof (saw_last alice _ _ _ Se) as SL. rewrite map_app, flat_map_app in SL. cbn [map flat_map app] in SL.
      change (ga_sec (gcall_of o)) with (in_sec (lc_in o)) in SL. rewrite NS in SL. cbn [app] in SL.
      rewrite <- (firstn_skipn (length (saw alice op) - length (flat_map (fun c => if ga_sec c then [] else [str_to_int (gc_ks (aesE kc) (aesE ksv) fc fs c)]) (map gcall_of l1) ++ [str_to_int (gc_ks (aesE kc) (aesE ksv) fc fs (gcall_of o))])) (saw alice op)).
      rewrite SL, app_assoc. apply last_last. }
    apply good_rec with (j1 := j1); try assumption.
    + rewrite (ev_len _ _ _ V0). apply bits_of_N_length.
    + rewrite (ev_len _ _ _ V1), P_AesNet.str_to_int_length. unfold gc_ks. destruct (ga_srv (gcall_of o)); rewrite ctext_length, repeat_length; reflexivity.
    + rewrite SA1, SB1.
      destruct (owns_fit kc ksv fc fs s1 (labA (fA j1)) (labB (fB j1)) [o] [z0; z] Sp) as (F & _).
      { cbn [map flat_map gc_sh app]. now rewrite V0, V1. }
      cbn [map flat_map owns app] in F. change (ga_sec (gcall_of o)) with (in_sec (lc_in o)) in F.
      destruct (in_sec (lc_in o)) eqn:NS; cbn [app combine] in F; clear T; inversion F as [|? ? ? ? F1 _]; subst; cbn [fst snd] in F1; [exact F1|].
      rewrite !(OL eq_refl). exact F1.
Qed.
(** the constructors of the two AEAD objects *)
Lemma ev_stable x s s' ws : at_ x s -> P_SymVal.wf s' -> P_SymVal.ext s s' -> In ws (os_sh x) -> ev s' ws = ev s ws.
Proof.
  intros (v & W & V) W' X I. pose proof (P_SymVal.vse_sh _ _ _ V) as R. unfold P_SymVal.rels in R.
  assert (exists b, P_SymVal.rel s ws b) as [b Rb].
  { clear - R I. induction R as [|a b l l' H R IH]; [contradiction|]. destruct I as [<-|I]; eauto. }
  pose proof (P_SymVal.rel_mono s s' ws b W W' X Rb) as Rb'.
  transitivity b; [exact (P_SymVal.rel_vals _ _ _ Rb')|symmetry; exact (P_SymVal.rel_vals _ _ _ Rb)].
Qed.
Lemma plain_sh : forall cs x s x' s', Forall plain cs -> sfold odo cs x s = Ok (x', s') -> os_sh x' = os_sh x.
Proof.
  induction cs as [|c cs IH]; intros x s x' s' F E; [now injection E as <- _|]. apply sfold_cons in E as (x1 & s1 & D & E).
  inversion F as [|? ? Pc F']; subst. rewrite (IH _ _ _ _ F' E). pose proof (do_sh _ _ _ _ _ D) as Q. destruct c; try exact Q; contradiction.
Qed.
Variables (rdc rds : N) (roc ros : ole_rand).
Hypothesis R1 : rdc < 2 ^ 128.
Hypothesis R2 : rdc <> 0.
Hypothesis R3 : ole_rand_ok roc 1.
Hypothesis R4 : ole_blk roc.
Hypothesis R5 : rds < 2 ^ 128.
Hypothesis R6 : rds <> 0.
Hypothesis R7 : ole_rand_ok ros 1.
Hypothesis R8 : ole_blk ros.
Definition icalls (l : list lcall) : list icall :=
  map CPlain (tls_calls pa pb rc rs sh os) ++ CAead false rdc roc :: CAead true rds ros :: map CRec l.
Lemma icalls_calls l : map on_of (icalls l) = calls l.
Proof.
  unfold icalls, gcm_calls, record_calls. rewrite map_app, map_map, map_id. cbn [map on_of]. do 3 f_equal. rewrite !map_map. apply map_ext. intro o. apply on_of_rec.
Qed.
Lemma good_aeads l x s xf sf j : Forall lcall_wf l -> l <> [] -> sfold odo (tls_calls pa pb rc rs sh os) x0 cst0 = Ok (x, s) ->
  sfold odo (calls l) x0 cst0 = Ok (xf, sf) -> c_tr sf = tf -> st (lower (c_tr s)) j ->
  exists its jf, oitems (CAead false rdc roc :: CAead true rds ros :: map CRec l) x s = Ok its /\ gd (lower (c_tr s)) j 0 its l jf /\ st (lower tf) jf /\ its <> [].
Proof.
  intros W NE E EF T Sj.
  destruct (at_calls _ _ _ _ _ (at0 q rounds) E) as [A _].
  destruct (calls_ok [] (Forall_nil _)) as (x2 & s2 & E2 & V & _). cbn [map flat_map] in V.
  pose proof E2 as D. unfold gcm_calls in D. rewrite (sfold_app_ok _ _ _ _ _ _ E) in D. unfold record_calls in D. cbn [map] in D.
  apply sfold_cons in D as (x1 & s1 & D1 & D). apply sfold_cons in D as (x3 & s3 & D2 & D). injection D as -> ->.
  destruct (at_do _ _ _ _ _ A D1) as [A1 X1]. destruct (at_do _ _ _ _ _ A1 D2) as [A2 X2].
  pose proof EF as X3. change (calls l) with (calls ([] ++ l)) in X3. rewrite calls_app, (sfold_app_ok _ _ _ _ _ _ E2) in X3.
  destruct (at_calls _ _ _ _ _ A2 X3) as [_ X4]. clear X3.
  assert (P2 : part (c_tr s2)) by (apply (part_ext _ _ X4); rewrite T; exists []; reflexivity).
  pose proof (part_ext _ _ X2 P2) as P1.
  destruct (HST _ P1) as [j1 S1]. destruct (HST _ P2) as [j2 S2].
  destruct (good_recs l [] x2 s2 xf sf j2 W E2 EF T S2) as (its & jf & I1 & I2 & I3 & I4).
  pose proof (plain_sh _ _ _ _ _ (tls_plain pa pb rc rs sh os) E) as Q0. cbn in Q0.
  destruct (do_sh _ _ _ _ _ D1) as [h1 Q1]. destruct (do_sh _ _ _ _ _ D2) as [h2 Q2]. rewrite Q0 in Q1. cbn [app] in Q1. rewrite Q1 in Q2. cbn [app] in Q2.
  rewrite Q2 in V. cbn [map] in V. injection V as V1 V2.
  assert (V1' : ev s1 h1 = bits_of_N 128 (aesE kc 0)).
  { rewrite <- V1. symmetry. destruct A2 as (v2 & W2 & _). apply (ev_stable x1); try assumption. rewrite Q1. now left. }
  destruct (gcm_first pa pb rc rs sh os []) as (c & t & EC & M).
  pose proof E2 as E3. cbn [map] in E3. rewrite EC in E3. destruct (HB c t x2 s2 j2 M E3 P2 S2) as (Sp2 & _).
  assert (Sp1 : Forall (splits s1 (labA (fA j1)) (labB (fB j1))) (os_sh x1)).
  { assert (F : exists c t, tls_calls pa pb rc rs sh os ++ [NAead false] = c :: t /\ P_Live2.sets_master c)
      by (unfold tls_calls; destruct sh; eexists; eexists; (split; [reflexivity|exact I])).
    destruct F as (c1 & t1 & F & M1). refine (proj1 (HB c1 t1 x1 s1 j1 M1 _ P1 S1)). unfold on_session. rewrite <- F, (sfold_app_ok _ _ _ _ _ _ E).
    cbn [sfold]. unfold mbind. now rewrite D1. }
  rewrite Q1 in Sp1. rewrite Q2 in Sp2. apply Forall_cons_iff in Sp1 as [Sp1 _]. apply Forall_cons_iff in Sp2 as [_ Sp2]. apply Forall_cons_iff in Sp2 as [Sp2 _].
  unfold splits in Sp1, Sp2. rewrite V1' in Sp1. rewrite V2 in Sp2.
  cbn [items on_of]. rewrite D1, D2, I1. cbn [bind]. eexists _, jf. split; [reflexivity|]. split; [|split; [exact I3|discriminate]].
  rewrite Q0, Q1, Q2. cbn [length skipn].
  rewrite (seg_low _ _ X2) in I2, S2. rewrite (seg_low _ _ X1) in I2, S1, S2.
  eapply good_new; [discriminate|exact Sj|exact S1| |lia|rewrite (ev_len _ _ _ V1'); apply bits_of_N_length|exact Sp1|assumption..].
  eapply good_new; [intro N; apply NE, I4, N|exact S1|exact S2|exact I2|lia|rewrite (ev_len _ _ _ V2); apply bits_of_N_length|exact Sp2|assumption..].
Qed.
(** the handshake calls *)
Lemma good_plains rest l x1 s1 : part (c_tr s1) ->
  (forall j1, st (lower (c_tr s1)) j1 -> exists its jf, oitems rest x1 s1 = Ok its /\ gd (lower (c_tr s1)) j1 0 its l jf /\ st (lower tf) jf /\ its <> []) ->
  forall cs x s j, Forall plain cs -> at_ x s -> sfold odo cs x s = Ok (x1, s1) -> st (lower (c_tr s)) j ->
  exists its jf, oitems (map CPlain cs ++ rest) x s = Ok its /\ gd (lower (c_tr s)) j 0 its l jf /\ st (lower tf) jf /\ its <> [].
Proof.
  intros P K. induction cs as [|c cs IH]; intros x s j F A E Sj.
  - injection E as -> ->. apply K, Sj.
  - inversion F as [|? ? Pc F']; subst. apply sfold_cons in E as (x2 & s2 & D & E). destruct (at_do _ _ _ _ _ A D) as [A2 X].
    destruct (at_calls _ _ _ _ _ A2 E) as [_ X2]. destruct (HST _ (part_ext _ _ X2 P)) as [j2 S2].
    destruct (IH x2 s2 j2 F' A2 E S2) as (its & jf & I1 & I2 & I3 & I4).
    cbn [map app items on_of]. rewrite D, I1. cbn [bind]. eexists _, jf. split; [reflexivity|]. split; [|split; [exact I3|discriminate]].
    assert (Q : os_sh x2 = os_sh x) by (pose proof (do_sh _ _ _ _ _ D) as Q; destruct c; try exact Q; contradiction).
    rewrite Q, skipn_all. rewrite (seg_low _ _ X) in I2, S2. eapply good_plain; eassumption.
Qed.
Theorem good_session l xf sf j : Forall lcall_wf l -> l <> [] -> oses q rounds (calls l) cst0 = Ok (xf, sf) -> c_tr sf = tf -> st (lower []) j ->
  exists its jf, session_items honest aes_ks_file aes_enc_file q rounds (icalls l) = Ok its /\ gd (lower []) j 0 its l jf /\ st (lower tf) jf /\ its <> [].
Proof.
  intros W NE E T Sj. pose proof E as E0. unfold on_session, gcm_calls in E0. apply sfold_app in E0 as (x1 & s1 & E1 & E2).
  destruct (at_calls _ _ _ _ _ (at0 q rounds) E1) as [A1 _]. destruct (at_calls _ _ _ _ _ A1 E2) as [_ X].
  assert (P1 : part (c_tr s1)) by (apply (part_ext _ _ X); rewrite T; exists []; reflexivity).
  apply (good_plains _ l x1 s1 P1) with (cs := tls_calls pa pb rc rs sh os); [|apply tls_plain|apply at0|exact E1|exact Sj].
  intros j1 S1. exact (good_aeads l x1 s1 xf sf j1 W NE E1 E T S1).
Qed.
End B.
