(** Call histories of one PRF/HMAC object pair (C06), and the append behaviour (C07). *)
From Coq Require Import List NArith ZArith Bool Arith Lia.
From Verif Require Import L_Bits L_Res M_EmpInteger M_Trace M_Utils M_Sha256 M_Hmac.
From Verif Require Import S_Sha256 S_Hmac P_Sha256 P_Sha256Msg P_Sha256Opt P_Hmac P_Prf.
Import ListNotations.
Local Opaque chunk_compress plain_chunk_compress compress.

Inductive pop :=
| PInit (secret : Integer)
| PCompute (n : nat) (label seed : Integer)
| POpt (n : nat) (label seed : list N) (ri ro : bool)
| PRounds (n : nat) (label seed : list N) (ri ro : bool).

(** one call with an empty result Integer *)
Definition pstep (s : prf_st * hmac_st) (o : pop)
  : res (prf_st * hmac_st * option Integer) :=
  (let '(p, h) := s in
   match o with
   | PInit k => let* h := prf_init h k in Ok (p, h, None)
   | PCompute n l s => let* (h, r) := prf_compute h [] n l s in Ok (p, h, Some r)
   | POpt n l s ri ro => let* (x, r) := prf_opt_compute p h [] n l s ri ro false in Ok (x, Some r)
   | PRounds n l s ri ro =>
       let* (h, r) := prf_opt_rounds_compute h [] n l s ri ro in Ok (p, h, Some r)
   end)%res.

Fixpoint prun (s : prf_st * hmac_st) (os : list pop)
  : res (prf_st * hmac_st * list (option Integer)) :=
  match os with
  | [] => Ok (s, [])
  | o :: t => (let* (s, r) := pstep s o in let* (s, rs) := prun s t in Ok (s, r :: rs))%res
  end.

Fixpoint pspec (secret : list bool) (os : list pop) : list (option (list bool)) :=
  match os with
  | [] => []
  | PInit k :: t => None :: pspec (rev k) t
  | PCompute n l s :: t => Some (prf n secret (rev l) (rev s)) :: pspec secret t
  | POpt n l s _ _ :: t =>
      Some (prf n secret (bits_of_bytes l) (bits_of_bytes s)) :: pspec secret t
  | PRounds n l s _ _ :: t =>
      Some (prf n secret (bits_of_bytes l) (bits_of_bytes s)) :: pspec secret t
  end.

(** bytes are bytes; at most one caching variant with reuse_in per secret *)
Fixpoint pdisc (m : hmode) (os : list pop) : Prop :=
  match os with
  | [] => True
  | PInit _ :: t => pdisc Fresh t
  | PCompute _ _ _ :: t => pdisc m t
  | POpt _ l s ri _ :: t =>
      Forall byte l /\ Forall byte s /\ (ri = true -> m <> UseRounds) /\ pdisc (opt_mode ri m) t
  | PRounds _ _ _ ri _ :: t => (ri = true -> m <> UseOpt) /\ pdisc (rounds_mode ri m) t
  end.

Lemma prun_correct os : forall key m p h, hinv key m h -> pdisc m os ->
  exists p' h' rs, prun (p, h) os = Ok (p', h', rs) /\
    map (option_map (@rev bool)) rs = pspec (rev key) os.
Proof.
  induction os as [|o t IH]; intros key m p h Hv Hd.
  { exists p, h, []. split; reflexivity. }
  destruct o as [k|n l s|n l s ri ro|n l s ri ro]; cbn [prun pstep pspec pdisc] in *.
  - destruct (hinit_inv h k (hi_pos _ _ _ Hv)) as (h1 & E & V). unfold prf_init. rewrite E.
    cbn [bind]. destruct (IH k Fresh p h1 V Hd) as (p' & h' & rs & E2 & R). rewrite E2. cbn [bind].
    eexists _, _, _. split; [reflexivity|]. cbn [map option_map]. now rewrite R.
  - unfold prf_compute.
    destruct (phash_ok key m h [] n (iconcat (iconcat [] [l]) [s]) Hv) as (h1 & r & E & V & R1).
    rewrite E. cbn [bind].
    destruct (IH key m p h1 V Hd) as (p' & h' & rs & E2 & R). rewrite E2. cbn [bind].
    eexists _, _, _. split; [reflexivity|]. cbn [map option_map]. rewrite R, R1.
    unfold prf. rewrite !rev_iconcat. cbn. now rewrite !app_nil_r.
  - destruct Hd as (Hl & Hs & Hm & Hd). unfold prf_opt_compute.
    destruct (opt_phash_ok key m p h [] n (l ++ s) ri ro Hv) as (h1 & r & E & V & R1);
      [apply Forall_app; auto|exact Hm|]. rewrite E. cbn [bind].
    destruct (IH key _ (pub_of p (map (fun i => mac_words (rev key)
               (A_i (rev key) (bits_of_bytes (l ++ s)) i)) (seq 0 (prf_blks n)))) h1 V Hd)
      as (p' & h' & rs & E2 & R). rewrite E2. cbn [bind].
    eexists _, _, _. split; [reflexivity|]. cbn [map option_map]. rewrite R, R1.
    unfold prf. now rewrite bits_of_bytes_app.
  - destruct Hd as (Hm & Hd). unfold prf_opt_rounds_compute.
    destruct (rounds_phash_ok key m h [] n (l ++ s) ri ro Hv Hm) as (h1 & r & E & V & R1).
    rewrite E. cbn [bind].
    destruct (IH key _ p h1 V Hd) as (p' & h' & rs & E2 & R). rewrite E2. cbn [bind].
    eexists _, _, _. split; [reflexivity|]. cbn [map option_map]. rewrite R, R1.
    unfold prf. now rewrite bits_of_bytes_app.
Qed.

Lemma prun_from_new secret os : pdisc Fresh os ->
  exists p' h' rs, prun (prf_init0, hmac_init) (PInit secret :: os) = Ok (p', h', None :: rs) /\
    map (option_map (@rev bool)) rs = pspec (rev secret) os.
Proof.
  intro Hd. cbn [prun pstep]. unfold prf_init.
  destruct (hinit_inv hmac_init secret eq_refl) as (h1 & E & V). rewrite E. cbn [bind].
  destruct (prun_correct os secret Fresh prf_init0 h1 V Hd) as (p' & h' & rs & E2 & R). rewrite E2.
  eexists _, _, _. split; [reflexivity|exact R].
Qed.

(** the plain HMAC variants straight after init *)
Lemma hmac_variants key msg bytes ri ro : Forall byte bytes ->
  exists h, hinit hmac_init key = Ok h /\
   (exists h' d, hmac h msg = Ok (h', d) /\ flat_map (@rev bool) d = hmac_bits (rev key) (rev msg)) /\
   (exists h' d, opt_hmac h bytes ri ro false = Ok (h', d) /\
      flat_map (@rev bool) d = hmac_bits (rev key) (bits_of_bytes bytes)) /\
   (exists h' d, opt_rounds_hmac h msg ri ro = Ok (h', d) /\
      flat_map (@rev bool) d = hmac_bits (rev key) (rev msg)).
Proof.
  intro HB. destruct (hinit_inv hmac_init key eq_refl) as (h & E & V). exists h. split; [exact E|].
  split; [|split].
  - destruct (hmac_step key Fresh h msg V) as (h' & d & A & [_ B] & _). eauto.
  - destruct (opt_hmac_step key Fresh h bytes ri ro V HB) as (h' & d & A & [_ B] & _);
      [discriminate|]. eauto.
  - destruct (rounds_hmac_step key Fresh h msg ri ro V) as (h' & d & A & [_ B] & _);
      [discriminate|]. eauto.
Qed.

(** C07: two derivations into the same result Integer *)
Lemma prf_twice_append secret n label seed h : prf_init hmac_init secret = Ok h ->
  exists h1 r1 h2 r2,
    prf_compute h [] n label seed = Ok (h1, r1) /\
    prf_compute h1 r1 n label seed = Ok (h2, r2) /\
    rev r1 = prf n (rev secret) (rev label) (rev seed) /\
    rev r2 = rev r1 ++ rev r1.
Proof.
  intro E. destruct (hinit_inv hmac_init secret eq_refl) as (h1 & E1 & V).
  unfold prf_init in E. rewrite E1 in E. injection E as <-.
  unfold prf_compute.
  set (ls := iconcat (iconcat [] [label]) [seed]).
  destruct (phash_ok secret Fresh h1 [] n ls V) as (h2 & r1 & E2 & V2 & R1).
  destruct (phash_ok secret Fresh h2 r1 n ls V2) as (h3 & r2 & E3 & V3 & R2).
  exists h2, r1, h3, r2. split; [exact E2|]. split; [exact E3|].
  rewrite R2, R1. cbn [rev app]. unfold prf, ls. rewrite !rev_iconcat. cbn.
  rewrite !app_nil_r. auto.
Qed.

Lemma prf_length n secret label seed : length (prf n secret label seed) = n.
Proof.
  unfold prf, p_hash. rewrite firstn_length_le; [reflexivity|].
  assert (forall k, length (p_stream secret (label ++ seed) k) = (256 * k)%nat) as ->.
  { intro k. unfold p_stream. generalize (label ++ seed) as sd. intro sd.
    assert (forall s l, length (flat_map (fun i => hmac_bits s (A_i s sd i ++ sd)) l) = (256 * length l)%nat) as H.
    { intro s. induction l as [|x l IH]; [reflexivity|]. cbn [flat_map]. rewrite app_length, IH.
      unfold hmac_bits at 1. rewrite sha256_bits_length. cbn [length]. lia. }
    rewrite H, seq_length. reflexivity. }
  pose proof (Nat.div_mod (n + 255) 256 ltac:(lia)).
  pose proof (Nat.mod_upper_bound (n + 255) 256 ltac:(lia)). lia.
Qed.

Lemma prf_twice_refuted : exists secret label seed h h1 r1 h2 r2,
  prf_init hmac_init secret = Ok h /\
  prf_compute h [] 384 label seed = Ok (h1, r1) /\
  prf_compute h1 r1 384 label seed = Ok (h2, r2) /\
  r2 <> r1 /\ rev r2 <> prf 384 (rev secret) (rev label) (rev seed).
Proof.
  destruct (hinit_inv hmac_init [true; false] eq_refl) as (h & E & _).
  destruct (prf_twice_append [true; false] 384 [true] [false] h E)
    as (h1 & r1 & h2 & r2 & E1 & E2 & R1 & R2).
  exists [true; false], [true], [false], h, h1, r1, h2, r2.
  split; [exact E|]. split; [exact E1|]. split; [exact E2|].
  assert (L1 : length r1 = 384%nat) by (rewrite <- rev_length, R1; apply prf_length).
  assert (L2 : length r2 = 768%nat) by (rewrite <- rev_length, R2, app_length, rev_length; lia).
  split; intro X.
  - rewrite X in L2. lia.
  - apply (f_equal (@length bool)) in X. rewrite prf_length, rev_length in X. lia.
Qed.
