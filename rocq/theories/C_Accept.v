(** Property C108: in the run of /repo/test/prot_on_off.cpp, what it takes for a party to accept a record when
    the peer sends anything. *)
From Coq Require Import List NArith ZArith Bool Arith Znumtheory.
From Verif Require Import L_Bits L_Res S_Sched S_Talk S_Lower S_Codec S_Aes S_Gcm S_Tls L_Group S_Ec.
From Verif Require Import M_EmpInteger M_Utils M_Bristol M_Bn M_Ec M_E2f M_Sym M_SymOn M_SymOff M_SymSess M_Causal M_Block M_Ole2k M_Shares M_Commit M_Garble M_Handshake.
From Verif Require Import M_Aead M_Exch M_ExchDh M_View M_LabRec M_GcProc M_Inter M_Live M_Whole D_AesKs D_AesEnc D_Toy P_Dh.
From Verif Require Import P_Gf128 P_Aead P_AeadInst P_ExchAead P_ExchSess P_ExchRef P_Sha256Opt P_Handshake P_Session2 P_Sym P_SymTls P_SymGcm P_LabRec P_LabSess.
From Verif Require Import P_Accept C_Commit C_LabSess C_Whole.
Import ListNotations.
Local Open Scope N_scope.
Local Opaque aes_ks_file aes_enc_file aesE str_to_int gf_mul.

(** ** C108 *)
(** A party that ends normally has one result for each record call, in order, of its kind.  Where it accepted
    a record, it did the following without anything in between: it sent the digest of its share of the tag and
    a string, received a commitment, sent the share and the string, and received a share and a string; the
    commitment is the digest of these, and the two shares make the tag the call was given ([opening]).  And
    the peer's share is fixed by what came before: with the same messages up to there, in every run that
    accepts the record the peer opens the same share, and the plaintext is the same. *)
Theorem C108_accepted : forall hash gfr (C : Curve) ccrh q bl ks enc rounds sigma aes Hash fixk lab delta cs off t (Ts : pt C) r Delta raw l, (forall p, recs (cs p) = l) ->
  (forall tr g n xs, talk (w_alice ccrh q bl ks enc rounds gfr hash sigma aes Hash fixk lab delta cs off t Ts r Delta raw) tr (Ok (g, n, xs)) ->
     Forall2 kind l xs /\
     forall k m, nth_error xs k = Some (PDec (m, true)) ->
       exists call pre d com s u o rn post, nth_error l k = Some call /\
         tr = pre ++ Sent d :: Got com :: Sent s :: Sent u :: Got o :: Got rn :: post /\ opening hash (tag_of call) d com s u o rn /\
         forall d' com' s' u' o' rn' post' g' n' xs' m',
           talk (w_alice ccrh q bl ks enc rounds gfr hash sigma aes Hash fixk lab delta cs off t Ts r Delta raw) (pre ++ Sent d' :: Got com' :: Sent s' :: Sent u' :: Got o' :: Got rn' :: post') (Ok (g', n', xs')) ->
           nth_error xs' k = Some (PDec (m', true)) -> opening hash (tag_of call) d' com' s' u' o' rn' /\ s' = s /\ octets o' = octets o /\ m' = m) /\
  (forall tr g n xs, talk (w_bob ccrh q bl ks enc rounds gfr hash sigma aes Hash fixk lab delta cs off t Ts r Delta raw) tr (Ok (g, n, xs)) ->
     Forall2 kind l xs /\
     forall k m, nth_error xs k = Some (PDec (m, true)) ->
       exists call pre d com s u o rn post, nth_error l k = Some call /\
         tr = pre ++ Sent d :: Got com :: Sent s :: Sent u :: Got o :: Got rn :: post /\ opening hash (tag_of call) d com s u o rn /\
         forall d' com' s' u' o' rn' post' g' n' xs' m',
           talk (w_bob ccrh q bl ks enc rounds gfr hash sigma aes Hash fixk lab delta cs off t Ts r Delta raw) (pre ++ Sent d' :: Got com' :: Sent s' :: Sent u' :: Got o' :: Got rn' :: post') (Ok (g', n', xs')) ->
           nth_error xs' k = Some (PDec (m', true)) -> opening hash (tag_of call) d' com' s' u' o' rn' /\ s' = s /\ octets o' = octets o /\ m' = m).
Proof. exact whole_accept. Qed.
Print Assumptions C108_accepted.
(** The same of a session on its own, on the streaming backend and with circuits garbled in advance: for either
    party, [fixed_openings] is the statement above. *)
Theorem C108_sessions : forall hash gfr ks enc q rounds cs sigma aes Hash fixk Kc rnd lab delta bs off,
  let P := fun T (p : proc (res (T * nat * list pout))) => fixed_openings hash p (recs cs) in
  P _ (l_gen ks enc q rounds cs gfr hash sigma aes Hash fixk Kc lab delta bs) /\
  P _ (l_eva ks enc q rounds cs gfr hash sigma aes Hash fixk Kc rnd lab delta bs) /\
  P _ (l_gen2 ks enc q rounds cs gfr hash sigma aes Hash fixk lab delta off) /\
  P _ (l_eva2 ks enc q rounds cs gfr hash sigma aes Hash fixk lab delta off).
Proof. exact session_accept. Qed.
Print Assumptions C108_sessions.
(** What the parties send and receive under the scheduler of S_Sched is among what the theorem is about. *)
Theorem C108_runs : forall A B (p : proc A) (q : proc B) a b, always_completes p q a b -> exists i j, talk p i a /\ talk q j b.
Proof. exact @completes_talk. Qed.
Print Assumptions C108_runs.

(** on the toy curve, a record with the tag of GCM under the server's key: both parties accept it when both
    keep to the protocol, and what each received then fixes the share *)
Example C108_ex :
  let ra := {| rnd_a := 3; rnd_b := 5; rnd_bp := 7; rnd_r := 1 |} in
  let rb := {| rnd_a := 2; rnd_b := 4; rnd_bp := 6; rnd_r := 8 |} in
  let raw := repeat [1; 2; 3; 4; 5] 5 in
  let Ts := smul 3 (@gen toy) in
  let x0 := match coords (c := toy) (smul 3 (padd (smul 4 (@gen toy)) (smul 7 gen))) with Some (x, _) => x | None => 0%Z end in
  let kb := key_block (ms_spec (premaster 1 (Z.to_N x0)) (repeat 1 32) (repeat 2 32) None) (repeat 1 32) (repeat 2 32) in
  let tag := gcm_tag (aesE (tls_server_key kb)) (tls_server_iv kb ++ repeat 6 8) [] [9; 8] in
  let l := [{| lc_srv := true; lc_in := InDec [9; 8] tag [] (repeat 6 8) false (repeat 1 16) (repeat 2 16); lc_ole := ex_ro 2 |}] in
  let cs := fun a b => map CPlain (tls_calls a b (repeat 1 32) (repeat 2 32) None []) ++ CAead false 9 (ex_ro 1) :: CAead true 8 (ex_ro 1) :: map CRec l in
  let wa := fun off => w_alice (fun x => x + 1) 17 5 aes_ks_file aes_enc_file true gf_mul (fun _ => repeat 0 32) (fun _ => 1) (fun _ => 2) (fun _ => 3) (fun _ => 4) (fun _ => 6) 5
         (fun p => map (own_icall true) (cs p 0%Z)) off 7 Ts ra 33 raw in
  let wb := fun off => w_bob (fun x => x + 1) 17 5 aes_ks_file aes_enc_file true gf_mul (fun _ => repeat 0 32) (fun _ => 1) (fun _ => 2) (fun _ => 3) (fun _ => 4) (fun _ => 6) 5
         (fun p => map (own_icall false) (cs 0%Z p)) off 4 Ts rb 33 raw in
  exists off pa da ca sa ua oa na qa ga ka pb db cb sb ub ob nb qb gb kb',
    let m := gcm_ctext (aesE (tls_server_key kb)) (tls_server_iv kb ++ repeat 6 8) [9; 8] in
    talk (wa off) (pa ++ Sent da :: Got ca :: Sent sa :: Sent ua :: Got oa :: Got na :: qa) (Ok (ga, ka, [PDec (Some m, true)])) /\
    tag = rev (xored sa (octets oa)) /\
    (forall d' c' s' u' o' n' q' g' k' m', talk (wa off) (pa ++ Sent d' :: Got c' :: Sent s' :: Sent u' :: Got o' :: Got n' :: q') (Ok (g', k', [PDec (m', true)])) ->
       c' = repeat 0 32 /\ octets o' = octets oa /\ m' = Some m) /\
    talk (wb off) (pb ++ Sent db :: Got cb :: Sent sb :: Sent ub :: Got ob :: Got nb :: qb) (Ok (gb, kb', [PDec (Some m, true)])) /\
    tag = rev (xored sb (octets ob)).
Proof.
  intros ra rb raw Ts x0 kb tag l cs wa wb. destruct C64_ex as (P & B & _ & NT & Ca & Cb & M). destruct C90_ex as (GF & _ & _ & RO & RB & _ & TS & _).
  assert (B1 : Forall byte8 (repeat 1 32)) by (apply Forall_forall; intros z Hz; apply repeat_spec in Hz; subst z; reflexivity).
  assert (B2 : Forall byte8 (repeat 2 32)) by (apply Forall_forall; intros z Hz; apply repeat_spec in Hz; subst z; reflexivity).
  assert (L5 : Forall (fun r : list N => length r = 5%nat) raw) by (apply Forall_forall; intros z Hz; apply repeat_spec in Hz; subst z; reflexivity).
  assert (W : Forall lcall_wf l).
  { constructor; [|constructor]. unfold lcall_wf; cbn [lc_in lc_ole]; repeat (apply conj); try (repeat constructor); try apply ex90_blk; exact (ex_ro_ok _). }
  pose proof (C105_whole_run (fun _ => 1) (fun _ => 2) (fun _ => 3) (fun _ => 4) (fun _ => 6) 5 eq_refl eq_refl (fun _ => eq_refl) (fun _ => eq_refl) (fun _ => eq_refl) (fun _ => eq_refl)
    gf_mul GF (fun _ => repeat 0 32) (fun _ => eq_refl) toy (fun x => x + 1) 5%nat ra rb 33 raw 4%Z 7%Z 3%Z 6%Z 3%Z 0%Z 11%Z (fun _ _ => false) (fun _ => false) true
    (repeat 1 32) (repeat 2 32) None [] l 9 (ex_ro 1) 8 (ex_ro 1) P B eq_refl L5 NT Ca Cb ltac:(discriminate) B1 B2 I (Forall_nil _) (fun _ => TS)
    eq_refl ltac:(discriminate) RO RB eq_refl ltac:(discriminate) RO RB ltac:(discriminate) W) as K.
  destruct K as (sa & sb & y & s' & Eo & _ & K). change (cp toy) with 17%Z in Eo, K. unfold ra, rb, raw in Eo. rewrite Eo in M.
  destruct (K (proj1 M)) as (x1 & y1 & Cs & pa & pb & x & s & n & op & _ & _ & _ & _ & _ & AC). clear K M Eo.
  change (BN_num_bytes 17) with 1%nat in AC.
  assert (Ex : x1 = x0) by (unfold x0; now rewrite Cs). rewrite Ex in AC. fold kb in AC. clear Ex Cs.
  set (m := gcm_ctext (aesE (tls_server_key kb)) (tls_server_iv kb ++ repeat 6 8) [9; 8]).
  assert (SP : lspec (tls_client_key kb) (tls_server_key kb) (tls_client_iv kb) (tls_server_iv kb) (hd (Build_lcall true (InEnc [] [] [] [] false) (ex_ro 1)) l) = OutDec (m, true) (Some m, true)).
  { unfold l, hd, lspec. cbn [lc_in with_rand aop_spec lc_srv]. unfold okey, ofiv. cbn [lc_srv]. fold m. destruct (list_eq_dec N.eq_dec tag _) as [_|NE]; [reflexivity|]. now contradiction NE. }
  unfold l in AC at 3 4. cbn [map] in AC. unfold l, hd in SP. rewrite SP in AC. cbn [out_alice out_bob] in AC.
  destruct (C108_runs _ _ _ _ _ _ AC) as (ia & ib & Fa & Fb). clear AC.
  assert (Ra : forall p, recs (map (own_icall true) (cs p 0%Z)) = [{| lc_srv := true; lc_in := own_in true (InDec [9; 8] tag [] (repeat 6 8) false (repeat 1 16) (repeat 2 16)); lc_ole := ex_ro 2 |}]) by reflexivity.
  assert (Rb : forall p, recs (map (own_icall false) (cs 0%Z p)) = [{| lc_srv := true; lc_in := own_in false (InDec [9; 8] tag [] (repeat 6 8) false (repeat 1 16) (repeat 2 16)); lc_ole := ex_ro 2 |}]) by reflexivity.
  destruct (proj2 (proj1 (C108_accepted _ _ toy _ _ _ _ _ _ _ _ _ _ _ _ _ _ _ _ _ _ _ _ Ra) _ _ _ _ Fa) 0%nat _ eq_refl) as (c1 & qa & da & ca & sa' & ua & oa & na & qa' & E1 & -> & Oa & Ka).
  destruct (proj2 (proj2 (C108_accepted _ _ toy _ _ _ _ _ _ _ _ _ _ _ _ _ _ _ _ _ _ _ _ Rb) _ _ _ _ Fb) 0%nat _ eq_refl) as (c2 & qb & db & cb & sb' & ub & ob & nb & qb' & E2 & -> & Ob & _).
  injection E1 as <-. injection E2 as <-.
  exists (lower (c_tr s')). do 20 eexists. split; [exact Fa|]. split; [exact (proj2 (proj2 (proj2 Oa)))|]. split; [|split; [exact Fb|exact (proj2 (proj2 (proj2 Ob)))]].
  intros d' c' s1 u' o' n' q' g' k' m' F. destruct (Ka _ _ _ _ _ _ _ _ _ _ _ F eq_refl) as (O' & _ & Eo & Em). split; [exact (proj1 (proj2 O'))|]. split; [exact Eo|exact Em].
Qed.
