(** Property C109: in the run of /repo/test/prot_on_off.cpp, the tag of a record that the parties encrypt when
    the peer sends anything. *)
From Coq Require Import List NArith ZArith Bool Arith Znumtheory.
From Verif Require Import L_Bits L_Res S_Sched S_Talk S_Lower S_Codec S_Aes S_Gcm S_Tls L_Group S_Ec.
From Verif Require Import M_EmpInteger M_Utils M_Bristol M_Bn M_Ec M_E2f M_Sym M_SymOn M_SymOff M_SymSess M_Causal M_Block M_Ole2k M_Shares M_Commit M_Garble M_Handshake.
From Verif Require Import M_Aead M_Exch M_ExchDh M_View M_LabRec M_GcProc M_Inter M_Live M_Whole D_AesKs D_AesEnc D_Toy P_Dh.
From Verif Require Import P_Gf128 P_Aead P_AeadInst P_ExchAead P_ExchSess P_ExchRef P_Sha256Opt P_Handshake P_Session2 P_Sym P_SymTls P_SymGcm P_LabRec P_LabSess.
From Verif Require Import P_Accept P_AcceptEnc C_Commit C_LabSess C_Whole C_Accept.
Import ListNotations.
Local Open Scope N_scope.
Local Opaque aes_ks_file aes_enc_file aesE str_to_int gf_mul.

(** ** C109 *)
(** The tag a party has for an encrypted record is made of the share it sent and the share it received right
    after, whatever the peer sends. *)
Theorem C109_tag : forall hash gfr (C : Curve) ccrh q bl ks enc rounds sigma aes Hash fixk lab delta cs off t (Ts : pt C) r Delta raw,
  let P := fun T (p : proc (res (T * nat * list pout))) => forall tr g n xs k c tag, talk p tr (Ok (g, n, xs)) -> nth_error xs k = Some (PEnc (c, tag)) ->
    exists pre s o post, tr = pre ++ Sent s :: Got o :: post /\ length s = 16%nat /\ length o = 16%nat /\ tag = rev (xored s (octets o)) in
  P _ (w_alice ccrh q bl ks enc rounds gfr hash sigma aes Hash fixk lab delta cs off t Ts r Delta raw) /\
  P _ (w_bob ccrh q bl ks enc rounds gfr hash sigma aes Hash fixk lab delta cs off t Ts r Delta raw).
Proof. exact whole_tags. Qed.
Print Assumptions C109_tag.
(** There is no commitment as in decrypt.  In every run whose last
    call is an encryption, a peer that waits for the party's share makes the party end with any tag it likes,
    by sending the exclusive or of the two; nothing is checked. *)
Theorem C109_chosen : forall hash gfr (C : Curve) ccrh q bl ks enc rounds sigma aes Hash fixk lab delta cs rc off t (Ts : pt C) r Delta raw,
  let P := fun T (p : proc (res (T * nat * list pout))) => forall tr g n xs c tag, talk p tr (Ok (g, n, xs ++ [PEnc (c, tag)])) ->
    exists pre s o, tr = pre ++ [Sent s; Got o] /\
      forall tag', length tag' = 16%nat -> Forall (fun b => b < 256) tag' ->
      exists g' n' xs', talk p (pre ++ [Sent s; Got (xored s (rev tag'))]) (Ok (g', n', xs' ++ [PEnc (c, tag')])) in
  P _ (w_alice ccrh q bl ks enc rounds gfr hash sigma aes Hash fixk lab delta (fun p => cs p ++ [CRec rc]) off t Ts r Delta raw) /\
  P _ (w_bob ccrh q bl ks enc rounds gfr hash sigma aes Hash fixk lab delta (fun p => cs p ++ [CRec rc]) off t Ts r Delta raw).
Proof. exact whole_tag_chosen. Qed.
Print Assumptions C109_chosen.

(** That a peer cannot choose the tag is false.  On the toy curve, with an encrypted record last: the client ends
    with a tag if both keep to the protocol, and with any sixteen bytes instead if the attestor answers with
    another share.  This is also a case that meets the hypotheses of the two theorems above. *)
Theorem C109_tag_refuted :
  let ra := {| rnd_a := 3; rnd_b := 5; rnd_bp := 7; rnd_r := 1 |} in
  let rb := {| rnd_a := 2; rnd_b := 4; rnd_bp := 6; rnd_r := 8 |} in
  let raw := repeat [1; 2; 3; 4; 5] 5 in
  let Ts := smul 3 (@gen toy) in
  let l := [{| lc_srv := false; lc_in := InEnc [1; 2; 3] [] [7] (repeat 5 8) true; lc_ole := ex_ro 3 |}] in
  let cs := fun a b => map CPlain (tls_calls a b (repeat 1 32) (repeat 2 32) None []) ++ CAead false 9 (ex_ro 1) :: CAead true 8 (ex_ro 1) :: map CRec l in
  let wa := fun off => w_alice (fun x => x + 1) 17 5 aes_ks_file aes_enc_file true gf_mul (fun _ => repeat 0 32) (fun _ => 1) (fun _ => 2) (fun _ => 3) (fun _ => 4) (fun _ => 6) 5
         (fun p => map (own_icall true) (cs p 0%Z)) off 7 Ts ra 33 raw in
  exists off c pre s tr g n tag, talk (wa off) tr (Ok (g, n, [PEnc (c, tag)])) /\
    forall tag', length tag' = 16%nat -> Forall (fun b => b < 256) tag' ->
      exists g' n' xs', talk (wa off) (pre ++ [Sent s; Got (xored s (rev tag'))]) (Ok (g', n', xs' ++ [PEnc (c, tag')])).
Proof.
  intros ra rb raw Ts l cs wa. destruct C64_ex as (P & B & _ & NT & Ca & Cb & M). destruct C90_ex as (GF & _ & W9 & RO & RB & _ & TS & _).
  assert (B1 : Forall byte8 (repeat 1 32)) by (apply Forall_forall; intros z Hz; apply repeat_spec in Hz; subst z; reflexivity).
  assert (B2 : Forall byte8 (repeat 2 32)) by (apply Forall_forall; intros z Hz; apply repeat_spec in Hz; subst z; reflexivity).
  assert (L5 : Forall (fun r : list N => length r = 5%nat) raw) by (apply Forall_forall; intros z Hz; apply repeat_spec in Hz; subst z; reflexivity).
  assert (W : Forall lcall_wf l) by (constructor; [exact (Forall_inv W9)|constructor]).
  pose proof (C105_whole_run (fun _ => 1) (fun _ => 2) (fun _ => 3) (fun _ => 4) (fun _ => 6) 5 eq_refl eq_refl (fun _ => eq_refl) (fun _ => eq_refl) (fun _ => eq_refl) (fun _ => eq_refl)
    gf_mul GF (fun _ => repeat 0 32) (fun _ => eq_refl) toy (fun x => x + 1) 5%nat ra rb 33 raw 4%Z 7%Z 3%Z 6%Z 3%Z 0%Z 11%Z (fun _ _ => false) (fun _ => false) true
    (repeat 1 32) (repeat 2 32) None [] l 9 (ex_ro 1) 8 (ex_ro 1) P B eq_refl L5 NT Ca Cb ltac:(discriminate) B1 B2 I (Forall_nil _) (fun _ => TS)
    eq_refl ltac:(discriminate) RO RB eq_refl ltac:(discriminate) RO RB ltac:(discriminate) W) as K.
  destruct K as (sa & sb & y & s' & Eo & _ & K). change (cp toy) with 17%Z in Eo, K. unfold ra, rb, raw in Eo. rewrite Eo in M.
  destruct (K (proj1 M)) as (x1 & y1 & Cs & pa & pb & x & s & n & op & _ & _ & _ & _ & _ & AC). clear K M Eo.
  destruct (C108_runs _ _ _ _ _ _ AC) as (ia & ib & Fa & _). clear AC. exists (lower (c_tr s')).
  set (ics := fun p : Z => map (own_icall true) (map CPlain (tls_calls p 0%Z (repeat 1 32) (repeat 2 32) None []) ++ [CAead false 9 (ex_ro 1); CAead true 8 (ex_ro 1)])).
  set (rc := {| lc_srv := false; lc_in := own_in true (InEnc [1; 2; 3] [] [7] (repeat 5 8) true); lc_ole := ex_ro 3 |}).
  destruct (proj1 (C109_chosen (fun _ => repeat 0 32) gf_mul toy (fun x => x + 1) 17%Z 5%nat aes_ks_file aes_enc_file true (fun _ => 1) (fun _ => 2) (fun _ => 3) (fun _ => 4) (fun _ => 6) 5
    ics rc (lower (c_tr s')) 7%Z Ts ra 33 raw) ia _ _ [] _ _ Fa) as (pre & sh & o & _ & K).
  do 7 eexists. split; [exact Fa|]. exact K.
Qed.
Print Assumptions C109_tag_refuted.
