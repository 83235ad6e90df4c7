(** Property C103: each party can compute every request it makes of the garbling backend from its own
    data and the values opened before; the peer's share enters nowhere else. *)
From Coq Require Import List NArith ZArith Bool Arith.
From Verif Require Import L_Bits L_Res S_Netlist S_Lower S_Causal M_Bn M_Bristol M_Sym M_SymOn M_SymOff M_SymSess M_Causal M_Garble M_GcProc.
From Verif Require Import D_AesKs D_AesEnc P_Causal2 P_Causal3.
Import ListNotations.
Local Opaque aes_ks_file aes_enc_file.

(** ** C103 *)
(** Take any session that completes, whatever the openings return ([orc]).  A party that knows only its
    own share (any value [cs'] in place of the peer's) and the values opened during the first [n]
    requests computes the first [n + 1] requests, except for the bits the peer feeds itself. *)
Theorem C103_requests : forall alice orc ks enc q rounds cs cs' x s n,
  Forall (sizes_ok q rounds) cs -> Forall (sizes_ok q rounds) cs' -> map (own_call alice) cs = map (own_call alice) cs' ->
  on_session orc ks enc q rounds cs (mkC 0 []) = Ok (x, s) ->
  exists x' s', on_session (replay (answers orc (first_reqs n (c_tr s)))) ks enc q rounds cs' (mkC 0 []) = Ok (x', s') /\
    map (own_part alice) (first_reqs (S n) (c_tr s)) = map (own_part alice) (first_reqs (S n) (c_tr s')).
Proof. exact requests_causal. Qed.
Print Assumptions C103_requests.
(** The same when both parties follow the protocol: the opened values are the values of the wires. *)
Theorem C103_honest : forall alice ks enc q rounds cs cs' x s n,
  Forall (sizes_ok q rounds) cs -> Forall (sizes_ok q rounds) cs' -> map (own_call alice) cs = map (own_call alice) cs' ->
  on_session honest ks enc q rounds cs (mkC 0 []) = Ok (x, s) ->
  exists x' s', on_session (replay (map snd (openings (first_reqs n (c_tr s))))) ks enc q rounds cs' (mkC 0 []) = Ok (x', s') /\
    map (own_part alice) (first_reqs (S n) (c_tr s)) = map (own_part alice) (first_reqs (S n) (c_tr s')).
Proof. exact requests_causal_honest. Qed.
Print Assumptions C103_honest.
(** The missing bits are not needed: what a party's backend does with a request depends on the party's own
    part of it only.  ALICE and BOB on the streaming backend, then on the two-phase backend. *)
Theorem C103_gen : forall sigma aes Hash fixk Kc lab delta e e' s, own_part true e = own_part true e' ->
  p_gen_step sigma aes Hash fixk Kc lab delta s (low e) = p_gen_step sigma aes Hash fixk Kc lab delta s (low e').
Proof. exact gen_own. Qed.
Print Assumptions C103_gen.
Theorem C103_eva : forall sigma aes Hash fixk Kc rnd lab delta e e' s, own_part false e = own_part false e' ->
  p_eva_step sigma aes Hash fixk Kc rnd lab delta s (low e) = p_eva_step sigma aes Hash fixk Kc rnd lab delta s (low e').
Proof. exact eva_own. Qed.
Print Assumptions C103_eva.
Theorem C103_ngen : forall Hash fixk lab delta out e e' s, own_part true e = own_part true e' ->
  p_ngen_step Hash fixk lab delta out s (low e) = p_ngen_step Hash fixk lab delta out s (low e').
Proof. exact ngen_own. Qed.
Print Assumptions C103_ngen.
Theorem C103_neva : forall sigma aes Hash fixk lab delta GC pub e e' s, own_part false e = own_part false e' ->
  p_neva_step sigma aes Hash fixk lab delta GC pub s (low e) = p_neva_step sigma aes Hash fixk lab delta GC pub s (low e').
Proof. exact neva_own. Qed.
Print Assumptions C103_neva.

(** the hypotheses hold of two sessions with different shares of BOB, and ALICE's part differs from BOB's *)
Example C103_ex : let cs := [NMaster 5 7 [1%N] [2%N]; NExpand [1%N] [2%N]] in let cs' := [NMaster 5 0 [1%N] [2%N]; NExpand [1%N] [2%N]] in
  Forall (sizes_ok 251 false) cs /\ Forall (sizes_ok 251 false) cs' /\
  map (own_call true) cs = map (own_call true) cs' /\ map (own_call false) cs <> map (own_call false) cs' /\
  own_part true (EFeed OB [true]) = own_part true (EFeed OB [false]) /\ own_part false (EFeed OB [true]) <> own_part false (EFeed OB [false]).
Proof.
  cbv zeta. repeat split; try discriminate; try reflexivity; repeat constructor; intros; try discriminate; apply Nat.leb_le; vm_compute; reflexivity.
Qed.
(** the values opened before do matter: in the inner hash of an HMAC, with other values ALICE feeds other bits *)
Definition c103_feeds (seen : list (list bool)) : list nev :=
  match mbind (on_opt_update (replay seen) (onh_sha (on_hm (on_hs_new 251 false))) (spub 512 0) [1%N] false)
              (fun x => on_feed_words (snd x)) (mkC 0 []) with
  | Ok (_, s) => filter (fun e => match e with EFeed OA _ => true | _ => false end) (c_tr s)
  | _ => []
  end.
Example C103_openings_matter :
  let a := c103_feeds [] in let b := c103_feeds [repeat true 256] in
  map shape1 a = map shape1 b /\ length a = 8%nat /\ hd (EFeed OA []) a <> hd (EFeed OA []) b.
Proof. vm_compute. repeat split. discriminate. Qed.
