(** Property C100: the garbling backends as two programs that exchange bytes.  C25 and C26 execute the
    two parties together; here each is a program of its own, run under an arbitrary scheduler. *)
From Coq Require Import List NArith Bool Arith.
From Verif Require Import L_Bits L_Res S_Circuit S_Sched M_Utils M_Block M_Garble M_Exch M_LabRec M_GcProc.
From Verif Require Import P_GarbleOpt P_Sched P_ExchRef P_GcProc P_GcProc2 P_GcProc3 P_GcProc4 C_Garble.
Import ListNotations.
Local Open Scope N_scope.

(** ** C100 *)
(** Streaming: any circuit whose labels stay off the reserved values (as in C26), followed by a flush,
    completes under every schedule, and both programs end in the state of the joint execution: the same
    labels, and the bits each party was to see.  Nothing is left unread. *)
Theorem C100_streaming : forall (sigma aes : N -> N) (Hash : list N -> N) (fixk Kc : nat -> N) (rnd : nat -> bool) (lab : nat -> N) (delta : N),
  getLSB delta = true -> delta < 2 ^ 128 -> (forall x, sigma x < 2 ^ 128) -> (forall x, aes x < 2 ^ 128) ->
  (forall i, fixk i < 2 ^ 128) -> (forall i, Kc i < 2 ^ 128) -> (forall i, lab i < 2 ^ 128) ->
  forall bs prog, wf 0 prog = true -> clean_run sigma aes Hash fixk Kc rnd lab delta (o_init Kc rnd delta bs) [] [] prog ->
  exists s op, o_run sigma aes Hash fixk Kc rnd lab delta (o_init Kc rnd delta bs) prog = Ok (s, op) /\
    Forall2 seen (snd (spec_run [] prog)) op /\
    always_completes (rbind (p_gen sigma aes Hash fixk Kc lab delta (g0 Kc bs) prog) (fun g => Flush IO (Ret (Ok g))))
                     (rbind (p_eva sigma aes Hash fixk Kc rnd lab delta (e0 Kc rnd delta bs) prog) (fun e => Flush IO (Ret (Ok e))))
      (Ok (mkG (og_w s) (og_gid s) (og_f s) (saw true op))) (Ok (mkE (oe_w s) (oe_gid s) (oe_f s) (saw false op))).
Proof. exact stream_completes. Qed.
Print Assumptions C100_streaming.
(** Two phases: the same for every well-formed circuit run offline and then online. *)
Theorem C100_two_phase : forall (sigma aes : N -> N) (Hash : list N -> N) (fixk lab : nat -> N) (delta : N),
  getLSB delta = true -> delta < 2 ^ 128 -> (forall x, sigma x < 2 ^ 128) -> (forall x, aes x < 2 ^ 128) ->
  (forall i, fixk i < 2 ^ 128) -> (forall i, lab i < 2 ^ 128) ->
  forall off on_, map shape off = map shape on_ -> wf 0 on_ = true ->
  exists s op, two_phase sigma aes Hash fixk lab delta off on_ = Ok (s, op) /\ Forall2 seen (snd (spec_run [] on_)) op /\
    always_completes (rbind (p_gen2 sigma aes Hash fixk lab delta off on_) (fun g => Flush IO (Ret (Ok g))))
                     (rbind (p_eva2 sigma aes Hash fixk lab delta off on_) (fun e => Flush IO (Ret (Ok e))))
      (Ok (mkNG (ng_w s) (ng_gid s) (ng_prg s) (saw true op))) (Ok (mkNE (ne_w s) (ne_gid s) (ne_cnt s) (ng_prg s) (saw false op))).
Proof. exact two_phase_completes. Qed.
Print Assumptions C100_two_phase.
(** Without the flush: neither backend flushes, and the evaluator's answer in an opening to both stays in
    its buffer.  Every circuit that ends with such an opening can leave ALICE waiting for ever. *)
Theorem C100_streaming_unflushed : forall (sigma aes : N -> N) (Hash : list N -> N) (fixk lab : nat -> N) (delta : N),
  getLSB delta = true -> delta < 2 ^ 128 -> (forall x, sigma x < 2 ^ 128) -> (forall x, aes x < 2 ^ 128) ->
  (forall i, fixk i < 2 ^ 128) -> (forall i, lab i < 2 ^ 128) -> forall (Kc : nat -> N) (rnd : nat -> bool), (forall i, Kc i < 2 ^ 128) ->
  forall bs prog ws, ws <> [] -> wf 0 (prog ++ [IReveal PUBLIC ws]) = true ->
  clean_run sigma aes Hash fixk Kc rnd lab delta (o_init Kc rnd delta bs) [] [] (prog ++ [IReveal PUBLIC ws]) ->
  can_deadlock (p_gen sigma aes Hash fixk Kc lab delta (g0 Kc bs) (prog ++ [IReveal PUBLIC ws]))
               (p_eva sigma aes Hash fixk Kc rnd lab delta (e0 Kc rnd delta bs) (prog ++ [IReveal PUBLIC ws])).
Proof. exact stream_unflushed. Qed.
Print Assumptions C100_streaming_unflushed.
Theorem C100_two_phase_unflushed : forall (sigma aes : N -> N) (Hash : list N -> N) (fixk lab : nat -> N) (delta : N),
  getLSB delta = true -> delta < 2 ^ 128 -> (forall x, sigma x < 2 ^ 128) -> (forall x, aes x < 2 ^ 128) ->
  (forall i, fixk i < 2 ^ 128) -> (forall i, lab i < 2 ^ 128) ->
  forall off prog ws, ws <> [] -> map shape off = map shape (prog ++ [IReveal PUBLIC ws]) -> wf 0 (prog ++ [IReveal PUBLIC ws]) = true ->
  can_deadlock (p_gen2 sigma aes Hash fixk lab delta off (prog ++ [IReveal PUBLIC ws]))
               (p_eva2 sigma aes Hash fixk lab delta off (prog ++ [IReveal PUBLIC ws])).
Proof. exact two_phase_unflushed. Qed.
Print Assumptions C100_two_phase_unflushed.

(** concrete cases: the circuit of C26, with a public opening at the end *)
Definition c100_rnd (i : nat) : bool := N.testbit (toy_stream 3 i) 4.
Definition c100_gen := p_gen toy_sigma toy_aes toy_hash (toy_stream 77) (toy_stream 900) (toy_stream 500) c25_delta (g0 (toy_stream 900) 4).
Definition c100_eva := p_eva toy_sigma toy_aes toy_hash (toy_stream 77) (toy_stream 900) c100_rnd (toy_stream 500) c25_delta (e0 (toy_stream 900) c100_rnd c25_delta 4).
Example C100_ex : wf 0 c26_prog = true /\
  clean_runb toy_sigma toy_aes toy_hash (toy_stream 77) (toy_stream 900) c100_rnd (toy_stream 500) c25_delta
    (o_init (toy_stream 900) c100_rnd c25_delta 4) [] [] c26_prog = true /\
  (c25_delta <? 2 ^ 128) = true /\ wf 0 c25_on = true /\ map shape c25_off = map shape c25_on.
Proof. vm_compute. repeat split. Qed.
(** the expectation that the circuit alone completes, refuted on one circuit of each backend *)
Definition c100_prog := c26_prog ++ [IReveal PUBLIC [9; 14]%nat].
Definition c100_on := c25_on ++ [IReveal PUBLIC [0]%nat].
Theorem C100_alone_refuted :
  (exists prog, wf 0 prog = true /\ ~ exists a b, always_completes (c100_gen prog) (c100_eva prog) a b) /\
  (exists off on_, map shape off = map shape on_ /\ wf 0 on_ = true /\
    ~ exists a b, always_completes (p_gen2 toy_sigma toy_aes toy_hash (toy_stream 1000) (toy_stream 5) c25_delta off on_)
                                   (p_eva2 toy_sigma toy_aes toy_hash (toy_stream 1000) (toy_stream 5) c25_delta off on_) a b).
Proof.
  assert (T : forall x, toy_aes x < 2 ^ 128) by (intro x; apply N.mod_lt; discriminate).
  assert (T2 : forall x, toy_sigma x < 2 ^ 128) by (intro x; apply N.mod_lt; discriminate).
  split.
  - exists c100_prog. split; [vm_compute; reflexivity|]. apply deadlock_not_completes.
    apply stream_unflushed; [vm_compute; reflexivity|vm_compute; reflexivity|exact T2|exact T|intro; apply T|intro; apply T|intro; apply T|discriminate|vm_compute; reflexivity|].
    apply clean_runb_ok. vm_compute. reflexivity.
  - exists (map shape c100_on), c100_on. split; [vm_compute; reflexivity|]. split; [vm_compute; reflexivity|]. apply deadlock_not_completes.
    apply two_phase_unflushed; [vm_compute; reflexivity|vm_compute; reflexivity|exact T2|exact T|intro; apply T|intro; apply T|discriminate|vm_compute; reflexivity|vm_compute; reflexivity].
Qed.
Print Assumptions C100_alone_refuted.
