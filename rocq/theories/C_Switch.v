(** Properties C52 and C53: set-up, switching and teardown of the backends. *)
From Coq Require Import List Arith Bool.
From Verif Require Import L_Res S_Heap M_Switch P_Switch P_Switch2 P_Tight.
Import ListNotations.

(** ** C52: complete sessions manage their objects safely *)
(** whatever calls are made, failing or not, a run that meets no undefined behaviour never
    frees twice, never uses a freed object and never frees what was not allocated *)
Theorem C52_any_run_safe : forall cs s, run_calls cs g_init = Ok s ->
  mem_safe (g_log s) /\ forall o, frees o (g_log s) <= 1.
Proof.
  intros cs s E. exact (conj (i_safe _ (inv_run cs _ _ inv_init E)) (i_once _ (inv_run cs _ _ inv_init E))).
Qed.
Print Assumptions C52_any_run_safe.
(** any number of complete sessions (protocol, single backend, proxy) reaches no undefined
    behaviour and frees every object exactly once *)
Theorem C52_sessions : forall xs, Forall session_ok xs -> exists s,
  run_calls (all_calls xs) g_init = Ok s /\ mem_safe (g_log s) /\ freed_once (g_log s).
Proof. exact sessions_clean. Qed.
Print Assumptions C52_sessions.
(** at every point of a session the active pair of objects is live and of the kind selected last *)
Theorem C52_active : forall xs off body, Forall session_ok xs -> body_ok off (first_kind off) body = true ->
  exists s, run_calls (all_calls xs ++ Setup off None :: body) g_init = Ok s /\
    active_is (selected off (first_kind off) body) s /\ mem_safe (g_log s).
Proof. exact session_active. Qed.
Print Assumptions C52_active.
(** a first set-up that fails anywhere leaves no active backend and can be finalised: nothing
    is freed twice and nothing leaks *)
Theorem C52_first_failure : forall off f, throws off f = true -> exists s1 s2,
  do_call (Setup off (Some f)) g_init = Ok (s1, true) /\
  g_circ s1 = None /\ g_prot s1 = None /\
  do_call Finalize s1 = Ok (s2, false) /\ mem_safe (g_log s2) /\ freed_once (g_log s2).
Proof. exact first_failure. Qed.
Print Assumptions C52_first_failure.
(** retrying without finalising the failed attempt leaks, for every failure after the first
    allocation *)
Theorem C52_retry_leaks : forall off1 f off, throws off1 f = true -> f <> FKs -> exists s,
  run_calls [Setup off1 (Some f); Setup off None; Finalize] g_init = Ok s /\ leaks (g_log s).
Proof. exact retry_leaks. Qed.
Print Assumptions C52_retry_leaks.
(** calls out of order are undefined behaviour, not refused: sync_zk_gc while another backend
    is selected, switch_to_online in a session without an offline phase *)
Theorem C52_misuse : forall xs off body, Forall session_ok xs -> body_ok off (first_kind off) body = true ->
  (selected off (first_kind off) body <> Zk -> run_calls (all_calls xs ++ Setup off None :: body ++ [Sync]) g_init = UB) /\
  (off = false -> run_calls (all_calls xs ++ Setup off None :: body ++ [ToOnline]) g_init = UB).
Proof. exact misuse. Qed.
Print Assumptions C52_misuse.
Example C52_misuse_ex : selected false (first_kind false) [ToZk; Sync; ToGc] = Gc /\
  body_ok false (first_kind false) [ToZk; Sync; ToGc] = true /\
  run_calls [Setup false None; ToZk; Sync; ToGc; Sync] g_init = UB /\
  match run_calls [Setup false None; ToZk; Sync; ToGc; ToZk; Sync] g_init with Ok _ => True | _ => False end.
Proof. vm_compute. repeat split. Qed.
Example C52_ex :
  let xs := [SProxy 2; SProtocol true [Use; ToOnline; Use; ToZk; Sync; Use; ToGc; Use]; SBackend Gc 3] in
  Forall session_ok xs /\
  body_ok false (first_kind false) [ToZk; Use; ToGc] = true /\
  selected false (first_kind false) [ToZk; Use; ToGc] = Gc /\
  selected true (first_kind true) [Use; ToZk; Sync] = Zk /\
  match run_calls (all_calls xs) g_init with
  | Ok s => g_next s = 14 /\ g_live s = [] /\ length (g_log s) = 52
  | _ => False
  end.
Proof. cbv zeta. split; [repeat constructor|]. vm_compute. repeat split. Qed.

(** ** C53: finalising again *)
(** after any complete protocol session a second finalize_protocol is a double free, and any
    circuit operation is a use after free *)
Theorem C53_twice : forall xs off body, Forall session_ok xs -> body_ok off (first_kind off) body = true ->
  run_calls (all_calls (xs ++ [SProtocol off body]) ++ [Finalize]) g_init = UB /\
  run_calls (all_calls (xs ++ [SProtocol off body]) ++ [Use]) g_init = UB.
Proof. exact finalize_twice. Qed.
Print Assumptions C53_twice.
(** a failing set-up after a complete session, then finalised: exactly which failure points
    free a pointer of the earlier session again *)
Theorem C53_failed_resetup : forall xs off0 body off f, Forall session_ok xs ->
  body_ok off0 (first_kind off0) body = true -> throws off f = true ->
  let cs := all_calls (xs ++ [SProtocol off0 body]) ++ [Setup off (Some f); Finalize] in
  if frees_stale off0 f then run_calls cs g_init = UB
  else exists s, run_calls cs g_init = Ok s /\ mem_safe (g_log s) /\ freed_once (g_log s).
Proof. exact refail. Qed.
Print Assumptions C53_failed_resetup.
(** the proxy variants have no clean-up at all: finalising after a failed set-up is always UB *)
Theorem C53_proxy : forall xs f, Forall session_ok xs ->
  match f with FKs | FEnc | FZk InCirc | FZk InProt => True | _ => False end ->
  run_calls (all_calls xs ++ [SetupProxy (Some f); FinalizeProxy]) g_init = UB.
Proof. exact proxy_failure. Qed.
Print Assumptions C53_proxy.
(** the proxy set-up reports every failure to its caller, from any state *)
Theorem C53_proxy_reports : forall s,
  (forall f, match f with FKs | FEnc | FZk _ => True | _ => False end -> exists s', do_call (SetupProxy (Some f)) s = Ok (s', true)) /\
  (exists s', do_call (SetupProxy None) s = Ok (s', false)).
Proof. exact (fun s => conj (fun f => proxy_reports f s) (proxy_quiet s)). Qed.
Print Assumptions C53_proxy_reports.
Theorem C53_refuted : exists cs, run_calls cs g_init <> UB /\ run_calls (cs ++ [Finalize]) g_init = UB /\
  (exists f, run_calls (cs ++ [Setup false (Some f); Finalize]) g_init = UB).
Proof.
  exists [Setup false None; Finalize]. split; [vm_compute; discriminate|]. split; [vm_compute; reflexivity|]. exists (FZk InCirc). vm_compute. reflexivity.
Qed.
Print Assumptions C53_refuted.
Example C53_ex : Forall session_ok [SProtocol true [ToOnline]] /\
  throws false (FGc InProt) = true /\ frees_stale true (FGc InProt) = true /\ frees_stale false (FGc InProt) = false /\
  run_calls [Setup true None; Finalize; Setup false (Some (FGc InProt)); Finalize] g_init = UB /\
  match run_calls [Setup false None; Finalize; Setup false (Some (FGc InProt)); Finalize] g_init with
  | Ok s => g_live s = [] | _ => False end.
Proof. split; [repeat constructor|]. vm_compute. repeat split. Qed.
