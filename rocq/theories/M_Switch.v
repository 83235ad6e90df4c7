(** Model of session set-up, backend switching and teardown:
    /repo/backend/switch.h, /repo/backend/switch.cpp, /repo/backend/backend.h,
    init_files/uninit_files (/repo/cipher/utils.cpp:19-32) and the proxy variants
    (/repo/protocol/prove_aes.h:14-45).

    The heap is the list of live objects with the class they were created as; the log
    records allocations, frees and uses.  Freeing or using an object that is not live, or
    using nullptr, is undefined behaviour.  Constructors that throw leave nothing behind
    (a C++ new-expression releases the storage); where set-up fails is a parameter.
    The bodies of the constructors and destructors are not modelled (the destructors in
    otls are empty, e.g. /repo/backend/primus_party.h:46-47); emp-zk's setup_zk_bool and
    finalize_zk_bool are taken to follow the same new/delete pattern as backend.h. *)
From Coq Require Import List Arith Bool.
From Verif Require Import L_Res S_Heap.
Import ListNotations.
Local Open Scope res_scope.

(** the class of backend: emp-zk's, and those of /repo/backend/backend.h:67-78, 52-63, 20-31 *)
Inductive bk : Type := Zk | Gc | Online | Offline.
(** classes of heap objects: CircuitExecution and ProtocolExecution of a backend
    (/repo/backend/switch.h:11-16), the two BristolFormat objects (/repo/cipher/utils.cpp:4-5) *)
Inductive cls : Type := CCirc (b : bk) | CProt (b : bk) | CKs | CEnc.

(** same code: /repo/backend/switch.h:11-16 *)
Definition ptr : Type := option nat.

(** the process globals: CircuitExecution::circ_exec, ProtocolExecution::prot_exec, the
    buffers of /repo/backend/switch.cpp:5-11 and /repo/cipher/utils.cpp:4-5, and the heap *)
Record gst : Type := mkG {
  g_circ : ptr; g_prot : ptr;
  g_gc_c : ptr; g_gc_p : ptr;
  g_zk_c : ptr; g_zk_p : ptr;
  g_off_c : ptr; g_off_p : ptr;
  g_en : bool;
  g_ks : ptr; g_enc : ptr;
  g_live : list (nat * cls); g_next : nat; g_log : list hev }.

(** program start: /repo/backend/switch.cpp:5-11, /repo/cipher/utils.cpp:4-5 *)
Definition g_init : gst := mkG None None None None None None None None false None None [] 0 [].

(** ** heap primitives (C++ new, delete, member access) *)
(** used throughout /repo/backend/switch.h:28-164, backend.h:20-84 *)
Definition lookup (o : nat) (h : list (nat * cls)) : option cls :=
  match find (fun x => fst x =? o) h with Some x => Some (snd x) | None => None end.
(** used throughout /repo/backend/switch.h:28-164, backend.h:20-84 *)
Definition drop (o : nat) (h : list (nat * cls)) : list (nat * cls) :=
  filter (fun x => negb (fst x =? o)) h.

(** used throughout /repo/backend/switch.h:28-164, backend.h:20-84 *)
Definition with_heap (s : gst) h n lg : gst :=
  mkG (g_circ s) (g_prot s) (g_gc_c s) (g_gc_p s) (g_zk_c s) (g_zk_p s) (g_off_c s) (g_off_p s)
      (g_en s) (g_ks s) (g_enc s) h n lg.
(** new: a fresh object of the given class
    (used throughout /repo/backend/switch.h:28-164, backend.h:20-84) *)
Definition g_new (c : cls) (s : gst) : nat * gst :=
  (g_next s, with_heap s ((g_next s, c) :: g_live s) (S (g_next s)) (g_log s ++ [HAlloc (g_next s)])).
(** delete: nothing for nullptr, UB for an object that is not live
    (used throughout /repo/backend/switch.h:28-164, backend.h:20-84) *)
Definition g_delete (p : ptr) (s : gst) : res gst :=
  match p with
  | None => Ok s
  | Some o => match lookup o (g_live s) with
              | Some _ => Ok (with_heap s (drop o (g_live s)) (g_next s) (g_log s ++ [HFree o]))
              | None => UB
              end
  end.
(** p-> : UB unless p points to a live object; returns its class
    (used throughout /repo/backend/switch.h:28-164, backend.h:20-84) *)
Definition g_touch (p : ptr) (s : gst) : res (cls * gst) :=
  match p with
  | None => UB
  | Some o => match lookup o (g_live s) with
              | Some c => Ok (c, with_heap s (g_live s) (g_next s) (g_log s ++ [HTouch o]))
              | None => UB
              end
  end.

(** ** assignments to the globals *)
(** assignments in /repo/backend/switch.h:28-71, 110-151 *)
Definition set_active (c p : ptr) (s : gst) : gst :=
  mkG c p (g_gc_c s) (g_gc_p s) (g_zk_c s) (g_zk_p s) (g_off_c s) (g_off_p s)
      (g_en s) (g_ks s) (g_enc s) (g_live s) (g_next s) (g_log s).
(** assignments in /repo/backend/switch.h:28-71, 110-151 *)
Definition set_gc (c p : ptr) (s : gst) : gst :=
  mkG (g_circ s) (g_prot s) c p (g_zk_c s) (g_zk_p s) (g_off_c s) (g_off_p s)
      (g_en s) (g_ks s) (g_enc s) (g_live s) (g_next s) (g_log s).
(** assignments in /repo/backend/switch.h:28-71, 110-151 *)
Definition set_zk (c p : ptr) (s : gst) : gst :=
  mkG (g_circ s) (g_prot s) (g_gc_c s) (g_gc_p s) c p (g_off_c s) (g_off_p s)
      (g_en s) (g_ks s) (g_enc s) (g_live s) (g_next s) (g_log s).
(** assignments in /repo/backend/switch.h:28-71, 110-151 *)
Definition set_off (c p : ptr) (s : gst) : gst :=
  mkG (g_circ s) (g_prot s) (g_gc_c s) (g_gc_p s) (g_zk_c s) (g_zk_p s) c p
      (g_en s) (g_ks s) (g_enc s) (g_live s) (g_next s) (g_log s).
(** assignments in /repo/backend/switch.h:28-71, 110-151 *)
Definition set_en (b : bool) (s : gst) : gst :=
  mkG (g_circ s) (g_prot s) (g_gc_c s) (g_gc_p s) (g_zk_c s) (g_zk_p s) (g_off_c s) (g_off_p s)
      b (g_ks s) (g_enc s) (g_live s) (g_next s) (g_log s).
(** assignments in /repo/backend/switch.h:28-71, 110-151 *)
Definition set_files (k e : ptr) (s : gst) : gst :=
  mkG (g_circ s) (g_prot s) (g_gc_c s) (g_gc_p s) (g_zk_c s) (g_zk_p s) (g_off_c s) (g_off_p s)
      (g_en s) k e (g_live s) (g_next s) (g_log s).

(** reset_prot_ptr: /repo/backend/switch.h:28-31 *)
Definition reset_prot_ptr (s : gst) : gst := set_active None None s.
(** delete_prot_ptr: /repo/backend/switch.h:33-41 (delete is already guarded in g_delete) *)
Definition delete_prot_ptr (s : gst) : res gst :=
  let* s := g_delete (g_circ s) s in
  let* s := g_delete (g_prot s) s in
  Ok (reset_prot_ptr s).
(** backup_gc_ptr / reset_gc_ptr: /repo/backend/switch.h:43-51 *)
Definition backup_gc_ptr (s : gst) : gst := set_gc (g_circ s) (g_prot s) s.
(** same code: /repo/backend/switch.h:43-51 *)
Definition reset_gc_ptr (s : gst) : gst := set_gc None None s.
(** backup_zk_ptr / reset_zk_ptr: /repo/backend/switch.h:53-61 *)
Definition backup_zk_ptr (s : gst) : gst := set_zk (g_circ s) (g_prot s) s.
(** same code: /repo/backend/switch.h:53-61 *)
Definition reset_zk_ptr (s : gst) : gst := set_zk None None s.
(** backup_offline_ptr / reset_offline_ptr: /repo/backend/switch.h:63-71 *)
Definition backup_offline_ptr (s : gst) : gst := set_off (g_circ s) (g_prot s) s.
(** same code: /repo/backend/switch.h:63-71 *)
Definition reset_offline_ptr (s : gst) : gst := set_off None None s.

(** where a set-up function throws: in the constructor of the circuit object, in that of the
    protocol object, or afterwards
    (in /repo/backend/switch.h:73-107, /repo/backend/backend.h:20-78) *)
Inductive fpoint : Type := InCirc | InProt | After.

(** setup_backend, setup_online_backend, setup_offline_backend (/repo/backend/backend.h:67-78,
    52-63, 20-31; both parties allocate in the same order) and emp-zk's setup_zk_bool; the
    flag says whether the call threw *)
Definition setup_fn (b : bk) (f : option fpoint) (s : gst) : gst * bool :=
  match f with
  | Some InCirc => (s, true)
  | _ =>
    let (c, s) := g_new (CCirc b) s in
    let s := set_active (Some c) (g_prot s) s in
    match f with
    | Some InProt => (s, true)
    | _ =>
      let (p, s) := g_new (CProt b) s in
      let s := set_active (g_circ s) (Some p) s in
      (s, match f with Some _ => true | None => false end)
    end
  end.

(** safe_setup_protocol: /repo/backend/switch.h:73-107 (all three preprocessor variants run
    delete_prot_ptr, resetFn and rethrow on an exception) *)
Definition safe_setup_protocol (b : bk) (f : option fpoint) (backupFn resetFn : gst -> gst)
    (s : gst) : res (gst * bool) :=
  let s := reset_prot_ptr s in
  let (s, threw) := setup_fn b f s in
  if threw then
    let* s := delete_prot_ptr s in
    Ok (resetFn s, true)
  else Ok (backupFn s, false).

(** which step of setup_protocol throws
    (/repo/backend/switch.h:110-127) *)
Inductive fail : Type := FKs | FEnc | FZk (f : fpoint) | FGc (f : fpoint) | FOff (f : fpoint).
(** /repo/backend/switch.h:110-127 *)
Definition at_zk (f : option fail) := match f with Some (FZk p) => Some p | _ => None end.
(** /repo/backend/switch.h:110-127 *)
Definition at_gc (f : option fail) := match f with Some (FGc p) => Some p | _ => None end.
(** /repo/backend/switch.h:110-127 *)
Definition at_off (f : option fail) := match f with Some (FOff p) => Some p | _ => None end.

(** init_files: /repo/cipher/utils.cpp:19-27 *)
Definition init_files (f : option fail) (s : gst) : gst * bool :=
  match f with
  | Some FKs => (s, true)
  | _ =>
    let (k, s) := g_new CKs s in
    let s := set_files (Some k) (g_enc s) s in
    match f with
    | Some FEnc => (s, true)
    | _ =>
      let (e, s) := g_new CEnc s in
      (set_files (g_ks s) (Some e) s, false)
    end
  end.
(** uninit_files: /repo/cipher/utils.cpp:29-32 *)
Definition uninit_files (s : gst) : res gst :=
  let* s := g_delete (g_ks s) s in
  g_delete (g_enc s) s.

(** setup_protocol: /repo/backend/switch.h:109-127 *)
Definition setup_protocol (offline : bool) (f : option fail) (s : gst) : res (gst * bool) :=
  let (s, threw) := init_files f s in
  if threw then Ok (s, true) else
  let* (s, threw) := safe_setup_protocol Zk (at_zk f) backup_zk_ptr reset_zk_ptr s in
  if threw then Ok (s, true) else
  if negb offline then
    let* (s, threw) := safe_setup_protocol Gc (at_gc f) backup_gc_ptr reset_gc_ptr s in
    if threw then Ok (s, true) else Ok (set_en offline s, false)
  else
    let* (s, threw) := safe_setup_protocol Online (at_gc f) backup_gc_ptr reset_gc_ptr s in
    if threw then Ok (s, true) else
    let* (s, threw) := safe_setup_protocol Offline (at_off f) backup_offline_ptr reset_offline_ptr s in
    if threw then Ok (s, true) else Ok (set_en offline s, false).

(** switch_to_zk: /repo/backend/switch.h:129-132 *)
Definition switch_to_zk (s : gst) : gst := set_active (g_zk_c s) (g_zk_p s) s.
(** switch_to_gc: /repo/backend/switch.h:139-142 *)
Definition switch_to_gc (s : gst) : gst := set_active (g_gc_c s) (g_gc_p s) s.
(** an object used through a cast pointer must have the class it is cast to
    (casts in /repo/backend/switch.h:135-151, backend.h:35-48) *)
Definition touch_as (ok : cls -> bool) (p : ptr) (s : gst) : res gst :=
  let* (c, s) := g_touch p s in
  if ok c then Ok s else UB.
(** casts in /repo/backend/switch.h:135-151, backend.h:35-48 *)
Definition is_prot (b : bk) (c : cls) : bool :=
  match c, b with
  | CProt Zk, Zk | CProt Gc, Gc | CProt Online, Online | CProt Offline, Offline => true
  | _, _ => false
  end.
(** casts in /repo/backend/switch.h:135-151, backend.h:35-48 *)
Definition is_circ (b : bk) (c : cls) : bool :=
  match c, b with
  | CCirc Zk, Zk | CCirc Gc, Gc | CCirc Online, Online | CCirc Offline, Offline => true
  | _, _ => false
  end.
(** sync_zk_gc: /repo/backend/switch.h:134-137; emp-zk's sync_zk_bool casts prot_exec to its
    own protocol class *)
Definition sync_zk_gc (s : gst) : res gst := touch_as (is_prot Zk) (g_prot s) s.
(** sync_offline_online: /repo/backend/backend.h:33-48.  Both protocol objects are used, and
    through their gc members both circuit objects. *)
Definition sync_offline_online (off_p off_c on_p on_c : ptr) (s : gst) : res gst :=
  let* s := touch_as (is_prot Offline) off_p s in
  let* s := touch_as (is_circ Offline) off_c s in
  let* s := touch_as (is_prot Online) on_p s in
  touch_as (is_circ Online) on_c s.
(** switch_to_online: /repo/backend/switch.h:144-151 *)
Definition switch_to_online (s : gst) : res gst :=
  let* s := sync_offline_online (g_off_p s) (g_off_c s) (g_gc_p s) (g_gc_c s) s in
  Ok (switch_to_gc s).
(** any circuit operation, feed or reveal: uses circ_exec and prot_exec
    (e.g. /repo/protocol/aead.h:47-85) *)
Definition use_backend (s : gst) : res gst :=
  let* (_, s) := g_touch (g_circ s) s in
  let* (_, s) := g_touch (g_prot s) s in
  Ok s.
(** finalize_protocol: /repo/backend/switch.h:153-164 *)
Definition finalize_protocol (s : gst) : res gst :=
  let* s := g_delete (g_gc_c s) s in
  let* s := g_delete (g_gc_p s) s in
  let* s := g_delete (g_zk_c s) s in
  let* s := g_delete (g_zk_p s) s in
  let* s := (if g_en s then
               let* s := g_delete (g_off_c s) s in
               g_delete (g_off_p s) s
             else Ok s) in
  uninit_files s.
(** finalize_backend: /repo/backend/backend.h:81-84 *)
Definition finalize_backend (s : gst) : res gst :=
  let* s := g_delete (g_circ s) s in
  g_delete (g_prot s) s.
(** setup_proxy_protocol: /repo/protocol/prove_aes.h:14-38 (an exception is rethrown without
    any clean-up) *)
Definition setup_proxy_protocol (f : option fail) (s : gst) : gst * bool :=
  let (s, threw) := init_files f s in
  if threw then (s, true) else setup_fn Zk (at_zk f) s.
(** finalize_proxy_protocol: /repo/protocol/prove_aes.h:40-45; emp-zk's finalize_zk_bool uses
    the protocol object and deletes both objects *)
Definition finalize_proxy_protocol (s : gst) : res gst :=
  let* s := touch_as (is_prot Zk) (g_prot s) s in
  let* s := g_delete (g_circ s) s in
  let* s := g_delete (g_prot s) s in
  uninit_files s.

(** ** call sequences *)
(** calls of /repo/backend/switch.h:110-164, /repo/protocol/prove_aes.h:15-45 *)
Inductive call : Type :=
| Setup (offline : bool) (f : option fail)
| SetupBackend (b : bk) (f : option fpoint)
| SetupProxy (f : option fail)
| ToZk | ToGc | ToOnline | Sync | Use
| Finalize | FinalizeBackend | FinalizeProxy.

(** calls of /repo/backend/switch.h:110-164, /repo/protocol/prove_aes.h:15-45 *)
Definition do_call (c : call) (s : gst) : res (gst * bool) :=
  let quiet (r : res gst) := let* s := r in Ok (s, false) in
  match c with
  | Setup off f => setup_protocol off f s
  | SetupBackend b f => Ok (setup_fn b f s)
  | SetupProxy f => Ok (setup_proxy_protocol f s)
  | ToZk => Ok (switch_to_zk s, false)
  | ToGc => Ok (switch_to_gc s, false)
  | ToOnline => quiet (switch_to_online s)
  | Sync => quiet (sync_zk_gc s)
  | Use => quiet (use_backend s)
  | Finalize => quiet (finalize_protocol s)
  | FinalizeBackend => quiet (finalize_backend s)
  | FinalizeProxy => quiet (finalize_proxy_protocol s)
  end.
(** the caller catches what set-up throws and goes on
    (calls of /repo/backend/switch.h:110-164, /repo/protocol/prove_aes.h:15-45) *)
Fixpoint run_calls (cs : list call) (s : gst) : res gst :=
  match cs with
  | [] => Ok s
  | c :: cs => let* (s, _) := do_call c s in run_calls cs s
  end.
