(** The garbled tables that go over the channel: what the garblers of M_Garble.v send. *)
From Coq Require Import List NArith Bool.
From Verif Require Import L_Bits L_Res S_Circuit M_Garble.
Import ListNotations.
Local Open Scope N_scope.

Section T.
Variable sigma aes : N -> N.
Variable Hash : list N -> N.
Variable fixk : nat -> N.
Variable Kc : nat -> N.
Variable rnd : nat -> bool.
Variable lab : nat -> N.
Variable delta : N.
(** tables sent for one instruction of the streaming backend:
    /repo/backend/opt_hg_gen.h:36-50 (io->send_block(table, 2)) *)
Definition o_sent (s : ostate) (c : instr) : list msg :=
  match c with
  | IAnd i j => snd (og_and sigma aes delta (lbl (og_w s) i) (lbl (og_w s) j) (og_gid s))
  | _ => []
  end.
(** tables sent in a run: /repo/backend/opt_hg_gen.h:36-50 *)
Fixpoint o_tables (s : ostate) (prog : list instr) : list msg :=
  match prog with
  | [] => []
  | c :: t =>
      o_sent s c ++
      match o_step sigma aes Hash fixk Kc rnd lab delta s c with Ok (s, _) => o_tables s t | _ => [] end
  end.
(** everything the offline garbler sends: /repo/backend/offline_hg_gen.h:30-42,
    offline_primus_gen.h:22-32 *)
Fixpoint f_sent (g : fgen) (prog : list instr) : list msg :=
  match prog with
  | [] => []
  | c :: t => let (g, m) := fg_step sigma aes fixk lab delta g c in m ++ f_sent g t
  end.
(** the tables among the messages: /repo/backend/offline_hg_gen.h:30-36 *)
Definition tables (l : list msg) : list (N * N) :=
  flat_map (fun m => match as_table m with Some t => [t] | None => [] end) l.

(** what the online garbler sends for one instruction: the labels of the garbler's inputs and
    those the OT delivers, /repo/backend/online_primus_gen.h:23-40, and the bits of a reveal to the
    evaluator, lines 46-48 *)
Definition n_sent_gen (s : nstate) (c : instr) : list msg :=
  match c with
  | IFeed p bits => n_feed_msgs delta p bits (map lab (seq (ng_prg s) (length bits)))
  | IReveal BOB ws => map (fun l => MBit (getLSB l)) (map (lbl (ng_w s)) ws)
  | _ => []
  end.
(** what the online evaluator sends for one instruction:
    /repo/backend/online_primus_eva.h:30-49 *)
Definition n_sent_eva (pub : list bool) (s : nstate) (c : instr) : list msg :=
  let le ws := map (lbl (ne_w s)) ws in
  match c with
  | IReveal ALICE ws => map (fun l => MBit (getLSB l)) (le ws)
  | IReveal PUBLIC ws => match ne_pub pub (ne_cnt s) (le ws) with Ok be => [MBits be; MHash (Hash (le ws))] | _ => [] end
  | _ => []
  end.
(** messages of the two parties in an online run:
    /repo/backend/online_primus_gen.h:23-70, online_primus_eva.h:23-49 *)
Fixpoint n_sent (out_labels GC : list N) (pub : list bool) (s : nstate) (prog : list instr) : list msg * list msg :=
  match prog with
  | [] => ([], [])
  | c :: t =>
      match n_step sigma aes Hash fixk lab delta out_labels GC pub s c with
      | Ok (s', _) =>
          let (a, b) := n_sent out_labels GC pub s' t in (n_sent_gen s c ++ a, n_sent_eva pub s c ++ b)
      | _ => (n_sent_gen s c, n_sent_eva pub s c)
      end
  end.
(** what the streaming garbler sends for one instruction: tables, and the bits of a reveal,
    /repo/backend/opt_hg_gen.h:36-50, primus_gen.h:66-83 *)
Definition o_msgs_gen (s : ostate) (c : instr) : list msg :=
  match c with
  | IReveal BOB ws | IReveal PUBLIC ws => snd (og_reveal_send (map (lbl (og_w s)) ws))
  | _ => o_sent s c
  end.
(** what the streaming evaluator sends for one instruction: the corrections of its inputs, the
    bits of a reveal, and the values and hash of a public one, /repo/backend/primus_eva.h:31-86 *)
Definition o_msgs_eva (s : ostate) (c : instr) : list msg :=
  let le ws := map (lbl (oe_w s)) ws in
  match c with
  | IFeed p bits => match eva_feed Kc rnd lab delta p bits (oe_f s) with Ok (_, m) => m | _ => [] end
  | IReveal ALICE ws => snd (oe_reveal_send (le ws))
  | IReveal PUBLIC ws =>
      match oe_reveal_recv (le ws) (o_ge s ++ o_msgs_gen s c) with Ok (be, _) => oe_reveal_report Hash (le ws) be | _ => [] end
  | _ => []
  end.
(** messages of the two parties in a streaming run: /repo/backend/opt_hg_gen.h:36-50,
    primus_gen.h:32-98, primus_eva.h:31-86 *)
Fixpoint o_msgs (s : ostate) (prog : list instr) : list msg * list msg :=
  match prog with
  | [] => ([], [])
  | c :: t =>
      match o_step sigma aes Hash fixk Kc rnd lab delta s c with
      | Ok (s', _) => let (a, b) := o_msgs s' t in (o_msgs_gen s c ++ a, o_msgs_eva s c ++ b)
      | _ => (o_msgs_gen s c, o_msgs_eva s c)
      end
  end.
End T.
