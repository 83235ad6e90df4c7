(** What the backends put on the channel, as one program per party: /repo/backend/opt_hg_gen.h,
    opt_hg_eva.h, primus_gen.h, primus_eva.h (streaming), offline_*.h and online_*.h (two-phase).
    M_Garble executes both parties together over typed messages; here each party is a program of its
    own that sends and waits for bytes.  Everything goes over [io]; no backend ever flushes it.
    The oblivious transfers are ideal and leave no bytes, as in M_Garble: the strings of the sender
    and of the receiver are given.  The seed of shared_prg (/repo/backend/primus_gen.h:20-24,
    primus_eva.h:19-22) is part of the set-up and not sent here. *)
From Coq Require Import List NArith Bool Arith.
From Verif Require Import L_Bits L_Res S_Circuit S_Sched M_Utils M_Block M_Garble M_Exch.
Import ListNotations.
Local Open Scope N_scope.

(** one bool is one byte: send_data(&lsb, 1) and send_data(b, length) in
    /repo/backend/primus_gen.h:75, primus_eva.h:57, 75, 81 *)
Definition bit_byte (b : bool) : N := if b then 1 else 0.
(** the same byte read back as bool: /repo/backend/primus_gen.h:57, 79, primus_eva.h:72 *)
Definition byte_bit (x : N) : bool := negb (x =? 0).
(** Hash::DIGEST_SIZE bytes of a digest: /repo/backend/primus_eva.h:82-84, online_primus_eva.h:44-46 *)
Definition dig_bytes (h : N) : list N := map (fun i => N.shiftr h (8 * N.of_nat i) mod 256) (seq 0 32).
(** the bytes of a message: io->send_block and io->send_data in /repo/backend/opt_hg_gen.h:45,
    primus_eva.h:57, 81-84, online_primus_gen.h:31-36 *)
Definition msg_bytes (m : msg) : list N :=
  match m with
  | MTable t0 t1 => bytes_of_block t0 ++ bytes_of_block t1
  | MBit b => [bit_byte b]
  | MBits l => map bit_byte l
  | MLabel x => bytes_of_block x
  | MHash h => dig_bytes h
  end.
(** sending messages one after another: /repo/backend/primus_gen.h:75, primus_eva.h:80-85 *)
Fixpoint p_sends {A} (ms : list msg) (k : proc A) : proc A :=
  match ms with [] => k | m :: t => Send IO (msg_bytes m) (p_sends t k) end.
(** memcmp over the digests: /repo/backend/primus_gen.h:95, online_primus_gen.h:67 *)
Definition same_bytes (a b : list N) : bool := if list_eq_dec N.eq_dec a b then true else false.
(** a table: io->recv_block(table, 2) in /repo/backend/opt_hg_eva.h:27, offline_hg_eva.h:19 *)
Definition table_of (bs : list N) : N * N := (block_of_bytes (firstn 16 bs), block_of_bytes (skipn 16 bs)).
(** bits received one by one: /repo/backend/offline_primus_eva.h:22-26, online_primus_gen.h:50-52,
    online_primus_eva.h:34 *)
Fixpoint p_bits (n : nat) : proc (list bool) :=
  match n with
  | O => Ret []
  | S k => Recv IO 1 (fun x => pbind (p_bits k) (fun l => Ret (byte_bit (nth 0 x 0) :: l)))
  end.

Section GC.
Variable sigma aes : N -> N.
Variable Hash : list N -> N.
Variable fixk : nat -> N.
Variable Kc : nat -> N.           (* strings of the correlated OT, sender side *)
Variable rnd : nat -> bool.       (* the evaluator's random choice bits *)
Variable lab : nat -> N.          (* blocks of shared_prg (streaming) or of the garbler's prg *)
Variable delta : N.

(** ** Streaming backend *)
(** the garbler: /repo/backend/opt_hg_gen.h:14-35, primus_party.h:15-22; labels, gate counter, input
    buffers, and what its reveals returned *)
Record gside : Type := mkG { gs_w : list N; gs_gid : N; gs_f : feeder; gs_saw : list (list bool) }.
(** the evaluator: /repo/backend/opt_hg_eva.h:10-20, primus_party.h:15-22 *)
Record eside : Type := mkE { es_w : list N; es_gid : N; es_f : feeder; es_saw : list (list bool) }.
(** reading one bit for every wire that is not constant: /repo/backend/primus_gen.h:66-83 (party
    ALICE), primus_eva.h:63-79 (party BOB or PUBLIC), the same loop *)
Fixpoint p_reveal (labels : list N) : proc (list bool) :=
  match labels with
  | [] => Ret []
  | l :: t =>
      if isOne l then pbind (p_reveal t) (fun b => Ret (true :: b))
      else if isZero l then pbind (p_reveal t) (fun b => Ret (false :: b))
      else Recv IO 1 (fun x => pbind (p_reveal t) (fun b => Ret (xorb (byte_bit (nth 0 x 0)) (getLSB l) :: b)))
  end.
(** the garbler executes one instruction: /repo/backend/opt_hg_gen.h:30-77, primus_gen.h:32-98; of an
    input of BOB only the length is used *)
Definition p_gen_step (s : gside) (c : instr) : proc (res gside) :=
  let w l := Ret (Ok (mkG (gs_w s ++ [l]) (gs_gid s) (gs_f s) (gs_saw s))) in
  match c with
  | IPub b => w (opt_public b)
  | IFeed ALICE bits =>
      rbind (local (gen_feed Kc lab delta ALICE bits (gs_f s) [])) (fun '(l, f, _) =>
      Ret (Ok (mkG (gs_w s ++ l) (gs_gid s) f (gs_saw s))))
  | IFeed _ bits =>
      rbind (local (gen_take Kc (length bits) (gs_f s))) (fun '(a, corr, f) =>
      if corr : bool
      then Recv IO (length bits) (fun d => Ret (Ok (mkG (gs_w s ++ flip delta a (map byte_bit d)) (gs_gid s) f (gs_saw s))))
      else Ret (Ok (mkG (gs_w s ++ a) (gs_gid s) f (gs_saw s))))
  | IAnd i j =>
      let '(o, gid, m) := og_and sigma aes delta (lbl (gs_w s) i) (lbl (gs_w s) j) (gs_gid s) in
      p_sends m (Ret (Ok (mkG (gs_w s ++ [o]) gid (gs_f s) (gs_saw s))))
  | IXor i j => w (og_xor fixk delta (lbl (gs_w s) i) (lbl (gs_w s) j))
  | INot i => w (og_not delta (lbl (gs_w s) i))
  | IReveal p ws =>
      let l := map (lbl (gs_w s)) ws in
      let sees b := Ret (Ok (mkG (gs_w s) (gs_gid s) (gs_f s) (gs_saw s ++ [b]))) in
      match p with
      | ALICE => pbind (p_reveal l) sees
      | BOB => let (b, m) := og_reveal_send l in p_sends m (sees b)
      | PUBLIC =>
          p_sends (snd (og_reveal_send l)) (
          Recv IO (length ws) (fun b =>
          Recv IO 32 (fun h =>
          let b := map byte_bit b in
          let blks := map2 (fun l (x : bool) => if is_public l then l else if x then N.lxor l delta else l) l b in
          if same_bytes (dig_bytes (Hash blks)) h then sees b else Ret Err)))
      end
  end.
(** the evaluator executes one instruction: /repo/backend/opt_hg_eva.h:20-55, primus_eva.h:31-86; of an
    input of ALICE only the length is used *)
Definition p_eva_step (s : eside) (c : instr) : proc (res eside) :=
  let w l := Ret (Ok (mkE (es_w s ++ [l]) (es_gid s) (es_f s) (es_saw s))) in
  match c with
  | IPub b => w (opt_public b)
  | IFeed p bits =>
      rbind (local (eva_feed Kc rnd lab delta p bits (es_f s))) (fun '(l, f, m) =>
      p_sends m (Ret (Ok (mkE (es_w s ++ l) (es_gid s) f (es_saw s)))))
  | IAnd i j =>
      let a := lbl (es_w s) i in
      let b := lbl (es_w s) j in
      if isZero a || isOne a || isZero b || isOne b then w (N.land a b)
      else Recv IO 32 (fun bs =>
        let t := table_of bs in
        Ret (Ok (mkE (es_w s ++ [eval_gate sigma aes a b (fst t) (snd t) (es_gid s)]) (es_gid s + 1) (es_f s) (es_saw s))))
  | IXor i j => w (oe_xor fixk (lbl (es_w s) i) (lbl (es_w s) j))
  | INot i => w (oe_not (lbl (es_w s) i))
  | IReveal p ws =>
      let l := map (lbl (es_w s)) ws in
      let sees b := Ret (Ok (mkE (es_w s) (es_gid s) (es_f s) (es_saw s ++ [b]))) in
      match p with
      | ALICE => let (b, m) := oe_reveal_send l in p_sends m (sees b)
      | BOB => pbind (p_reveal l) sees
      | PUBLIC => pbind (p_reveal l) (fun b => p_sends (oe_reveal_report Hash l b) (sees b))
      end
  end.
(** a circuit, instruction by instruction: /repo/backend/opt_hg_gen.h:30-77, primus_gen.h:32-98 *)
Fixpoint p_gen (s : gside) (prog : list instr) : proc (res gside) :=
  match prog with [] => Ret (Ok s) | c :: t => rbind (p_gen_step s c) (fun s => p_gen s t) end.
(** the same for the evaluator: /repo/backend/opt_hg_eva.h:20-55, primus_eva.h:31-86 *)
Fixpoint p_eva (s : eside) (prog : list instr) : proc (res eside) :=
  match prog with [] => Ret (Ok s) | c :: t => rbind (p_eva_step s c) (fun s => p_eva s t) end.
(** after setup_backend: /repo/backend/backend.h:65-78 *)
Definition g0 (bs : nat) : gside := mkG [] 0 (gen_init Kc bs) [].
(** after setup_backend: /repo/backend/backend.h:65-78 *)
Definition e0 (bs : nat) : eside := mkE [] 0 (eva_init Kc rnd delta bs) [].

(** ** Two-phase backend *)
(** offline, the garbler: /repo/backend/offline_hg_gen.h:30-42, offline_primus_gen.h:22-32 *)
Fixpoint p_fgen (g : fgen) (prog : list instr) : proc (res fgen) :=
  match prog with
  | [] => Ret (Ok g)
  | c :: t => let (g, m) := fg_step sigma aes fixk lab delta g c in p_sends m (p_fgen g t)
  end.
(** offline, the evaluator, one instruction: /repo/backend/offline_hg_eva.h:15-26,
    offline_primus_eva.h:20-28 *)
Definition p_feva_step (e : feva) (c : instr) : proc (res feva) :=
  match c with
  | IAnd _ _ =>
      Recv IO 32 (fun bs => let t := table_of bs in
      Ret (Ok {| fe_GC := fe_GC e ++ [fst t] ++ [snd t]; fe_gid := fe_gid e + 1; fe_pub := fe_pub e |}))
  | IReveal PUBLIC ws =>
      pbind (p_bits (length ws)) (fun l =>
      Ret (Ok {| fe_GC := fe_GC e; fe_gid := fe_gid e; fe_pub := fe_pub e ++ l |}))
  | _ => Ret (Ok e)
  end.
(** offline, the evaluator: /repo/backend/offline_hg_eva.h:15-26, offline_primus_eva.h:20-28 *)
Fixpoint p_feva (e : feva) (prog : list instr) : proc (res feva) :=
  match prog with [] => Ret (Ok e) | c :: t => rbind (p_feva_step e c) (fun e => p_feva e t) end.

(** online, the garbler: /repo/backend/online_hg_gen.h:10-27, online_primus_gen.h:10-22 *)
Record ngen : Type := mkNG { ngs_w : list N; ngs_gid : nat; ngs_prg : nat; ngs_saw : list (list bool) }.
(** online, the evaluator: /repo/backend/online_hg_eva.h:9-19, online_primus_eva.h:10-22; [nes_in]
    counts the inputs so far and only names the string the ideal oblivious transfer hands over *)
Record neva : Type := mkNE { nes_w : list N; nes_gid : nat; nes_cnt : nat; nes_in : nat; nes_saw : list (list bool) }.
(** the garbler online: /repo/backend/online_hg_gen.h:27-30, online_primus_gen.h:23-70 *)
Definition p_ngen_step (out_labels : list N) (s : ngen) (c : instr) : proc (res ngen) :=
  let w l := Ret (Ok (mkNG (ngs_w s ++ [l]) (ngs_gid s) (ngs_prg s) (ngs_saw s))) in
  match c with
  | IPub b => w (gen_const fixk delta b)
  | IFeed p bits =>
      let l := map lab (seq (ngs_prg s) (length bits)) in
      p_sends (match p with ALICE => n_feed_msgs delta p bits l | _ => [] end)
        (Ret (Ok (mkNG (ngs_w s ++ l) (ngs_gid s) (ngs_prg s + length bits) (ngs_saw s))))
  | IAnd i j =>
      rbind (local (read (nth_error out_labels (ngs_gid s)))) (fun o =>
      Ret (Ok (mkNG (ngs_w s ++ [o]) (S (ngs_gid s)) (ngs_prg s) (ngs_saw s))))
  | IXor i j => w (N.lxor (lbl (ngs_w s) i) (lbl (ngs_w s) j))
  | INot i => w (N.lxor (lbl (ngs_w s) i) delta)
  | IReveal p ws =>
      let l := map (lbl (ngs_w s)) ws in
      let sees b := Ret (Ok (mkNG (ngs_w s) (ngs_gid s) (ngs_prg s) (ngs_saw s ++ [b]))) in
      match p with
      | ALICE => pbind (p_bits (length ws)) (fun r => sees (map2 (fun t l => xorb t (getLSB l)) r l))
      | BOB => p_sends (map (fun l => MBit (getLSB l)) l) (sees (repeat false (length ws)))
      | PUBLIC =>
          Recv IO (length ws) (fun b =>
          Recv IO 32 (fun h =>
          let b := map byte_bit b in
          let blks := map2 (fun l (x : bool) => if x then N.lxor l delta else l) l b in
          if same_bytes (dig_bytes (Hash blks)) h then sees b else Ret Err))
      end
  end.
(** io->recv_block(label, length): /repo/backend/online_primus_eva.h:25 *)
Definition p_labels (n : nat) : proc (list N) := Recv IO (16 * n) (fun x => Ret (map block_of_bytes (chunks 16 x))).
(** the evaluator online: /repo/backend/online_hg_eva.h:19-28, online_primus_eva.h:23-49; its own
    inputs come from the ideal oblivious transfer *)
Definition p_neva_step (GC : list N) (pub : list bool) (s : neva) (c : instr) : proc (res neva) :=
  let w l := Ret (Ok (mkNE (nes_w s ++ [l]) (nes_gid s) (nes_cnt s) (nes_in s) (nes_saw s))) in
  match c with
  | IPub b => w (eva_const fixk b)
  | IFeed p bits =>
      let put l := Ret (Ok (mkNE (nes_w s ++ l) (nes_gid s) (nes_cnt s) (nes_in s + length bits) (nes_saw s))) in
      match p with
      | ALICE => pbind (p_labels (length bits)) put
      | _ => put (flip delta (map lab (seq (nes_in s) (length bits))) bits)
      end
  | IAnd i j =>
      rbind (local (ne_and sigma aes GC (lbl (nes_w s) i) (lbl (nes_w s) j) (nes_gid s))) (fun o =>
      Ret (Ok (mkNE (nes_w s ++ [o]) (S (nes_gid s)) (nes_cnt s) (nes_in s) (nes_saw s))))
  | IXor i j => w (N.lxor (lbl (nes_w s) i) (lbl (nes_w s) j))
  | INot i => w (lbl (nes_w s) i)
  | IReveal p ws =>
      let l := map (lbl (nes_w s)) ws in
      let sees n b := Ret (Ok (mkNE (nes_w s) (nes_gid s) (nes_cnt s + n) (nes_in s) (nes_saw s ++ [b]))) in
      match p with
      | ALICE => p_sends (map (fun l => MBit (getLSB l)) l) (sees 0%nat (repeat false (length ws)))
      | BOB => pbind (p_bits (length ws)) (fun r => sees 0%nat (map2 (fun t l => xorb t (getLSB l)) r l))
      | PUBLIC =>
          rbind (local (ne_pub pub (nes_cnt s) l)) (fun b =>
          p_sends [MBits b; MHash (Hash l)] (sees (length ws) b))
      end
  end.
(** a circuit: /repo/backend/online_hg_gen.h:27-30, online_primus_gen.h:23-70 *)
Fixpoint p_ngen (out_labels : list N) (s : ngen) (prog : list instr) : proc (res ngen) :=
  match prog with [] => Ret (Ok s) | c :: t => rbind (p_ngen_step out_labels s c) (fun s => p_ngen out_labels s t) end.
(** a circuit: /repo/backend/online_hg_eva.h:19-28, online_primus_eva.h:23-49 *)
Fixpoint p_neva (GC : list N) (pub : list bool) (s : neva) (prog : list instr) : proc (res neva) :=
  match prog with [] => Ret (Ok s) | c :: t => rbind (p_neva_step GC pub s c) (fun s => p_neva GC pub s t) end.
(** /repo/backend/backend.h:35-63 *)
Definition ng0 : ngen := mkNG [] 0 0 [].
(** /repo/backend/backend.h:35-63 *)
Definition ne0 : neva := mkNE [] 0 0 0 [].
(** both phases of the garbler: /repo/backend/backend.h:18-63 *)
Definition p_gen2 (off on_ : list instr) : proc (res ngen) :=
  rbind (p_fgen f_init_g off) (fun g => p_ngen (fg_out g) ng0 on_).
(** both phases of the evaluator: /repo/backend/backend.h:18-63 *)
Definition p_eva2 (off on_ : list instr) : proc (res neva) :=
  rbind (p_feva f_init_e off) (fun e => p_neva (fe_GC e) (fe_pub e) ne0 on_).
End GC.
