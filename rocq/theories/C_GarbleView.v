(** Properties C83-C86: what the garbled circuits tell each party. *)
From Coq Require Import List NArith Bool Arith.
From Verif Require Import L_Bits L_Res S_Circuit S_GarbleView M_Block M_Garble M_GarbleTr P_Garble P_GarbleOpt P_GarbleView P_GarbleView2 P_GarbleView3 P_GarbleView4 C_Garble.
Import ListNotations.
Local Open Scope N_scope.

(** ** C83: the evaluator learns the values opened to it *)
(** Two assignments of inputs, one circuit, the same values opened to the evaluator.  Whatever the
    garbler's random values in the first run, changing the hash at the points the evaluator does
    not reach and the zero labels of the inputs that differ gives the same tables, the same
    permute bits, the same labels and the same messages in the second run. *)
Theorem C83_evaluator_view : forall sigma aes Hash fixk lab delta, getLSB delta = true ->
  forall off on1 on2, map shape off = map shape on1 -> map shape on1 = map shape on2 -> wf 0 on1 = true ->
  let W := fst (spec_run [] on1) in let W' := fst (spec_run [] on2) in
  told BOB (snd (spec_run [] on1)) = told BOB (snd (spec_run [] on2)) ->
  forall g e s op, f_run sigma aes fixk lab delta f_init_g f_init_e [] off = Ok (g, e, []) ->
  n_run sigma aes Hash fixk lab delta (fg_out g) (fe_GC e) (fe_pub e) n_init on1 = Ok (s, op) ->
  let l := ne_w s in
  NoDup (unknown_points sigma delta (gates 0 on1) l) ->
  (forall p, In p (unknown_points sigma delta (gates 0 on1) l) -> ~ In p (known_points sigma (gates 0 on1) l)) ->
  let aes' p := N.lxor (aes p) (shift sigma delta (gates 0 on1) l W W' p) in
  let lab' k := N.lxor (lab k) (if xorb (nth k (inputs on1) false) (nth k (inputs on2) false) then delta else 0) in
  exists g' s' op',
    f_run sigma aes' fixk lab' delta f_init_g f_init_e [] off = Ok (g', e, []) /\
    f_sent sigma aes' fixk lab' delta f_init_g off = f_sent sigma aes fixk lab delta f_init_g off /\
    n_run sigma aes' Hash fixk lab' delta (fg_out g') (fe_GC e) (fe_pub e) n_init on2 = Ok (s', op') /\
    Forall2 seen (snd (spec_run [] on2)) op' /\
    ne_w s' = ne_w s /\
    n_sent sigma aes' Hash fixk lab' delta (fg_out g') (fe_GC e) (fe_pub e) n_init on2 =
    n_sent sigma aes Hash fixk lab delta (fg_out g) (fe_GC e) (fe_pub e) n_init on1.
Proof. exact evaluator_view. Qed.
Print Assumptions C83_evaluator_view.
(** The hash keeps its values where the evaluator evaluates it. *)
Theorem C83_hash_kept : forall sigma delta gs l W W' p, ~ In p (unknown_points sigma delta gs l) -> shift sigma delta gs l W W' p = 0.
Proof. exact shift_off. Qed.
Print Assumptions C83_hash_kept.
(** The change depends on the view and the two assignments only, and made twice it is none: it
    pairs the random values of the one run with those of the other. *)
Theorem C83_change_back : forall sigma delta on1 on2 l W W', map shape on1 = map shape on2 ->
  (forall p, shift sigma delta (gates 0 on2) l W' W p = shift sigma delta (gates 0 on1) l W W' p) /\
  unknown_points sigma delta (gates 0 on2) l = unknown_points sigma delta (gates 0 on1) l /\ known_points sigma (gates 0 on2) l = known_points sigma (gates 0 on1) l.
Proof. exact shift_back. Qed.
Print Assumptions C83_change_back.
Definition c83_on (a0 a1 b : bool) : list instr :=
  [IFeed ALICE [a0; a1]; IFeed BOB [b]; IPub true; IAnd 0 2; IXor 4 1; IAnd 5 3; INot 6; IReveal PUBLIC [6]; IReveal BOB [5; 7]; IReveal ALICE [6]]%nat.
Definition c83_off := map shape (c83_on false false false).
Definition c83_run a0 a1 b :=
  match f_run toy_sigma toy_aes (toy_stream 1000) (toy_stream 5) c25_delta f_init_g f_init_e [] c83_off with
  | Ok (g, e, []) => let* r := n_run toy_sigma toy_aes toy_hash (toy_stream 1000) (toy_stream 5) c25_delta (fg_out g) (fe_GC e) (fe_pub e) n_init (c83_on a0 a1 b) in
                     Ok (e, fst r, n_sent toy_sigma toy_aes toy_hash (toy_stream 1000) (toy_stream 5) c25_delta (fg_out g) (fe_GC e) (fe_pub e) n_init (c83_on a0 a1 b))
  | _ => Err
  end%res.
(** two assignments with the same opened values; the hypotheses hold and the change is not none *)
Example C83_ex : map shape (c83_on true false true) = map shape (c83_on false true true) /\
  told BOB (snd (spec_run [] (c83_on true false true))) = told BOB (snd (spec_run [] (c83_on false true true))) /\
  match c83_run true false true with
  | Ok (e, s, (mg, me)) =>
      let l := ne_w s in let u := unknown_points toy_sigma c25_delta (gates 0 (c83_on true false true)) l in
      NoDup u /\ (forall p, In p u -> ~ In p (known_points toy_sigma (gates 0 (c83_on true false true)) l)) /\ length u = 4%nat /\
      shift toy_sigma c25_delta (gates 0 (c83_on true false true)) l (fst (spec_run [] (c83_on true false true))) (fst (spec_run [] (c83_on false true true))) (nth 1 u 0) = c25_delta /\
      length (fe_GC e) = 4%nat /\ length mg = 5%nat /\ length me = 3%nat
  | _ => False
  end.
Proof.
  split; [reflexivity|]. split; [reflexivity|]. vm_compute. split.
  { repeat constructor; cbn; intuition discriminate. }
  split; [|repeat split]. intros p H K.
  repeat (destruct H as [H|H]; [subst p; repeat (destruct K as [K|K]; [discriminate K|]); exact K|]). exact H.
Qed.

(** ** C84: the garbler learns the values opened to it *)
Theorem C84_garbler_view : forall sigma aes Hash fixk lab delta, getLSB delta = true ->
  forall off on1 on2, map shape off = map shape on1 -> map shape on1 = map shape on2 -> wf 0 on1 = true ->
  told ALICE (snd (spec_run [] on1)) = told ALICE (snd (spec_run [] on2)) ->
  forall g e, f_run sigma aes fixk lab delta f_init_g f_init_e [] off = Ok (g, e, []) ->
  exists s s' op op',
    n_run sigma aes Hash fixk lab delta (fg_out g) (fe_GC e) (fe_pub e) n_init on1 = Ok (s, op) /\
    n_run sigma aes Hash fixk lab delta (fg_out g) (fe_GC e) (fe_pub e) n_init on2 = Ok (s', op') /\
    ng_w s' = ng_w s /\
    snd (n_sent sigma aes Hash fixk lab delta (fg_out g) (fe_GC e) (fe_pub e) n_init on1) =
    snd (n_sent sigma aes Hash fixk lab delta (fg_out g) (fe_GC e) (fe_pub e) n_init on2).
Proof. exact garbler_view. Qed.
Print Assumptions C84_garbler_view.
Example C84_ex : match c83_run false true true, c83_run false true false, c83_run true true true with
  | Ok (_, _, (g1, e1)), Ok (_, _, (g2, e2)), Ok (_, _, (_, e3)) => e1 = e2 /\ g1 <> g2 /\ e1 <> e3 /\ length e1 = 3%nat
  | _, _, _ => False
  end.
Proof. vm_compute. repeat split; discriminate. Qed.

(** ** C85: the streaming evaluator learns the values opened to it *)
(** Only the hash is changed: the labels of the garbler's inputs come from a shared generator and
    do not depend on the inputs. *)
Theorem C85_evaluator_view : forall sigma aes Hash fixk Kc rnd lab delta, getLSB delta = true -> blk delta ->
  (forall x, blk (sigma x)) -> (forall x, blk (aes x)) -> (forall i, blk (fixk i)) -> (forall i, blk (Kc i)) -> (forall i, blk (lab i)) ->
  forall bs on1 on2, map shape on1 = map shape on2 -> inputs_of BOB on1 = inputs_of BOB on2 -> wf 0 on1 = true ->
  let W := fst (spec_run [] on1) in let W' := fst (spec_run [] on2) in
  told BOB (snd (spec_run [] on1)) = told BOB (snd (spec_run [] on2)) ->
  let s0 := o_init Kc rnd delta bs in
  clean_run sigma aes Hash fixk Kc rnd lab delta s0 [] [] on1 ->
  forall s op, o_run sigma aes Hash fixk Kc rnd lab delta s0 on1 = Ok (s, op) ->
  let l := oe_w s in let gs := live_gates 0 [] on1 in
  (forall i, (i < length l)%nat -> kind (fold_left kind_step on1 []) i = None -> ~ special (N.lxor (lbl l i) delta)) ->
  NoDup (unknown_points sigma delta gs l) -> (forall p, In p (unknown_points sigma delta gs l) -> ~ In p (known_points sigma gs l)) ->
  let aes' p := N.lxor (aes p) (shift sigma delta gs l W W' p) in
  exists s' op', o_run sigma aes' Hash fixk Kc rnd lab delta s0 on2 = Ok (s', op') /\
    Forall2 seen (snd (spec_run [] on2)) op' /\ oe_w s' = oe_w s /\ oe_f s' = oe_f s /\
    o_msgs sigma aes' Hash fixk Kc rnd lab delta s0 on2 = o_msgs sigma aes Hash fixk Kc rnd lab delta s0 on1 /\
    clean_run sigma aes' Hash fixk Kc rnd lab delta s0 [] [] on2 /\ (forall x, blk (aes' x)).
Proof. exact streaming_evaluator_view. Qed.
Print Assumptions C85_evaluator_view.
(** As in C83 the change made twice is none, and the second run meets the hypotheses of the first
    (with the clean run of the theorem above): the change pairs the hash functions of the two runs. *)
Theorem C85_change_back : forall sigma delta on1 on2 l W W', map shape on1 = map shape on2 ->
  let gs1 := live_gates 0 [] on1 in let gs2 := live_gates 0 [] on2 in
  (forall p, shift sigma delta gs2 l W' W p = shift sigma delta gs1 l W W' p) /\
  unknown_points sigma delta gs2 l = unknown_points sigma delta gs1 l /\ known_points sigma gs2 l = known_points sigma gs1 l /\
  fold_left kind_step on2 [] = fold_left kind_step on1 [].
Proof. exact streaming_shift_back. Qed.
Print Assumptions C85_change_back.
(** wires: 0, 1 of ALICE, 2, 3 of BOB, a constant, an XOR of a wire with itself, an AND with a constant,
    and a request that is larger than the buffer *)
Definition c85_on (a0 a1 b0 b1 : bool) : list instr :=
  [IFeed ALICE [a0; a1]; IFeed BOB [b0; b1]; IPub true; IAnd 0 2; IXor 5 1; IXor 6 6; IAnd 6 3; INot 8; IAnd 9 4; IFeed BOB [b0; b1; b0; b1; b0];
   IAnd 7 9; IReveal PUBLIC [8; 4; 7]; IReveal BOB [6; 9]; IReveal ALICE [8; 10]]%nat.
Notation c85_rnd := (fun i => N.testbit (toy_stream 3 i) 4).
Definition c85_run a0 a1 b0 b1 :=
  let s0 := o_init (toy_stream 900) c85_rnd c25_delta 4 in
  (let* r := o_run toy_sigma toy_aes toy_hash (toy_stream 77) (toy_stream 900) c85_rnd (toy_stream 500) c25_delta s0 (c85_on a0 a1 b0 b1) in
   Ok (fst r, o_msgs toy_sigma toy_aes toy_hash (toy_stream 77) (toy_stream 900) c85_rnd (toy_stream 500) c25_delta s0 (c85_on a0 a1 b0 b1)))%res.
Example C85_ex : let on1 := c85_on true false true true in let on2 := c85_on false true true true in
  map shape on1 = map shape on2 /\ inputs_of BOB on1 = inputs_of BOB on2 /\ wf 0 on1 = true /\
  told BOB (snd (spec_run [] on1)) = told BOB (snd (spec_run [] on2)) /\
  clean_runb toy_sigma toy_aes toy_hash (toy_stream 77) (toy_stream 900) c85_rnd (toy_stream 500) c25_delta (o_init (toy_stream 900) c85_rnd c25_delta 4) [] [] on1 = true /\
  match c85_run true false true true with
  | Ok (s, (mg, me)) =>
      let l := oe_w s in let gs := live_gates 0 [] on1 in let u := unknown_points toy_sigma c25_delta gs l in
      forallb (fun i => match kind (fold_left kind_step on1 []) i with None => negb (specialb (N.lxor (lbl l i) c25_delta)) | Some _ => true end) (seq 0 (length l)) = true /\
      NoDup u /\ (forall p, In p u -> ~ In p (known_points toy_sigma gs l)) /\ length u = 6%nat /\
      shift toy_sigma c25_delta gs l (fst (spec_run [] on1)) (fst (spec_run [] on2)) (nth 1 u 0) = c25_delta /\ length mg = 7%nat /\ length me = 5%nat
  | _ => False
  end.
Proof.
  cbv zeta. do 5 (split; [vm_compute; reflexivity|]). vm_compute. split; [reflexivity|]. split.
  { repeat constructor; cbn; intuition discriminate. }
  split; [|repeat split]. intros p H K.
  repeat (destruct H as [H|H]; [subst p; repeat (destruct K as [K|K]; [discriminate K|]); exact K|]). exact H.
Qed.

(** ** C86: the streaming garbler learns the values opened to it *)
(** The evaluator's random bits mask the corrections; those of the buffered inputs are changed. *)
Theorem C86_garbler_view : forall sigma aes Hash fixk Kc rnd lab delta, getLSB delta = true -> blk delta ->
  (forall x, blk (sigma x)) -> (forall x, blk (aes x)) -> (forall i, blk (fixk i)) -> (forall i, blk (Kc i)) -> (forall i, blk (lab i)) ->
  forall bs on1 on2, map shape on1 = map shape on2 -> inputs_of ALICE on1 = inputs_of ALICE on2 -> wf 0 on1 = true ->
  told ALICE (snd (spec_run [] on1)) = told ALICE (snd (spec_run [] on2)) ->
  let rnd' m := xorb (rnd m) (xorb (nth m (buffered_inputs bs on1) false) (nth m (buffered_inputs bs on2) false)) in
  let s0 := o_init Kc rnd delta bs in let s0' := o_init Kc rnd' delta bs in
  clean_run sigma aes Hash fixk Kc rnd lab delta s0 [] [] on1 -> clean_run sigma aes Hash fixk Kc rnd' lab delta s0' [] [] on2 ->
  exists s op s' op', o_run sigma aes Hash fixk Kc rnd lab delta s0 on1 = Ok (s, op) /\ o_run sigma aes Hash fixk Kc rnd' lab delta s0' on2 = Ok (s', op') /\
    og_w s' = og_w s /\ og_f s' = og_f s /\
    o_msgs sigma aes Hash fixk Kc rnd' lab delta s0' on2 = o_msgs sigma aes Hash fixk Kc rnd lab delta s0 on1.
Proof. exact streaming_garbler_view. Qed.
Print Assumptions C86_garbler_view.
Example C86_ex : let on1 := c85_on false true true true in let on2 := c85_on false true false true in
  let rnd' m := xorb (c85_rnd m) (xorb (nth m (buffered_inputs 4 on1) false) (nth m (buffered_inputs 4 on2) false)) in
  told ALICE (snd (spec_run [] on1)) = told ALICE (snd (spec_run [] on2)) /\ inputs_of ALICE on1 = inputs_of ALICE on2 /\ inputs_of BOB on1 <> inputs_of BOB on2 /\
  clean_runb toy_sigma toy_aes toy_hash (toy_stream 77) (toy_stream 900) c85_rnd (toy_stream 500) c25_delta (o_init (toy_stream 900) c85_rnd c25_delta 4) [] [] on1 = true /\
  clean_runb toy_sigma toy_aes toy_hash (toy_stream 77) (toy_stream 900) rnd' (toy_stream 500) c25_delta (o_init (toy_stream 900) rnd' c25_delta 4) [] [] on2 = true /\
  buffered_inputs 4 on1 = [true; true] /\
  match c85_run false true true true, c85_run false true false true with
  | Ok (_, (_, e1)), Ok (_, (_, e2)) => length e1 = 5%nat /\ e1 <> e2
  | _, _ => False
  end.
Proof. cbv zeta. do 6 (split; [vm_compute; (reflexivity || discriminate)|]). vm_compute. split; [reflexivity|discriminate]. Qed.
