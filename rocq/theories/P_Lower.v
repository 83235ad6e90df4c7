(** A sequence of backend requests and the circuit it stands for have the same meaning. *)
From Coq Require Import List NArith Bool Arith Lia.
From Verif Require Import S_Circuit S_Lower.
From Verif Require S_Netlist.
Import ListNotations.

Lemma spec_run_app a : forall w b, spec_run w (a ++ b) =
  (fst (spec_run (fst (spec_run w a)) b), snd (spec_run w a) ++ snd (spec_run (fst (spec_run w a)) b)).
Proof.
  induction a as [|c a IH]; intros w b; cbn [app spec_run fst snd].
  - now rewrite <- surjective_pairing.
  - rewrite IH. destruct (spec_run (spec_step w c) a) as [w1 o1]. cbn [fst snd]. now rewrite app_assoc.
Qed.
Lemma wf_app a : forall n b, wf n (a ++ b) = wf n a && wf (n + list_sum (map new_wires a)) b.
Proof.
  induction a as [|c a IH]; intros n b; cbn [app wf map list_sum fold_right].
  - now rewrite Nat.add_0_r.
  - rewrite IH, andb_assoc, Nat.add_assoc. reflexivity.
Qed.
Definition consts (V : list bool) : list bool := [false; true] ++ V.
Lemma low_wire_val V w : wire (consts V) (low_wire w) = S_Netlist.wval V w.
Proof. destruct w as [[|]|n]; reflexivity. Qed.
Lemma low_wires_val V ws : map (wire (consts V)) (map low_wire ws) = map (S_Netlist.wval V) ws.
Proof. rewrite map_map. apply map_ext. intro; apply low_wire_val. Qed.
Lemma low_step V e : spec_step (consts V) (low e) = consts (V ++ S_Netlist.outs V e).
Proof.
  destruct e; cbn [low spec_step S_Netlist.outs]; rewrite ?low_wire_val; try reflexivity.
  now rewrite app_nil_r.
Qed.
Theorem lower_run tr : spec_run [] (lower tr) = (consts (S_Netlist.vals tr), map low_open (S_Netlist.openings tr)).
Proof.
  unfold lower. cbn [spec_run spec_step app spec_opened].
  assert (H : spec_run [false; true] (map low (rev tr)) = (consts (S_Netlist.vals tr), map low_open (S_Netlist.openings tr))).
  { induction tr as [|e tr IH]; [reflexivity|]. cbn [rev]. rewrite map_app, spec_run_app, IH. cbn [fst snd map spec_run].
    rewrite low_step. cbn [fst snd S_Netlist.vals]. f_equal. rewrite app_nil_r.
    destruct e; cbn [low spec_opened S_Netlist.openings]; rewrite ?app_nil_r, ?map_app, ?low_wires_val; reflexivity. }
  rewrite H. reflexivity.
Qed.
Lemma low_new V e : new_wires (low e) = length (S_Netlist.outs V e).
Proof. destruct e; reflexivity. Qed.
Lemma low_is n w : S_Netlist.is_wire n w -> (low_wire w <? 2 + n) = true.
Proof. destruct w as [[|]|k]; cbn; try reflexivity. intro H. apply Nat.ltb_lt. lia. Qed.
Lemma low_wf n e : S_Netlist.sound_event n e -> wf_instr (2 + n) (low e) = true.
Proof.
  destruct e as [a b|a b|a|p bs|p ws]; cbn [S_Netlist.sound_event low wf_instr].
  - intros [Ha Hb]. now rewrite !low_is.
  - intros [Ha Hb]. now rewrite !low_is.
  - intro Ha. now rewrite low_is.
  - intro P. destruct p; [reflexivity|reflexivity|now elim P].
  - intro H. apply forallb_forall. intros i Hi. apply in_map_iff in Hi. destruct Hi as (w & <- & Hw).
    rewrite Forall_forall in H. apply low_is; auto.
Qed.
Lemma low_size tr : list_sum (map new_wires (map low (rev tr))) = length (S_Netlist.vals tr).
Proof.
  induction tr as [|e tr IH]; [reflexivity|]. cbn [rev S_Netlist.vals].
  rewrite !map_app, list_sum_app, app_length, IH. cbn [map list_sum fold_right]. rewrite (low_new (S_Netlist.vals tr)). lia.
Qed.
Theorem lower_wf tr : S_Netlist.sound_trace tr -> wf 0 (lower tr) = true.
Proof.
  unfold lower. cbn [wf wf_instr new_wires andb Nat.add]. induction tr as [|e tr IH]; [reflexivity|]. intros [H1 H2].
  cbn [rev]. rewrite map_app, wf_app, IH by assumption. cbn [map wf]. rewrite low_size.
  change 2%nat with (2 + 0)%nat. rewrite Nat.add_0_r, low_wf by assumption. reflexivity.
Qed.
Theorem lower_shape tr tr' : S_Netlist.shape tr = S_Netlist.shape tr' -> map shape (lower tr) = map shape (lower tr').
Proof.
  intro H. unfold lower. cbn [map shape]. do 2 f_equal. rewrite !map_map, !map_rev. f_equal.
  revert tr' H. induction tr as [|e tr IH]; intros [|e' tr'] H; try discriminate; [reflexivity|].
  injection H as He Ht. cbn [map]. rewrite (IH _ Ht). f_equal. clear - He.
  destruct e, e'; cbn in He; try discriminate; injection He; intros; subst; cbn; try reflexivity.
  apply (f_equal N.to_nat) in H. rewrite !Nnat.Nat2N.id in H. now rewrite H.
Qed.
