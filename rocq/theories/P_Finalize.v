(** finalize_check given an unset z0: the caller's vector holds a default-constructed Integer
    (/repo/test/protocol.cpp:133-142 passes prd_sz0, which no call has set). *)
From Coq Require Import List NArith Bool Arith Lia.
From Verif Require Import L_Bits L_Res M_EmpInteger M_Utils M_Bristol M_Block M_Shares M_Aead M_ItMac M_AeadProof.
From Verif Require Import P_AeadProof2.
Import ListNotations.

Lemma loop_short h blks : forall rs off acc, rs <> [] -> length blks < off + length rs -> finalize_loop blks h off rs acc = UB.
Proof.
  induction rs as [|r rs IH]; intros off acc N L; [contradiction|]. cbn [finalize_loop]. unfold read_blk.
  destruct (nth_error blks off) as [z|] eqn:E; [|reflexivity]. cbn [read bind].
  apply IH; [|cbn in L; lia]. intros ->. cbn in L. assert (off < length blks) by (apply nth_error_Some; congruence). lia.
Qed.
Lemma loop_total h blks : forall rs off acc, (exists b, finalize_loop blks h off rs acc = Ok b) \/ finalize_loop blks h off rs acc = UB.
Proof.
  induction rs as [|r rs IH]; intros off acc; cbn [finalize_loop]; [left; now exists acc|]. unfold read_blk.
  destruct (nth_error blks off); [apply IH|now right].
Qed.
Theorem unset_z0 Hc Hs zc zs finc fins ez encs dz1 dz2 decs :
  Forall (fun x : Integer => length x = 128) ([Hc; Hs; zc; zs] ++ ez ++ dz1 ++ dz2) ->
  length ez = length encs -> length (dz1 ++ [] :: dz2) = length decs ->
  finalize_check Hc Hs zc zs finc fins ez encs (dz1 ++ [] :: dz2) decs = UB.
Proof.
  intros F L1 L2. unfold finalize_check. rewrite L1, L2, !Nat.ltb_irrefl. cbn [orb]. cbv zeta.
  rewrite !firstn_all2 by lia. rewrite !reverse_concat_flat. cbn [concat]. rewrite !app_nil_r, app_nil_l.
  assert (A : ((((Hc ++ Hs) ++ zc) ++ zs) ++ concat ez) ++ concat (dz1 ++ [] :: dz2) = concat ([Hc; Hs; zc; zs] ++ ez ++ dz1 ++ dz2)).
  { rewrite !concat_app. cbn [concat]. rewrite app_nil_r, app_nil_l, <- !app_assoc. reflexivity. }
  rewrite A, reveal128_concat by exact F. unfold read_blk. cbn [app map nth_error read bind].
  match goal with |- context [finalize_loop ?b ?h ?o encs ?a] => destruct (loop_total h b encs o a) as [[x ->]| ->] end; [|reflexivity].
  cbn [bind]. apply loop_short.
  - intros ->. rewrite app_length in L2. cbn in L2. lia.
  - rewrite <- L2, <- L1. cbn [length]. rewrite map_length, !app_length. cbn [length]. lia.
Qed.
