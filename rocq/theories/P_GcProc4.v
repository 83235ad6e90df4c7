(** A circuit that ends with an opening to both parties, with nothing after it: the evaluator's answer
    stays in its buffer. *)
From Coq Require Import List NArith Bool Arith Lia.
From Verif Require Import L_Bits L_Res S_Circuit S_Sched M_Utils M_Block M_Garble M_Exch M_LabRec M_GcProc.
From Verif Require Import P_Garble P_GarbleFeed P_Utils P_Sched P_Exch P_ExchAead P_ExchDh P_ExchCc P_GcProc P_GcProc2 P_GcProc3.
From Verif Require P_GarbleOpt.
Import ListNotations.
Local Open Scope N_scope.
Local Opaque bytes_of_block block_of_bytes dig_bytes.

Lemma sends_only {A} (k : proc A) : only_sends k -> forall ms, only_sends (p_sends ms k).
Proof. intros H ms. induction ms as [|m ms IH]; [exact H|exact IH]. Qed.
(** ALICE comes to wait for bytes that BOB has only put into its buffer *)
Definition leads {A B} (p : proc A) (q : proc B) : Prop := exists n m k q',
  abs_steps n (mkA p q nobufs nobufs) (mkA (Recv IO m k) q' nobufs nobufs) /\ m <> O /\ only_sends q'.
Lemma leads_dead {A B} (p : proc A) (q : proc B) : leads p q -> can_deadlock p q.
Proof.
  intros (n & m & k & q' & H & M & O). destruct (proj2 (unflushed_deadlock q' IO m k O M)) as (x & R & S). exists x. split; [|exact S].
  apply abs_reach in H. unfold start in *. clear S O. induction R as [|u v R IH S]; [exact H|eapply reach_step; eassumption].
Qed.
Lemma leads_rbind {A B C D} (f : A -> proc (res C)) (g : B -> proc (res D)) p q a b :
  conv p q (Ok a) (Ok b) -> leads (f a) (g b) -> leads (rbind p f) (rbind q g).
Proof.
  intros [n H] (n' & m & k & q' & K & M & O). exists (n + n')%nat, m, k, q'. split; [|auto].
  eapply abs_trans; [|exact K]. unfold rbind.
  exact (abs_bind (fun r => match r with Ok a => f a | Err => Ret Err | UB => Ret UB end)
                  (fun r => match r with Ok b => g b | Err => Ret Err | UB => Ret UB end) n _ _ _ _ _ _ _ _ H).
Qed.

Section S.
Variables (sigma aes : N -> N) (Hash : list N -> N) (fixk : nat -> N) (lab : nat -> N) (delta : N).
Hypothesis Hd : getLSB delta = true.
Hypothesis Bd : delta < 2 ^ 128.
Hypothesis Bs : forall x, sigma x < 2 ^ 128.
Hypothesis Ba : forall x, aes x < 2 ^ 128.
Hypothesis Bf : forall i, fixk i < 2 ^ 128.
Hypothesis Bl : forall i, lab i < 2 ^ 128.
Section Str.
Variables (Kc : nat -> N) (rnd : nat -> bool).
Hypothesis Bk : forall i, Kc i < 2 ^ 128.
Notation o_step := (o_step sigma aes Hash fixk Kc rnd lab delta).
Notation p_gen := (p_gen sigma aes Hash fixk Kc lab delta).
Notation p_eva := (p_eva sigma aes Hash fixk Kc rnd lab delta).
Notation oinv := (P_GarbleOpt.oinv Kc rnd delta).
Notation clean_run := (P_GarbleOpt.clean_run sigma aes Hash fixk Kc rnd lab delta).
Lemma stream_leads bs ws : ws <> [] -> forall prog s w k va vb, oinv bs s w k -> wf (length w) (prog ++ [IReveal PUBLIC ws]) = true ->
  clean_run s w k (prog ++ [IReveal PUBLIC ws]) ->
  leads (p_gen (gof s va) (prog ++ [IReveal PUBLIC ws])) (p_eva (eof s vb) (prog ++ [IReveal PUBLIC ws])).
Proof.
  intro NE. induction prog as [|c t IH]; intros s w k va vb Hi Hwf Hc; cbn [app wf] in *; destruct Hc as [Hc1 Hc2];
    apply andb_prop in Hwf; destruct Hwf as [W1 W2].
  - destruct (P_GarbleOpt.opt_step sigma aes Hash fixk Kc rnd lab delta Hd Bd Bs Ba Bf Bk Bl bs s w k _ Hi W1 Hc1) as (s1 & op1 & E & _ & E3 & _).
    destruct Hi as (Q & p & FQ & _ & _ & Eg & _ & _ & G1 & G2 & _).
    destruct E3 as (Q' & p' & _ & _ & _ & _ & _ & _ & G3 & G4 & _). clear Hc1 Hc2.
    cbn [M_Garble.o_step] in E. unfold gof, eof.
    cbn [M_GcProc.p_gen M_GcProc.p_eva M_GcProc.p_gen_step M_GcProc.p_eva_step gs_w gs_gid gs_f gs_saw es_w es_gid es_f es_saw].
    destruct (og_reveal_send (map (lbl (og_w s)) ws)) as [bg m] eqn:ES. rewrite G1, G2 in E. cbn [app snd] in *.
    destruct (oe_reveal_recv (map (lbl (oe_w s)) ws) m) as [[be ch]| |] eqn:ER; cbn [bind] in E; try discriminate.
    unfold oe_reveal_report in E. cbn [recv as_bits as_hash bind] in E. 
    destruct (og_reveal_check _ _ _ _ _); cbn [bind] in E; try discriminate. injection E as <- <-. cbn [o_ge] in G3. subst ch.
    match goal with |- leads (rbind (p_sends m ?x) ?f) (rbind (pbind ?y ?z) ?g) =>
      destruct (solo_A _ _ _ _ _ _ (rbind (pbind y z) g) (solo_bind _ (fun r => match r with Ok a => f a | Err => Ret Err | UB => Ret UB end) _ _ _ _ _ (sends0 x m))) as [n1 K1];
      destruct (solo_B (pbind x (fun r => match r with Ok a => f a | Err => Ret Err | UB => Ret UB end)) _ _ _ _ _ _
        (solo_bind _ (fun r => match r with Ok b => g b | Err => Ret Err | UB => Ret UB end) _ _ _ _ _ (solo_bind _ z _ _ _ _ _ (solo_reveal _ _ _ _ nobufs ER)))) as [n2 K2]
    end.
    eexists (n1 + n2)%nat, _, _, _. split; [eapply abs_trans; [exact K1|exact K2]|]. split; [destruct ws; [congruence|discriminate]|].
    cbn [pbind]. apply only_sends_bind; [apply sends_only; exact I|]. intros [r| |]; exact I.
  - destruct (P_GarbleOpt.opt_step sigma aes Hash fixk Kc rnd lab delta Hd Bd Bs Ba Bf Bk Bl bs s w k c Hi W1 Hc1) as (s1 & op1 & E1 & E2 & E3 & _).
    rewrite E1 in Hc2. rewrite <- spec_step_length in W2. cbn [M_GcProc.p_gen M_GcProc.p_eva].
    eapply leads_rbind; [|eapply (IH s1 _ _ (va ++ saw true op1) (vb ++ saw false op1)); eassumption].
    destruct Hi as (Q & p & FQ & _ & _ & Eg & _ & _ & G1 & G2 & _).
    destruct E3 as (Q' & p' & _ & _ & _ & _ & _ & _ & G3 & G4 & _).
    apply (o_step_conv sigma aes Hash fixk Kc rnd lab delta Bd Bs Ba); try assumption. rewrite Eg. eapply rel_blk; exact FQ.
Qed.
Theorem stream_unflushed bs prog ws : ws <> [] -> wf 0 (prog ++ [IReveal PUBLIC ws]) = true ->
  clean_run (o_init Kc rnd delta bs) [] [] (prog ++ [IReveal PUBLIC ws]) ->
  can_deadlock (p_gen (g0 Kc bs) (prog ++ [IReveal PUBLIC ws])) (p_eva (e0 Kc rnd delta bs) (prog ++ [IReveal PUBLIC ws])).
Proof.
  intros NE W C. apply leads_dead.
  apply (stream_leads bs ws NE prog (o_init Kc rnd delta bs) [] [] [] []); try assumption.
  exists [], (pos_init bs). split; [constructor|]. repeat (split; [reflexivity|]). apply finv_init.
Qed.
End Str.

Notation n_run := (n_run sigma aes Hash fixk lab delta).
Notation p_ngen := (p_ngen Hash fixk lab delta).
Notation p_neva := (p_neva sigma aes Hash fixk lab delta).
Lemma online_leads out GC pub ws : ws <> [] -> forall prog s s' op va vb,
  n_run out GC pub s (prog ++ [IReveal PUBLIC ws]) = Ok (s', op) -> n_ge s = [] -> n_eg s = [] ->
  leads (p_ngen out (ngof s va) (prog ++ [IReveal PUBLIC ws])) (p_neva GC pub (neof s vb) (prog ++ [IReveal PUBLIC ws])).
Proof.
  intro NE. induction prog as [|c t IH]; intros s s' op va vb E G1 G2; cbn [app M_Garble.n_run M_GcProc.p_ngen M_GcProc.p_neva] in *.
  - cbn [M_Garble.n_step] in E.
    destruct (ne_pub pub (ne_cnt s) (map (lbl (ne_w s)) ws)) as [be| |] eqn:EP; cbn [bind] in E; try discriminate.
    unfold ngof, neof. cbn [M_GcProc.p_ngen_step M_GcProc.p_neva_step ngs_w ngs_gid ngs_prg ngs_saw nes_w nes_gid nes_cnt nes_in nes_saw].
    rewrite EP. unfold local. exists O. eexists _, _, _. split; [constructor|]. split; [destruct ws; [congruence|discriminate]|].
    cbn. exact I.
  - destruct (n_step sigma aes Hash fixk lab delta out GC pub s c) as [[s1 o1]| |] eqn:E1; cbn [bind] in E; try discriminate.
    destruct (n_run out GC pub s1 (t ++ [IReveal PUBLIC ws])) as [[s2 o2]| |] eqn:E2; cbn [bind] in E; try discriminate.
    destruct (n_step_conv sigma aes Hash fixk lab delta Bd Bl out GC pub s c s1 o1 va vb E1 G1 G2) as (C1 & G3 & G4).
    eapply leads_rbind; [exact C1|]. eapply IH; eassumption.
Qed.
Theorem two_phase_unflushed off prog ws : ws <> [] -> map shape off = map shape (prog ++ [IReveal PUBLIC ws]) -> wf 0 (prog ++ [IReveal PUBLIC ws]) = true ->
  can_deadlock (p_gen2 sigma aes Hash fixk lab delta off (prog ++ [IReveal PUBLIC ws]))
               (p_eva2 sigma aes Hash fixk lab delta off (prog ++ [IReveal PUBLIC ws])).
Proof.
  intros NE M W. apply leads_dead. destruct (two_phase_ok sigma aes Hash fixk lab delta Hd off _ M W) as (s & op & T & _).
  destruct (off_conv sigma aes Hash fixk lab delta Bd Bs Ba Bf Bl off f_init_g f_init_e) as (g & e & F & C1); [constructor|].
  unfold two_phase in T. rewrite F in T. cbn [bind] in T. unfold p_gen2, p_eva2.
  eapply leads_rbind; [exact C1|]. exact (online_leads _ _ _ ws NE prog n_init s op [] [] T eq_refl eq_refl).
Qed.
End S.
