(** The whole handshake: Diffie-Hellman, share conversion, key schedule, opening and proof. *)
From Coq Require Import List NArith ZArith Bool Arith Lia Znumtheory.
From Verif Require Import L_Bits L_Res L_Group S_Ec S_Tls S_Codec M_EmpInteger M_Utils M_Bn M_Ole M_E2f M_Ec M_Handshake.
From Verif Require Import P_Bn P_Ole P_E2f P_Dh P_Handshake P_HandshakeZk.
Import ListNotations.
Local Open Scope Z_scope.

Local Opaque session prove_handshake ms_spec key_block e2f_offline e2f_online str_to_int.
Theorem full_handshake (C : Curve) ccrh bl ra rb Delta raw ta tb s rounds rc rs sh tc ts xa ya xb yb :
  annihilates C -> prime (cp C) -> cp C < 2 ^ Z.of_nat bl -> order C <= 256 ^ Z.of_nat bn_buf ->
  length raw = 5%nat -> Forall (fun r => length r = bl) raw -> 0 <= ta < order C ->
  Forall byte8 rc -> Forall byte8 rs -> opt_wf sh -> Forall byte8 tc -> Forall byte8 ts ->
  let Ts := smul s (@gen C) in
  smul ta (@gen C) <> pz ->
  coords (smul tb Ts) = Some (xa, ya) -> coords (smul ta Ts) = Some (xb, yb) -> xa <> xb ->
  exists Tc Va Vb Ta sa sb, dh_exchange ta tb Ts = Ok (Tc, Va, Vb, Ta) /\
    e2f_offline ccrh (cp C) bl ra rb Delta raw = Ok (sa, sb) /\
    ((e_a sa + e_a sb) mod cp C <> 0 ->
     exists x y pa pb S S' ms ks,
       coords (smul s Tc) = Some (x, y) /\
       e2f_online (cp C) sa sb (fst (affine Vb)) (snd (affine Vb)) (fst (affine Va)) (snd (affine Va)) = Ok (pa, pb) /\
       session (cp C) rounds pa pb rc rs sh (fins tc ts) = Ok S /\
       (let m := ms_spec (premaster (BN_num_bytes (cp C)) (Z.to_N x)) rc rs sh in
        let kb := key_block m rc rs in
        hs_ms S = str_to_int m /\
        hs_cwk S = str_to_int (tls_client_key kb) /\ hs_swk S = str_to_int (tls_server_key kb) /\
        hs_civ S = str_to_int (tls_client_iv kb) /\ hs_siv S = str_to_int (tls_server_iv kb)) /\
       dh_reveal ta tb Ts Ta = Ok x /\
       prove_handshake S x rc rs tc ts sh = Ok (S', ms, ks) /\ checks_hold S' /\
       ms = hs_ms S /\ ks = (hs_cwk S, hs_swk S, hs_civ S, hs_siv S)).
Proof.
  intros A P B OB L F Rta Brc Brs Bsh Btc Bts Ts NTa Ca Cb Nx.
  assert (Q2 := prime_ge_2 _ P). pose proof (cp_size C) as CS.
  assert (Bq : bound1000 (cp C)).
  { split; [lia|]. apply Z.le_trans with (2 ^ 256); [lia|]. change 256 with (2 ^ 8) at 2. rewrite <- Z.pow_mul_r by lia.
    apply Z.pow_le_mono_r; [lia|]. unfold bn_buf. lia. }
  destruct (e2f_correct ccrh (cp C) bl ra rb Delta raw xa ya xb yb P Bq B L F) as (sa & sb & Eoff & _ & On).
  exists (padd (smul ta gen) (smul tb gen)), (smul ta Ts), (smul tb Ts), (smul ta gen), sa, sb.
  split; [now apply dh_exchange_ok|]. split; [exact Eoff|]. intro Ha.
  destruct (coords_range C _ _ _ Ca) as [Rxa Rya]. destruct (coords_range C _ _ _ Cb) as [Rxb Ryb].
  assert (Nm : xa mod cp C <> xb mod cp C) by (rewrite !Z.mod_small by lia; auto).
  destruct (On Ha Nm) as (pa & pb & y3 & Eon & Rpa & Rpb & Ch).
  destruct (coords_chord C _ _ _ _ _ _ Ca Cb Nx) as (x & y & Cs & Ch').
  assert (Rx := proj1 (coords_range C _ _ _ Cs)).
  assert (Ex : (pa + pb) mod cp C = x).
  { destruct (chord_unique _ _ _ _ _ _ _ _ _ P Nm Ch Ch') as [E _]. red in E. now rewrite (Z.mod_small x) in E by lia. }
  assert (Srv : coords (smul s (padd (smul ta (@gen C)) (smul tb gen))) = Some (x, y)).
  { rewrite (dh_server ta tb s). rewrite padd_comm. exact Cs. }
  destruct (prove_handshake_complete (cp C) rounds pa pb rc rs sh tc ts Rpa Rpb Brc Brs Bsh Btc Bts)
    as (S & S' & ms & ks & ES & EP & Hc & Hm & Hk).
  rewrite Ex in EP.
  exists x, y, pa, pb, S, S', ms, ks.
  split; [exact Srv|]. split.
  { unfold affine. rewrite Ca, Cb. exact Eon. }
  split; [exact ES|]. split.
  { destruct (session_ok (cp C) rounds pa pb rc rs sh (fins tc ts) Rpa Rpb Brc Brs Bsh) as (S2 & ES2 & M1 & M2 & M3 & M4 & M5 & _).
    - repeat constructor; auto.
    - rewrite ES in ES2. injection ES2 as <-. unfold pms_of in *. rewrite Ex in M1, M2, M3, M4, M5. cbv zeta. repeat split; assumption. }
  split; [|auto].
  unfold dh_reveal.
  assert (Fits : (Z.abs_N ta < 256 ^ N.of_nat bn_buf)%N).
  { apply N2Z.inj_lt. rewrite N2Z.inj_abs_N, Z.abs_eq by lia. rewrite N2Z.inj_pow, nat_N_Z. change (Z.of_N 256) with 256. lia. }
  destruct (reveal_iff (smul ta gen) tb Ts ta [] A (proj1 Rta) Fits) as (bytes & Eb & R & _).
  rewrite Eb. cbn [bind]. rewrite <- (app_nil_r bytes), (R eq_refl). cbn [bind].
  rewrite <- dh_sum, padd_comm. unfold affine. rewrite Cs. reflexivity.
Qed.
