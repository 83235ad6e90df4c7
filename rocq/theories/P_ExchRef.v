(** Exchanges that can leave a party waiting: witnesses. *)
From Coq Require Import List NArith ZArith Bool Arith Lia.
From Verif Require Import L_Bits L_Res L_Group S_Sched S_Ec S_Codec S_Gcm M_EmpInteger M_Utils M_Ole2k M_Bn M_Ec M_Aead M_Exch M_ExchDh.
From Verif Require Import D_AesKs D_AesEnc D_Toy P_AeadInst P_ExchDh P_ExchSess.
Import ListNotations.
Local Open Scope nat_scope.
Local Opaque aes_ks_file aes_enc_file str_to_int gf_mul.

Lemma deadlock_not_completes {A B} (p : proc A) (q : proc B) : can_deadlock p q -> ~ exists oa ob, always_completes p q oa ob.
Proof.
  intros (x & R & S & [H|H]) (oa & ob & F & _); specialize (F x R S); subst x; cbn in H; exact (H _ eq_refl).
Qed.
Lemma points_refuted : exists (C : Curve) ta tb (Ts : pt C), smul ta (@gen C) <> pz /\
  ~ exists oa ob, always_completes (p_client_VB tb Ts) (p_primus_VA ta Ts) oa ob.
Proof.
  exists toy, 4%Z, 7%Z, gen. assert (NZ : smul 4 (@gen toy) <> pz) by discriminate. split; [exact NZ|].
  apply deadlock_not_completes. exact (proj1 (points_alone 4%Z 7%Z (@gen toy) NZ)).
Qed.
Lemma reveal_refuted : exists (C : Curve) (Ta : pt C) ta tb (Ts : pt C), smul ta gen = Ta /\
  ~ exists oa ob, always_completes (p_reveal_alice Ta tb Ts) (p_reveal_bob ta) oa ob.
Proof.
  exists toy, (smul 4 gen), 4%Z, 7%Z, gen. split; [reflexivity|]. apply deadlock_not_completes.
  apply (reveal_alone (smul 4 gen) 4%Z 7%Z (@gen toy) toy_annihilates); [discriminate|apply N.ltb_lt; reflexivity|reflexivity].
Qed.
Lemma new_refuted : exists gfr key fiv mh r ro, length key = 16 /\ length mh = 128 /\
  ~ exists oa ob, always_completes (p_new aes_ks_file aes_enc_file gfr true (str_to_int key) (str_to_int fiv) mh r ro)
                                   (p_new aes_ks_file aes_enc_file gfr false (str_to_int key) (str_to_int fiv) mh r ro) oa ob.
Proof.
  exists gf_mul, (repeat 0%N 16), (repeat 0%N 4), (repeat true 128), 1%N, (ex_ro 1).
  split; [reflexivity|]. split; [reflexivity|]. apply deadlock_not_completes.
  apply new_alone_files; [reflexivity|repeat constructor|reflexivity].
Qed.
