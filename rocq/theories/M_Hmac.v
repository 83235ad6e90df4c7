(** Model of class HMAC_SHA256 (/repo/cipher/hmac_sha256.h:15-124) and class PRF
    (/repo/cipher/prf.h:10-232). *)
From Coq Require Import List NArith ZArith Bool Arith.
From Verif Require Import L_Bits L_Res M_EmpInteger M_Trace M_Utils M_Sha256.
Import ListNotations.
Local Open Scope N_scope.
Local Open Scope res_scope.

(** class HMAC_SHA256 : public SHA256, members: /repo/cipher/hmac_sha256.h:17-22
    (the statistics counter SHA256_call is left out) *)
Record hmac_st := mkHmac {
  sha : sha_st;
  o_key_pad : Integer;
  i_key_pad : Integer
}.
(** same code: /repo/cipher/hmac_sha256.h:17-22 *)
Definition hmac_init : hmac_st := mkHmac sha_init [] [].
(** record update, members inherited from SHA256: /repo/cipher/hmac_sha256.h:15-22 *)
Definition with_sha (h : hmac_st) (s : sha_st) : hmac_st :=
  mkHmac s (o_key_pad h) (i_key_pad h).

(** the o_pad / i_pad construction loop: /repo/cipher/hmac_sha256.h:46-54 *)
Fixpoint pad_loop (n : nat) (hexv acc : Integer) : Integer :=
  match n with
  | O => acc
  | S k => pad_loop k hexv (ixor (ishl acc 8) hexv)
  end.

(** init: /repo/cipher/hmac_sha256.h:24-57 *)
Definition hinit (h : hmac_st) (key : Integer) : res hmac_st :=
  let s := refresh (sha h) in
  let* (s, pad_key) :=
    if (CHUNKLEN <? length key)%nat then
      let* (s, tmp) := digest s key false in
      let pad_key := iconcat [] tmp in
      let ZEROS := int_of (CHUNKLEN - DIGLEN * WORDLEN) 0 in
      Ok (s, iconcat pad_key [ZEROS])
    else
      let ZEROS := int_of (CHUNKLEN - length key) 0 in
      Ok (s, iconcat key [ZEROS]) in
  let hex5C := int_of CHUNKLEN 0x5c in
  let hex36 := int_of CHUNKLEN 0x36 in
  let o_pad := pad_loop (CHUNKLEN / 8 - 1) hex5C (int_of CHUNKLEN 0x5c) in
  let i_pad := pad_loop (CHUNKLEN / 8 - 1) hex36 (int_of CHUNKLEN 0x36) in
  Ok (mkHmac s (ixor pad_key o_pad) (ixor pad_key i_pad)).

(** hmac_sha256: /repo/cipher/hmac_sha256.h:59-74 *)
Definition hmac (h : hmac_st) (msg : Integer) : res (hmac_st * list Integer) :=
  let i_msg := iconcat (i_key_pad h) [msg] in
  let* (s, tmp_dig) := digest (sha h) i_msg false in
  let o_msg := iconcat (o_key_pad h) tmp_dig in
  let* (s, r) := digest s o_msg false in
  Ok (with_sha h s, r).

(** opt_hmac_sha256: /repo/cipher/hmac_sha256.h:76-102.  The inner digest [dig] enters
    the outer circuit as ALICE's private input (line 94); [feed] is what ALICE really
    inputs given the honest value (identity for a party running this code). *)
Definition opt_hmac_core (feed : list N -> list N) (h : hmac_st) (msg : list N)
           (reuse_in reuse_out zk : bool) : res (hmac_st * list Integer) :=
  let* (s, dig) := opt_digest (sha h) (i_key_pad h) msg reuse_in zk in
  let o_msg := map (int_of 32) (feed dig) in
  let s := log s (repeat (EvFeed ALICE 32) DIGLEN) in
  let omsg := iconcat (o_key_pad h) o_msg in
  let* (s, r) := digest s omsg reuse_out in
  Ok (with_sha h s, r).
(** same code: /repo/cipher/hmac_sha256.h:76-102 *)
Definition opt_hmac := opt_hmac_core (fun d => d).

(** opt_rounds_hmac_sha256: /repo/cipher/hmac_sha256.h:105-123 *)
Definition opt_rounds_hmac (h : hmac_st) (msg : Integer) (reuse_in reuse_out : bool)
  : res (hmac_st * list Integer) :=
  let i_msg := iconcat (i_key_pad h) [msg] in
  let* (s, tmp_dig) := opt_rounds_digest (sha h) i_msg reuse_in in
  let o_msg := iconcat (o_key_pad h) tmp_dig in
  let* (s, r) := digest s o_msg reuse_out in
  Ok (with_sha h s, r).

(** class PRF, members: /repo/cipher/prf.h:15-21 (hmac_calls_num left out) *)
Record prf_st := mkPrf {
  zk_sec_M : list Integer;
  pub_M : list (list N);
  zk_pos : nat
}.
(** same code: /repo/cipher/prf.h:15-21 *)
Definition prf_init0 : prf_st := mkPrf [] [] 0.

(** [for (i = 1; i < blks + 1; i++) body]
    (/repo/cipher/prf.h:40-52, 86-125, 152-166) *)
Fixpoint iter_res {S : Type} (n : nat) (f : S -> res S) (s : S) : res S :=
  match n with
  | O => Ok s
  | Datatypes.S k => bind (f s) (iter_res k f)
  end.

(** init: /repo/cipher/prf.h:23-26 *)
Definition prf_init (h : hmac_st) (secret : Integer) : res hmac_st := hinit h secret.

(** blks: /repo/cipher/prf.h:33, 68, 141 *)
Definition prf_blks (bitlen : nat) : nat := (bitlen / (DIGLEN * WORDLEN) + 1)%nat.

(** final erase of the low bits: /repo/cipher/prf.h:54-55, 126-127, 167-168 *)
Definition prf_trim (bitlen : nat) (r : Integer) : Integer :=
  skipn (prf_blks bitlen * (DIGLEN * WORDLEN) - bitlen) r.

(** phash loop body: /repo/cipher/prf.h:40-52; the state is (hmac, A[i-1], res) *)
Definition phash_step (seed : Integer) (st : hmac_st * Integer * Integer)
  : res (hmac_st * Integer * Integer) :=
  let '(h, A, r) := st in
  let* (h, tmp) := hmac h A in
  let A := iconcat [] tmp in
  let As := iconcat [] [A] in
  let As := iconcat As [seed] in
  let* (h, tmp) := hmac h As in
  Ok (h, A, iconcat r tmp).

(** phash: /repo/cipher/prf.h:28-57 ([r] is the caller's result object) *)
Definition phash (h : hmac_st) (r : Integer) (bitlen : nat) (seed : Integer)
  : res (hmac_st * Integer) :=
  let* (x, r) := iter_res (prf_blks bitlen) (phash_step seed) (h, seed, r) in
  Ok (fst x, prf_trim bitlen r).

(** the big-endian byte array of eight words: /repo/cipher/prf.h:110-115
    (unsigned char conversion keeps the low byte) *)
Definition be_bytes (tmpd : list N) : list N :=
  flat_map (fun v => [N.shiftr v 24 mod 256; N.shiftr v 16 mod 256;
                      N.shiftr v 8 mod 256; v mod 256]) tmpd.

(** opt_phash loop body: /repo/cipher/prf.h:86-125; the state is
    (prf, hmac, A[i-1], res) *)
Definition opt_phash_step (feed : list N -> list N) (seed : list N) (ri ro zk : bool)
           (st : prf_st * hmac_st * list N * Integer)
  : res (prf_st * hmac_st * list N * Integer) :=
  let '(p, h, A, r) := st in
  let* (h, tmp) := opt_hmac_core feed h A ri ro zk in
  let tmpInt := reverse_concat [] tmp in
  let* (q, tmpd) :=
    if negb zk then
      let tmpd := reveal_as 32 tmpInt in
      Ok ((mkPrf (zk_sec_M p) (pub_M p ++ [tmpd]) (zk_pos p),
           with_sha h (log (sha h) [EvReveal PUBLIC (length tmpInt)])), tmpd)
    else
      let* tmpd := read (nth_error (pub_M p) (zk_pos p)) in
      Ok ((mkPrf (zk_sec_M p ++ [tmpInt]) (pub_M p) (S (zk_pos p)), h), tmpd) in
  let A := be_bytes tmpd in
  let As := A ++ seed in
  let* (h, tmp) := opt_hmac_core feed (snd q) As ri ro zk in
  Ok (fst q, h, A, iconcat r tmp).

(** opt_phash: /repo/cipher/prf.h:59-130 *)
Definition opt_phash_core (feed : list N -> list N) (p : prf_st) (h : hmac_st) (r : Integer)
           (bitlen : nat) (seed : list N) (ri ro zk : bool)
  : res (prf_st * hmac_st * Integer) :=
  let* (x, r) := iter_res (prf_blks bitlen) (opt_phash_step feed seed ri ro zk)
                          (p, h, seed, r) in
  Ok (fst x, prf_trim bitlen r).

(** opt_rounds_phash loop body: /repo/cipher/prf.h:152-166 *)
Definition rounds_phash_step (A0 : Integer) (ri ro : bool) (st : hmac_st * Integer * Integer)
  : res (hmac_st * Integer * Integer) :=
  let '(h, A, r) := st in
  let* (h, tmp) := opt_rounds_hmac h A ri ro in
  let A := iconcat [] tmp in
  let As := iconcat [] [A] in
  let As := iconcat As [A0] in
  let* (h, tmp) := opt_rounds_hmac h As ri ro in
  Ok (h, A, iconcat r tmp).

(** opt_rounds_phash: /repo/cipher/prf.h:132-170.  The seed enters as ALICE's private
    input (line 150); [feed] is what ALICE really inputs.  zk_flag is unused by the
    code. *)
Definition rounds_phash_core (feed : list N -> list N) (h : hmac_st) (r : Integer)
           (bitlen : nat) (seed : list N) (ri ro : bool) : res (hmac_st * Integer) :=
  let rseed := rev (feed seed) in
  let A0 := int_of_array (8 * length seed) 8 rseed in
  let h := with_sha h (log (sha h) [EvFeed ALICE (8 * length seed)]) in
  let* (x, r) := iter_res (prf_blks bitlen) (rounds_phash_step A0 ri ro) (h, A0, r) in
  Ok (fst x, prf_trim bitlen r).

(** compute: /repo/cipher/prf.h:172-182 *)
Definition prf_compute (h : hmac_st) (r : Integer) (bitlen : nat) (label seed : Integer) :=
  let label_seed := iconcat (iconcat [] [label]) [seed] in
  phash h r bitlen label_seed.

(** opt_compute: /repo/cipher/prf.h:184-202 *)
Definition prf_opt_compute (p : prf_st) (h : hmac_st) (r : Integer) (bitlen : nat)
           (label seed : list N) (ri ro zk : bool) :=
  opt_phash_core (fun d => d) p h r bitlen (label ++ seed) ri ro zk.

(** opt_rounds_compute: /repo/cipher/prf.h:204-221 *)
Definition prf_opt_rounds_compute (h : hmac_st) (r : Integer) (bitlen : nat)
           (label seed : list N) (ri ro : bool) :=
  rounds_phash_core (fun d => d) h r bitlen (label ++ seed) ri ro.

(** prf_check: /repo/cipher/prf.h:225-231, as the list of comparisons handed to
    check_zero *)
Definition prf_check (p : prf_st) : res (list (Integer * list N)) :=
  if negb (length (pub_M p) =? length (zk_sec_M p))%nat then Err
  else Ok (combine (zk_sec_M p) (pub_M p)).
