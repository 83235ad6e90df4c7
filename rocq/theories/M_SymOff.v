(** Requests issued to the offline backend by the classes SHA256Offline,
    HMAC_SHA256_Offline, PRFOffline, HandShakeOffline and AEADOffline.  They take no
    inputs; [junk] stands for whatever the uninitialised or zeroed buffers hold
    (/repo/cipher/hmac_sha256.h:173-175 zeroes 8 of 32 bytes), which the offline feed
    ignores (/repo/backend/offline_primus_gen.h:22-24). *)
From Coq Require Import List NArith ZArith Bool Arith.
From Verif Require Import L_Bits L_Res S_Netlist M_EmpInteger M_Bristol M_Bn M_Sym.
From Verif Require Import M_Sha256 M_Hmac M_Handshake.
Import ListNotations.
Local Open Scope N_scope.
Local Open Scope sym_scope.

(** * class SHA256Offline *)
(** members: /repo/cipher/sha256.h:561-573 *)
Record off_sha := mkOffSha {
  off_in_open : bool; off_out_open : bool;
  off_iv_out : option (list sint);
  off_iv_in : option (list sint)
}.
(** same code: /repo/cipher/sha256.h:561-573 *)
Definition off_sha_init : off_sha := mkOffSha false false None None.
(** constants: /repo/cipher/sha256.h:575-613 *)
Definition off_h_vals : list N :=
  [0x6a09e667; 0xbb67ae85; 0x3c6ef372; 0xa54ff53a; 0x510e527f; 0x9b05688c;
   0x1f83d9ab; 0x5be0cd19].
(** same code: /repo/cipher/sha256.h:575-613 *)
Definition off_k_vals : list N :=
  [0x428a2f98; 0x71374491; 0xb5c0fbcf; 0xe9b5dba5; 0x3956c25b; 0x59f111f1;
   0x923f82a4; 0xab1c5ed5; 0xd807aa98; 0x12835b01; 0x243185be; 0x550c7dc3;
   0x72be5d74; 0x80deb1fe; 0x9bdc06a7; 0xc19bf174; 0xe49b69c1; 0xefbe4786;
   0x0fc19dc6; 0x240ca1cc; 0x2de92c6f; 0x4a7484aa; 0x5cb0a9dc; 0x76f988da;
   0x983e5152; 0xa831c66d; 0xb00327c8; 0xbf597fc7; 0xc6e00bf3; 0xd5a79147;
   0x06ca6351; 0x14292967; 0x27b70a85; 0x2e1b2138; 0x4d2c6dfc; 0x53380d13;
   0x650a7354; 0x766a0abb; 0x81c2c92e; 0x92722c85; 0xa2bfe8a1; 0xa81a664b;
   0xc24b8b70; 0xc76c51a3; 0xd192e819; 0xd6990624; 0xf40e3585; 0x106aa070;
   0x19a4c116; 0x1e376c08; 0x2748774c; 0x34b0bcb5; 0x391c0cb3; 0x4ed8aa4a;
   0x5b9cca4f; 0x682e6ff3; 0x748f82ee; 0x78a5636f; 0x84c87814; 0x8cc70208;
   0x90befffa; 0xa4506ceb; 0xbef9a3f7; 0xc67178f2].
(** same code: /repo/cipher/sha256.h:575-613 *)
Definition off_h : list sint := map (spub WORDLEN) off_h_vals.
(** same code: /repo/cipher/sha256.h:575-613 *)
Definition off_k : list sint := map (spub WORDLEN) off_k_vals.
(** refresh: /repo/cipher/sha256.h:618-622 *)
Definition off_refresh (s : off_sha) : off_sha :=
  mkOffSha false false (off_iv_out s) (off_iv_in s).
(** padding: /repo/cipher/sha256.h:623-639 *)
Definition off_padding (input : sint) : sint :=
  let L := length input in
  let K := while_neg (S L) (Z.of_nat CHUNKLEN - 65 - Z.of_nat L)%Z in
  let padded := sconcat input [spub 1 1] in
  let padded := sconcat padded [spub (Z.to_nat K) 0] in
  sconcat padded [spub 64 (N.of_nat L)].
(** chunk_compress, message schedule loop: /repo/cipher/sha256.h:779-783 *)
Definition wso (w : list sint) (i : nat) : sint := nth i w [].
(** same code: /repo/cipher/sha256.h:779-783 *)
Definition off_w_next (w : list sint) : M (list sint) :=
  let i := length w in
  do a <- srrot (wso w (i - 15)) 7; do b <- srrot (wso w (i - 15)) 18;
  do c <- sxor a b; do s0 <- sxor c (sshr (wso w (i - 15)) 3);
  do a <- srrot (wso w (i - 2)) 17; do b <- srrot (wso w (i - 2)) 19;
  do c <- sxor a b; do s1 <- sxor c (sshr (wso w (i - 2)) 10);
  do t <- sadd (wso w (i - 16)) s0; do t <- sadd t (wso w (i - 7)); do t <- sadd t s1;
  mret (w ++ [t]).
(** main loop body: /repo/cipher/sha256.h:791-807 *)
Definition off_round (s : sint * sint * sint * sint * sint * sint * sint * sint)
           (kw : sint * sint) : M (sint * sint * sint * sint * sint * sint * sint * sint) :=
  let '(a, b, c, d, e, f, g, h) := s in
  do x <- srrot e 6; do y <- srrot e 11; do z <- sxor x y; do y <- srrot e 25;
  do S1 <- sxor z y;
  do x <- sxor f g; do y <- sand e x; do ch <- sxor y g;
  do t <- sadd h (fst kw); do t <- sadd t S1; do t <- sadd t ch; do temp1 <- sadd t (snd kw);
  do x <- srrot a 2; do y <- srrot a 13; do z <- sxor x y; do y <- srrot a 22;
  do S0 <- sxor z y;
  do x <- sxor a b; do y <- sxor a c; do z <- sand x y; do maj <- sxor z a;
  do temp2 <- sadd S0 maj;
  do e' <- sadd d temp1;
  do a' <- sadd temp1 temp2;
  mret (a', a, b, c, e', e, f, g).
(** chunk_compress: /repo/cipher/sha256.h:773-818 *)
Definition off_compress (ih chunk : list sint) : M (list sint) :=
  do w <- siter 48 off_w_next chunk;
  do s <- sfold off_round (combine off_k w)
            (wso ih 0, wso ih 1, wso ih 2, wso ih 3, wso ih 4, wso ih 5, wso ih 6, wso ih 7);
  let '(a, b, c, d, e, f, g, h) := s in
  do a <- sadd a (wso ih 0); do b <- sadd b (wso ih 1); do c <- sadd c (wso ih 2);
  do d <- sadd d (wso ih 3); do e <- sadd e (wso ih 4); do f <- sadd f (wso ih 5);
  do g <- sadd g (wso ih 6); do h <- sadd h (wso ih 7);
  mret [a; b; c; d; e; f; g; h].
(** words and chunks: /repo/cipher/sha256.h:645-651, 658-662, 679-682, 689-694, 733-738,
    744-748, 766-769 *)
Definition off_words (x : sint) : res (list sint) :=
  map_res (fun i => sextract x (i * WORDLEN) WORDLEN) (seq 0 (length x / WORDLEN)).
(** same code: /repo/cipher/sha256.h:645-651, 658-662, 679-682, 689-694, 733-738 *)
Definition off_block (data : list sint) (i : nat) : res (list sint) :=
  if (16 * i + 16 <=? length data)%nat then Ok (firstn 16 (skipn (16 * i) data)) else UB.
(** same code: /repo/cipher/sha256.h:645-651, 658-662, 679-682, 689-694, 733-738 *)
Definition off_rest (dig data : list sint) (idx : list nat) : M (list sint) :=
  do blks <- lift (map_res (off_block data) idx); sfold off_compress blks dig.
(** update: /repo/cipher/sha256.h:642-684 *)
Definition off_update (st : off_sha) (padded : sint) (reuse_out : bool) : M (off_sha * list sint) :=
  if negb (length padded mod CHUNKLEN =? 0)%nat then lift Err else
  do data <- lift (off_words padded);
  do blk <- lift (off_block data 0);
  do (st, dig) <-
    (if reuse_out then
       if negb (off_out_open st) then
         do dig <- off_compress off_h blk;
         mret (mkOffSha (off_in_open st) true (Some dig) (off_iv_in st), dig)
       else do iv <- lift (read (off_iv_out st)); mret (st, iv)
     else do dig <- off_compress off_h blk; mret (st, dig));
  do dig <- off_rest dig data (seq 1 (length padded / CHUNKLEN - 1));
  mret (st, dig).
(** digest: /repo/cipher/sha256.h:820-824 *)
Definition off_digest (st : off_sha) (input : sint) (reuse_out : bool) :=
  off_update st (off_padding input) reuse_out.

Section Offline.
(** what openings return (the offline evaluator's buffers stay unset) *)
Variable orc : list nev -> nat -> bool.
(** content of the feed buffers *)
Variable junk : nat -> bool.
Variable aes_ks aes_enc : bristol.
(** /repo/cipher/hmac_sha256.h:173-175 *)
Definition junk_bits (n : nat) : list bool := map junk (seq 0 n).

(** opt_update and opt_digest: /repo/cipher/sha256.h:686-725, 826-828 *)
Definition off_opt_update (st : off_sha) (sec_input : sint) (reuse_in : bool) : M off_sha :=
  if negb (length sec_input =? CHUNKLEN)%nat then lift Err else
  do data <- lift (off_words sec_input);
  if reuse_in then
    if negb (off_in_open st) then
      do dig <- off_compress off_h data;
      do _ <- greveal orc OPub (sreverse_concat [] dig);
      mret (mkOffSha true (off_out_open st) (off_iv_out st) (off_iv_in st))
    else mret st
  else
    do dig <- off_compress off_h data;
    do _ <- greveal orc OPub (sreverse_concat [] dig);
    mret st.
(** opt_rounds_update: /repo/cipher/sha256.h:728-771 *)
Definition off_rounds_update (st : off_sha) (padded : sint) (reuse_in : bool)
  : M (off_sha * list sint) :=
  if negb (length padded mod CHUNKLEN =? 0)%nat then lift Err else
  do data <- lift (off_words padded);
  do blk <- lift (off_block data 0);
  do (st, dig) <-
    (if reuse_in then
       if negb (off_in_open st) then
         do dig <- off_compress off_h blk;
         mret (mkOffSha true (off_out_open st) (off_iv_out st) (Some dig), dig)
       else do iv <- lift (read (off_iv_in st)); mret (st, iv)
     else do dig <- off_compress off_h blk; mret (st, dig));
  do dig <- off_rest dig data (seq 1 (length padded / CHUNKLEN - 1));
  mret (st, dig).
(** opt_rounds_digest: /repo/cipher/sha256.h:829-835 *)
Definition off_rounds_digest (st : off_sha) (input : sint) (reuse_in : bool) :=
  off_rounds_update st (off_padding input) reuse_in.

(** * class HMAC_SHA256_Offline *)
(** members: /repo/cipher/hmac_sha256.h:132-133 *)
Record off_hmac := mkOffHmac { offh_sha : off_sha; offh_o : sint; offh_i : sint }.
(** same code: /repo/cipher/hmac_sha256.h:132-133 *)
Definition off_hmac_init : off_hmac := mkOffHmac off_sha_init [] [].
(** pad loop: /repo/cipher/hmac_sha256.h:162-165 *)
Definition off_pad_step (h5c h36 : sint) (p : sint * sint) : M (sint * sint) :=
  do o <- sxor (sshl (fst p) 8) h5c; do i <- sxor (sshl (snd p) 8) h36; mret (o, i).
(** init: /repo/cipher/hmac_sha256.h:135-168 *)
Definition off_hinit (h : off_hmac) (key : sint) : M off_hmac :=
  let s := off_refresh (offh_sha h) in
  do (s, pad_key) <-
    (if (CHUNKLEN <? length key)%nat then
       do (s, tmp) <- off_digest s key false;
       mret (s, sconcat (sconcat [] tmp) [spub (CHUNKLEN - DIGLEN * WORDLEN) 0])
     else mret (s, sconcat key [spub (CHUNKLEN - length key) 0]));
  let hex5C := spub CHUNKLEN 0x5c in
  let hex36 := spub CHUNKLEN 0x36 in
  do (o_pad, i_pad) <- siter (CHUNKLEN / 8 - 1) (off_pad_step hex5C hex36)
                         (spub CHUNKLEN 0x5c, spub CHUNKLEN 0x36);
  do o <- sxor pad_key o_pad;
  do i <- sxor pad_key i_pad;
  mret (mkOffHmac s o i).
(** eight one-word feeds: /repo/cipher/hmac_sha256.h:181-183 *)
Fixpoint off_feed_words (n : nat) : M (list sint) :=
  match n with
  | O => mret []
  | S k => do x <- gfeed OA (junk_bits 32); do r <- off_feed_words k; mret (x :: r)
  end.
(** opt_hmac_sha256: /repo/cipher/hmac_sha256.h:170-190 *)
Definition off_opt_hmac (h : off_hmac) (ri ro : bool) : M (off_hmac * list sint) :=
  do s <- off_opt_update (offh_sha h) (offh_i h) ri;
  do o_msg <- off_feed_words DIGLEN;
  do (s, r) <- off_digest s (sconcat (offh_o h) o_msg) ro;
  mret (mkOffHmac s (offh_o h) (offh_i h), r).
(** opt_rounds_hmac_sha256: /repo/cipher/hmac_sha256.h:191-209 *)
Definition off_rounds_hmac (h : off_hmac) (msg : sint) (ri ro : bool) : M (off_hmac * list sint) :=
  do (s, tmp) <- off_rounds_digest (offh_sha h) (sconcat (offh_i h) [msg]) ri;
  do (s, r) <- off_digest s (sconcat (offh_o h) tmp) ro;
  mret (mkOffHmac s (offh_o h) (offh_i h), r).

(** * class PRFOffline *)
(** blks and final erase: /repo/cipher/prf.h:251, 271-272, 283, 306-307 *)
Definition off_blks (bitlen : nat) : nat := (bitlen / (DIGLEN * WORDLEN) + 1)%nat.
(** same code: /repo/cipher/prf.h:251, 271-272, 283, 306-307 *)
Definition off_trim (bitlen : nat) (r : sint) : sint :=
  skipn (off_blks bitlen * (DIGLEN * WORDLEN) - bitlen) r.
(** opt_phash loop body: /repo/cipher/prf.h:258-269 *)
Definition off_phash_step (ri ro : bool) (st : off_hmac * sint) : M (off_hmac * sint) :=
  let '(h, r) := st in
  do (h, tmp) <- off_opt_hmac h ri ro;
  do _ <- greveal orc OPub (sreverse_concat [] tmp);
  do (h, tmp) <- off_opt_hmac h ri ro;
  mret (h, sconcat r tmp).
(** opt_phash and opt_compute: /repo/cipher/prf.h:245-274, 311-318 *)
Definition off_opt_compute (h : off_hmac) (r : sint) (bitlen : nat) (ri ro : bool)
  : M (off_hmac * sint) :=
  do (h, r) <- siter (off_blks bitlen) (off_phash_step ri ro) (h, r);
  mret (h, off_trim bitlen r).
(** opt_rounds_phash loop body: /repo/cipher/prf.h:291-304 *)
Definition off_rounds_step (A0 : sint) (ri ro : bool) (st : off_hmac * sint * sint)
  : M (off_hmac * sint * sint) :=
  let '(h, A, r) := st in
  do (h, tmp) <- off_rounds_hmac h A ri ro;
  let A := sconcat [] tmp in
  do (h, tmp) <- off_rounds_hmac h (sconcat (sconcat [] [A]) [A0]) ri ro;
  mret (h, A, sconcat r tmp).
(** opt_rounds_phash and opt_rounds_compute: /repo/cipher/prf.h:276-309, 319-328 *)
Definition off_rounds_compute (h : off_hmac) (r : sint) (bitlen seedlen : nat) (ri ro : bool)
  : M (off_hmac * sint) :=
  do A0 <- gfeed OA (repeat false (8 * seedlen));
  do (h, _, r) <- siter (off_blks bitlen) (off_rounds_step A0 ri ro) (h, A0, r);
  mret (h, off_trim bitlen r).

(** * class HandShakeOffline *)
(** members: /repo/protocol/handshake.h:536-552 *)
Record off_hs := mkOffHs {
  off_q : Z; off_rounds : bool; off_hm : off_hmac;
  off_ms : sint; off_cwk : sint; off_swk : sint; off_civ : sint; off_siv : sint
}.
(** constructor: /repo/protocol/handshake.h:553-560 *)
Definition off_hs_new (q : Z) (rounds : bool) : off_hs :=
  mkOffHs q rounds off_hmac_init [] [] [] [] [].
(** record update for members of /repo/protocol/handshake.h:536-552 *)
Definition off_set_hm (s : off_hs) (h : off_hmac) : off_hs :=
  mkOffHs (off_q s) (off_rounds s) h (off_ms s) (off_cwk s) (off_swk s) (off_civ s) (off_siv s).
(** record update for members of /repo/protocol/handshake.h:536-552 *)
Definition off_set_ms (s : off_hs) (m : sint) : off_hs :=
  mkOffHs (off_q s) (off_rounds s) (off_hm s) m (off_cwk s) (off_swk s) (off_civ s) (off_siv s).
(** the PRF call in one of its two modes, e.g. /repo/protocol/handshake.h:577-582 *)
Definition off_prf (s : off_hs) (r : sint) (n seedlen : nat) : M (off_hs * sint) :=
  do (h, r) <- (if negb (off_rounds s)
                then off_opt_compute (off_hm s) r (n * 8) true true
                else off_rounds_compute (off_hm s) r (n * 8) seedlen true true);
  mret (off_set_hm s h, r).
(** share inputs and addmod: /repo/protocol/handshake.h:565-574, 587-596 *)
Definition off_pms (s : off_hs) : M sint :=
  let len := BN_num_bytes (off_q s) in
  do a <- gfeed OA (repeat false (len * 8));
  do b <- gfeed OB (repeat false (len * 8));
  saddmod_bn a b (off_q s).
(** label lengths: /repo/protocol/handshake.h:15-24 *)
(** compute_master_key: /repo/protocol/handshake.h:564-584 *)
Definition off_master (s : off_hs) : M off_hs :=
  do pms <- off_pms s;
  do h <- off_hinit (off_hm s) pms;
  do (s, ms) <- off_prf (off_set_hm s h) (off_ms s) master_key_length
                  (length master_key_label + 2 * random_length);
  mret (off_set_ms s ms).
(** compute_extended_master_key: /repo/protocol/handshake.h:586-607 *)
Definition off_ext_master (s : off_hs) : M off_hs :=
  do pms <- off_pms s;
  do h <- off_hinit (off_hm s) pms;
  do (s, ms) <- off_prf (off_set_hm s h) (off_ms s) extended_master_key_length
                  (length extended_master_key_label + session_hash_length);
  mret (off_set_ms s ms).
(** compute_expansion_keys: /repo/protocol/handshake.h:609-624 *)
Definition off_expand (s : off_hs) : M off_hs :=
  do h <- off_hinit (off_hm s) (off_ms s);
  do (s, key) <- off_prf (off_set_hm s h) [] expansion_key_length
                   (length key_expansion_label + 2 * random_length);
  do ck <- lift (sextract key 0 (key_length * 8));
  do sk <- lift (sextract key (key_length * 8) (key_length * 8));
  do ci <- lift (sextract key (key_length * 8 * 2) (iv_length * 8));
  do si <- lift (sextract key (key_length * 8 * 2 + iv_length * 8) (iv_length * 8));
  mret (mkOffHs (off_q s) (off_rounds s) (off_hm s) (off_ms s) ck sk ci si).
(** compute_client_finished_msg: /repo/protocol/handshake.h:626-637 *)
Definition off_client_fin (s : off_hs) : M off_hs :=
  do (s, u) <- off_prf s [] finished_msg_length
                 (length client_finished_label + session_hash_length);
  do _ <- greveal orc OPub u;
  mret s.
(** compute_server_finished_msg: /repo/protocol/handshake.h:639-649 *)
Definition off_server_fin (s : off_hs) : M off_hs :=
  do (s, u) <- off_prf s [] finished_msg_length
                 (length server_finished_label + session_hash_length);
  do _ <- greveal orc OPub u;
  mret s.

(** * class AEADOffline *)
(** members: /repo/protocol/aead.h:550-552 *)
Record off_aead := mkOffAead { offa_key : sint; offa_nonce : sint; offa_fixed : sint }.
(** constructor and computeH: /repo/protocol/aead.h:556-560, 563-566 *)
Definition off_aead_new (key iv : sint) : M off_aead :=
  do ek <- scomputeKS aes_ks key;
  do _ <- scomputeAES aes_enc ek (spub 128 0);
  mret (mkOffAead ek [] iv).
(** inc: /repo/protocol/aead.h:568-579 *)
Definition off_inc (counter : sint) (s : nat) : M sint :=
  if (length counter <? s)%nat then lift Err
  else do lsb <- sadd (firstn s counter) (spub s 1); mret (sconcat (skipn s counter) [lsb]).
(** gctr: /repo/protocol/aead.h:581-590 *)
Fixpoint off_gctr (m : nat) (key r nonce : sint) : M (sint * sint) :=
  match m with
  | O => mret (r, nonce)
  | S k =>
      do tmp <- scomputeAES aes_enc key nonce;
      do n' <- off_inc nonce 32;
      off_gctr k key (sconcat r [tmp]) n'
  end.
(** set_nonce: /repo/protocol/aead.h:592-602 *)
Definition off_set_nonce (fixed : sint) : M sint :=
  do v <- gfeed OA (int_of_array 64 8 (repeat 0 8));
  mret (sconcat (sconcat fixed [v]) [spub 32 1]).
(** encrypt: /repo/protocol/aead.h:604-623, decrypt: 625-642 (the same statements) *)
Definition off_crypt (s : off_aead) (len : N) (sec : bool) : M off_aead :=
  let u := N.to_nat (128 * ((len * 8 + 128 - 1) / 128) - len * 8) in
  let ctr_len := N.to_nat ((len * 8 + 128 - 1) / 128) in
  do n0 <- off_set_nonce (offa_fixed s);
  do (Z, n1) <- off_gctr (1 + ctr_len) (offa_key s) [] n0;
  let Z := firstn (length Z - 128) Z in
  let Z := skipn u Z in
  do _ <- (if negb sec then greveal orc OPub Z else mret []);
  mret (mkOffAead (offa_key s) n1 (offa_fixed s)).

(** * A session *)
(** any sequence of calls of /repo/protocol/handshake.h:564-649 and /repo/protocol/aead.h:556-642 *)
Inductive off_call :=
| FMaster | FExtMaster | FExpand | FClientFin | FServerFin
| FAead (server : bool)
| FEncrypt (k : nat) (len : N) (sec : bool)
| FDecrypt (k : nat) (len : N) (sec : bool).
(** any sequence of calls of /repo/protocol/handshake.h:564-649 and /repo/protocol/aead.h:556-642 *)
Record off_sess := mkOffSess { fs_hs : off_hs; fs_aeads : list off_aead }.
(** encrypt and decrypt of an AEADOffline; RecordOffline (/repo/protocol/record.h:45-57) calls them
    with sec_type, the Finished wrappers (/repo/protocol/handshake.h:651-657) without *)
Definition off_crypt_call (s : off_sess) (k : nat) (len : N) (sec : bool) : M off_sess :=
  do a <- lift (read (nth_error (fs_aeads s) k));
  do a <- off_crypt a len sec;
  mret (mkOffSess (fs_hs s) (firstn k (fs_aeads s) ++ [a] ++ skipn (S k) (fs_aeads s))).
(** any sequence of calls of /repo/protocol/handshake.h:564-649 and /repo/protocol/aead.h:556-642 *)
Definition off_do (s : off_sess) (c : off_call) : M off_sess :=
  match c with
  | FMaster => do h <- off_master (fs_hs s); mret (mkOffSess h (fs_aeads s))
  | FExtMaster => do h <- off_ext_master (fs_hs s); mret (mkOffSess h (fs_aeads s))
  | FExpand => do h <- off_expand (fs_hs s); mret (mkOffSess h (fs_aeads s))
  | FClientFin => do h <- off_client_fin (fs_hs s); mret (mkOffSess h (fs_aeads s))
  | FServerFin => do h <- off_server_fin (fs_hs s); mret (mkOffSess h (fs_aeads s))
  | FAead srv =>
      let h := fs_hs s in
      do a <- off_aead_new (if srv then off_swk h else off_cwk h) (if srv then off_siv h else off_civ h);
      mret (mkOffSess h (fs_aeads s ++ [a]))
  | FEncrypt k len sec => off_crypt_call s k len sec
  | FDecrypt k len sec => off_crypt_call s k len sec
  end.
(** any sequence of calls of /repo/protocol/handshake.h:564-649 and /repo/protocol/aead.h:556-642 *)
Definition off_session (q : Z) (rounds : bool) (cs : list off_call) : M off_sess :=
  sfold off_do cs (mkOffSess (off_hs_new q rounds) []).
End Offline.
