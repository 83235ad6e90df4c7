(** Requests issued to the garbled-circuit backend by the online classes SHA256,
    HMAC_SHA256, PRF, HandShake and AEAD.  Both parties' inputs are arguments (ALICE's and
    BOB's copies of the program issue the same requests).  The parts run under the zk
    backend between switch_to_zk and switch_to_gc issue nothing here. *)
From Coq Require Import List NArith ZArith Bool Arith.
From Verif Require Import L_Bits L_Res S_Netlist M_EmpInteger M_Bristol M_Bn M_Sym.
From Verif Require Import M_Sha256 M_Hmac M_Handshake.
Import ListNotations.
Local Open Scope N_scope.
Local Open Scope sym_scope.

(** * class SHA256 *)
(** members used while garbling: /repo/cipher/sha256.h:22-51 *)
Record on_sha := mkOnSha {
  on_in_open : bool; on_out_open : bool;
  on_ivs : list (list N);              (* iv_in_hashes *)
  on_iv_out : option (list sint);      (* iv_out_hash *)
  on_iv_in : option (list sint);       (* iv_in_hash *)
  on_pos : Z
}.
(** default member initialisers: /repo/cipher/sha256.h:24-51 *)
Definition on_sha_init : on_sha := mkOnSha false false [] None None (-1).
(** constants: /repo/cipher/sha256.h:53-91, re-created by refresh (116-188) *)
Definition on_h : list sint := map (spub WORDLEN) sha256_h_vals.
(** same code: /repo/cipher/sha256.h:53-91 *)
Definition on_k : list sint := map (spub WORDLEN) sha256_k_vals.
(** refresh: /repo/cipher/sha256.h:110-189 *)
Definition on_refresh (s : on_sha) : on_sha :=
  mkOnSha false false (on_ivs s) (on_iv_out s) (on_iv_in s) (on_pos s).

(** padding: /repo/cipher/sha256.h:191-207 *)
Definition on_padding (input : sint) : sint :=
  let L := length input in
  let K := while_neg (S L) (Z.of_nat CHUNKLEN - 65 - Z.of_nat L)%Z in
  let padded := sconcat input [spub 1 1] in
  let padded := sconcat padded [spub (Z.to_nat K) 0] in
  sconcat padded [spub 64 (N.of_nat L)].

(** chunk_compress, message schedule loop: /repo/cipher/sha256.h:428-432 *)
Definition ws (w : list sint) (i : nat) : sint := nth i w [].
(** same code: /repo/cipher/sha256.h:428-432 *)
Definition on_w_next (w : list sint) : M (list sint) :=
  let i := length w in
  do a <- srrot (ws w (i - 15)) 7; do b <- srrot (ws w (i - 15)) 18;
  do c <- sxor a b; do s0 <- sxor c (sshr (ws w (i - 15)) 3);
  do a <- srrot (ws w (i - 2)) 17; do b <- srrot (ws w (i - 2)) 19;
  do c <- sxor a b; do s1 <- sxor c (sshr (ws w (i - 2)) 10);
  do t <- sadd (ws w (i - 16)) s0; do t <- sadd t (ws w (i - 7)); do t <- sadd t s1;
  mret (w ++ [t]).

(** the array of eight working variables: /repo/cipher/sha256.h:434-437 *)
Definition sint8 : Type := (sint * sint * sint * sint * sint * sint * sint * sint)%type.
(** main loop body: /repo/cipher/sha256.h:440-456 *)
Definition on_round (s : sint8) (kw : sint * sint) : M sint8 :=
  let '(a, b, c, d, e, f, g, h) := s in
  do x <- srrot e 6; do y <- srrot e 11; do z <- sxor x y; do y <- srrot e 25;
  do S1 <- sxor z y;
  do x <- sxor f g; do y <- sand e x; do ch <- sxor y g;
  do t <- sadd h (fst kw); do t <- sadd t S1; do t <- sadd t ch; do temp1 <- sadd t (snd kw);
  do x <- srrot a 2; do y <- srrot a 13; do z <- sxor x y; do y <- srrot a 22;
  do S0 <- sxor z y;
  do x <- sxor a b; do y <- sxor a c; do z <- sand x y; do maj <- sxor z a;
  do temp2 <- sadd S0 maj;
  do e' <- sadd d temp1;
  do a' <- sadd temp1 temp2;
  mret (a', a, b, c, e', e, f, g).

(** chunk_compress: /repo/cipher/sha256.h:422-467 *)
Definition on_compress (ih chunk : list sint) : M (list sint) :=
  do w <- siter 48 on_w_next chunk;
  do s <- sfold on_round (combine on_k w)
            (ws ih 0, ws ih 1, ws ih 2, ws ih 3, ws ih 4, ws ih 5, ws ih 6, ws ih 7);
  let '(a, b, c, d, e, f, g, h) := s in
  do a <- sadd a (ws ih 0); do b <- sadd b (ws ih 1); do c <- sadd c (ws ih 2);
  do d <- sadd d (ws ih 3); do e <- sadd e (ws ih 4); do f <- sadd f (ws ih 5);
  do g <- sadd g (ws ih 6); do h <- sadd h (ws ih 7);
  mret [a; b; c; d; e; f; g; h].

(** splitting into words: /repo/cipher/sha256.h:213-219, 263-268, 382-387 *)
Definition on_words (x : sint) : res (list sint) :=
  map_res (fun i => sextract x (i * WORDLEN) WORDLEN) (seq 0 (length x / WORDLEN)).
(** one chunk: /repo/cipher/sha256.h:227-229, 248-250 *)
Definition on_block (data : list sint) (i : nat) : res (list sint) :=
  if (16 * i + 16 <=? length data)%nat then Ok (firstn 16 (skipn (16 * i) data)) else UB.
(** remaining chunks: /repo/cipher/sha256.h:247-252, 414-419 *)
Definition on_rest (dig data : list sint) (idx : list nat) : M (list sint) :=
  do blks <- lift (map_res (on_block data) idx); sfold on_compress blks dig.

(** update: /repo/cipher/sha256.h:210-253 *)
Definition on_update (st : on_sha) (padded : sint) (reuse_out : bool) : M (on_sha * list sint) :=
  if negb (length padded mod CHUNKLEN =? 0)%nat then lift Err else
  do data <- lift (on_words padded);
  do blk <- lift (on_block data 0);
  do (st, dig) <-
    (if reuse_out then
       if on_out_open st then do iv <- lift (read (on_iv_out st)); mret (st, iv)
       else
         do dig <- on_compress on_h blk;
         mret (mkOnSha (on_in_open st) true (on_ivs st) (Some dig) (on_iv_in st) (on_pos st), dig)
     else do dig <- on_compress on_h blk; mret (st, dig));
  do dig <- on_rest dig data (seq 1 (length padded / CHUNKLEN - 1));
  mret (st, dig).
(** digest: /repo/cipher/sha256.h:516-520 *)
Definition on_digest (st : on_sha) (input : sint) (reuse_out : bool) :=
  on_update st (on_padding input) reuse_out.

Section Online.
(** what openings return *)
Variable orc : list nev -> nat -> bool.
(** the two Bristol circuits *)
Variable aes_ks aes_enc : bristol.

(** opt_update with zk_flag = false: /repo/cipher/sha256.h:255-290, 322-375 (with zk_flag the
    call runs under the zk backend) *)
Definition on_open8 (dig : list sint) : M (list N) :=
  do v <- greveal orc OPub (sreverse_concat [] dig);
  mret (map N_of_bits (chunks 32 v)).
(** /repo/cipher/sha256.h:255-375 *)
Definition on_opt_update (st : on_sha) (sec_input : sint) (pub_input : list N) (reuse_in : bool)
  : M (on_sha * list N) :=
  if negb (length sec_input =? CHUNKLEN)%nat then lift Err else
  do data <- lift (on_words sec_input);
  do (st, plain) <-
    (if reuse_in then
       if negb (on_in_open st) then
         do dig <- on_compress on_h data;
         do plain <- on_open8 dig;
         mret (mkOnSha true (on_out_open st) (on_ivs st ++ [plain]) (on_iv_out st) (on_iv_in st)
                       (on_pos st + 1)%Z, plain)
       else do p <- lift (read_at (on_ivs st) (on_pos st)); mret (st, p)
     else
       do dig <- on_compress on_h data;
       do plain <- on_open8 dig;
       mret (st, plain));
  mret (st, opt_tail fresh64 plain pub_input).

(** opt_rounds_update: /repo/cipher/sha256.h:377-420 *)
Definition on_rounds_update (st : on_sha) (padded : sint) (reuse_in : bool)
  : M (on_sha * list sint) :=
  if negb (length padded mod CHUNKLEN =? 0)%nat then lift Err else
  do data <- lift (on_words padded);
  do blk <- lift (on_block data 0);
  do (st, dig) <-
    (if reuse_in then
       if on_in_open st then do iv <- lift (read (on_iv_in st)); mret (st, iv)
       else
         do dig <- on_compress on_h blk;
         mret (mkOnSha true (on_out_open st) (on_ivs st) (on_iv_out st) (Some dig) (on_pos st), dig)
     else do dig <- on_compress on_h blk; mret (st, dig));
  do dig <- on_rest dig data (seq 1 (length padded / CHUNKLEN - 1));
  mret (st, dig).
(** opt_rounds_digest: /repo/cipher/sha256.h:531-537 *)
Definition on_rounds_digest (st : on_sha) (input : sint) (reuse_in : bool) :=
  on_rounds_update st (on_padding input) reuse_in.

(** * class HMAC_SHA256 *)
(** members: /repo/cipher/hmac_sha256.h:17-22 *)
Record on_hmac := mkOnHmac { onh_sha : on_sha; onh_o : sint; onh_i : sint }.
(** same code: /repo/cipher/hmac_sha256.h:17-22 *)
Definition on_hmac_init : on_hmac := mkOnHmac on_sha_init [] [].
(** the pad construction loop: /repo/cipher/hmac_sha256.h:51-54 *)
Definition on_pad_step (h5c h36 : sint) (p : sint * sint) : M (sint * sint) :=
  do o <- sxor (sshl (fst p) 8) h5c; do i <- sxor (sshl (snd p) 8) h36; mret (o, i).
(** init: /repo/cipher/hmac_sha256.h:24-57 *)
Definition on_hinit (h : on_hmac) (key : sint) : M on_hmac :=
  let s := on_refresh (onh_sha h) in
  do (s, pad_key) <-
    (if (CHUNKLEN <? length key)%nat then
       do (s, tmp) <- on_digest s key false;
       mret (s, sconcat (sconcat [] tmp) [spub (CHUNKLEN - DIGLEN * WORDLEN) 0])
     else mret (s, sconcat key [spub (CHUNKLEN - length key) 0]));
  let hex5C := spub CHUNKLEN 0x5c in
  let hex36 := spub CHUNKLEN 0x36 in
  do (o_pad, i_pad) <- siter (CHUNKLEN / 8 - 1) (on_pad_step hex5C hex36)
                         (spub CHUNKLEN 0x5c, spub CHUNKLEN 0x36);
  do o <- sxor pad_key o_pad;
  do i <- sxor pad_key i_pad;
  mret (mkOnHmac s o i).

(** eight one-word feeds: /repo/cipher/hmac_sha256.h:93-95 *)
Fixpoint on_feed_words (l : list N) : M (list sint) :=
  match l with
  | [] => mret []
  | v :: t => do x <- gfeed OA (int_of 32 v); do r <- on_feed_words t; mret (x :: r)
  end.
(** opt_hmac_sha256: /repo/cipher/hmac_sha256.h:76-102; the buffer dig has DIGLEN words *)
Definition on_opt_hmac (h : on_hmac) (msg : list N) (ri ro : bool) : M (on_hmac * list sint) :=
  do (s, dig) <- on_opt_update (onh_sha h) (onh_i h) msg ri;
  do o_msg <- on_feed_words dig;
  do (s, r) <- on_digest s (sconcat (onh_o h) o_msg) ro;
  mret (mkOnHmac s (onh_o h) (onh_i h), r).
(** opt_rounds_hmac_sha256: /repo/cipher/hmac_sha256.h:105-123 *)
Definition on_rounds_hmac (h : on_hmac) (msg : sint) (ri ro : bool) : M (on_hmac * list sint) :=
  do (s, tmp) <- on_rounds_digest (onh_sha h) (sconcat (onh_i h) [msg]) ri;
  do (s, r) <- on_digest s (sconcat (onh_o h) tmp) ro;
  mret (mkOnHmac s (onh_o h) (onh_i h), r).

(** * class PRF *)
(** final erase: /repo/cipher/prf.h:126-127, 167-168 *)
Definition on_trim (bitlen : nat) (r : sint) : sint :=
  skipn (prf_blks bitlen * (DIGLEN * WORDLEN) - bitlen) r.
(** opt_phash loop body, zk_flag = false: /repo/cipher/prf.h:86-125 *)
Definition on_phash_step (seed : list N) (ri ro : bool) (st : on_hmac * list N * sint)
  : M (on_hmac * list N * sint) :=
  let '(h, A, r) := st in
  do (h, tmp) <- on_opt_hmac h A ri ro;
  do tmpd <- on_open8 tmp;
  let A := M_Hmac.be_bytes tmpd in
  do (h, tmp) <- on_opt_hmac h (A ++ seed) ri ro;
  mret (h, A, sconcat r tmp).
(** opt_phash and opt_compute: /repo/cipher/prf.h:59-130, 184-202 *)
Definition on_opt_compute (h : on_hmac) (r : sint) (bitlen : nat) (label seed : list N)
           (ri ro : bool) : M (on_hmac * sint) :=
  do (h, _, r) <- siter (prf_blks bitlen) (on_phash_step (label ++ seed) ri ro)
                    (h, label ++ seed, r);
  mret (h, on_trim bitlen r).
(** opt_rounds_phash loop body: /repo/cipher/prf.h:152-166 *)
Definition on_rounds_step (A0 : sint) (ri ro : bool) (st : on_hmac * sint * sint)
  : M (on_hmac * sint * sint) :=
  let '(h, A, r) := st in
  do (h, tmp) <- on_rounds_hmac h A ri ro;
  let A := sconcat [] tmp in
  do (h, tmp) <- on_rounds_hmac h (sconcat (sconcat [] [A]) [A0]) ri ro;
  mret (h, A, sconcat r tmp).
(** opt_rounds_phash and opt_rounds_compute: /repo/cipher/prf.h:132-170, 204-221 *)
Definition on_rounds_compute (h : on_hmac) (r : sint) (bitlen : nat) (label seed : list N)
           (ri ro : bool) : M (on_hmac * sint) :=
  let seed := label ++ seed in
  do A0 <- gfeed OA (int_of_array (8 * length seed) 8 (rev seed));
  do (h, _, r) <- siter (prf_blks bitlen) (on_rounds_step A0 ri ro) (h, A0, r);
  mret (h, on_trim bitlen r).

(** * class HandShake *)
(** members used while garbling: /repo/protocol/handshake.h:42-73 *)
Record on_hs := mkOnHs {
  on_q : Z; on_rounds : bool; on_hm : on_hmac;
  on_ms : sint; on_cwk : sint; on_swk : sint; on_civ : sint; on_siv : sint
}.
(** /repo/protocol/handshake.h:75-97 *)
Definition on_hs_new (q : Z) (rounds : bool) : on_hs :=
  mkOnHs q rounds on_hmac_init [] [] [] [] [].
(** record update for members of /repo/protocol/handshake.h:42-73 *)
Definition on_set_hm (s : on_hs) (h : on_hmac) : on_hs :=
  mkOnHs (on_q s) (on_rounds s) h (on_ms s) (on_cwk s) (on_swk s) (on_civ s) (on_siv s).
(** record update for members of /repo/protocol/handshake.h:42-73 *)
Definition on_set_ms (s : on_hs) (m : sint) : on_hs :=
  mkOnHs (on_q s) (on_rounds s) (on_hm s) m (on_cwk s) (on_swk s) (on_civ s) (on_siv s).

(** the PRF call in one of its two modes, e.g. /repo/protocol/handshake.h:219-227 *)
Definition on_prf (s : on_hs) (r : sint) (n : nat) (label seed : list N) : M (on_hs * sint) :=
  do (h, r) <- (if negb (on_rounds s)
                then on_opt_compute (on_hm s) r (n * 8) label seed true true
                else on_rounds_compute (on_hm s) r (n * 8) label seed true true);
  mret (on_set_hm s h, r).
(** the two share inputs and addmod: /repo/protocol/handshake.h:192-211, 235-254 *)
Definition on_pms (s : on_hs) (pa pb : Z) : M sint :=
  do a <- lift (pms_int (on_q s) pa);
  do b <- lift (pms_int (on_q s) pb);
  do a <- gfeed OA a;
  do b <- gfeed OB b;
  saddmod_bn a b (on_q s).
(** compute_master_key: /repo/protocol/handshake.h:187-229 *)
Definition on_master (s : on_hs) (pa pb : Z) (rc rs : list N) : M on_hs :=
  do pms <- on_pms s pa pb;
  do h <- on_hinit (on_hm s) pms;
  do (s, ms) <- on_prf (on_set_hm s h) (on_ms s) master_key_length master_key_label (rc ++ rs);
  mret (on_set_ms s ms).
(** compute_extended_master_key: /repo/protocol/handshake.h:232-266 *)
Definition on_ext_master (s : on_hs) (pa pb : Z) (session_hash : list N) : M on_hs :=
  do pms <- on_pms s pa pb;
  do h <- on_hinit (on_hm s) pms;
  do (s, ms) <- on_prf (on_set_hm s h) (on_ms s) extended_master_key_length
                  extended_master_key_label session_hash;
  mret (on_set_ms s ms).
(** compute_expansion_keys: /repo/protocol/handshake.h:268-296 *)
Definition on_expand (s : on_hs) (rc rs : list N) : M on_hs :=
  do h <- on_hinit (on_hm s) (on_ms s);
  do (s, key) <- on_prf (on_set_hm s h) [] expansion_key_length key_expansion_label (rs ++ rc);
  do ck <- lift (sextract key 0 (key_length * 8));
  do sk <- lift (sextract key (key_length * 8) (key_length * 8));
  do ci <- lift (sextract key (key_length * 8 * 2) (iv_length * 8));
  do si <- lift (sextract key (key_length * 8 * 2 + iv_length * 8) (iv_length * 8));
  mret (mkOnHs (on_q s) (on_rounds s) (on_hm s) (on_ms s) ck sk ci si).
(** compute_client_finished_msg, compute_server_finished_msg:
    /repo/protocol/handshake.h:298-311, 313-326; returns the opened bytes *)
Definition on_finished (s : on_hs) (label tau : list N) : M (on_hs * list N) :=
  do (s, u) <- on_prf s [] finished_msg_length label tau;
  do v <- greveal orc OPub u;
  mret (s, map N_of_bits (chunks 8 v)).

(** * class AEAD *)
(** members used while garbling: /repo/protocol/aead.h:17-19 *)
Record on_aead := mkOnAead { ona_key : sint; ona_nonce : sint; ona_fixed : sint }.
(** constructor and computeH: /repo/protocol/aead.h:47-53, 89-92; returns the wires of H,
    which are turned into shares locally *)
Definition on_aead_new (key iv : sint) : M (on_aead * sint) :=
  do ek <- scomputeKS aes_ks key;
  do H <- scomputeAES aes_enc ek (spub 128 0);
  mret (mkOnAead ek [] iv, H).
(** inc: /repo/protocol/aead.h:94-105 *)
Definition on_inc (counter : sint) (s : nat) : M sint :=
  if (length counter <? s)%nat then lift Err
  else do lsb <- sadd (firstn s counter) (spub s 1); mret (sconcat (skipn s counter) [lsb]).
(** gctr: /repo/protocol/aead.h:107-116 *)
Fixpoint on_gctr (m : nat) (key r nonce : sint) : M (sint * sint) :=
  match m with
  | O => mret (r, nonce)
  | S k =>
      do tmp <- scomputeAES aes_enc key nonce;
      do n' <- on_inc nonce 32;
      on_gctr k key (sconcat r [tmp]) n'
  end.
(** set_nonce: /repo/protocol/aead.h:121-141; [eoo] is ENABLE_ONLINE_OFFLINE *)
Definition on_set_nonce (eoo : bool) (fixed : sint) (iv : list N) : M sint :=
  if (length iv =? 8)%nat then
    let v := int_of_array 64 8 (rev iv) in
    do v <- (if eoo then gfeed OA v else mret (map WPub v));
    mret (sconcat (sconcat fixed [v]) [spub 32 1])
  else lift Err.
(** the garbled part of encrypt (/repo/protocol/aead.h:181-210) and of decrypt (320-352),
    the same statements: returns (Z0, Z, opened z when sec_type is false) *)
Definition on_crypt (s : on_aead) (iv : list N) (len : N) (sec : bool)
  : M (on_aead * (sint * sint * list N)) :=
  let u := N.to_nat (128 * ((len * 8 + 128 - 1) / 128) - len * 8) in
  let ctr_len := N.to_nat ((len * 8 + 128 - 1) / 128) in
  do n0 <- on_set_nonce true (ona_fixed s) iv;
  do (Z, n1) <- on_gctr (1 + ctr_len) (ona_key s) [] n0;
  let Z0 := skipn (length Z - 128) Z in
  let Z := firstn (length Z - 128) Z in
  let Z := skipn u Z in
  do z <- (if negb sec then do v <- greveal orc OPub Z; mret (map N_of_bits (chunks 8 v))
           else mret []);
  mret (mkOnAead (ona_key s) n1 (ona_fixed s), (Z0, Z, z)).

(** * A session: any sequence of calls *)
(** any sequence of calls of /repo/protocol/handshake.h:187-326 and /repo/protocol/aead.h:47-492 *)
Inductive on_call :=
| NMaster (pa pb : Z) (rc rs : list N)
| NExtMaster (pa pb : Z) (session_hash : list N)
| NExpand (rc rs : list N)
| NClientFin (label tau : list N)
| NServerFin (label tau : list N)
| NAead (server : bool)          (** a new AEAD on the client's or server's write key *)
| NEncrypt (k : nat) (iv : list N) (len : N) (sec : bool)  (** on the k-th AEAD *)
| NDecrypt (k : nat) (iv : list N) (len : N) (sec : bool).
(** handshake object, AEAD objects, the values handed back to the caller, and the wires that
    become shares (H of each AEAD; Z0 and Z of each call)
    (any sequence of calls of /repo/protocol/handshake.h:187-326 and /repo/protocol/aead.h:47-492) *)
Record on_sess := mkOnSess { os_hs : on_hs; os_aeads : list on_aead; os_out : list (list N); os_sh : list sint }.
(** any sequence of calls of /repo/protocol/handshake.h:187-326 and /repo/protocol/aead.h:47-492 *)
Definition on_crypt_call (s : on_sess) (k : nat) (iv : list N) (len : N) (sec : bool) : M on_sess :=
  do a <- lift (read (nth_error (os_aeads s) k));
  do (a, x) <- on_crypt a iv len sec;
  mret (mkOnSess (os_hs s) (firstn k (os_aeads s) ++ [a] ++ skipn (S k) (os_aeads s))
                 (os_out s ++ [snd x]) (os_sh s ++ [fst (fst x); snd (fst x)])).
(** any sequence of calls of /repo/protocol/handshake.h:187-326 and /repo/protocol/aead.h:47-492 *)
Definition on_do (s : on_sess) (c : on_call) : M on_sess :=
  match c with
  | NMaster pa pb rc rs => do h <- on_master (os_hs s) pa pb rc rs; mret (mkOnSess h (os_aeads s) (os_out s) (os_sh s))
  | NExtMaster pa pb sh => do h <- on_ext_master (os_hs s) pa pb sh; mret (mkOnSess h (os_aeads s) (os_out s) (os_sh s))
  | NExpand rc rs => do h <- on_expand (os_hs s) rc rs; mret (mkOnSess h (os_aeads s) (os_out s) (os_sh s))
  | NClientFin l t | NServerFin l t =>
      do (h, u) <- on_finished (os_hs s) l t; mret (mkOnSess h (os_aeads s) (os_out s ++ [u]) (os_sh s))
  | NAead srv =>
      let h := os_hs s in
      do (a, H) <- on_aead_new (if srv then on_swk h else on_cwk h) (if srv then on_siv h else on_civ h);
      mret (mkOnSess h (os_aeads s ++ [a]) (os_out s) (os_sh s ++ [H]))
  | NEncrypt k iv len sec => on_crypt_call s k iv len sec
  | NDecrypt k iv len sec => on_crypt_call s k iv len sec
  end.
(** any sequence of calls of /repo/protocol/handshake.h:187-326 and /repo/protocol/aead.h:47-492 *)
Definition on_session (q : Z) (rounds : bool) (cs : list on_call) : M on_sess :=
  sfold on_do cs (mkOnSess (on_hs_new q rounds) [] [] []).
End Online.
