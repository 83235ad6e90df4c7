(** Model of /repo/cipher/sha256.h (classes SHA256 and SHA256Offline). *)
From Coq Require Import List NArith ZArith Bool Arith.
From Verif Require Import L_Bits L_Res M_EmpInteger M_Trace M_Utils.
Import ListNotations.
Local Open Scope N_scope.
Local Open Scope res_scope.

(** loops over arrays in /repo/cipher/sha256.h:422-514 *)
Fixpoint map_res {A B} (f : A -> res B) (l : list A) : res (list B) :=
  match l with
  | [] => Ok []
  | a :: t => let* b := f a in let* bs := map_res f t in Ok (b :: bs)
  end.

(** Static constants: /repo/cipher/sha256.h:16-20 *)
Definition DIGLEN : nat := 8.
(** same code: /repo/cipher/sha256.h:16-20 *)
Definition WORDLEN : nat := 32.
(** same code: /repo/cipher/sha256.h:16-20 *)
Definition CHUNKLEN : nat := 512.

(** sha256_h: /repo/cipher/sha256.h:53-57 (re-created with the same values by
    refresh, :116-123) *)
Definition sha256_h_vals : list N :=
  [0x6a09e667; 0xbb67ae85; 0x3c6ef372; 0xa54ff53a; 0x510e527f; 0x9b05688c;
   0x1f83d9ab; 0x5be0cd19].
(** same code: /repo/cipher/sha256.h:53-57 *)
Definition sha256_h : list Integer := map (int_of WORDLEN) sha256_h_vals.

(** sha256_k: /repo/cipher/sha256.h:59-91 (re-created by refresh, :125-188) *)
Definition sha256_k_vals : list N :=
  [0x428a2f98; 0x71374491; 0xb5c0fbcf; 0xe9b5dba5; 0x3956c25b; 0x59f111f1;
   0x923f82a4; 0xab1c5ed5; 0xd807aa98; 0x12835b01; 0x243185be; 0x550c7dc3;
   0x72be5d74; 0x80deb1fe; 0x9bdc06a7; 0xc19bf174; 0xe49b69c1; 0xefbe4786;
   0x0fc19dc6; 0x240ca1cc; 0x2de92c6f; 0x4a7484aa; 0x5cb0a9dc; 0x76f988da;
   0x983e5152; 0xa831c66d; 0xb00327c8; 0xbf597fc7; 0xc6e00bf3; 0xd5a79147;
   0x06ca6351; 0x14292967; 0x27b70a85; 0x2e1b2138; 0x4d2c6dfc; 0x53380d13;
   0x650a7354; 0x766a0abb; 0x81c2c92e; 0x92722c85; 0xa2bfe8a1; 0xa81a664b;
   0xc24b8b70; 0xc76c51a3; 0xd192e819; 0xd6990624; 0xf40e3585; 0x106aa070;
   0x19a4c116; 0x1e376c08; 0x2748774c; 0x34b0bcb5; 0x391c0cb3; 0x4ed8aa4a;
   0x5b9cca4f; 0x682e6ff3; 0x748f82ee; 0x78a5636f; 0x84c87814; 0x8cc70208;
   0x90befffa; 0xa4506ceb; 0xbef9a3f7; 0xc67178f2].
(** same code: /repo/cipher/sha256.h:59-91 *)
Definition sha256_k : list Integer := map (int_of WORDLEN) sha256_k_vals.

(** plain_sha256_k: /repo/cipher/sha256.h:93-104 *)
Definition plain_sha256_k : list N :=
  [0x428a2f98; 0x71374491; 0xb5c0fbcf; 0xe9b5dba5; 0x3956c25b; 0x59f111f1;
   0x923f82a4; 0xab1c5ed5; 0xd807aa98; 0x12835b01; 0x243185be; 0x550c7dc3;
   0x72be5d74; 0x80deb1fe; 0x9bdc06a7; 0xc19bf174; 0xe49b69c1; 0xefbe4786;
   0x0fc19dc6; 0x240ca1cc; 0x2de92c6f; 0x4a7484aa; 0x5cb0a9dc; 0x76f988da;
   0x983e5152; 0xa831c66d; 0xb00327c8; 0xbf597fc7; 0xc6e00bf3; 0xd5a79147;
   0x06ca6351; 0x14292967; 0x27b70a85; 0x2e1b2138; 0x4d2c6dfc; 0x53380d13;
   0x650a7354; 0x766a0abb; 0x81c2c92e; 0x92722c85; 0xa2bfe8a1; 0xa81a664b;
   0xc24b8b70; 0xc76c51a3; 0xd192e819; 0xd6990624; 0xf40e3585; 0x106aa070;
   0x19a4c116; 0x1e376c08; 0x2748774c; 0x34b0bcb5; 0x391c0cb3; 0x4ed8aa4a;
   0x5b9cca4f; 0x682e6ff3; 0x748f82ee; 0x78a5636f; 0x84c87814; 0x8cc70208;
   0x90befffa; 0xa4506ceb; 0xbef9a3f7; 0xc67178f2].

(** Member variables: /repo/cipher/sha256.h:22-51.  [size_t pos = -1] is the integer
    -1 here, an index is valid only when non-negative.  Default-constructed Integer
    arrays (iv_out_hash, iv_in_hash before being assigned) are [None].  [evs] is a
    ghost trace of the circuit events.  compression_calls_num (a statistics counter
    never read by the protocol) is left out. *)
Record sha_st := mkSha {
  gc_in_open : bool;
  gc_out_open : bool;
  zk_in_open : bool;
  iv_in_hashes : list (list N);
  iv_out_hash : option (list Integer);
  zk_iv_in_hashes : list Integer;
  iv_in_hash : option (list Integer);
  pos : Z;
  zpos : Z;
  evs : list event
}.

(** default member initialisers: /repo/cipher/sha256.h:24-51 *)
Definition sha_init : sha_st :=
  mkSha false false false [] None [] None (-1) (-1) [].

(** compression_calls_num and the calls made to the circuit backend: /repo/cipher/sha256.h:22 *)
Definition log (st : sha_st) (e : list event) : sha_st :=
  mkSha (gc_in_open st) (gc_out_open st) (zk_in_open st) (iv_in_hashes st)
        (iv_out_hash st) (zk_iv_in_hashes st) (iv_in_hash st) (pos st) (zpos st)
        (evs st ++ e).

(** refresh: /repo/cipher/sha256.h:110-189 *)
Definition refresh (st : sha_st) : sha_st :=
  mkSha false false false (iv_in_hashes st) (iv_out_hash st) (zk_iv_in_hashes st)
        (iv_in_hash st) (pos st) (zpos st) (evs st).

(** padding: /repo/cipher/sha256.h:191-207.  [K] is computed in uint64_t and
    converted to long long, i.e. exact for L < 2^63. *)
Fixpoint while_neg (fuel : nat) (K : Z) : Z :=
  match fuel with
  | O => K
  | S f => if (K <? 0)%Z then while_neg f (K + Z.of_nat CHUNKLEN)%Z else K
  end.
(** same code: /repo/cipher/sha256.h:191-207 *)
Definition padding (input : Integer) : Integer :=
  let L := length input in
  let K := while_neg (S L) (Z.of_nat CHUNKLEN - 65 - Z.of_nat L)%Z in
  let ONE := int_of 1 1 in
  let INTK := int_of (Z.to_nat K) 0 in
  let INTL := int_of 64 (N.of_nat L) in
  let padded := input in
  let padded := iconcat padded [ONE] in
  let padded := iconcat padded [INTK] in
  let padded := iconcat padded [INTL] in
  padded.

(** chunk_compress, message schedule loop: /repo/cipher/sha256.h:428-432 *)
Definition wi (w : list Integer) (i : nat) : Integer := nth i w [].
(** same code: /repo/cipher/sha256.h:428-432 *)
Definition w_next (w : list Integer) : Integer :=
  let i := length w in
  let s0 := ixor (ixor (rrot_int (wi w (i - 15)) 7) (rrot_int (wi w (i - 15)) 18))
                 (ishr (wi w (i - 15)) 3) in
  let s1 := ixor (ixor (rrot_int (wi w (i - 2)) 17) (rrot_int (wi w (i - 2)) 19))
                 (ishr (wi w (i - 2)) 10) in
  iadd (iadd (iadd (wi w (i - 16)) s0) (wi w (i - 7))) s1.
(** same code: /repo/cipher/sha256.h:428-432 *)
Fixpoint w_extend (n : nat) (w : list Integer) : list Integer :=
  match n with
  | O => w
  | S k => w_extend k (w ++ [w_next w])
  end.

(** the array of eight working variables: /repo/cipher/sha256.h:434-437 *)
Definition int8 : Type :=
  (Integer * Integer * Integer * Integer * Integer * Integer * Integer * Integer)%type.

(** one iteration of the main loop: /repo/cipher/sha256.h:440-456 *)
Definition int_round (s : int8) (kw : Integer * Integer) : int8 :=
  let '(a, b, c, d, e, f, g, h) := s in
  let S1 := ixor (ixor (rrot_int e 6) (rrot_int e 11)) (rrot_int e 25) in
  let ch := ixor (iand e (ixor f g)) g in
  let temp1 := iadd (iadd (iadd (iadd h (fst kw)) S1) ch) (snd kw) in
  let S0 := ixor (ixor (rrot_int a 2) (rrot_int a 13)) (rrot_int a 22) in
  let maj := ixor (iand (ixor a b) (ixor a c)) a in
  let temp2 := iadd S0 maj in
  (iadd temp1 temp2, a, b, c, iadd d temp1, e, f, g).

(** chunk_compress: /repo/cipher/sha256.h:422-467 *)
Definition chunk_compress (input_h chunk : list Integer) : list Integer :=
  let w := w_extend 48 chunk in
  let '(a, b, c, d, e, f, g, h) :=
    fold_left int_round (combine sha256_k w)
      (wi input_h 0, wi input_h 1, wi input_h 2, wi input_h 3,
       wi input_h 4, wi input_h 5, wi input_h 6, wi input_h 7) in
  [iadd a (wi input_h 0); iadd b (wi input_h 1); iadd c (wi input_h 2);
   iadd d (wi input_h 3); iadd e (wi input_h 4); iadd f (wi input_h 5);
   iadd g (wi input_h 6); iadd h (wi input_h 7)].

(** plain_chunk_compress: /repo/cipher/sha256.h:469-514 (uint32_t arithmetic) *)
Definition u32add (x y : N) : N := (x + y) mod 2 ^ 32.
(** same code: /repo/cipher/sha256.h:469-514 *)
Definition un (w : list N) (i : nat) : N := nth i w 0.
(** same code: /repo/cipher/sha256.h:469-514 *)
Definition load_be32 (chunk : list N) (j : nat) : N :=
  N.lor (N.lor (N.lor (N.shiftl (un chunk j) 24) (N.shiftl (un chunk (j + 1)) 16))
               (N.shiftl (un chunk (j + 2)) 8)) (un chunk (j + 3)).
(** same code: /repo/cipher/sha256.h:469-514 *)
Definition pw_next (w : list N) : N :=
  let i := length w in
  let s0 := N.lxor (N.lxor (rrot_u32 (un w (i - 15)) 7) (rrot_u32 (un w (i - 15)) 18))
                   (N.shiftr (un w (i - 15)) 3) in
  let s1 := N.lxor (N.lxor (rrot_u32 (un w (i - 2)) 17) (rrot_u32 (un w (i - 2)) 19))
                   (N.shiftr (un w (i - 2)) 10) in
  u32add (u32add (u32add (un w (i - 16)) s0) (un w (i - 7))) s1.
(** same code: /repo/cipher/sha256.h:469-514 *)
Fixpoint pw_extend (n : nat) (w : list N) : list N :=
  match n with
  | O => w
  | S k => pw_extend k (w ++ [pw_next w])
  end.
(** same code: /repo/cipher/sha256.h:469-514 *)
Definition plain_round (s : N * N * N * N * N * N * N * N) (kw : N * N) :=
  let '(a, b, c, d, e, f, g, h) := s in
  let S1 := N.lxor (N.lxor (rrot_u32 e 6) (rrot_u32 e 11)) (rrot_u32 e 25) in
  let ch := N.lxor (N.land e (N.lxor f g)) g in
  let temp1 := u32add (u32add (u32add (u32add h (fst kw)) S1) ch) (snd kw) in
  let S0 := N.lxor (N.lxor (rrot_u32 a 2) (rrot_u32 a 13)) (rrot_u32 a 22) in
  let maj := N.lxor (N.land (N.lxor a b) (N.lxor a c)) a in
  let temp2 := u32add S0 maj in
  (u32add temp1 temp2, a, b, c, u32add d temp1, e, f, g).
(** same code: /repo/cipher/sha256.h:469-514 *)
Definition plain_chunk_compress (input_h chunk : list N) : list N :=
  let w := pw_extend 48 (map (fun i => load_be32 chunk (4 * i)) (seq 0 16)) in
  let '(a, b, c, d, e, f, g, h) :=
    fold_left plain_round (combine plain_sha256_k w)
      (un input_h 0, un input_h 1, un input_h 2, un input_h 3,
       un input_h 4, un input_h 5, un input_h 6, un input_h 7) in
  [u32add a (un input_h 0); u32add b (un input_h 1); u32add c (un input_h 2);
   u32add d (un input_h 3); u32add e (un input_h 4); u32add f (un input_h 5);
   u32add g (un input_h 6); u32add h (un input_h 7)].

(** splitting into 32-bit words: /repo/cipher/sha256.h:213-219, 263-268, 382-387 *)
Definition split_words (x : Integer) : res (list Integer) :=
  map_res (fun i => extract_integer x (i * WORDLEN) WORDLEN)
          (seq 0 (length x / WORDLEN)).

(** tmp_block of chunk i: /repo/cipher/sha256.h:227-229, 248-250 *)
Definition block_at (data : list Integer) (i : nat) : res (list Integer) :=
  if (16 * i + 16 <=? length data)%nat then Ok (firstn 16 (skipn (16 * i) data)) else UB.

(** loop over the remaining chunks: /repo/cipher/sha256.h:247-252, 414-419 *)
Definition rest_chunks (st : sha_st) (dig : list Integer) (data : list Integer)
           (idx : list nat) : res (sha_st * list Integer) :=
  let* blks := map_res (block_at data) idx in
  Ok (log st (repeat EvCompress (length blks)), fold_left chunk_compress blks dig).

(** update: /repo/cipher/sha256.h:210-253 (the assert failing aborts: [Err]) *)
Definition update (st : sha_st) (padded : Integer) (reuse_out : bool)
  : res (sha_st * list Integer) :=
  if negb (length padded mod CHUNKLEN =? 0)%nat then Err else
  let* input_data := split_words padded in
  let num_chunk := (length padded / CHUNKLEN)%nat in
  let dig := sha256_h in
  let* tmp_block := block_at input_data 0 in
  let* (st, dig) :=
    if reuse_out then
      if gc_out_open st then
        let* iv := read (iv_out_hash st) in Ok (st, iv)
      else
        let dig := chunk_compress dig tmp_block in
        Ok (log (mkSha (gc_in_open st) true (zk_in_open st) (iv_in_hashes st)
                       (Some dig) (zk_iv_in_hashes st) (iv_in_hash st)
                       (pos st) (zpos st) (evs st)) [EvCompress], dig)
    else Ok (log st [EvCompress], chunk_compress dig tmp_block) in
  rest_chunks st dig input_data (seq 1 (num_chunk - 1)).

(** the public tail of opt_update: /repo/cipher/sha256.h:335-373.  [junk] is the
    uninitialised content of the fresh 64-byte buffer. *)
Definition setn (l : list N) (i : nat) (v : N) : list N :=
  firstn i l ++ [v] ++ skipn (S i) l.

(** local variables of /repo/cipher/sha256.h:335-339 *)
Record tail_st := mkTail { t_dig : list N; t_data : list N; t_len : nat; t_bits : N }.

(** loop body: /repo/cipher/sha256.h:340-348 *)
Definition tail_byte (s : tail_st) (b : N) : tail_st :=
  let data := setn (t_data s) (t_len s) b in
  let dl := S (t_len s) in
  if (dl =? 64)%nat
  then mkTail (plain_chunk_compress (t_dig s) data) data 0 ((t_bits s + 512) mod 2 ^ 64)
  else mkTail (t_dig s) data dl (t_bits s).

(** [while (i < lim) data[i++] = 0x00]: /repo/cipher/sha256.h:354-355, 358-359 *)
Fixpoint zero_fill (fuel : nat) (data : list N) (i lim : nat) : list N :=
  match fuel with
  | O => data
  | S f => if (i <? lim)%nat then zero_fill f (setn data i 0) (S i) lim else data
  end.

(** [memset(data, 0, n)]
    (/repo/cipher/sha256.h:356-360) *)
Definition memset0 (data : list N) (n : nat) : list N := repeat 0 n ++ skipn n data.

(** /repo/cipher/sha256.h:335-373 *)
Definition opt_tail (junk : list N) (plain_dig : list N) (pub_input : list N) : list N :=
  let s := fold_left tail_byte pub_input (mkTail plain_dig junk 0 512) in
  let datalen := t_len s in
  let '(dig, data) :=
    if (datalen <? 56)%nat then
      let data := setn (t_data s) datalen 128 in
      (t_dig s, zero_fill 64 data (S datalen) 56)
    else
      let data := setn (t_data s) datalen 128 in
      let data := zero_fill 64 data (S datalen) 64 in
      (plain_chunk_compress (t_dig s) data, memset0 data 56) in
  let bitlen := (t_bits s + N.of_nat datalen * 8) mod 2 ^ 64 in
  let data := setn data 63 (bitlen mod 256) in
  let data := setn data 62 (N.shiftr bitlen 8 mod 256) in
  let data := setn data 61 (N.shiftr bitlen 16 mod 256) in
  let data := setn data 60 (N.shiftr bitlen 24 mod 256) in
  let data := setn data 59 (N.shiftr bitlen 32 mod 256) in
  let data := setn data 58 (N.shiftr bitlen 40 mod 256) in
  let data := setn data 57 (N.shiftr bitlen 48 mod 256) in
  let data := setn data 56 (N.shiftr bitlen 56 mod 256) in
  plain_chunk_compress dig data.

(** contents of a fresh [new unsigned char[64]]: unspecified; a non-zero filler, so
    that a forgotten write would be visible (opt_tail is proved independent of it)
    (/repo/cipher/sha256.h:336-337) *)
Definition fresh64 : list N := repeat 205 64.

(** array read at a size_t index that may be -1
    (/repo/cipher/sha256.h:275-317) *)
Definition read_at {A} (l : list A) (p : Z) : res A :=
  if (p <? 0)%Z then UB else read (nth_error l (Z.to_nat p)).

(** opt_update: /repo/cipher/sha256.h:255-375 *)
Definition opt_update (st : sha_st) (sec_input : Integer) (pub_input : list N)
           (reuse_in zk_flag : bool) : res (sha_st * list N) :=
  if negb (length sec_input =? CHUNKLEN)%nat then Err else
  let* input_data := split_words sec_input in
  let* (st, plain_dig) :=
    if reuse_in then
      if negb zk_flag then
        if negb (gc_in_open st) then
          let dig := chunk_compress sha256_h input_data in
          let tmpInt := reverse_concat [] dig in
          let plain := reveal_as 32 tmpInt in
          Ok (log (mkSha true (gc_out_open st) (zk_in_open st)
                         (iv_in_hashes st ++ [plain]) (iv_out_hash st)
                         (zk_iv_in_hashes st) (iv_in_hash st)
                         (pos st + 1)%Z (zpos st) (evs st))
                  [EvCompress; EvReveal PUBLIC (length tmpInt)], plain)
        else
          let* p := read_at (iv_in_hashes st) (pos st) in Ok (st, p)
      else
        let st :=
          if negb (zk_in_open st) then
            let dig := chunk_compress sha256_h input_data in
            let zk_iv := iconcat [] dig in
            log (mkSha (gc_in_open st) (gc_out_open st) true (iv_in_hashes st)
                       (iv_out_hash st) (zk_iv_in_hashes st ++ [zk_iv]) (iv_in_hash st)
                       (pos st) (zpos st + 1)%Z (evs st)) [EvCompress]
          else st in
        let* p := read_at (iv_in_hashes st) (zpos st) in Ok (st, p)
    else
      let dig := chunk_compress sha256_h input_data in
      let tmpInt := reverse_concat [] dig in
      Ok (log st [EvCompress; EvReveal PUBLIC (length tmpInt)], reveal_as 32 tmpInt) in
  Ok (st, opt_tail fresh64 plain_dig pub_input).

(** opt_rounds_update: /repo/cipher/sha256.h:377-420.  Reading iv_in_hash before it
    was assigned yields zero-width Integers, whose later additions violate the width
    precondition of emp-tool: [UB]. *)
Definition opt_rounds_update (st : sha_st) (padded : Integer) (reuse_in : bool)
  : res (sha_st * list Integer) :=
  if negb (length padded mod CHUNKLEN =? 0)%nat then Err else
  let* input_data := split_words padded in
  let num_chunk := (length padded / CHUNKLEN)%nat in
  let dig := sha256_h in
  let* tmp_block := block_at input_data 0 in
  let* (st, dig) :=
    if reuse_in then
      if gc_in_open st then
        let* iv := read (iv_in_hash st) in Ok (st, iv)
      else
        let dig := chunk_compress dig tmp_block in
        Ok (log (mkSha true (gc_out_open st) (zk_in_open st) (iv_in_hashes st)
                       (iv_out_hash st) (zk_iv_in_hashes st) (Some dig)
                       (pos st) (zpos st) (evs st)) [EvCompress], dig)
    else Ok (log st [EvCompress], chunk_compress dig tmp_block) in
  rest_chunks st dig input_data (seq 1 (num_chunk - 1)).

(** digest: /repo/cipher/sha256.h:516-520 *)
Definition digest (st : sha_st) (input : Integer) (reuse_out : bool) :=
  update st (padding input) reuse_out.

(** opt_digest: /repo/cipher/sha256.h:522-529 *)
Definition opt_digest (st : sha_st) (sec_input : Integer) (pub_input : list N)
           (reuse_in zk_flag : bool) :=
  opt_update st sec_input pub_input reuse_in zk_flag.

(** opt_rounds_digest: /repo/cipher/sha256.h:531-537 *)
Definition opt_rounds_digest (st : sha_st) (input : Integer) (reuse_in : bool) :=
  opt_rounds_update st (padding input) reuse_in.

(** sha256_check: /repo/cipher/sha256.h:541-550, as the list of comparisons handed to
    check_zero (Integer, expected little-endian word array); indexing
    zk_iv_in_hashes past its end is undefined. *)
Definition sha256_check (st : sha_st) : res (list (Integer * list N)) :=
  map_res (fun i => let* iv := read (nth_error (iv_in_hashes st) i) in
                    let* z := read (nth_error (zk_iv_in_hashes st) i) in
                    Ok (z, rev iv))
          (seq 0 (length (iv_in_hashes st))).
