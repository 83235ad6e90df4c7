(** TLS 1.2 key schedule for AES-128-GCM cipher suites with ECDHE key exchange, written
    from RFC 5246 (sections 5, 6.3, 7.4.9, 8.1), RFC 5288, RFC 7627 and RFC 8422 over byte
    strings. *)
From Coq Require Import List NArith String.
From Verif Require Import L_Str S_Hmac S_Codec.
Import ListNotations.
Local Open Scope string_scope.

(** RFC 8422 5.10: the premaster secret is the x coordinate as an octet string of the
    length of the field, leading zeros kept *)
Definition premaster (field_bytes : nat) (x : N) : list N := be_enc field_bytes x.

Definition master_secret (pms rc rs : list N) : list N :=
  prf_bytes 48 pms (ascii_bytes "master secret") (rc ++ rs).
Definition extended_master_secret (pms session_hash : list N) : list N :=
  prf_bytes 48 pms (ascii_bytes "extended master secret") session_hash.

(** RFC 5246 6.3 with mac_key_length 0, enc_key_length 16, fixed_iv_length 4 (RFC 5288) *)
Definition key_block (ms rc rs : list N) : list N :=
  prf_bytes 40 ms (ascii_bytes "key expansion") (rs ++ rc).
Definition slice (off len : nat) (l : list N) : list N := firstn len (skipn off l).
Definition tls_client_key (kb : list N) : list N := slice 0 16 kb.
Definition tls_server_key (kb : list N) : list N := slice 16 16 kb.
Definition tls_client_iv (kb : list N) : list N := slice 32 4 kb.
Definition tls_server_iv (kb : list N) : list N := slice 36 4 kb.

(** RFC 5246 7.4.9 *)
Definition verify_data (ms label hash : list N) : list N := prf_bytes 12 ms label hash.
Definition client_verify_data (ms hash : list N) : list N :=
  verify_data ms (ascii_bytes "client finished") hash.
Definition server_verify_data (ms hash : list N) : list N :=
  verify_data ms (ascii_bytes "server finished") hash.
