(** Circuit-level events issued to the garbled-circuit backend, used to compare the
    offline classes with the online ones.  One event stands for the (fixed) gate
    sequence of one arithmetic block, one input feed, or one reveal. *)
From Coq Require Import List NArith.
Import ListNotations.

(** emp-tool constants, used e.g. in /repo/protocol/handshake.h:207-208 *)
Inductive party := ALICE | BOB | PUBLIC.

(** calls made by /repo/cipher/sha256.h, hmac_sha256.h:24-123, prf.h:28-221 *)
Inductive event :=
| EvCompress                       (** SHA-256 chunk_compress: /repo/cipher/sha256.h:422-467, 773-818 *)
| EvFeed (p : party) (nbits : nat) (** prot_exec->feed through an Integer constructor *)
| EvReveal (p : party) (nbits : nat) (** prot_exec->reveal *)
| EvAddmod (nbits : nat)           (** addmod: /repo/protocol/addmod.h *)
| EvKS                             (** computeKS: /repo/cipher/utils.h:242-246 *)
| EvAES                            (** computeAES_KS: /repo/cipher/utils.h:249-254 *)
| EvAdd (nbits : nat).             (** Integer addition in inc: /repo/protocol/aead.h:101 *)
