# Machine-checked model of otls (primus-labs) — design

Everything is in `rocq/theories` (logical prefix `Verif`), Coq 8.16.1, standard
library only.  File name prefixes:

* `L_*`  general lemmas (bits, lists, modular arithmetic) – no otls content;
* `M_*`  the model: otls code transcribed function by function; every definition
  carries a comment naming the file and lines in `/repo`;
* `S_*`  specifications written from the public standards (FIPS 180-4, FIPS 197,
  SP 800-38D, RFC 2104, RFC 5246, RFC 7627) or from first principles; a
  specification file never imports a model file;
* `D_*`  data: the two Bristol netlists shipped in `cipher/circuit_files`;
* `P_*`  proofs;
* `C_*`  property files: only `Theorem ... Proof. exact ... Qed.`, non-vacuity
  `Example`s and `Print Assumptions`.

## Modelling conventions

* `Integer` (emp-tool, not in the repository) is its cleartext `list bool`, least
  significant bit first; its operations are modelled in `M_EmpInteger.v`.
  That the garbled / zero-knowledge backends compute the same function as the
  cleartext gates is itself a set of properties (C24–C29) about the backend code
  in `backend/`.
* `unsigned char`, `uint32_t`, `uint64_t`, `block` are `N` with explicit
  reduction wherever the C++ type wraps.  A `block` is a 128-bit `N`; byte `k` of
  its memory image is bits `8k..8k+7`.
* Undefined behaviour and `error()` are distinct outcomes (`UB`, `Err`), never a
  default value.
* External functions (emp hashes/PRGs, OpenSSL point arithmetic, OT) are `Section`
  variables; only properties that are true of the real thing are ever assumed, as
  explicit hypotheses of the theorems.

## Plan per property

| id | title | how |
|---|---|---|
| C01 | SHA-256 in circuits is FIPS 180-4 SHA-256 | M_Sha256 (Integer level) vs S_Sha256 (FIPS 180-4 on bit strings): refinement, induction over chunks and rounds. |
| C02 | Half-public SHA-256 equals the ordinary hash | opt_update incl. the 64-byte buffer; refinement to S_Sha256. |
| C03 | All HMAC variants equal RFC 2104 HMAC-SHA256 | M_Hmac vs S_Hmac (RFC 2104): refinement using C01/C02. |
| C04 | Cached HMAC state never changes a result | Invariant over arbitrary call histories of the HMAC object. |
| C05 | Mixing the two optimised HMAC modes under one key | Expected false (shared open flag): refuted with a two-call history. |
| C06 | TLS 1.2 PRF output is RFC 5246 P_SHA256 | M_Prf vs S_Prf (RFC 5246 P_hash): induction over iterations. |
| C07 | PRF into a non-empty result integer | Expected false: the output parameter is appended to; refuted. |
| C08 | AES-128 key-schedule circuit file is FIPS-197 key expansion | Netlist as data; gate equations; S-box cones by truth tables, linear layers by symbolic XOR sums; all keys. |
| C09 | AES-128 encryption circuit file is FIPS-197 AES | same technique, all keys and blocks. |
| C10 | Block multiplication is GCM multiplication in GF(2^128) | Bilinearity + computation on basis pairs. |
| C11 | Block power and inverse | Ring structure of the product, Frobenius and idempotent argument. |
| C12 | GHASH and GCM tag computation | M_Gcm vs S_Gcm. |
| C13 | Counter-mode keystream | gctr/set_nonce vs S_Gcm counter blocks. |
| C14 | Two-party AEAD encryption yields the GCM ciphertext and tag | Both parties' code with share randomness; result vs S_Gcm. |
| C15 | Two-party AEAD decryption accepts exactly valid tags | same, decryption; round trip. |
| C16 | A misbehaving peer cannot make decrypt accept a wrong tag | Expected false: reflection of the commitment; refuted with the reflecting peer. |
| C17 | Oblivious linear evaluation over a prime field | M_Ole over Z mod q. |
| C18 | Oblivious linear evaluation over GF(2^128) | M_OleF2k over blocks, bilinearity. |
| C19 | Elliptic-curve point to field share conversion | M_E2f over Z mod prime q against the chord formula. |
| C20 | E2F masks hide the inputs | Expected false because BN_rand(...,0,0) fixes the top bit; refuted. |
| C21 | Modular addition circuit | M_Addmod on bit lists, value theorem for all widths. |
| C22 | addmod leaves its arguments reusable | Expected false for the Integer& overload; refuted. |
| C23 | Vector oblivious polynomial evaluation | In-place packing modelled on an array; proved for length <= 64, refuted for 65. |
| C24 | Half-gate AND is correct | Algebra on labels, arbitrary hash. |
| C25 | Offline-garbled circuits evaluate correctly online | Induction over arbitrary instruction lists. |
| C26 | Streaming garbling with public-wire short cuts is correct | Simulation relation with explicit no-collision hypothesis. |
| C27 | Input labels from the buffered correlated OT are never reused and always match | State machine with ghost correlation indices, induction over feed histories. |
| C28 | Changing the OT batch size keeps feeds correct | Expected false (buffer not refilled); refuted. |
| C29 | Public reveal returns the cleartext to both parties and detects a lying evaluator | Honest case and cheating case; public wires separately (refuted). |
| C30 | Offline and online programs issue the same circuit | Event traces of both class families; equality for all sizes/flags. |
| C31 | XOR shares taken from garbled wires | Labels with lsb; XOR of both parties' outputs. |
| C32 | Session key derivation follows TLS 1.2 | M_Handshake vs S_Tls. |
| C33 | A genuine server Finished message is accepted | Expected false (byte order); refuted. |
| C34 | Zero-knowledge re-derivation is consistent with the garbled run | zk branches with arbitrary recorded values; soundness of checks. |
| C35 | Derived keys are bound to label and seed against a cheating prover | Expected false; refuted with a concrete prover input. |
| C36 | Diffie-Hellman composition and pms opening | Abstract commutative group. |
| C37 | Hash commitments are complete and binding | Abstract hash. |
| C38 | Pedersen commitments are complete and linearly homomorphic | Abstract group with Z-module structure. |
| C39 | Boolean-to-commitment conversion is complete | M_ComConv over Z mod q. |
| C40 | The conversion transcript commitment is binding | Expected false (strncmp stops at NUL); refuted. |
| C41 | Big-number wire encoding | Codec round trip over byte streams. |
| C42 | Big-number receive is memory safe | Expected false; refuted. |
| C43 | Authenticated zero test | IT-MAC model, arbitrary keys. |
| C44 | Prover-side public comparison covers all the data | Expected false (byte count); refuted. |
| C45 | Homomorphic correction of authenticated shares | IT-MAC model. |
| C46 | Record proofs are matched to records first-in first-out | Queue state machine, induction over histories. |
| C47 | Proving the same record channel twice | Expected false (zk_h mutated); refuted. |
| C48 | Post-record finalisation accepts exactly valid records | Conjunction over records. |
| C49 | Proxy-mode message proofs are sound and complete | M_ProveAes vs counter mode. |
| C50 | Selective-disclosure proofs select exactly the masked bytes | Mask extraction vs filter. |
| C51 | Selective-disclosure proofs terminate and stay in bounds on any request | Expected false (loop diverges, buffer overflow); refuted. |
| C52 | Session set-up, switching and teardown manage backends safely | Ownership state machine, induction over call sequences with failure points. |
| C53 | Finalising twice is harmless | Expected false; refuted. |
| C54 | Hex and block byte-order conversions are inverse | Round trip on byte lists. |
| C55 | Integer concatenation helpers agree | List laws. |
| C56 | String and hex conversions | Value laws, injectivity. |
| C57 | Interactive exchanges neither deadlock nor depend on scheduling | Two-process buffered-channel semantics; confluence and termination. |
| C58 | Pre-master secret re-sharing in the proof phase | Share algebra mod q + C32. |
| C59 | Re-running the master-key proof | Expected false; refuted. |
| C60 | Owning wrappers free what they are given | Ownership model; UniquePoint/UniqueCtx refuted. |
| C61 | Proxy-mode key derivation follows TLS 1.2 | M_ProvePrf vs S_Tls. |
| C62 | Finished values use the key of the last initialisation | M_Handshake call orders. |
| C63 | Deriving the master secret again replaces the old one | Expected false (appended); refuted. |
| C64 | The whole handshake agrees with the server | Composition of C36, C19, C21, C32, C34, C58. |
| C65 | A random scalar never blocks the key exchange | Expected false for the zero scalar; refuted. |
| C66 | Every protocol call delivers what it sent | Expected false (no flush); refuted, in the semantics of C57. |
| C67 | No two garbled half gates share a hash number | Transcript of tables vs S_HalfGate. |
| C68 | An honest session is accepted from key agreement to tag check | M_Session; composition of C64, C14, C15, C46, C48 over any sequence of record and proof calls. |
| C69 | An accepted proof phase opens every record under the session keys | M_Session with arbitrary prover shares; C34, C45, C46, C48. |
| C70 | Acceptance binds the Finished records to the verify data | Expected false (content never compared); refuted, in every session. |
| C71 | finalize_check gives a verdict for z0 vectors of the right length | Expected false for a default-constructed Integer; refuted. |
| C72 | The garbled session puts GCM values on the wires that become shares | C30 composed with C68's value-level record layer, on the shipped circuits. |
| C73 | BOB learns nothing about ALICE's messages beyond the ciphertexts and tags | Log what each program receives under any schedule; write the received bytes as a function of inputs and random values; give the bijection on random values between two sessions BOB cannot tell apart. |
| C74 | ALICE learns nothing about the key beyond key streams, ciphertexts, tags and verdicts | Same views; no change of random values is needed. |
| C75 | A rejected decryption shows nothing but the rejection | Expected false; the opened shares give the valid tag; refuted by two keys. |
| C76 | With uniform triple shares, the online point conversion shows nothing about the peer's point | Views of `p_e2f_online`; a one-to-one map of the peer's shares that keeps every opened number. |
| C77 | The same with the masks the code draws | Expected false (C20); every view excludes q - 2^(bl-1) values of the peer's x-coordinate; refuted for P-256. |
| C78 | The conversion of bits into commitments ends on both sides with the same commitments | `M_ExchCc`, in the semantics of C57; expected false without a flush after `compute_com_recv`; refuted. |
| C79 | An honest key holder learns nothing about the bits from the conversion | Views of `p_cc_send`; one-to-one map of the MAC holder's random numbers; with the key holder as OLE receiver the hash is changed only where it cannot be evaluated (C81). |
| C80 | The opening check of the conversion protects the bits from a deviating key holder | Expected false: nothing ties the OLE input of the key holder to its Delta; refuted by the program `p_cc_cheat` (`M_CheatCc`, not code of the repository). |
| C81 | The OLE hides the sender's numbers from the receiver | `M_Ole`; choose the hash at the withheld points (`S_OleView`). |
| C82 | The commitments made with the test's base hide and bind | Group algebra; binding expected false since both parties know the logarithm of the base; refuted. |
| C83 | The evaluator of a circuit garbled in advance learns only what is opened to it | Transcripts of both phases (`M_GarbleTr`); change the hash at the points of `S_GarbleView` and the zero labels of differing inputs; induction over the circuit. |
| C84 | The garbler of a circuit garbled in advance learns only what is opened to it | The evaluator's messages as a function of the final labels and values. |
| C85 | The evaluator of the streaming backend learns only what is opened to it | As C83, over the live gates only; the hash is the only thing changed. |
| C86 | The garbler of the streaming backend learns only what is opened to it | Flip the random choice bits of buffered inputs that differ; C27's positions. |
| C87 | The shares of a session come out of the wire labels | `S_Lower` turns the requests of `M_SymOn`/`M_SymOff` into a circuit of `S_Circuit` (the two public constants become two wires made first); compose C25 with C30, C31 and C72. |
| C88 | A session opens exactly the values the protocol makes public | `S_Open` lists the opened vectors from RFC 2104/5246/5288; follow the gate programs of `M_SymOn` request by request (most open nothing). Without rounds mode more is opened than is handed out; refuted with a witness. |
| C89 | The garbled circuits of a session tell each party only what the session opens | Compose C83/C84 with `lower` (C87), the equality of shapes (C30) and the opened list (C88). |
| C90 | Two parties working on their wire labels carry a TLS session through | `M_LabRec`: the record programs again, with nothing but a party's own labels and openings; relate them step by step to the programs of C57 (`peq`), whose masks become the low bits of ALICE's labels; compose with C57, C87 and C88. |
| C91 | TLS sessions on the streaming backends take no share from a constant wire | Constant propagation (`kind_step`) over the requests of `M_SymOn`: a partial-correctness triple `pc` whose assertion is that wires are live (not constant). XOR is live if one input is, AND if both are. One SHA-256 compression is live if its state is or if its first eight message words are; the two AES netlists are checked by computing an abstract run (`net_live`). Then C26 and the last steps of C90. |
| C92 | The streaming circuits of a session tell each party only what the session opens | Relate the two sessions request by request (`dt`): states with the same requests, the same inputs of the party and the same openings stay so, or the openings have come apart. Then C85/C86 with `lower` (C87), the opened list (C88) and the shares of C91. |
| C93 | A whole TLS session, circuits and records, tells a party only what it opens and the records | The circuit views (C89, C92) fix the party's labels in both sessions and with them its shares of H, Z0, Z; the peer's shares then differ by the difference of the values. On these shares redo C73/C74 for calls on two objects: re-randomise r and the unchosen OT strings (`partner`), show that both runs have the same received bytes, objects and OT outputs, and that `partner` is a bijection. The record programs return the objects (`l_run`); `C93_programs` says they are those of C90. |
| C94 | One digest comparison decides the whole proof phase | Every function of the proof phase only appends to the transcripts, and what it appends does not depend on what is there (frame lemmas in `P_Digest`); so `M_Digest`, which inserts the blocks of the handshake comparisons, has the outcome of `M_Session`, and its transcripts agree exactly when each part does. Then C43, C68 and C69. |
| C95 | What a BOB that does not keep to the protocol can change in ALICE's records | ALICE's program on message m and share z sends the same bytes as on m ⊕ d and z ⊕ d (`op_shift`, programs equal up to the stored shares), so a BOB with share z_B ⊕ d makes an honest run of the changed call; C90 gives its outcome. For public content: every value ALICE's program can return, whatever it receives (`may`), has the opened key stream in it. |
| C96 | The proof phase shows the verifier only H and the E(J0) | Relation `vprd`: the verifier's blocks, keys and recorded data are equal, the prover's are arbitrary; every function of the proof phase keeps it, because the second component of a wire never depends on the first (`zauth_snd`, length checks fix the lengths).  `M_Final` separates what finalize_check opens from what it computes; the opened values come from the run lemma of C69.  Forging: the tag is affine in the hash part (`be_enc_xor`). |
| C97 | Rotations of circuit integers | lrot by s is rrot by n - s (commutativity of xor), and rrot is the list rotation of C01. |
| C98 | The point conversion, the circuits and the records of a session together | C76 gives the bijection on the peer's shares and the same result for the party; the run is unique (`views_unique`), so the results are those of C19 and add up to the premaster secret, which is all that the opened values and the keys depend on; then C93. |
| C99 | The field and the group order of P-256 are primes | Fermat's little theorem by permuting the units, Pocklington's criterion with one or two prime factors, trial division below 2^28, and the chain of certificates evaluated with `vm_compute`. |
| C100 | The garbling backends as two programs that exchange bytes | `M_GcProc` gives one program per party; each instruction is a pair of programs that converse to the states of the joint step of `M_Garble` (`o_step_conv`, `n_step_conv`), composed along the circuit; the programs are shown disciplined (no read with unflushed data of one's own on a channel another read depends on) by `wp`, then `completes`.  Without a flush: the run leads to the garbler waiting with the answer in the evaluator's buffer (`leads_dead`). |
| C101 | A session in the order of the code: circuits and records take turns on the channel | `M_Inter` cuts the requests of the session into the parts of the single calls (`items`) and runs, per call, the backend program of C100 on the part and then the record program of C90 on the labels held at that moment.  Abstract over the backend (`good`): parts converse, labels after every prefix are shares of the values (C91 at every prefix of the call list; for two phases `sync_pre`, a part of the circuit run with the tables of the whole), the last opening of a public record is its key stream (C88 at every prefix).  `wp_irun` shows the discipline whatever a party receives. |
| C102 | The verdicts on the peer's openings, whatever the peer sends | `S_Eat.eat` runs one program on arbitrary incoming bytes.  The program of the MAC holder is inverted down to `cc_open_recv` of C39 (`recv_verdict`), that of the key holder to its three checks (`send_verdict`), the client's `reveal_pms` to the comparison of points (`reveal_verdict`).  Written after two edits of these checks survived the older theorems. |
| C103 | Each party computes every request to the backend from its own data and the values opened before | `S_Causal.own_part` leaves out the bits the peer feeds, `replay` answers openings from a list.  `P_Causal.rel`: two runs whose openings agree during the first n requests either end alike, or agree on the first n+1 requests; closed under the constructs of `M_SymOn` call by call (`P_Causal2`).  That the second run completes is `sim_session` of C30.  `P_Causal3`: one step of a backend program does not look at the peer's bits. |
| C104 | The session of C101, each party running on its own data alone | `M_Live`: `own_icall` erases the peer's share, messages, commitment strings and ALICE's random block; `live` computes the next request by running the calls with the values this party saw opened, then does the step of the backend program.  The number of requests per call and the wires turned into shares come from a run without openings; they are the same in every run (`P_LiveItems`).  Next request: C103 at every prefix (`next_request`); all openings are public, so what a party saw are the values (`seen_vals`).  The flags hold for any values opened, since the shape of a request does not depend on them (`requests_shape`, `P_LiveStep`).  `P_LiveStream.live_session` joins this with the frame of C101 for any backend. |
| C105 | The whole run, offline phase to last record, each party on its own data | `M_Whole`: `w_alice`, `w_bob` string together garbling in advance (`p_fgen`/`p_feva`), `p_e2f_offline`, the point exchange, `p_pms_online` and the session of C104 (`l_start`) with the share just computed, in the order of `test/prot_on_off.cpp`.  The calls are erased as in C104.  Not in it: connection setup, OT traffic, the zero-knowledge part after the records; two-phase backend only.  `P_WholeDh` gives the flags of the key agreement after unflushed sends and the range of a share for any bytes received; `P_WholeTwo.core` the session for any pair of shares; `P_Whole.whole_two` joins them. |
| C106 | What a peer that sends anything can lead a party to, over the whole run | `S_Feed.fed p ins r`: the program reads the pieces `ins` and ends with `r`; no condition on the peer.  For `w_alice` and `w_bob` of C105, `UB` only if the last piece is a four-byte length above 1000 (`P_Feed.sf`, carried step by step; the session part comes from the invariants of C104, `ends_ok`).  That `UB` cannot be reached is expected false: refuted for both parties.  `UB` is what the model calls undefined: the overrun of `recv_bn`, reads and writes outside tables, strings and wire lists, an inverse that does not exist.  Memory faults inside the libraries are outside it. |
| C107 | What a peer that sends anything can lead a party of the commitment conversion to | `fed` of C106 for `p_cc_send` and `p_cc_recv` (`M_ExchCc`), the pieces being real bytes (below 256): a number received has at most 1000 bytes and is written back into a buffer of 1000 by `compute_hash` and the commitment to yMAC.  `UB` only at an oversized length (`P_FeedCc.sb`); that it cannot be reached is expected false: refuted for whichever party receives in the OLE. |
| C108 | In the whole run a record is accepted only on an opening fixed before the party showed its share | `S_Talk.talk`: what a program sends and receives, in order, over every sequence of pieces a peer could send; for `w_alice` and `w_bob`, no hypothesis on the parameters.  `P_Accept.pins`: the result selected (record k accepted, with its text) pins down six consecutive messages; composed along `rbind` by the fact that a program is prefix-deterministic in what it receives (`talk_det`).  A byte of a received share is read modulo 256 (`octets`), the identity for real bytes.  `C108_runs` ties `talk` to the schedules of `S_Sched`. |
| C109 | In the whole run the tag of an encrypted record is the exclusive or of the share sent and the share received next, and the peer can choose it | `talk` of C108, composed as there (`P_AcceptEnc.shown`, `chosen`).  `aead.h:190-305` exchanges the shares without a commitment, so that the peer cannot choose the tag is expected false: `C109_chosen` for every run whose last call is an encryption, `C109_tag_refuted` for one on the toy curve.  A byte received is read modulo 256, as in C108. |

## Trusted base

1. **The Coq kernel**, including its `vm_compute` reduction (used for netlist facts and for
   concrete examples).  No kernel check is switched off, no `Admitted`, no axiom, no
   `Parameter`, no functor, no plugin.
2. **Assumptions per theorem.**  `Print Assumptions` follows every theorem of every `C_*.v`
   file.  All of them answer `Closed under the global context`: no theorem rests on an axiom,
   not even one of the standard library.  `coqchk -o` over the whole library additionally
   names seven constants of `Coq.ssr.ssrunder.Under_rel`; they belong to a module type of the
   standard library that is loaded with `ring`/`lia`, and no theorem here uses them.
3. **The transcription** of the C++ into the `M_*` files.  Every definition names its lines.
4. **The behaviour of external code** as listed next.  It enters either as a definition in a
   model file (then it is part of the transcription) or as a variable with explicit
   hypotheses in the theorem.
5. **The specifications** `S_*`, written from the standards and not from the code.

### Assumed about external code

* *emp-tool `Integer`* (`M_EmpInteger`): bits least significant first; `+`, `^`, `&`, shifts,
  `select`, `resize`, comparison as documented.  `BristolFormat::compute` evaluates gates in
  file order (`M_Bristol`).
* *Gate level* (`M_Sym`): an adder is `add_full`, a subtraction `sub_full`, comparison and
  `select` the emp-tool sequences; a public constant is one `public_label` request.  The order
  of XOR gates inside one C++ expression is fixed left to right; XOR gates use no table.
* *emp-tool blocks* (`M_Block`): the intrinsics named in `cipher/utils.h`; a block is the
  number in the register.  `gfmul_reflect` and the base packing of `vope.h` are the GCM
  product / the linear packing (hypothesis `gfr_ok`, met by `gf_mul`).
* *OpenSSL `BIGNUM`* (`M_Bn`): values are integers, `BN_mod*` results are in `[0, q)`,
  `BN_bn2bin` is big-endian without leading zeros, `BN_rand(..., 0, 0)` sets the top bit.
* *OpenSSL curves* (`L_Group`, `M_Ec`): a commutative group with a generator; the affine
  x-coordinate of a sum of two points with different x is given by the chord formula;
  `EC_POINT_new` gives the point at infinity, whose encoding is one byte; other points encode
  in 65 bytes.  That NIST P-256 is such a group is not proved here; theorems quantify over
  every such structure, and a 19-element example (`D_Toy`) shows the hypotheses can be met.
* *Oblivious transfer*: ideal.  Correlated OT gives the sender strings `K_k` and the receiver
  `K_k xor r_k*Delta`; random OT gives two lists and the chosen entries.
* *Hash, PRG, AES under emp's fixed key, `sigma`, correlation-robust hash*: arbitrary
  functions (of the right length).  "Unforgeable" statements are given as "otherwise here is a
  hash collision".
* *emp-zk (izk)*: values computed inside are their cleartext bits; `reveal` opens
  authentically.  Where MACs matter (`M_ItMac`), a wire is the pair (prover block, verifier
  block) and a public bit has a fixed label on both sides whose difference is not `Delta`.
  The two running hashes are compared at the end of the proof.  If the two parties pass
  different PUBLIC inputs the run is `Err` in the handshake model (emp-zk leaves it open).
* *`NetIO`* (`S_Sched`): a FIFO byte stream per direction and channel; `send_data` fills a
  buffer; `flush`, and `recv_data` on the same channel, transmit it; buffered bytes may also
  be transmitted early at any time in any portion.  `recv_data(n)` waits for n bytes.  This
  is assumed, since emp-tool is not in the repository.
* *C++ memory* (`M_Switch`, `M_Unique`): the heap is the set of live objects; `delete` of an
  object that is not live, or use of one, is undefined.  A throwing constructor leaves nothing
  behind.  Constructor and destructor bodies of the backends are not modelled.

### What is modelled

All of `backend/`, `cipher/` and `protocol/` is transcribed, except the parts below.  The two
circuit files `aes128_ks_data.cpp` and `aes128_with_ks_data.cpp` are included gate for gate
(`D_AesKs`, `D_AesEnc`).  For the programs in `test/` only the order of the protocol calls
is used (C57, C30, C48, C68), and the choice of the base in `com_conv.cpp` (C82).
In `M_Session` the comparisons of the key schedule stay in the list `hs_zk` of compared values
while those of the record proofs are in the block transcripts of `M_ItMac`; the code hashes
both into one state.  `M_Digest` does the same, in the order of the calls, and C94 relates the
two.  `M_Final` restates `finalize_check` as an opening followed by a
computation (C96).  `M_Dev` adds one party that does not keep to the record protocol (C95); other deviations
are C16, C29, C35, C65, C69, C80 and C82.

### What is not modelled

* `print_hex_*` and other printing, timing and counters (`compression_calls_num` etc.);
* the bodies of emp-tool, emp-ot, emp-zk and OpenSSL;
* traffic of OT and of emp-zk in the scheduling model: the exchanges of C57/C66 contain only
  bytes sent by otls code itself, without `reveal` on garbled Integers; the traffic of the
  garbling backends, `reveal` included, is in C100, and together with the records in C101
  (without the OTs and the seed of `shared_prg` in the set-up).  In C101 the requests of the
  circuit are given in advance: a value opened in one call that a later call uses as a constant
  already stands there.  In C104 they are not: each party has its own data only and computes a
  request when it comes to it, starting the calls over with the values opened so far (the code
  goes on from where it is; by C103 the next request is the same).  C105 puts the offline phase and
  the key agreement before it;
* thread-local storage and the `THREADING` macro (`__thread` in `switch.cpp`): one session
  per thread is assumed;
* wrap-around of `size_t` message lengths: buffers are shorter than 2^60 bytes, and the
  64-bit gate counters do not overflow where a theorem says so (C67);
* computational security and probabilities.  Privacy is stated only where it is perfect: C73
  and C74 compare two sessions by a one-to-one map of the random values (hence equal
  distributions of the view when these are uniform), for parties that follow the protocol,
  with garbled circuits, label conversion and OT ideal, and with r and H nonzero.  C76 does the
  same for the online phase of the point conversion, for triple shares that are uniform among
  those that fit the peer's shares and have an invertible a; C77 shows that the code's shares
  are not.  C79 does it for the conversion into commitments, and C81 for the OLE over a prime
  field, where the hash function is changed at points the receiver does not hold (the usual
  random-oracle argument with the probability of hitting such a point left out).  C83 does the
  same for circuits garbled in advance and C85 for the streaming backend, with the condition
  that the unreached hash points are distinct and unreached as an explicit hypothesis.  C93
  composes them, through C89 and C92, with C73 and C74: the record programs work on the labels
  of the circuit run.  C98 puts C76 (the point conversion) in front.  Statements
  about cheating parties are about what can be accepted, with explicit hash-collision
  alternatives; C80 is an attack, so it needs no such alternative;
* side channels.

## Disagreements between expectation and code

Each is proved of the model: a theorem named `..._refuted` gives the witness.

| id | what the code does |
|---|---|
| C05 | The two optimised HMAC modes share one "open" flag: mixing them under one key reads an unset cache (undefined) or a stale one (wrong MAC). |
| C07, C63 | PRF output and master secret are appended to a non-empty result; a second derivation does not replace the first. |
| C16 | `decrypt`: a peer that reflects the commitment and opening makes the all-zero tag accepted. |
| C20 | `BN_rand(.., 0, 0)` fixes the top bit of every E2F mask, so opened values exclude part of the field for a given input. |
| C22 | `addmod` with `Integer&` widens its modulus argument; a second call is undefined. |
| C23 | `VOPE` is wrong from length 65 on: `U` aliases rows of `M` that are still needed. |
| C28 | `set_batch_size` does not refill: every buffered feed afterwards reads unwritten memory. |
| C29 | On constant wires of the streaming backend a lying evaluator is accepted in a public reveal. |
| C31 | A constant wire of the streaming backend yields shares of zero, whatever its value. |
| C30 | In the round-optimised mode offline and online programs differ unless client random plus server random have 64 bytes, the session hash 32, and label plus transcript hash 47 bytes.  Also seen: the offline HMAC clears 8 of 32 bytes only, `refresh` does not recreate the public constants offline, a non-8-byte iv is an error only online. |
| C33 | The stored `verify_data` has reversed byte order: the genuine server Finished is rejected and its reversal accepted by the comparison. |
| C35 | In the proof phase the inner digests (standard mode) or the whole seed (round-optimised mode) are unchecked private inputs of the prover. |
| C40 | Digests are compared with `strncmp`, which stops at a common zero byte. |
| C42 | `recv_bn` copies a peer-chosen length into 1000 bytes, with and without a hash. |
| C106 | In the whole run, both parties reach the overrun of C42: the attestor at the first length after the garbled circuits, the client at the first after the attestor's point. |
| C107 | In the commitment conversion the OLE's receiver reaches the overrun of C42 at the first length. |
| C109 | `encrypt` exchanges the shares of the tag without a commitment: the peer, waiting for the share of the party, makes it end with any tag. |
| C44 | The local `memcmp` compares `len` bytes rather than `len` elements. |
| C47 | A second `AEAD_Proof` on the same AEAD object sees an already corrected `zk_h` and fails. |
| C51 | Selective disclosure: repeated or decreasing block ids run for more than 2^64 iterations; a length mismatch overflows or reads uninitialised bytes; the id `SIZE_MAX` discloses `E(J0)`. |
| C53 | A second `finalize` frees again; a failed re-setup followed by `finalize` frees stale pointers; in proxy mode `finalize` after a failed set-up is undefined; a retry without `finalize` leaks. |
| C59 | `prove_master_key` overwrites `bn_pms`; a repeated proof fails. |
| C60 | `UniquePoint` and `UniqueCtx` drop their constructor argument: it is never freed. |
| C65 | The scalar 0 makes the sender send one byte while the receiver waits for 65. |
| C66 | `compute_primus_VA`, `reveal_pms` and the `AEAD` constructor leave their last message in the output buffer; the peer waits until a later call happens to flush. |
| C70 | Neither phase compares the plaintext of a Finished record with the verify data computed by the key schedule; empty Finished records with valid tags are accepted.  The comparison is left to the caller (test comment "Use correct message instead of hs->client_ufin!"). |
| C71 | `finalize_check` with a z0 that was never set reveals too few blocks and reads the rest uninitialised.  `test/protocol.cpp:133-142` passes `prd_sz0`, which no call sets (the proof filled `prd_s2z0`). |
| C75 | `decrypt` opens both tag shares before comparing, so a rejected call still gives both parties the valid tag of the ciphertext that was submitted; submitting it again with that tag is accepted (C15).  `test/protocol.cpp:109` ignores the verdict. |
| C77 | Because of C20 the first number opened by each party tells the peer that its x-coordinate is not in a set of q - 2^(bl-1) values (for P-256 about half of the field); the same for y. |
| C78 | `compute_com_recv` ends with `send_block`/`send_bn` and no flush (`com_conv.h:583-586`): the key holder can wait for the opening for ever. |
| C80 | In `mask_key` the key holder's OLE input is not tied to the Delta it committed to.  With another input x the MAC holder still returns true, and the `yMAC` it sends at the end gives the key holder the challenge combination of the committed numbers times (Delta - x); with one chunk that is every bit.  `yMAC` is also sent when the opening before it failed. |
| C82 | `test/com_conv.cpp:20-32` makes the base h = s*G with s known to both parties, so every commitment can be opened to every number.  The library itself does not choose a base. |
| C88 | Without the option that saves rounds a handshake opens the inner HMAC chaining values and A(i), which no caller asked for (by design of the optimised HMAC). |
| C95 | Nothing ties the ciphertext BOB returns in `encrypt`, or the share z_B BOB sends in `decrypt`, to BOB's labels.  A BOB that adds d makes ALICE send a valid record of m ⊕ d, and read m ⊕ d from an accepted record, unnoticed. |
| C96 | `finalize_check` opens H of both directions to both parties.  With H and one record that opens, valid tags for any other content under that iv can be made; nothing in the code ends the connection first. |
| C100 | No garbling backend flushes.  A circuit that ends with an opening to PUBLIC leaves the evaluator's bits and digest in its output buffer; the garbler waits until the evaluator flushes or reads (`test/bit.cpp:58` flushes, the other tests rely on the destructor). |

Further observations recorded in comments of the model: `send_bn` with a hash absorbs the
bytes without their length; `compute_com_recv` sends stale buffer bytes for a commitment that
is the point at infinity; the return value of `EC_POINT_oct2point` is not looked at;
`prove_aead_last` makes no check.

## Testing the theorems against wrong programs

`seeded/LOG.jsonl` lists edits made to model definitions in a scratch copy: which definition,
what edit, which claim it breaks, which theorems then failed, and which theorems were
tightened because of it (C39_opening_verdict, C60_moves, C30_online_values and C67 exist or
have their present form for that reason).  For the directed edits (ids without `auto`) the failed
theorems were observed: each broken proof was admitted in the scratch copy and `Print Assumptions`
then showed which theorems rest on it.  For the random edits (ids `auto1`, `auto2`) only the first
broken lemma was observed; the theorems listed, at most twelve, are those depending on it, and the
claims are the titles of their properties (at most four).
The edits were not tried against C109, which was added last.
