{"id": "C01", "title": "SHA-256 in circuits is FIPS 180-4 SHA-256", "statement": "Hashing any bit string with the circuit SHA-256 (digest) yields exactly the eight 32-bit words FIPS 180-4 prescribes, including padding for every message length.", "quantifier": "all messages of any bit length below 2^64", "why_tests_cant": "Test vectors cover a handful of lengths; padding boundaries (55/56/64 bytes, chunk multiples) and every data-dependent carry cannot be enumerated.", "anchors": ["cipher/sha256.h: SHA256::padding, update, chunk_compress, digest", "cipher/utils.h: rrot, concat, extract_integer"]}
{"id": "C02", "title": "Half-public SHA-256 equals the ordinary hash", "statement": "opt_digest, which hashes one secret 512-bit block in the circuit, opens the chaining value and finishes the public tail in the clear, returns SHA-256(secret block || public tail).", "quantifier": "all secret blocks, all public tails of any length (bit length below 2^64)", "why_tests_cant": "The tail length drives three padding branches and an in-place buffer; tests try a few fixed strings.", "anchors": ["cipher/sha256.h: SHA256::opt_update, plain_chunk_compress, opt_digest"]}
{"id": "C03", "title": "All HMAC variants equal RFC 2104 HMAC-SHA256", "statement": "After init(key), hmac_sha256, opt_hmac_sha256 and opt_rounds_hmac_sha256 return HMAC-SHA256(key, msg).", "quantifier": "all keys (shorter, equal, longer than a block), all messages", "why_tests_cant": "Key length selects different padding code; the three implementations differ and only fixed vectors are compared by eye in the tests.", "anchors": ["cipher/hmac_sha256.h: HMAC_SHA256::init, hmac_sha256, opt_hmac_sha256, opt_rounds_hmac_sha256"]}
{"id": "C04", "title": "Cached HMAC state never changes a result", "statement": "Once init(key) has been called, any sequence of HMAC calls in one mode, with any choice of the reuse flags per call, returns HMAC(key, msg_i) for every call i, no matter what was cached earlier; re-init with another key discards the caches.", "quantifier": "all keys, all finite call histories (messages and reuse flags arbitrary), any number of re-inits", "why_tests_cant": "Correctness depends on hidden state carried between calls; histories are unbounded.", "anchors": ["cipher/sha256.h: gc_in_open_flag, gc_out_open_flag, iv_in_hashes, iv_out_hash, pos, refresh", "cipher/hmac_sha256.h: opt_hmac_sha256, opt_rounds_hmac_sha256"]}
{"id": "C05", "title": "Mixing the two optimised HMAC modes under one key", "statement": "A user who calls opt_hmac_sha256 and opt_rounds_hmac_sha256 (both with inner reuse) after one init would expect each call to return HMAC(key,msg).", "quantifier": "all call histories mixing both optimised modes", "why_tests_cant": "Tests use one mode per object; the shared open flag only bites on mixed histories.", "anchors": ["cipher/sha256.h: opt_update, opt_rounds_update, gc_in_open_flag"]}
{"id": "C06", "title": "TLS 1.2 PRF output is RFC 5246 P_SHA256", "statement": "compute, opt_compute and opt_rounds_compute with an empty result integer return the first bitlen bits of P_SHA256(secret, label || seed).", "quantifier": "all secrets, labels, seeds and output lengths (including multiples of 256 bits)", "why_tests_cant": "Output length selects the number of iterations and the truncation; tests use 48/40/12 bytes only.", "anchors": ["cipher/prf.h: PRF::phash, opt_phash, opt_rounds_phash, compute, opt_compute, opt_rounds_compute"]}
{"id": "C07", "title": "PRF into a non-empty result integer", "statement": "A user would expect the PRF to overwrite its output parameter, so that deriving the master key twice on one handshake object gives the same 48-byte key.", "quantifier": "all secrets and seeds, second and later derivations", "why_tests_cant": "Tests derive each key once per object.", "anchors": ["cipher/prf.h: res.bits.erase, concat(res, ...)", "protocol/handshake.h: compute_master_key, master_key"]}
{"id": "C08", "title": "AES-128 key-schedule circuit file is FIPS-197 key expansion", "statement": "Evaluating the shipped key-schedule circuit on any 128-bit key yields the eleven FIPS-197 round keys in the layout the encryption circuit expects.", "quantifier": "all 2^128 keys", "why_tests_cant": "A 7233-gate netlist with one wrong gate passes nearly all vectors; 2^128 keys.", "anchors": ["cipher/circuit_files/aes128_ks.txt", "cipher/utils.h: computeKS"]}
{"id": "C09", "title": "AES-128 encryption circuit file is FIPS-197 AES", "statement": "computeAES_KS(computeKS(key), block), i.e. the two shipped netlists plus the output reversal, equals AES-128 encryption.", "quantifier": "all 2^128 keys and all 2^128 blocks", "why_tests_cant": "A 29059-gate netlist; exhaustive testing is impossible.", "anchors": ["cipher/circuit_files/aes128_with_ks.txt", "cipher/utils.h: computeAES_KS"]}
{"id": "C10", "title": "Block multiplication is GCM multiplication in GF(2^128)", "statement": "mulBlock on two 128-bit blocks (big-endian byte order reversed into the register) is the SP 800-38D product.", "quantifier": "all pairs of 128-bit blocks", "why_tests_cant": "2^256 input pairs; the code is a carry-less-multiply sequence with shifts and ORs.", "anchors": ["cipher/utils.h: mulBlock"]}
{"id": "C11", "title": "Block power and inverse", "statement": "powBlock(a,n) is the n-fold product of a (1 for n=0) and invBlock(a) is the multiplicative inverse of every non-zero a.", "quantifier": "all blocks, all 64-bit exponents", "why_tests_cant": "Field inverses need the whole multiplicative group structure.", "anchors": ["cipher/utils.h: powBlock, invBlock"]}
{"id": "C12", "title": "GHASH and GCM tag computation", "statement": "ghash, AEAD_Proof::compute_tag and compare_tag compute/compare exactly the SP 800-38D GCM tag from H, E(J0), AAD and ciphertext.", "quantifier": "all H, E(J0), AAD and ciphertext byte strings", "why_tests_cant": "Padding of AAD/ciphertext to block boundaries and length encoding vary with sizes.", "anchors": ["cipher/utils.h: ghash", "protocol/aead.h: compute_tag, compare_tag", "protocol/post_record.h: finalize_check"]}
{"id": "C13", "title": "Counter-mode keystream", "statement": "gctr applied after set_nonce yields E(J0), E(inc32 J0), ... in order for a 96-bit nonce fixed_iv || explicit_iv, for any number of blocks, with 32-bit counter wrap-around.", "quantifier": "all keys, nonces, block counts", "why_tests_cant": "Counter wrap and block counts beyond a few are not exercised.", "anchors": ["protocol/aead.h: AEAD::gctr, inc_counter, set_nonce"]}
{"id": "C14", "title": "Two-party AEAD encryption yields the GCM ciphertext and tag", "statement": "When both parties run encrypt honestly, both obtain ciphertext and tag equal to AES-128-GCM (SP 800-38D) of the message under the shared key, in both visibility modes.", "quantifier": "all keys, nonces, messages, AAD, all share randomness (non-zero mask), both sec_type values", "why_tests_cant": "Result depends on secret-share randomness and lengths; tests print one vector.", "anchors": ["protocol/aead.h: AEAD::AEAD, obv_ghash, encrypt"]}
{"id": "C15", "title": "Two-party AEAD decryption accepts exactly valid tags", "statement": "In an honest run decrypt returns true on both sides iff the tag is the GCM tag of (nonce, AAD, ciphertext), and the entitled parties obtain ciphertext XOR keystream; decrypting what encrypt produced returns the message.", "quantifier": "all keys, nonces, ciphertexts, tags, AAD, share randomness", "why_tests_cant": "Rejecting every invalid tag is a universally quantified claim.", "anchors": ["protocol/aead.h: AEAD::decrypt", "backend/commitment.h: Commitment::commit, open"]}
{"id": "C16", "title": "A misbehaving peer cannot make decrypt accept a wrong tag", "statement": "A client running decrypt would expect that, whatever the other party sends in the commit/open exchange, an accepted tag is the right GCM tag unless the commitment hash is broken.", "quantifier": "all peer strategies in the commit-and-open exchange", "why_tests_cant": "Tests only run honest peers.", "anchors": ["protocol/aead.h: AEAD::decrypt", "backend/commitment.h"]}
{"id": "C17", "title": "Oblivious linear evaluation over a prime field", "statement": "After OLE compute, the two outputs sum to the product of the two inputs modulo q for every position of the batch.", "quantifier": "all moduli q>1, all inputs (receiver input within the bit length), all batch lengths, all OT pads", "why_tests_cant": "Depends on all field elements and random pads.", "anchors": ["backend/ole.h: OLE::compute", "backend/bn_utils.h: H, send_bn, recv_bn"]}
{"id": "C18", "title": "Oblivious linear evaluation over GF(2^128)", "statement": "After OLEF2K compute, the XOR of the two outputs is the GF(2^128) product of the two inputs at every position.", "quantifier": "all inputs, batch lengths, correlated pads and Delta", "why_tests_cant": "2^256 inputs per position and random pads.", "anchors": ["backend/ole_f2k.h: OLEF2K::compute, inner_prod"]}
{"id": "C19", "title": "Elliptic-curve point to field share conversion", "statement": "E2F's online phase gives additive shares of the x-coordinate of V_A + V_B for any two points with distinct x-coordinates, given any offline triples with non-zero a.", "quantifier": "all prime q, all coordinates, all offline randomness", "why_tests_cant": "Depends on arbitrary points and randomness; a single run checks one tuple.", "anchors": ["protocol/e2f.h: E2F::compute_offline, compute_online, open"]}
{"id": "C20", "title": "E2F masks hide the inputs", "statement": "The masks a party uses before opening x-b, y-b', lambda-r should be able to take every value of the field, so that an opened value is compatible with every input.", "quantifier": "all opened values and all inputs", "why_tests_cant": "A distribution-support property; no run of the program shows a missing mask value.", "anchors": ["protocol/e2f.h: compute_offline (BN_rand(..., 0, 0))"]}
{"id": "C21", "title": "Modular addition circuit", "statement": "addmod(a,b,q) returns (a+b) mod q for all a,b<q for every modulus and width, without overflow of the widened adder or sign confusion in the comparison.", "quantifier": "all widths, all q fitting the width, all a,b<q", "why_tests_cant": "2^512 operand pairs for P-256.", "anchors": ["protocol/addmod.h: addmod"]}
{"id": "C22", "title": "addmod leaves its arguments reusable", "statement": "A caller passing the modulus as an Integer expects to be able to reuse that Integer in a second call.", "quantifier": "all widths and moduli, two consecutive calls", "why_tests_cant": "Tests use the BIGNUM overload or one call.", "anchors": ["protocol/addmod.h: addmod(Integer&,Integer&,Integer&,Integer&)"]}
{"id": "C23", "title": "Vector oblivious polynomial evaluation", "statement": "After VOPE compute, the sender's polynomial sum_i U_i h^i and the receiver's value agree: out_recv(h) = out_send for every degree.", "quantifier": "all lengths, all correlated pads, all h", "why_tests_cant": "Degree is a parameter; tests use one length and print.", "anchors": ["backend/vope.h: VOPE::compute_send, compute_recv"]}
{"id": "C24", "title": "Half-gate AND is correct", "statement": "Garbling an AND gate and evaluating it with any pair of active labels yields the active output label for the AND of the values.", "quantifier": "all labels, all Delta with least significant bit 1, all hash functions, all gate indices, all values", "why_tests_cant": "2^384 label choices; relies on the permute-bit algebra.", "anchors": ["backend/bn_utils.h: garble/eval half gate functions"]}
{"id": "C25", "title": "Offline-garbled circuits evaluate correctly online", "statement": "If the same gate/feed/reveal sequence is executed offline (garble, send tables) and then online, every wire the evaluator holds is the garbler's label offset by value*Delta, and public reveals return the cleartext value to both parties.", "quantifier": "all circuits (any sequence of public/feed/and/xor/not/reveal), all inputs, all label seeds", "why_tests_cant": "Quantifies over all circuits and label streams.", "anchors": ["backend/offline_hg_gen.h", "backend/offline_hg_eva.h", "backend/online_hg_gen.h", "backend/online_hg_eva.h", "backend/offline_primus_gen.h", "backend/online_primus_gen.h", "backend/online_primus_eva.h", "backend/backend.h: sync_offline_online"]}
{"id": "C26", "title": "Streaming garbling with public-wire short cuts is correct", "statement": "With the optimised backend (constant wires skipped, equal labels replaced by the fixed point) any circuit evaluates to its cleartext result provided no two labels collide by accident; constant wires cost no communication and the gate counters of both parties stay equal.", "quantifier": "all circuits, all inputs, all label assignments without accidental collisions", "why_tests_cant": "The special cases trigger only for particular wire patterns; failures are label-collision dependent.", "anchors": ["backend/opt_hg_gen.h", "backend/opt_hg_eva.h"]}
{"id": "C27", "title": "Input labels from the buffered correlated OT are never reused and always match", "statement": "For every sequence of input feeds of any sizes by either party, the evaluator's label equals the garbler's label XOR bit*Delta, every buffered correlation is consumed at most once, and the two parties' buffer positions agree.", "quantifier": "all feed histories, all sizes (below, at and above the batch size), all input bits", "why_tests_cant": "Buffer refill logic depends on the history of sizes.", "anchors": ["backend/primus_gen.h: feed", "backend/primus_eva.h: feed", "backend/primus_party.h"]}
{"id": "C28", "title": "Changing the OT batch size keeps feeds correct", "statement": "A user calling set_batch_size between feeds expects later inputs to be encoded correctly.", "quantifier": "all feed histories with set_batch_size calls", "why_tests_cant": "Not exercised by any test.", "anchors": ["backend/primus_party.h: set_batch_size"]}
{"id": "C29", "title": "Public reveal returns the cleartext to both parties and detects a lying evaluator", "statement": "reveal to PUBLIC gives both parties the wire values in an honest run; if the evaluator reports different bits and the garbler accepts, the evaluator's hash equals that of the label it should not know.", "quantifier": "all label vectors, values, reported bits", "why_tests_cant": "Quantifies over all cheating reports.", "anchors": ["backend/primus_gen.h: reveal", "backend/primus_eva.h: reveal", "backend/online_primus_gen.h: reveal"]}
{"id": "C30", "title": "Offline and online programs issue the same circuit", "statement": "For every configuration (modes, seed lengths, record lengths) the offline handshake/record classes issue exactly the same sequence of gates, input feeds and reveals as their online counterparts, so precomputed tables line up.", "quantifier": "all message lengths, seed lengths, flag settings, call sequences", "why_tests_cant": "A mismatch shows only for particular sizes/flags and corrupts everything after it.", "anchors": ["cipher/sha256.h: SHA256Offline", "cipher/hmac_sha256.h: HMAC_SHA256_Offline", "cipher/prf.h: PRFOffline", "protocol/handshake.h: HandShakeOffline", "protocol/aead.h: AEADOffline"]}
{"id": "C31", "title": "XOR shares taken from garbled wires", "statement": "integer_to_block / integer_to_chars applied by both parties give values whose XOR is the cleartext of the wires, in the documented bit and byte order.", "quantifier": "all wire values and labels (private wires)", "why_tests_cant": "Depends on arbitrary labels; order errors cancel for symmetric data.", "anchors": ["cipher/utils.h: integer_to_block, integer_to_chars"]}
{"id": "C32", "title": "Session key derivation follows TLS 1.2", "statement": "From the two pre-master-secret shares the handshake derives master secret (plain and extended), the AES-128-GCM key block split into client key, server key, client IV, server IV, and the two verify_data values as in RFC 5246/7627, in the standard and the round-optimised mode.", "quantifier": "all shares, randoms, session hashes, handshake transcripts", "why_tests_cant": "End-to-end equality over all secrets.", "anchors": ["protocol/handshake.h: compute_master_key, compute_extended_master_key, compute_expansion_keys, compute_client_finished_msg, compute_server_finished_msg"]}
{"id": "C33", "title": "A genuine server Finished message is accepted", "statement": "decrypt_and_check_server_finished_msg should return true when the decrypted 12 bytes are the RFC 5246 verify_data computed by the handshake.", "quantifier": "all transcripts and keys", "why_tests_cant": "The repository's test feeds back the locally computed buffer, so a byte-order slip is invisible.", "anchors": ["protocol/handshake.h: decrypt_and_check_server_finished_msg, compute_server_finished_msg"]}
{"id": "C34", "title": "Zero-knowledge re-derivation is consistent with the garbled run", "statement": "If the deferred consistency checks pass, the re-derived PRF outputs equal the TLS PRF of the committed secret, whatever public intermediate values were recorded during the garbled phase; if nothing was tampered with the checks pass.", "quantifier": "all recorded public values (also wrong ones), all secrets, labels, seeds", "why_tests_cant": "Adversarial recorded values are not produced by tests.", "anchors": ["cipher/prf.h: opt_phash zk branch, prf_check", "cipher/sha256.h: opt_update zk branch, sha256_check"]}
{"id": "C35", "title": "Derived keys are bound to label and seed against a cheating prover", "statement": "A verifier would expect that a prover passing all handshake checks has derived the keys from the agreed label and seed.", "quantifier": "all prover strategies supplying its private inputs", "why_tests_cant": "Tests run honest provers only.", "anchors": ["cipher/hmac_sha256.h: opt_hmac_sha256 (inner digest fed as ALICE input)", "cipher/prf.h: opt_rounds_phash (seed fed as ALICE input)", "protocol/prove_prf.h"]}
{"id": "C36", "title": "Diffie-Hellman composition and pms opening", "statement": "The combined client key share, the two partial shared points and the opened pre-master secret satisfy (ta+tb)*S = VA+VB; reveal_pms rejects any ta that does not match the announced Ta.", "quantifier": "all scalars and points of any commutative group", "why_tests_cant": "Quantifies over all scalars.", "anchors": ["protocol/handshake.h: compute_primus_VA, compute_client_VB, compute_pms_offline/online", "protocol/post_record.h: reveal_pms"]}
{"id": "C37", "title": "Hash commitments are complete and binding", "statement": "open(commit(m)) succeeds; two accepted openings of one commitment to different data exhibit a hash collision.", "quantifier": "all messages, randomness, hash functions", "why_tests_cant": "Quantifies over all openings.", "anchors": ["backend/commitment.h"]}
{"id": "C38", "title": "Pedersen commitments are complete and linearly homomorphic", "statement": "open_check accepts every honestly created commitment; the linear combination of commitments opens to the linear combination of messages and randomness; two different openings reveal the discrete log relation of the generators.", "quantifier": "all messages, randomness, coefficients, numbers of commitments", "why_tests_cant": "All group elements.", "anchors": ["protocol/com_conv.h: PedersenComm"]}
{"id": "C39", "title": "Boolean-to-commitment conversion is complete", "statement": "Honest prover and verifier running compute_com_send/compute_com_recv both accept, and commitment i opens to the little-endian integer of bits batch_size*i.. of the authenticated value.", "quantifier": "all bit vectors, batch sizes with 2^bs-1<q, all keys and randomness", "why_tests_cant": "Randomised arithmetic over all inputs.", "anchors": ["protocol/com_conv.h: ComConv::convert, convert_send, convert_recv, compute_com_send, compute_com_recv"]}
{"id": "C40", "title": "The conversion transcript commitment is binding", "statement": "ComConv::open should accept only when the recomputed digest equals the committed digest.", "quantifier": "all digests", "why_tests_cant": "Needs digests containing zero bytes in particular positions.", "anchors": ["protocol/com_conv.h: ComConv::open (strncmp)"]}
{"id": "C41", "title": "Big-number wire encoding", "statement": "recv_bn after send_bn returns the same non-negative number and consumes exactly the bytes sent, for any number of consecutive values up to 1000 bytes each.", "quantifier": "all non-negative integers below 256^1000, all sequences", "why_tests_cant": "Unbounded integers; zero and leading-zero bytes.", "anchors": ["backend/bn_utils.h: send_bn, recv_bn"]}
{"id": "C42", "title": "Big-number receive is memory safe", "statement": "Receiving from any peer should never write outside the receive buffer.", "quantifier": "all byte streams a peer can send", "why_tests_cant": "Requires malicious length prefixes.", "anchors": ["backend/bn_utils.h: recv_bn"]}
{"id": "C43", "title": "Authenticated zero test", "statement": "With information-theoretic MACs, the batched hash comparison of check_zero succeeds iff every tested wire is zero (or equals the given public data), up to hash collision.", "quantifier": "all MAC keys, Delta, wire values, batch sizes", "why_tests_cant": "Soundness over all keys.", "anchors": ["backend/check_zero.h: check_zero"]}
{"id": "C44", "title": "Prover-side public comparison covers all the data", "statement": "check_zero with public data of a multi-byte element type: the prover's local comparison should cover all len elements.", "quantifier": "all data arrays of element size > 1", "why_tests_cant": "Tests pass equal data only.", "anchors": ["backend/check_zero.h: check_zero(Integer, T*, size_t, int) memcmp"]}
{"id": "C45", "title": "Homomorphic correction of authenticated shares", "statement": "itmac_hom_add_check passes iff the authenticated circuit output equals the XOR of the prover's authenticated share and the verifier's clear share.", "quantifier": "all shares, keys, Delta", "why_tests_cant": "All key material.", "anchors": ["protocol/aead_izk.h: itmac_hom_add_check"]}
{"id": "C46", "title": "Record proofs are matched to records first-in first-out", "statement": "For any sequence of encrypt/decrypt calls followed by prove_aead calls with the same visibility and lengths, the i-th proof is checked against the i-th record's shares, and the queues end empty.", "quantifier": "all sequences of records, visibility flags, lengths", "why_tests_cant": "Sequence-dependent queue state.", "anchors": ["protocol/aead.h: gc_z, gc_z0, zk_z, open_z deques", "protocol/aead_izk.h: prove_aead"]}
{"id": "C47", "title": "Proving the same record channel twice", "statement": "A user may construct a second AEAD_Proof over the same AEAD object and expect honest proofs to pass.", "quantifier": "all keys and shares", "why_tests_cant": "Tests build one proof object per channel.", "anchors": ["protocol/aead_izk.h: AEAD_Proof::AEAD_Proof, itmac_hom_add_check (mutates zk_h)"]}
{"id": "C48", "title": "Post-record finalisation accepts exactly valid records", "statement": "finalize_check returns true iff every recorded ciphertext carries the right GCM tag under the revealed H and E(J0) values.", "quantifier": "all numbers of records, all tags, AAD, ciphertexts", "why_tests_cant": "Universally quantified rejection.", "anchors": ["protocol/post_record.h: finalize_check"]}
{"id": "C49", "title": "Proxy-mode message proofs are sound and complete", "statement": "prove_public_msgs/prove_private_msgs return true iff ciphertext = message XOR the counter-mode keystream under the committed key and nonce.", "quantifier": "all keys, nonces, messages, ciphertexts, lengths", "why_tests_cant": "All data.", "anchors": ["protocol/prove_aes.h: prove_public_msgs, prove_private_msgs, computeCounter"]}
{"id": "C50", "title": "Selective-disclosure proofs select exactly the masked bytes", "statement": "The masked variants compare exactly the bytes whose mask is set, in order, at the block positions given, when block ids are increasing and the message length equals the number of set mask bytes.", "quantifier": "all block id lists, masks, messages", "why_tests_cant": "Run-length extraction over all mask patterns.", "anchors": ["protocol/prove_aes.h: gctr_opt, computeCounterOpt, prove_public_msgs_opt, prove_private_msgs_opt"]}
{"id": "C51", "title": "Selective-disclosure proofs terminate and stay in bounds on any request", "statement": "A verifier calling the masked variants with any list of block ids and any message length expects termination without memory errors.", "quantifier": "all block id lists (unordered, duplicated), all lengths", "why_tests_cant": "Tests use sorted ids and matching lengths.", "anchors": ["protocol/prove_aes.h: gctr_opt, prove_public_msgs_opt"]}
{"id": "C52", "title": "Session set-up, switching and teardown manage backends safely", "statement": "For every sequence of successful or failing setup, switch and finalize calls in the documented order (at most one finalize per setup), every backend object is freed exactly once, never used after free, and the active backend is the one last selected.", "quantifier": "all call sequences, all failure points inside set-up", "why_tests_cant": "Failure interleavings are unbounded.", "anchors": ["backend/switch.h", "backend/switch.cpp", "backend/backend.h"]}
{"id": "C53", "title": "Finalising twice is harmless", "statement": "A user expects a second finalize_protocol (or finalize after a failed re-setup) not to free objects again.", "quantifier": "all call sequences", "why_tests_cant": "Not exercised.", "anchors": ["backend/switch.h: finalize_protocol", "cipher/utils.cpp: uninit_files"]}
{"id": "C54", "title": "Hex and block byte-order conversions are inverse", "statement": "hex_to_block(block_to_hex(b)) = b and vice versa, and both use big-endian byte order within each block.", "quantifier": "all block vectors of any length", "why_tests_cant": "All byte strings.", "anchors": ["cipher/utils.h: block_to_hex, hex_to_block"]}
{"id": "C55", "title": "Integer concatenation helpers agree", "statement": "concat, concat_opt, move_concat and intvec_to_int build the same big-endian concatenation; reverse_concat the little-endian one; extract_integer inverts concat.", "quantifier": "all integer vectors, all widths, offsets", "why_tests_cant": "All shapes.", "anchors": ["cipher/utils.h: concat, concat_opt, move_concat, reverse_concat, intvec_to_int, extract_integer"]}
{"id": "C56", "title": "String and hex conversions", "statement": "str_to_int loads a string big-endian; int_to_hex prints words as big-endian lower-case hex of fixed width, so different word vectors of equal length print differently.", "quantifier": "all strings, all word vectors", "why_tests_cant": "All data.", "anchors": ["cipher/utils.h: str_to_int, int_to_hex"]}
{"id": "C57", "title": "Interactive exchanges neither deadlock nor depend on scheduling", "statement": "The two-channel exchanges (E2F open, tag exchange in encrypt, commit/open in decrypt) finish under every interleaving of the two parties with buffered channels, with the same result.", "quantifier": "all schedules, all message contents", "why_tests_cant": "Schedules cannot be enumerated by tests.", "anchors": ["protocol/e2f.h: open", "protocol/aead.h: encrypt, decrypt"]}
{"id": "C58", "title": "Pre-master secret re-sharing in the proof phase", "statement": "prove_master_key/prove_extended_master_key reconstruct the pre-master secret from the prover's private share and the verifier's share; derived keys equal those of the garbled phase.", "quantifier": "all shares and q", "why_tests_cant": "All field elements.", "anchors": ["protocol/handshake.h: prove_master_key, prove_extended_master_key, handshake_check"]}
{"id": "C59", "title": "Re-running the master-key proof", "statement": "A user expects prove_master_key to be repeatable on the same handshake object.", "quantifier": "all shares, second call", "why_tests_cant": "Tests call once.", "anchors": ["protocol/handshake.h: prove_master_key (mutates bn_pms)"]}
{"id": "C60", "title": "Owning wrappers free what they are given", "statement": "UniqueBN/UniqueGroup/UniquePoint/UniqueCtx constructed from a pointer free exactly that pointer once.", "quantifier": "all wrapper lifetimes (construct, reset, destroy)", "why_tests_cant": "Leaks are invisible to functional tests.", "anchors": ["backend/bn_utils.h: UniqueBN, UniquePoint, UniqueCtx, UniqueGroup"]}
{"id": "C61", "title": "Proxy-mode key derivation follows TLS 1.2", "statement": "PRFProver derives master secret (plain and extended), client/server write keys and IVs and both verify_data values of RFC 5246/7627 from the whole pre-master secret.", "quantifier": "all pre-master secrets, field sizes, randoms, session hashes, transcripts", "why_tests_cant": "Infinitely many secrets and seed lengths; leading-zero secrets are rare.", "anchors": ["protocol/prove_prf.h: prove_master_key, prove_extended_master_key, prove_expansion_keys, prove_client_finished_msg, prove_server_finished_msg"]}
{"id": "C62", "title": "Finished values use the key of the last initialisation", "statement": "compute_client_finished_msg called before compute_expansion_keys is keyed with the pre-master secret, not with the master secret: the key used is the one of the last derivation that initialised the HMAC.", "quantifier": "all shares, randoms, labels, transcripts, both modes", "why_tests_cant": "Tests only call the functions in one order.", "anchors": ["protocol/handshake.h: compute_client_finished_msg, compute_master_key"]}
{"id": "C63", "title": "Deriving the master secret again replaces the old one", "statement": "A user expects a second compute_master_key on the same object to replace the stored 48-byte master secret.", "quantifier": "all shares and randoms", "why_tests_cant": "Tests derive once.", "anchors": ["protocol/handshake.h: compute_master_key (master_key member)", "cipher/prf.h: opt_phash (appends to res)"]}
{"id": "C64", "title": "The whole handshake agrees with the server", "statement": "For the scalars of the two parties and the server's scalar s: the garbled key schedule derives exactly the TLS 1.2 keys of the secret x(s*Tc) that the server computes from the combined key share Tc, and the later opening and zero-knowledge proof reproduce the same keys with all checks holding.", "quantifier": "all scalars, curves (any commutative group with chord addition), randoms, transcripts, both derivation modes", "why_tests_cant": "Composes five sub-protocols over all scalars.", "anchors": ["protocol/handshake.h: compute_primus_VA, compute_client_VB, compute_pms_online, compute_master_key", "protocol/post_record.h: reveal_pms, prove_and_check_handshake_step1"]}
{"id": "C65", "title": "A random scalar never blocks the key exchange", "statement": "A user expects compute_primus_VA / compute_client_VB to complete for every scalar in [0, order).", "quantifier": "all scalars", "why_tests_cant": "The failing scalar has probability 1/order.", "anchors": ["protocol/handshake.h: compute_primus_VA, compute_client_VB (fixed 65-byte receive)"]}
{"id": "C66", "title": "Every protocol call delivers what it sent", "statement": "A user expects that when both programs run one call (key-share exchange, reveal_pms, the AEAD constructor), the call completes on both sides by itself.", "quantifier": "all points, scalars, keys, schedules", "why_tests_cant": "The tests always make further calls which happen to flush the channel; whether a buffered message is delivered depends on later calls.", "anchors": ["protocol/handshake.h: compute_primus_VA, compute_client_VB", "protocol/post_record.h: reveal_pms", "protocol/aead.h: AEAD constructor (send_block without flush)"]}
{"id": "C67", "title": "No two garbled half gates share a hash number", "statement": "The k-th garbled table sent by either garbler is the half gate of Zahur-Rosulek-Evans with the hash numbers 2k and 2k+1 over the permutation-based hash, whatever instructions come in between.", "quantifier": "all circuits of at most 2^63 instructions, all labels, Deltas, permutations", "why_tests_cant": "A repeated number still evaluates correctly, so no functional test notices.", "anchors": ["backend/bn_utils.h: garble_gate_garble_halfgates", "backend/opt_hg_gen.h: and_gate", "backend/offline_hg_gen.h: and_gate"]}
{"id": "C68", "title": "An honest session is accepted from key agreement to tag check", "statement": "From the scalars of the parties and the server: after the key agreement and the garbled key schedule, any sequence of Finished and record encryptions and decryptions yields the AES-GCM bytes under the TLS 1.2 keys of the secret the server computes; the proof phase over the same records succeeds with both comparison transcripts agreeing and all queues consumed, the messages it outputs are the decryptions, and finalize_check returns true exactly when all tags are valid.", "quantifier": "all scalars, curves, randoms, masks, record sequences, ivs, aads, contents, Deltas", "why_tests_cant": "Composes every sub-protocol over arbitrary record sequences and contents; the repository test runs one order with placeholder data and ignores the verdict.", "anchors": ["protocol/handshake.h: encrypt_client_finished_msg, decrypt_server_finished_msg, prove_enc_dec_finished_msg", "protocol/record.h: encrypt, decrypt", "protocol/post_record.h: prove_and_check_handshake_step1..3, prove_record_client, prove_record_server, prove_record_server_last, finalize_check"]}
{"id": "C69", "title": "An accepted proof phase opens every record under the session keys", "statement": "For any share announced by the prover and any authenticated values it holds as shares: if the key-schedule comparisons hold, the transcripts of the record proofs agree exactly when the recorded shares are the right ones under the TLS 1.2 keys of the joint secret, finalize_check returns true exactly when every record is authentic under those keys, and the messages output by the proof calls are then the authenticated decryptions.", "quantifier": "all prover shares, record sequences, ciphertexts, tags, Deltas", "why_tests_cant": "Quantifies over all cheating values; a test tries few.", "anchors": ["protocol/post_record.h: whole class PostRecord", "protocol/aead_izk.h: AEAD_Proof", "protocol/handshake.h: prove_* functions"]}
{"id": "C70", "title": "Acceptance binds the Finished records to the verify data", "statement": "A user expects that an accepted session had Finished records carrying the verify data derived by the key schedule.", "quantifier": "all sessions", "why_tests_cant": "A test with the right contents passes either way.", "anchors": ["protocol/handshake.h: prove_enc_dec_finished_msg, prove_client_finished_msg", "protocol/post_record.h: prove_and_check_handshake_step2, step3, finalize_check"]}
{"id": "C71", "title": "finalize_check gives a verdict for z0 vectors of the right length", "statement": "A user expects finalize_check to return a verdict whenever it is given as many z0 values as records, as in test/protocol.cpp.", "quantifier": "all H, z0 values, records", "why_tests_cant": "Uninitialised heap blocks only change a verdict that the test ignores.", "anchors": ["protocol/post_record.h: finalize_check", "cipher/utils.h: reverse_concat", "test/protocol.cpp: full_protocol"]}
{"id": "C72", "title": "The garbled session puts GCM values on the wires that become shares", "statement": "In a session of handshake, both AEAD constructors and any sequence of encrypt and decrypt calls, the circuit prepared offline, evaluated on the online inputs, puts H, E(J0) and the GCM key stream under the TLS 1.2 keys on the wires that are turned into shares, and opens only the Finished data and the key streams of non-secret calls.", "quantifier": "all shares of the premaster secret, randoms, nonces, record lengths, secret flags, call sequences, values opened offline, uninitialised bytes, both modes", "why_tests_cant": "Sequences of calls share counters, nonces and wire numbering; tests run one fixed sequence.", "anchors": ["protocol/aead.h: AEAD, encrypt, decrypt, AEADOffline", "protocol/handshake.h: HandShake, HandShakeOffline", "backend/*"]}
{"id": "C73", "title": "BOB learns nothing about ALICE's messages beyond the ciphertexts and tags", "statement": "For two keys and two sequences of encrypt and decrypt calls that give BOB the same outputs (the same ciphertexts, tags and verdicts, and the same opened messages in non-secret calls): the random values of the one session map one to one onto those of the other so that BOB receives the same bytes on both channels, gets the same strings from the random OTs, and ends with the same fields and outputs.", "quantifier": "all keys and fixed ivs with a nonzero hash key, all call sequences, messages, aads, ivs, all random values, all schedules", "why_tests_cant": "Privacy compares the distributions of two families of runs; a functional test sees one run.", "anchors": ["protocol/aead.h: AEAD constructor, encrypt, decrypt, obv_ghash", "backend/ole_f2k.h: compute"]}
{"id": "C74", "title": "ALICE learns nothing about the key beyond key streams, ciphertexts, tags and verdicts", "statement": "For two keys and two sequences of calls with the same arguments for ALICE and the same GCM results, ALICE receives the same bytes and ends with the same fields and outputs for every choice of the random values, whatever BOB's message argument.", "quantifier": "all keys and fixed ivs, all call sequences, messages, aads, ivs, random values, schedules", "why_tests_cant": "Compares two runs over all inputs and random values.", "anchors": ["protocol/aead.h: AEAD constructor, encrypt, decrypt, obv_ghash", "backend/ole_f2k.h: compute"]}
{"id": "C75", "title": "A rejected decryption shows nothing but the rejection", "statement": "A user expects that a decrypt call with a wrong tag tells the parties only that the tag is wrong.", "quantifier": "all keys, ciphertexts, tags, aads, ivs, random values", "why_tests_cant": "The leak is in the exchanged bytes, not in any output a test compares.", "anchors": ["protocol/aead.h: decrypt"]}
{"id": "C76", "title": "The online point conversion shows nothing about the peer's point", "statement": "For any two points of the peer whose x-coordinates differ from the party's own there is a one-to-one map of the peer's triple shares under which the party receives the same bytes and computes the same output share, in both directions, under every schedule.", "quantifier": "all primes up to 256^1000, all points, all triple shares, all schedules", "why_tests_cant": "Compares two runs for all shares; a distribution property.", "anchors": ["protocol/e2f.h: open, compute_online"]}
{"id": "C77", "title": "The point conversion with the masks of compute_offline hides the points", "statement": "A user expects that every view of a party is possible for every point of the peer.", "quantifier": "all moduli of the given bit length, all random values, points, schedules", "why_tests_cant": "About which runs cannot happen; no single run shows it.", "anchors": ["protocol/e2f.h: compute_offline (BN_rand(..., 0, 0)), compute_online"]}
{"id": "C78", "title": "The conversion of bits into commitments ends on both sides with the same commitments", "statement": "compute_com_send and compute_com_recv run against each other end, under every schedule, with the same list of commitments and verdict true on both sides: the Pedersen commitments, under the MAC holder's random numbers, to the numbers its bits stand for. A user expects this of the calls as they stand; compute_com_recv leaves its last message in the output buffer, so the statement needs a flush after it.", "quantifier": "all curves, keys, MACs, bits, batch sizes, Deltas, random numbers, both OLE roles, all schedules", "why_tests_cant": "In the test the destructor of the channel flushes before anyone notices; schedules are not enumerated by tests.", "anchors": ["protocol/com_conv.h: compute_com_send, compute_com_recv, mask_key, mask_mac, open", "test/com_conv.cpp"]}
{"id": "C79", "title": "An honest key holder learns nothing about the bits from the conversion", "statement": "For any two bit strings there is a one-to-one map of the MAC holder's random numbers under which the key holder receives the same bytes and ends with the same commitments; if the key holder is receiver of the OLE, up to the values of the correlation-robust hash at the points it does not hold.", "quantifier": "all keys, Deltas, bits, random numbers, hash functions, curves with order up to 256^1000 (2^256 with the key holder as OLE receiver), all schedules", "why_tests_cant": "Compares the distributions of two families of runs.", "anchors": ["protocol/com_conv.h: compute_com_send, compute_com_recv, convert_recv, mask_mac, open", "backend/ole.h: OLE::compute"]}
{"id": "C80", "title": "The opening check of the conversion protects the bits from a deviating key holder", "statement": "A user expects that when compute_com_recv returns true, the key holder has learned nothing about the bits but the commitments, even if it did not follow the protocol.", "quantifier": "all keys, bits, random numbers", "why_tests_cant": "The honest test parties never deviate.", "anchors": ["protocol/com_conv.h: mask_key, open, compute_com_recv"]}
{"id": "C81", "title": "The OLE hides the sender's numbers from the receiver", "statement": "For any two vectors of the sender's inputs, the receiver gets the same message and the same outputs with a hash function that differs only at the points the receiver does not hold.", "quantifier": "all moduli up to 2^256, lengths, correlated OT outputs with distinct unknown points, receiver inputs", "why_tests_cant": "A privacy statement about all hash functions.", "anchors": ["backend/ole.h: OLE::compute"]}
{"id": "C82", "title": "The commitments made with the test's base hide and bind", "statement": "Pedersen commitments hide the number perfectly. A user expects that with the base h that test/com_conv.cpp agrees on they also bind; both parties know the logarithm s of h, so they do not.", "quantifier": "all curves, scalars, messages", "why_tests_cant": "No test tries to open a commitment to another number.", "anchors": ["protocol/com_conv.h: PedersenComm", "test/com_conv.cpp: com_conv_test"]}
{"id": "C83", "title": "The evaluator of a circuit garbled in advance learns only what is opened to it", "statement": "For two assignments of inputs to one circuit that open the same values to the evaluator (to BOB or to both), and any random values of the garbler in the run on the first, changing the hash only at the points the evaluator cannot reach and the zero labels of the inputs that differ gives a run on the second in which the offline messages (tables, permute bits), all labels the evaluator holds and the online messages of both sides are the same; the change pairs the random values of the two runs one to one.", "quantifier": "all circuits, pairs of inputs, labels, odd Deltas, hash permutations, such that the points the evaluator cannot reach are distinct and different from those it reaches", "why_tests_cant": "Compares the distributions of two families of runs; a test sees one run.", "anchors": ["backend/offline_hg_gen.h: and_gate", "backend/offline_primus_gen.h", "backend/online_primus_gen.h: feed, reveal", "backend/online_hg_eva.h", "backend/online_primus_eva.h"]}
{"id": "C84", "title": "The garbler of a circuit garbled in advance learns only what is opened to it", "statement": "For two assignments of inputs to one circuit that open the same values to the garbler (to ALICE or to both), the garbler receives the same messages and holds the same labels in both online runs.", "quantifier": "all circuits, pairs of inputs, labels, odd Deltas, hash functions", "why_tests_cant": "Compares two families of runs.", "anchors": ["backend/online_primus_eva.h: reveal", "backend/online_primus_gen.h: reveal"]}
{"id": "C85", "title": "The evaluator of the streaming backend learns only what is opened to it", "statement": "For two assignments of inputs to one circuit that agree in the evaluator's inputs and open the same values to the evaluator, changing the hash only at the points the evaluator cannot reach turns the run on the first into a run on the second with the same tables, labels and messages in both directions.", "quantifier": "all circuits with constants and repeated wires, pairs of inputs, batch sizes, labels, OT strings, odd Deltas, hash permutations, such that no label meets a reserved value or another label by accident and the unreached points are distinct and unreached", "why_tests_cant": "Compares the distributions of two families of runs.", "anchors": ["backend/opt_hg_gen.h: and_gate, xor_gate, not_gate", "backend/opt_hg_eva.h", "backend/primus_gen.h: feed, reveal", "backend/primus_eva.h: feed, reveal"]}
{"id": "C86", "title": "The garbler of the streaming backend learns only what is opened to it", "statement": "For two assignments of inputs to one circuit that agree in the garbler's inputs and open the same values to the garbler, flipping the evaluator's random choice bits where the buffered inputs differ turns the run on the first into a run on the second in which the garbler holds the same labels and receives the same messages.", "quantifier": "all circuits, pairs of inputs, batch sizes, labels, OT strings, random bits, odd Deltas, without accidental coincidence of labels in either run", "why_tests_cant": "Compares the distributions of two families of runs.", "anchors": ["backend/primus_eva.h: feed, refill, reveal", "backend/primus_gen.h: feed, refill, reveal"]}
{"id": "C87", "title": "The shares of a session come out of the wire labels", "statement": "Garbling the circuit the offline classes announce and evaluating what the online classes request succeeds for every session, every opening shows its recipients the value the session computes, and the low bits of the two parties' labels XOR to the value of every wire; for the TLS session, integer_to_block and integer_to_chars of the labels give shares of H of both AEAD objects, and of E(J0) and the key stream of every record.", "quantifier": "all sessions (any number and order of calls, contents, lengths, modes), labels, odd Deltas, hash and key functions", "why_tests_cant": "Sequences of calls, inputs and labels are unbounded; tests run one session per mode.", "anchors": ["protocol/handshake.h", "protocol/aead.h", "backend/offline_primus_gen.h", "backend/online_primus_gen.h", "backend/online_primus_eva.h", "cipher/utils.h: integer_to_block, integer_to_chars"]}
{"id": "C88", "title": "A session opens exactly the values the protocol makes public", "statement": "The vectors a TLS session opens to both parties on the circuit are, in order: without the option that saves rounds, for each of the two PRF secrets the inner HMAC chaining value once and A(1), A(2), and for each Finished message A(1) and the verify data; with the option, the verify data only; then the key stream of each record whose content is public. With the option any sequence of calls opens exactly the bytes it hands to the caller; without it a handshake that hands out nothing opens six vectors.", "quantifier": "all group orders, shares, randoms, session hashes, labels and hashes of Finished messages, record sequences (any number, length, direction, mode)", "why_tests_cant": "No test inspects what is opened; sessions and secrets are unbounded.", "anchors": ["protocol/handshake.h:187-326", "protocol/aead.h:47-370", "cipher/prf.h", "cipher/hmac_sha256.h", "cipher/sha256.h"]}
{"id": "C89", "title": "The garbled circuits of a session tell each party only what the session opens", "statement": "Two sessions that announce the same calls and open the same values look the same to each party: the garbler holds the same labels and receives the same bits; for the evaluator, whatever the garbler's random values in the first session, a change of the hash at points it cannot reach and of the zero labels makes the second send the same tables, labels, permute bits and digests, so its shares of H, E(J0) and the key streams are the same too. For TLS sessions with two pairs of premaster shares it suffices that the values of C88 agree; in rounds mode these are the verify data and the public key streams, and nothing without Finished messages and public records.", "quantifier": "all sessions, labels, odd Deltas, permutations and hashes (points hashed by the garbler only distinct from those the evaluator hashes), all premaster shares, randoms, records", "why_tests_cant": "A statement about pairs of runs and all random values; tests observe single runs.", "anchors": ["protocol/handshake.h", "protocol/aead.h", "backend/offline_primus_gen.h", "backend/online_primus_gen.h", "backend/online_primus_eva.h", "backend/bn_utils.h"]}
{"id": "C90", "title": "Two parties working on their wire labels carry a TLS session through", "statement": "Each party is given its labels, what it saw opened and its own inputs. From the key agreement on curve points, through the garbled circuit, to the records: in every interleaving the two programs end without waiting for ever, both have the GCM ciphertext and tag of every record sent under the TLS keys of the premaster secret the server computes, and for every record received the plaintext (the second party only if it is public) and the right verdict on the tag.", "quantifier": "all curves over a prime field, key shares, OT strings, labels, odd Deltas, hash and key functions, randoms, session hashes, Finished messages, non-empty sequences of records on the two objects (any lengths, directions, public or secret), interleavings", "why_tests_cant": "Sequences of calls, inputs, labels and interleavings are unbounded; tests run a few sessions in one process each.", "anchors": ["protocol/aead.h:47-492", "protocol/handshake.h", "cipher/utils.h: integer_to_block, integer_to_chars", "protocol/e2f.h", "backend/online_primus_gen.h", "backend/online_primus_eva.h"]}
{"id": "C91", "title": "TLS sessions on the streaming backends: no share is taken from a constant wire", "statement": "setup_protocol installs the streaming half-gate backends unless offline/online garbling is asked for.  There a constant wire carries a fixed label, and integer_to_block/integer_to_chars applied to it would give shares of zero.  In every sequence of handshake and AEAD calls that begins with the computation of a master secret (field of at least 32 bytes), whatever is opened on the way, constant propagation over the circuit finds no constant among the wires of H, Z0 and Z.  Hence, if no label collides by accident with a reserved value, the low bits of the labels are shares of the right values, and the two parties carry the records of a TLS session through from their own labels in any interleaving, from the key agreement on.", "quantifier": "All sequences of calls, all inputs, all opened values (first part); all labels, keys and hash functions meeting the no-collision condition, all TLS sessions, all interleavings of the record messages.", "why_tests_cant": "Whether a wire is constant depends on the whole circuit of about a million gates; a test sees one input and one label stream.", "anchors": ["backend/switch.h:110-135", "backend/opt_hg_gen.h", "backend/opt_hg_eva.h", "backend/primus_gen.h", "backend/primus_eva.h", "protocol/aead.h:47-492", "protocol/handshake.h:187-326", "cipher/utils.h: integer_to_block, integer_to_chars"]}
{"id": "C92", "title": "The streaming circuits of a session tell each party only what the session opens", "statement": "Two sessions in which a party makes the same calls with its own share of the premaster secret, the peer's share differs and the same values are opened: the party issues the same requests with the same input bits and gets the same results; the evaluator's labels, transfer buffer, and all messages of the second run with a hash changed at points it cannot reach are those of the first; the garbler's labels, buffer and all messages of the second run with other random choice bits are those of the first.  For the TLS session equality of the values of C88 suffices, and the shares of H, Z0 and Z the party holds are also shares of the other session's values.", "quantifier": "all sessions (any calls, both modes), own and peer shares, labels, odd Deltas, permutations and hashes meeting the no-collision conditions, buffer sizes; TLS sessions over fields of at least 32 bytes", "why_tests_cant": "A statement about pairs of runs and all random values; tests observe single runs.", "anchors": ["backend/switch.h:110-135", "backend/opt_hg_gen.h", "backend/opt_hg_eva.h", "backend/primus_gen.h", "backend/primus_eva.h", "protocol/handshake.h:187-326", "protocol/aead.h:47-492"]}
{"id": "C93", "title": "A whole TLS session, circuits and records, tells a party only what it opens and the records", "statement": "Take a TLS session and another one in which the peer's share of the premaster secret and the peer's secret plaintexts differ, the opened values are the same, and each record has the same ciphertext and tag (received records: the same valid tag; public content: the same content).  Then everything a party sees is the same for another choice of what it does not know.  For the evaluator: its labels, tables and digests after changing the hash at points it cannot reach, and, from those labels, its two AEAD objects, its results, the bytes it receives and what it gets from the OTs after changing the peer's r and the OT strings it did not choose, by a one-to-one map.  For the garbler: its labels, bits, objects, results and received bytes, with the same random values.  On the two-phase and on the streaming backends.", "quantifier": "all premaster shares, randoms, session hashes, Finished messages, non-empty record sequences on the two objects (any length, direction, public or secret), labels, odd Deltas, hashes meeting the no-collision conditions, OT strings, interleavings; H nonzero for the evaluator's statement", "why_tests_cant": "A statement about pairs of runs, all random values and interleavings; tests observe single runs.", "anchors": ["protocol/aead.h:47-492", "protocol/handshake.h:187-353", "protocol/record.h:13-42", "backend/ole_f2k.h", "backend/offline_primus_gen.h", "backend/online_primus_gen.h", "backend/online_primus_eva.h", "backend/opt_hg_gen.h", "backend/opt_hg_eva.h", "cipher/utils.h: integer_to_block, integer_to_chars"]}
{"id": "C94", "title": "One digest comparison decides the whole proof phase", "statement": "The comparisons of the handshake (Finished values, opened inner hashes, opened A(i)) and those of the record proofs go into one running hash per party.  The transcripts agree exactly when every comparison of the handshake holds and the record part agrees; an honest session is accepted whatever the hash.  If the two digests agree then either the hash has a collision, or the opened Finished values are the TLS 1.2 verify data, the recorded shares of H, Z0 and Z are right under the TLS keys of the joint secret, and the verdict of finalize_check is true exactly when every record opens under those keys.  No comparison is assumed to hold, and the prover may leave out its own memcmp.", "quantifier": "all handshake states of the proof phase, announced shares, records (any number, lengths, order), verifier keys, global keys, public labels, hash functions", "why_tests_cant": "Acceptance is one equality of digests over thousands of blocks that depend on every earlier call; a test sees honest runs, in which it always holds.", "anchors": ["backend/check_zero.h:9-57", "cipher/prf.h: prf_check", "cipher/sha256.h: sha256_check", "protocol/handshake.h:373-531", "protocol/aead_izk.h", "protocol/post_record.h:74-201"]}
{"id": "C95", "title": "What a BOB that does not keep to the protocol can change in ALICE's records", "statement": "Expected: the other party cannot make ALICE send, or read, another text than the one of the record without being noticed.  Records with public content: true, whatever process takes the other party's place; whenever ALICE's program returns, the ciphertext sent is that of ALICE's message and the plaintext read that of the record.  Records with secret content: false in every session.  If BOB adds a string of its choice to its share of the key stream and otherwise runs its program, every schedule ends normally, the record ALICE sends is the valid GCM encryption of the message with that string added, and a received record with the right tag is accepted by both and read by ALICE with that string added.", "quantifier": "all TLS sessions (shares, randoms, Finished messages, labels, OT strings), non-empty record sequences, changes chosen per record, interleavings; second part: all processes in BOB's place and all schedules", "why_tests_cant": "A test runs two honest parties; the deviations and schedules are unbounded.", "anchors": ["protocol/aead.h:169-306: encrypt", "protocol/aead.h:309-492: decrypt", "cipher/utils.h: integer_to_chars"]}
{"id": "C96", "title": "The proof phase shows the verifier nothing of the prover's secrets but H and the E(J0)", "statement": "Two runs of the proof phase at the same verifier (same keys, same records, same recorded data of the verifier, handshake comparisons against the same values) in which the secret, the prover's shares and so the messages differ give the verifier the same transcript; if both digests are accepted the prover has sent the same digest; and finalize_check gives the same verdict if it opens the same blocks.  When the comparisons of the handshake hold, the opened blocks are H of the two directions and E(J0) of each record under the TLS keys, and nothing else.  Expected further: opening these leaves the connection usable.  False: with H, one record that opens and its text, a tag that opens can be made for any other text and associated data under the same iv, so later records are no longer authenticated.", "quantifier": "all pairs of handshake states, secrets, shares, verifier keys, global keys, hash functions, record sequences of any length; all ciphers, ivs, records and forged contents", "why_tests_cant": "A statement about pairs of runs with secrets the verifier cannot see; a test has one secret.", "anchors": ["protocol/post_record.h:74-201", "protocol/aead_izk.h:13-184", "backend/check_zero.h:9-57", "protocol/aead.h:533-546: compare_tag"]}
{"id": "C97", "title": "Rotations of circuit integers", "statement": "lrot by s moves the s most significant bits to the bottom: its value is x * 2^s mod 2^n plus x / 2^(n-s); lrot and rrot by the same amount undo each other.", "quantifier": "all widths, all values, all amounts up to the width", "why_tests_cant": "lrot is called nowhere in the code base and no test reaches it.", "anchors": ["cipher/utils.h:27-45"]}
{"id": "C98", "title": "A TLS session from the point conversion on tells a party only what it opens and the records", "statement": "Take two sessions that differ in the peer's point, and so in the premaster secret, and in the peer's secret plaintexts.  If the two premaster secrets lead to the same opened values and to records that look the same, then the peer's shares of the conversion's triples are in one-to-one correspondence so that the party receives the same messages in the conversion, gets the same share of the premaster secret, and then sees the same circuits and records in the sense of C93.  The shares of both runs add up to the x-coordinates of the sums of the points.  For both parties, on the two-phase and on the streaming backends.", "quantifier": "all prime moduli of up to 8000 bits, pairs of points with different x-coordinates, triple shares that fit the party's own, and everything C93 quantifies over", "why_tests_cant": "A statement about pairs of runs and all random values; tests observe single runs.", "anchors": ["protocol/e2f.h: compute_offline, compute_online", "protocol/handshake.h:97-353", "protocol/aead.h:47-492"]}
{"id": "C99", "title": "The field and the group order of P-256 are primes", "statement": "The modulus 2^256 - 2^224 + 2^192 + 2^96 - 1 of NID_X9_62_prime256v1 and the order of its group are prime numbers, so the conversion run on this curve, as the handshake and its tests do, meets the conditions of C19 without any assumption on the modulus: it gives shares of the x-coordinate of the sum, or stops exactly when the masks cancel or the x-coordinates are equal.", "quantifier": "the two numbers; all random values, OT outputs and points", "why_tests_cant": "Primality is a statement about all divisors; a test cannot show it, and the conversion is wrong without inverses.", "anchors": ["protocol/e2f.h", "protocol/handshake.h:97-160", "test/handshake.cpp:11", "protocol/prove_prf.h:33"]}
{"id": "C100", "title": "The garbling backends run as two programs always complete, if something is flushed after them", "statement": "Each party of a garbling backend is a program that writes labels, tables, masked bits and opened bits to the channel and reads the other's.  With a flush after the circuit, both programs end under every schedule and every partial delivery, with nothing left unread, in the state of the joint execution of C25 and C26: the same labels on every wire and the bits each party is to see.  Neither backend flushes.  Expected: the circuit alone completes.  False: every circuit that ends with an opening to both leaves the evaluator's answer in its output buffer, and the garbler can wait for ever.", "quantifier": "all circuits and inputs, labels, odd Deltas, batch sizes, hashes (streaming: under the no-collision condition of C26), all schedules", "why_tests_cant": "Depends on interleavings and on when buffers are delivered; the tests run both parties on one machine and destroy the channel, which flushes, at the end.", "anchors": ["backend/primus_gen.h:20-160", "backend/primus_eva.h:20-180", "backend/opt_hg_gen.h", "backend/opt_hg_eva.h", "backend/offline_primus_gen.h", "backend/offline_primus_eva.h", "backend/online_primus_gen.h", "backend/online_primus_eva.h"]}
{"id": "C101", "title": "A session in the order of the code always completes with the records of TLS", "statement": "In the code the circuits and the protocol messages take turns: every handshake call, AEAD constructor and record call first garbles, transfers and opens its own part of the circuit and then exchanges its messages, all on one channel.  Run in this order, from the shares of the premaster secret to the last record, the two parties end under every schedule with nothing unread.  The parts put together are the circuit of the session, the labels are those of the joint execution, and each party has for every record what AES-GCM with the TLS keys gives.  This holds for the streaming backends and for circuits garbled in advance from announced lengths.", "quantifier": "all shares, randoms, transcripts, non-empty lists of records of every kind on both objects, labels, odd Deltas, batch sizes (streaming: under the no-collision condition of C26), all schedules and partial deliveries", "why_tests_cant": "The record messages use labels and openings of a circuit that is still growing, and buffers filled by one layer are flushed by another; whether this can hang or mix up depends on interleavings tests do not choose.", "anchors": ["test/protocol.cpp:82-121", "protocol/handshake.h:187-353", "protocol/aead.h:47-492", "backend/primus_gen.h", "backend/primus_eva.h", "backend/online_primus_gen.h", "backend/online_primus_eva.h", "backend/backend.h:18-63"]}
{"id": "C102", "title": "The verdicts on the peer's openings are exactly the checks, whatever the peer sends", "statement": "In the conversion of bits into commitments each party returns a verdict on what the peer opened; in reveal_pms the client stops if the opened scalar does not fit.  For any bytes a peer may send: if the program returns, the MAC holder's verdict is true exactly if the opened values fit the first commitment and the numbers received, the key holder's verdict is true exactly if the combination of the received points is opened by the received numbers, the MAC fits its commitment and the MAC is the right one, and the client obtains the pre-master secret exactly if the scalar fits the announced point.", "quantifier": "all curves, hash functions with 32-byte digests, keys, MACs, random values, and all byte strings received", "why_tests_cant": "A dropped or weakened check never shows in an honest run, and a deviating peer is free in every byte.", "anchors": ["protocol/com_conv.h:213-253", "protocol/com_conv.h:282-431", "protocol/com_conv.h:433-587", "protocol/post_record.h:52-72"]}
{"id": "C103", "title": "Each party computes every request to the backend from its own data and the values opened before", "statement": "In any session that completes, whatever the openings return, a party that knows only its own share of the pre-master secret (with any value in place of the peer's) and the values opened during the first n requests computes the first n+1 requests, except for the bits that the peer feeds itself.  Those bits are not needed: what a party's backend, streaming or two-phase, does with a request is the same whatever bits the peer feeds.", "quantifier": "all sessions of any calls within the sizes of the offline phase, all oracles for the openings, all n, both parties, both backends", "why_tests_cant": "An implementation in which one party's circuit depended on something only the peer knows would still agree in a test that runs both parties from the same data.", "anchors": ["protocol/handshake.h:187-326", "protocol/aead.h:47-492", "cipher/hmac_sha256.h:76-102", "cipher/sha256.h:255-375", "backend/primus_gen.h:32-98", "backend/primus_eva.h:31-86", "backend/online_primus_gen.h:23-70", "backend/online_primus_eva.h:23-49"]}
{"id": "C104", "title": "Each party runs a whole session on its own data alone", "statement": "A party is given the calls of the session with the peer's data erased: the peer's share of the premaster secret, its messages and commitment strings, and for the second party the first one's random block.  It computes every request to the garbling backend when it comes to it, from this and the values it saw opened so far, and exchanges the messages of the records in between, on the same channel.  Under every schedule both parties end with nothing unread, in the state of the joint execution of the circuit that both inputs together define, and each has for every record what AES-GCM with the TLS keys of the combined shares gives.  Anything else in place of the erased data changes nothing.", "quantifier": "all shares, randoms, transcripts, non-empty lists of records of every kind on both objects, labels, odd Deltas, batch sizes (streaming: under the no-collision condition of C26), everything put in place of the peer's data within the sizes, all schedules and partial deliveries", "why_tests_cant": "A simulation that runs both parties in one process from the same data cannot tell whether a party used something it could not know; and the data and interleavings are unbounded.", "anchors": ["test/protocol.cpp:82-121", "protocol/handshake.h:187-353", "protocol/aead.h:47-492", "backend/primus_gen.h:32-98", "backend/primus_eva.h:31-86", "backend/online_primus_gen.h:23-70", "backend/online_primus_eva.h:23-49", "backend/backend.h:18-63"]}
{"id": "C105", "title": "The whole run, from the offline phase to the last record, always completes and agrees with the server", "statement": "The circuits are garbled in advance from the announced lengths, the triples of the conversion are made, then the curve points are exchanged, the x-coordinate of the sum is turned into shares, and each party goes on with the handshake circuits and the records using the share it has just computed.  Each party is given its own scalar, random values and arguments only.  If the sum of the two masks a is not zero (and the two points have different x-coordinates), then under every schedule both programs end with nothing unread, the shares add up to the x-coordinate of the point that the server computes, and each party has for every record what AES-GCM gives with the TLS keys of this premaster secret; otherwise both stop with an error, under every schedule.  The programs keep the flush discipline for any bytes received, since the share computed from any bytes is in the field.", "quantifier": "all curves of prime field (up to the code's number size), scalars, masks, OT outputs, randoms, transcripts, non-empty lists of records of every kind, labels, odd Deltas, all schedules and partial deliveries", "why_tests_cant": "The phases share two channels and leave data in buffers for one another; a hang needs one particular interleaving, and the share passed from one phase to the next is random.", "anchors": ["test/prot_on_off.cpp:92-137", "test/prot_on_off.cpp:216-225", "protocol/handshake.h:100-353", "protocol/e2f.h:55-186", "backend/ole.h:52-90", "protocol/aead.h:47-492", "backend/offline_primus_gen.h", "backend/offline_primus_eva.h", "backend/online_primus_gen.h", "backend/online_primus_eva.h"]}
{"id": "C106", "title": "A deviating peer can cause undefined behaviour in the whole run only by an oversized length", "statement": "Over the whole run (circuits garbled in advance, conversion, point exchange, session and records) a party that follows the protocol never comes to undefined behaviour, whatever bytes the other side sends, except that it receives a four-byte length above 1000 in recv_bn; that length is then the last thing it received. (That even this cannot happen is expected of a safe program, and is false.)", "quantifier": "For every sequence of messages a peer may send at any point of the run, every scalar, point, random value, record and hash; every curve over a prime field with coordinates below 2^256.", "why_tests_cant": "A test sends the messages of an honest peer, or a few bad ones; the claim is about every byte sequence at every point of the run.", "anchors": ["backend/bn_utils.h:31-40", "test/prot_on_off.cpp:92-137", "test/prot_on_off.cpp:216-225", "protocol/handshake.h:100-184", "protocol/e2f.h:55-186", "backend/ole.h:52-90", "protocol/aead.h:47-492", "backend/offline_primus_eva.h", "backend/online_primus_gen.h", "backend/online_primus_eva.h"]}
{"id": "C107", "title": "A deviating peer can cause undefined behaviour in the commitment conversion only by an oversized length", "statement": "compute_com_send and compute_com_recv, called with vectors of the right size, never come to undefined behaviour, whatever bytes the other party sends, except that they receive a four-byte length above 1000 in recv_bn; that length is then the last thing received. In particular the numbers received fit the buffers they are written to again when hashed. (That even this cannot happen is expected of a safe program, and is false.)", "quantifier": "For every sequence of messages a peer may send, every batch size, key, MAC, random value and role in the OLE; every curve and modulus of at most 1000 bytes.", "why_tests_cant": "A test sends the messages of an honest peer; the claim is about every byte sequence at every point of the exchange.", "anchors": ["protocol/com_conv.h:121-133", "protocol/com_conv.h:157-161", "protocol/com_conv.h:208-270", "protocol/com_conv.h:282-587", "backend/bn_utils.h:20-40", "backend/ole.h:52-90"]}
{"id": "C108", "title": "In the whole run a record is accepted only on an opening that was fixed before the party showed its share", "statement": "Whatever bytes the other side sends, a party whose run ends normally has exactly one result per record call, in order and of its kind.  Where it accepted a record, it did the following in this order with nothing in between: it sent the digest of its share of the tag and a random string, received a commitment, sent the share and the string, received a share and a string; the commitment received is the digest of the latter, and the two shares make the tag of the record.  The peer's share is determined by what came before: in all runs that agree up to there and accept the record, the share opened by the peer and the plaintext are the same.", "quantifier": "For every sequence of messages a peer may send at any point of the run, either party, every list of calls, record index, hash function, multiplication and random value.", "why_tests_cant": "The claim compares all runs with a common beginning, over every byte sequence a deviating peer could send; a test sees one run with an honest peer.", "anchors": ["protocol/aead.h:309-492", "backend/commitment.h:17-39", "test/prot_on_off.cpp:92-137", "test/prot_on_off.cpp:216-225"]}
{"id": "C109", "title": "In the whole run the tag of an encrypted record is the exclusive or of the share sent and the share received next, and the peer can choose it", "statement": "Whatever bytes the other side sends, where a party's run ends normally with a tag for a record it encrypted, it sent a share of sixteen bytes, received sixteen bytes right after, and the tag is the reversed exclusive or of the two.  If the record is the last call, a peer that first waits for the party's share makes the party end with the same ciphertext and any tag of its choice.  (That a peer cannot choose the tag, as would follow if the shares were committed to as in decrypt, is expected, and is false.)", "quantifier": "For every sequence of messages a peer may send at any point of the run, either party, every list of calls, record index, hash function, multiplication and random value, and every tag of sixteen bytes.", "why_tests_cant": "The first part is about every byte sequence a deviating peer could send, the second about every tag it could want; a test sees one run with an honest peer.", "anchors": ["protocol/aead.h:190-305", "test/prot_on_off.cpp:92-137", "test/prot_on_off.cpp:216-225"]}
