{
 "claims": [
  {
   "property": "C01",
   "status": "proved",
   "theorems": [
    "C01_digest_is_sha256",
    "C01_rounds_digest_is_sha256"
   ],
   "note": "All messages; the 64-bit length field is the length modulo 2^64 in code and specification alike; K is computed in long long, so the model is faithful for lengths below 2^63 bits."
  },
  {
   "property": "C02",
   "status": "proved",
   "theorems": [
    "C02_opt_digest_is_sha256"
   ],
   "note": "All secret 512-bit blocks and public tails (no cache reuse; with reuse see C04)."
  },
  {
   "property": "C03",
   "status": "proved",
   "theorems": [
    "C03_hmac_variants"
   ],
   "note": "All keys, messages, reuse flags, directly after init."
  },
  {
   "property": "C04",
   "status": "proved",
   "theorems": [
    "C04_hmac_histories"
   ],
   "note": "All call histories in which, per key, at most one of the two caching variants is used with reuse_in (see C05 for the rest)."
  },
  {
   "property": "C05",
   "status": "proved",
   "theorems": [
    "C05_mixed_modes_undefined_refuted",
    "C05_mixed_modes_wrong_mac_refuted"
   ],
   "note": "The expectation is false: refuted by witnesses. Mixing reads an unset cache (UB) or a stale one (wrong MAC)."
  },
  {
   "property": "C06",
   "status": "proved",
   "theorems": [
    "C06_prf_histories"
   ],
   "note": "All secrets, labels, seeds, lengths, and all call histories of one PRF/HMAC object pair under the C04 discipline."
  },
  {
   "property": "C07",
   "status": "proved",
   "theorems": [
    "C07_second_result_is_doubled",
    "C07_rederivation_refuted"
   ],
   "note": "The expectation is false: the second derivation into the same Integer appends; shown for all inputs and refuted by a witness."
  },
  {
   "property": "C08",
   "status": "proved",
   "theorems": [
    "C08_key_schedule",
    "C08_every_integer_is_a_key"
   ],
   "note": "All 2^128 keys, on the netlist transcribed gate by gate from the shipped file."
  },
  {
   "property": "C09",
   "status": "proved",
   "theorems": [
    "C09_cipher",
    "C09_aes128"
   ],
   "note": "All keys and blocks (and all 44-word schedules), on the netlist transcribed gate by gate from the shipped file."
  },
  {
   "property": "C10",
   "status": "proved",
   "theorems": [
    "C10_mulBlock_is_gcm_product",
    "C10_field"
   ],
   "note": "All pairs of 128-bit blocks, on a model of the SSE intrinsics."
  },
  {
   "property": "C11",
   "status": "proved",
   "theorems": [
    "C11_powBlock",
    "C11_invBlock",
    "C11_invBlock_zero"
   ],
   "note": "All blocks, all 64-bit exponents."
  },
  {
   "property": "C12",
   "status": "proved",
   "theorems": [
    "C12_ghash",
    "C12_compute_tag",
    "C12_compare_tag"
   ],
   "note": "All hash keys, masks, AAD and ciphertext byte strings."
  },
  {
   "property": "C13",
   "status": "proved",
   "theorems": [
    "C13_set_nonce",
    "C13_gctr",
    "C13_inc_wraps"
   ],
   "note": "All keys, nonces and block counts, with counter wrap-around, on the shipped circuit files."
  },
  {
   "property": "C14",
   "status": "proved",
   "theorems": [
    "C14_encrypt_is_gcm",
    "C14_hypothesis_met"
   ],
   "note": "All keys, IVs, messages, AAD, randomness, both modes, after any history of calls on the object; gfmul_reflect (emp) is assumed to be the GCM product and additive (instances shown)."
  },
  {
   "property": "C15",
   "status": "proved",
   "theorems": [
    "C15_decrypt_is_gcm",
    "C15_round_trip"
   ],
   "note": "As C14."
  },
  {
   "property": "C16",
   "status": "proved",
   "theorems": [
    "C16_reflection_accepted",
    "C16_wrong_tag_accepted_refuted",
    "C16_commitment_binds"
   ],
   "note": "The expectation is false: a reflecting peer makes the all-zero tag accepted. What remains true (binding up to a hash collision) is proved."
  },
  {
   "property": "C18",
   "status": "proved",
   "theorems": [
    "C18_ole_f2k",
    "C18_gcm_product_is_additive"
   ],
   "note": "All inputs, lengths and OT strings."
  },
  {
   "property": "C54",
   "status": "proved",
   "theorems": [
    "C54_block_to_hex_big_endian",
    "C54_hex_to_block_big_endian",
    "C54_block_round_trip",
    "C54_bad_length_rejected"
   ],
   "note": "All block vectors."
  },
  {
   "property": "C55",
   "status": "proved",
   "theorems": [
    "C55_concat_bits",
    "C55_concat_value",
    "C55_concat_opt_agrees",
    "C55_move_concat_agrees",
    "C55_reverse_concat",
    "C55_intvec_to_int_agrees",
    "C55_extract_inverts_concat"
   ],
   "note": "All integer vectors and widths."
  },
  {
   "property": "C56",
   "status": "proved",
   "theorems": [
    "C56_str_to_int_value",
    "C56_int_to_hex32",
    "C56_int_to_hex64",
    "C56_int_to_hex32_injective",
    "C56_int_to_hex64_injective"
   ],
   "note": "All strings and word vectors."
  },
  {
   "property": "C17",
   "status": "proved",
   "theorems": [
    "C17_ole"
   ],
   "note": "All moduli up to 256^1000 (the wire buffer), all sender inputs, receiver inputs below 2^bit_length, all batch lengths, OT strings and hash functions."
  },
  {
   "property": "C19",
   "status": "proved",
   "theorems": [
    "C19_e2f",
    "C19_chord_unique",
    "C19_chord_on_curve"
   ],
   "note": "All primes q < 2^bit_length, all coordinates, all randomness; also that equal x-coordinates or a zero masked a give an error and no output."
  },
  {
   "property": "C20",
   "status": "proved",
   "theorems": [
    "C20_mask_values",
    "C20_mask_support_refuted",
    "C20_opened_excludes_inputs_refuted"
   ],
   "note": "The expectation is false: BN_rand with top=0 forces the top bit, so for P-256 about half the field is never a mask value; exact support characterised."
  },
  {
   "property": "C21",
   "status": "proved",
   "theorems": [
    "C21_addmod",
    "C21_addmod_shared_modulus"
   ],
   "note": "All widths, all moduli, all a+b < 2q."
  },
  {
   "property": "C22",
   "status": "proved",
   "theorems": [
    "C22_second_call",
    "C22_reuse_refuted"
   ],
   "note": "The expectation is false: the modulus argument is widened in place and every second call is undefined."
  },
  {
   "property": "C23",
   "status": "proved",
   "theorems": [
    "C23_vope",
    "C23_hypotheses_met",
    "C23_length_65_refuted"
   ],
   "note": "True for all lengths 1..64; false at length 65 (refuted by a witness): the array U aliases rows of M not yet packed. The product inside emp's packing is assumed to be the GCM product."
  },
  {
   "property": "C41",
   "status": "proved",
   "theorems": [
    "C41_recv_after_send",
    "C41_send_bound"
   ],
   "note": "All integers below 256^1000 (a negative one comes back as its absolute value), all sequences."
  },
  {
   "property": "C42",
   "status": "proved",
   "theorems": [
    "C42_recv_memory_safe_iff",
    "C42_recv_overflow_refuted",
    "C42_hashed_recv"
   ],
   "note": "The expectation is false: a length prefix above 1000 overruns the buffer; exact condition proved."
  },
  {
   "property": "C60",
   "status": "proved",
   "theorems": [
    "C60_freed_once",
    "C60_freed_exactly",
    "C60_moves",
    "C60_point_ctx_drop_argument",
    "C60_leak_refuted"
   ],
   "note": "True for UniqueBN, UniqueGroup, UniqueBytes; false for UniquePoint and UniqueCtx, whose constructors drop their argument."
  },
  {
   "property": "C24",
   "status": "proved",
   "theorems": [
    "C24_half_gate",
    "C24_delta_is_odd"
   ],
   "note": "All labels, values, gate indices, hash functions, and all Delta with least significant bit 1 (set_delta forces it)."
  },
  {
   "property": "C25",
   "status": "proved",
   "theorems": [
    "C25_offline_online"
   ],
   "note": "All circuits, inputs, seeds and Delta; the offline pass may use any input values. The OT is ideal."
  },
  {
   "property": "C26",
   "status": "proved",
   "theorems": [
    "C26_streaming",
    "C26_checker",
    "C26_not_receiving"
   ],
   "note": "All circuits and inputs, under an explicit no-collision condition on the labels produced (decidable, checker proved sound)."
  },
  {
   "property": "C27",
   "status": "proved",
   "theorems": [
    "C27_feed_histories"
   ],
   "note": "All batch sizes and input histories; also that the evaluator's correction bits use each random choice bit at most once."
  },
  {
   "property": "C28",
   "status": "proved",
   "theorems": [
    "C28_set_batch_size_refuted",
    "C28_every_buffered_feed"
   ],
   "note": "The expectation is false: after set_batch_size every buffered feed reads unwritten memory."
  },
  {
   "property": "C29",
   "status": "proved",
   "theorems": [
    "C29_honest",
    "C29_online_honest",
    "C29_cheating_evaluator",
    "C29_online_cheating_evaluator",
    "C29_public_wire_lie_refuted"
   ],
   "note": "True for wires that carry labels (up to an explicit hash collision); false for constant wires of the streaming backend, where a lie is accepted (refuted by a witness)."
  },
  {
   "property": "C31",
   "status": "proved",
   "theorems": [
    "C31_block_shares",
    "C31_block_vector_shares",
    "C31_char_shares",
    "C31_sizes",
    "C31_public_wire_refuted"
   ],
   "note": "All private wires; constant wires of the streaming backend give shares of zero (refuted by a witness)."
  },
  {
   "property": "C32",
   "status": "proved",
   "theorems": [
    "C32_session_is_tls12",
    "C32_own_share_fed"
   ],
   "note": "All shares, field sizes, randoms, session hashes and transcripts, both modes, any sequence of Finished computations after the key expansion."
  },
  {
   "property": "C33",
   "status": "proved",
   "theorems": [
    "C33_accepts_reversed",
    "C33_genuine_finished_refuted"
   ],
   "note": "The expectation is false: the stored verify_data is in reversed byte order, so exactly the reversed message is accepted."
  },
  {
   "property": "C34",
   "status": "proved",
   "theorems": [
    "C34_sound",
    "C34_complete",
    "C34_handshake_sound",
    "C34_finished_length"
   ],
   "note": "Soundness for all recorded public values of the right shape and all histories; completeness for all histories; both for a prover that feeds the inner digests the code computes (C35 is about other provers)."
  },
  {
   "property": "C35",
   "status": "proved",
   "theorems": [
    "C35_standard_mode_refuted",
    "C35_rounds_mode_unbound"
   ],
   "note": "The expectation is false: inner digests (standard mode) and the whole seed (round-optimised mode) are unchecked private inputs of the prover."
  },
  {
   "property": "C58",
   "status": "proved",
   "theorems": [
    "C58_reconstruction",
    "C58_honest_proof"
   ],
   "note": "All shares and q; a PUBLIC input on which the two parties disagree is modelled as an error."
  },
  {
   "property": "C59",
   "status": "proved",
   "theorems": [
    "C59_second_proof_fails",
    "C59_repeatable_refuted"
   ],
   "note": "The expectation is false: bn_pms is overwritten; fails for every honest session with different shares."
  },
  {
   "property": "C61",
   "status": "proved",
   "theorems": [
    "C61_proxy_key_schedule"
   ],
   "note": "All secrets, field sizes, seeds, transcripts."
  },
  {
   "property": "C62",
   "status": "proved",
   "theorems": [
    "C62_finished_before_expansion"
   ],
   "note": "Both modes, plain and extended master secret."
  },
  {
   "property": "C63",
   "status": "proved",
   "theorems": [
    "C63_master_key_twice",
    "C63_replaced_refuted"
   ],
   "note": "The expectation is false: the second result is appended."
  },
  {
   "property": "C36",
   "status": "proved",
   "theorems": [
    "C36_exchange",
    "C36_server_agrees",
    "C36_reveal",
    "C36_reveal_sound"
   ],
   "note": "Any commutative group whose generator is annihilated by the order; uniqueness of the revealed scalar modulo the order for a generator of exact order."
  },
  {
   "property": "C37",
   "status": "proved",
   "theorems": [
    "C37_complete",
    "C37_binding",
    "C37_sequence"
   ],
   "note": "All hash functions with 32-byte digests; binding is by an explicit collision."
  },
  {
   "property": "C38",
   "status": "proved",
   "theorems": [
    "C38_complete",
    "C38_homomorphic",
    "C38_extract",
    "C38_open_iff"
   ],
   "note": "Any group, any number of commitments."
  },
  {
   "property": "C39",
   "status": "proved",
   "theorems": [
    "C39_complete",
    "C39_verdict",
    "C39_opening_verdict",
    "C39_batch_size"
   ],
   "note": "Correlated randomness for the OLE is ideal; hash, PRG and correlation-robust hash arbitrary. C39_verdict characterises Pa's acceptance for arbitrary incoming bytes."
  },
  {
   "property": "C40",
   "status": "proved",
   "theorems": [
    "C40_comparison",
    "C40_binding_refuted"
   ],
   "note": "The expectation is false: strncmp stops at a zero byte common to both digests."
  },
  {
   "property": "C64",
   "status": "proved",
   "theorems": [
    "C64_full_handshake"
   ],
   "note": "All scalars with Ta not the identity and distinct x-coordinates of the partial points (otherwise the division of the share conversion has no inverse)."
  },
  {
   "property": "C65",
   "status": "proved",
   "theorems": [
    "C36_zero_scalar_refuted"
   ],
   "note": "The expectation is false for the zero scalar: one byte is sent and 65 are awaited."
  },
  {
   "property": "C43",
   "status": "proved",
   "theorems": [
    "C43_zero_test",
    "C43_any_prover",
    "C43_forging_needs_delta",
    "C43_public_data"
   ],
   "note": "All keys, Delta, wire values and batch sizes; soundness is by an explicit collision. The labels of public constants are assumed different with XOR different from Delta."
  },
  {
   "property": "C44",
   "status": "proved",
   "theorems": [
    "C44_covers_len_bytes",
    "C44_local_check_refuted"
   ],
   "note": "The expectation is false: memcmp compares len bytes, not len elements. The hash comparison still covers everything."
  },
  {
   "property": "C45",
   "status": "proved",
   "theorems": [
    "C45_block",
    "C45_bytes"
   ],
   "note": "All shares, keys and Delta."
  },
  {
   "property": "C46",
   "status": "proved",
   "theorems": [
    "C46_honest",
    "C46_first_in_first_out",
    "C46_last_record",
    "C46_no_record_left"
   ],
   "note": "On the shipped AES circuits; any sequence of records. prove_aead_last makes no check."
  },
  {
   "property": "C47",
   "status": "proved",
   "theorems": [
    "C47_second_proof",
    "C47_second_proof_refuted"
   ],
   "note": "The expectation is false: the stored wires of H are changed by the first proof object."
  },
  {
   "property": "C48",
   "status": "proved",
   "theorems": [
    "C48_finalize",
    "C48_session"
   ],
   "note": "All numbers of records; index errors are undefined behaviour in the model."
  },
  {
   "property": "C49",
   "status": "proved",
   "theorems": [
    "C49_constructor",
    "C49_public",
    "C49_private",
    "C49_lengths",
    "C49_nonce_length"
   ],
   "note": "On the shipped AES circuits; values only, the authenticity of the opened value is emp-zk's."
  },
  {
   "property": "C50",
   "status": "proved",
   "theorems": [
    "C50_public",
    "C50_private",
    "C50_iterations",
    "C50_block_position"
   ],
   "note": "All ids, masks and messages; message length equal to the number of set mask bytes."
  },
  {
   "property": "C51",
   "status": "proved",
   "theorems": [
    "C51_terminates_refuted",
    "C51_in_bounds_refuted",
    "C51_iterations",
    "C51_max_id"
   ],
   "note": "The expectation is false: repeated or decreasing ids need more than 2^64 iterations; a length mismatch overflows or reads uninitialised bytes."
  },
  {
   "property": "C52",
   "status": "proved",
   "theorems": [
    "C52_any_run_safe",
    "C52_sessions",
    "C52_active",
    "C52_first_failure",
    "C52_retry_leaks",
    "C52_misuse"
   ],
   "note": "All complete sessions of the three kinds; failing set-ups from program start at every failure point.  After an earlier session a failing set-up followed by finalize can free twice, see C53."
  },
  {
   "property": "C53",
   "status": "proved",
   "theorems": [
    "C53_refuted",
    "C53_twice",
    "C53_failed_resetup",
    "C53_proxy",
    "C53_proxy_reports"
   ],
   "note": "The expectation is false: a second finalize always frees again; a failed re-setup followed by finalize frees stale pointers at the failure points listed."
  },
  {
   "property": "C30",
   "status": "proved",
   "theorems": [
    "C30_same_circuit",
    "C30_online_values",
    "C30_precomputed_circuit_is_tls12",
    "C30_seed_length_refuted",
    "C30_other_seed_lengths_differ"
   ],
   "note": "Any session of handshake and record calls, any contents, both modes, gate by gate, in the standard mode for every seed length.  For the round-optimised mode the statement holds for the seed lengths of TLS 1.2 and is false for every other length of the randoms (refuted by a witness)."
  },
  {
   "property": "C57",
   "status": "proved",
   "theorems": [
    "C57_buffers",
    "C57_ole",
    "C57_e2f",
    "C57_key_agreement",
    "C57_aead"
   ],
   "note": "All schedules, including partial delivery of buffered bytes, for the semantics of NetIO stated in S_Sched.v; every AEAD session with at least one call after the constructor.  The messages of oblivious transfer, of Integer reveal and of emp-zk are not part of the exchanges (ideal)."
  },
  {
   "property": "C66",
   "status": "proved",
   "theorems": [
    "C66_points_waits",
    "C66_reveal_pms_waits",
    "C66_aead_constructor_waits",
    "C66_points_refuted",
    "C66_reveal_pms_refuted",
    "C66_aead_constructor_refuted"
   ],
   "note": "The expectation is false: these calls return with their last message still in the output buffer; the peer waits until a later call flushes.  With a flush added the exchange always completes."
  },
  {
   "property": "C67",
   "status": "proved",
   "theorems": [
    "C67_streaming",
    "C67_offline"
   ],
   "note": "Both garblers; the number of instructions is at most 2^63 so that the 64-bit gate counter does not wrap."
  },
  {
   "property": "C68",
   "status": "proved",
   "theorems": [
    "C68_session",
    "C68_records"
   ],
   "note": "Any number and order of record calls; the proof calls of each direction follow the order of its records.  Oblivious transfer and emp-zk are ideal."
  },
  {
   "property": "C69",
   "status": "proved",
   "theorems": [
    "C69_proves"
   ],
   "note": "Value-level statement about everything the prover can announce; the hash-collision alternative is that of C43.  The last server record is not checked against shares (prove_record_server_last makes no check)."
  },
  {
   "property": "C70",
   "status": "proved",
   "theorems": [
    "C70_empty_finished",
    "C70_finished_content_refuted"
   ],
   "note": "The expectation is false: in every session, empty Finished records with valid tags are accepted."
  },
  {
   "property": "C71",
   "status": "proved",
   "theorems": [
    "C71_unset_z0",
    "C71_unset_z0_refuted"
   ],
   "note": "The expectation is false: one unset z0 makes the call undefined, whatever the records."
  },
  {
   "property": "C72",
   "status": "proved",
   "theorems": [
    "C72_gcm_wires"
   ],
   "note": "Shipped AES circuits; any number and order of record calls, both modes, the seed lengths of TLS 1.2 in the round-optimised mode."
  },
  {
   "property": "C73",
   "status": "proved",
   "theorems": [
    "C73_bob_view"
   ],
   "note": "Both parties follow the protocol.  The garbled circuits and the OT extension are ideal: BOB's view is the bytes of the AEAD exchanges, the outputs of the random OTs and all fields.  r is taken nonzero, as drawn except with probability 2^-128; H is nonzero for both keys."
  },
  {
   "property": "C74",
   "status": "proved",
   "theorems": [
    "C74_alice_view"
   ],
   "note": "Same setting as C73; ALICE's random values are part of the run and unchanged."
  },
  {
   "property": "C75",
   "status": "proved",
   "theorems": [
    "C75_tag_from_views",
    "C75_reject_refuted"
   ],
   "note": "The expectation is false: the parties open their tag shares to each other before comparing, so both can compute the valid tag of the rejected ciphertext; two keys whose sessions reject with the same outputs never give the same exchanged bytes."
  },
  {
   "property": "C76",
   "status": "proved",
   "theorems": [
    "C76_bob_view",
    "C76_alice_view",
    "C76_share_of_masks",
    "C76_offline_shares"
   ],
   "note": "For triple shares of the peer that are uniform among the shares fitting the party's own ones with an invertible sum a; the code's masks are not uniform (C20, C77).  The two x-coordinates differ from the party's own, otherwise the code stops (C19)."
  },
  {
   "property": "C77",
   "status": "proved",
   "theorems": [
    "C77_seen",
    "C77_bob_excludes",
    "C77_alice_excludes",
    "C77_p256_refuted"
   ],
   "note": "The expectation is false: whatever the random values, the opened numbers exclude q - 2^(bl-1) values of the peer's x-coordinate; no choice of the peer's random values produces the same view from them."
  },
  {
   "property": "C78",
   "status": "proved",
   "theorems": [
    "C78_completes",
    "C78_challenge",
    "C78_unflushed",
    "C78_unflushed_refuted"
   ],
   "note": "The expectation is false without a flush: compute_com_recv returns with its last message in the output buffer and the key holder can wait for ever.  With a flush after it the exchange always completes.  The correlated OT of the OLE is ideal; hash, PRG and correlation-robust hash are arbitrary functions."
  },
  {
   "property": "C79",
   "status": "proved",
   "theorems": [
    "C79_hides_sender",
    "C79_hides_receiver"
   ],
   "note": "Both parties follow the protocol; BN_rand_range is taken uniform (the map is a bijection on the drawn numbers).  The generator is a multiple of h."
  },
  {
   "property": "C80",
   "status": "proved",
   "theorems": [
    "C80_combination",
    "C80_all_bits",
    "C80_accepted_safe_refuted"
   ],
   "note": "The expectation is false: a key holder that gives another number than its Delta to the OLE is accepted and learns the challenge combination of the committed numbers, with one chunk every bit.  The challenge of one chunk is taken nonzero (probability of zero about 1/order)."
  },
  {
   "property": "C81",
   "status": "proved",
   "theorems": [
    "C81_ole_hides_sender"
   ],
   "note": "The unknown points of the correlated OT are distinct and different from the known ones (they are distinct 128-bit strings in the code except with negligible probability)."
  },
  {
   "property": "C82",
   "status": "proved",
   "theorems": [
    "C82_hides",
    "C82_base_known",
    "C82_equivocates",
    "C82_binding_refuted"
   ],
   "note": "Hiding is proved; the expectation that commitments with the base of the test set-up bind is false.  The base is chosen by test code; no code of the library chooses one."
  },
  {
   "property": "C83",
   "status": "proved",
   "theorems": [
    "C83_evaluator_view",
    "C83_hash_kept",
    "C83_change_back"
   ],
   "note": "Two-phase backend, honest parties, ideal OT.  The fixed-key permutation is an arbitrary function that may be changed point by point (random-oracle argument without the probability that the points meet); the collision-free points are a hypothesis."
  },
  {
   "property": "C84",
   "status": "proved",
   "theorems": [
    "C84_garbler_view"
   ],
   "note": "Two-phase backend, honest parties; the OT hides the evaluator's choices by assumption."
  },
  {
   "property": "C85",
   "status": "proved",
   "theorems": [
    "C85_evaluator_view",
    "C85_change_back",
    "C83_hash_kept"
   ],
   "note": "Honest parties, ideal OT; same random-oracle argument as C83.  clean_run is the hypothesis of C26 (no accidental label); it is needed for the first run only."
  },
  {
   "property": "C86",
   "status": "proved",
   "theorems": [
    "C86_garbler_view"
   ],
   "note": "Honest parties, ideal OT (requests larger than the buffer are OT choices and are hidden by assumption).  clean_run is a hypothesis for both runs."
  },
  {
   "property": "C87",
   "status": "proved",
   "theorems": [
    "C87_session_labels",
    "C87_gcm_shares"
   ],
   "note": "Two-phase backend, honest parties, ideal OT.  The constants false and true are one pair of wires made first (public_label sends nothing and uses no counter)."
  },
  {
   "property": "C88",
   "status": "proved",
   "theorems": [
    "C88_session_opened",
    "C88_rounds_opened",
    "C88_handed_only_refuted"
   ],
   "note": "Gate-level model of the online classes, honest parties.  The expectation that only values handed to the caller are opened holds in rounds mode and is false without it (the inner HMAC state and A(i) are opened by design)."
  },
  {
   "property": "C89",
   "status": "proved",
   "theorems": [
    "C89_evaluator_session",
    "C89_garbler_session",
    "C89_evaluator_tls",
    "C89_garbler_tls",
    "C89_rounds_values",
    "C89_rounds_nothing",
    "C89_points_possible"
   ],
   "note": "Two-phase backend, honest parties, ideal OT, the random-oracle argument of C83; C89_points_possible shows that the hypotheses on the hashed points can be met for every circuit.  Key exchange and tag computation outside the circuit are C76 and C73."
  },
  {
   "property": "C90",
   "status": "proved",
   "theorems": [
    "C90_records",
    "C90_whole_session"
   ],
   "note": "Two-phase backend, honest parties, ideal OT.  The messages of the garbling are not interleaved with those of the records: the circuit is run first and the record programs work on its labels (the openings of a record come from the list of opened vectors).  The exchange of the key agreement and that of the records are interleaved each on its own."
  },
  {
   "property": "C91",
   "status": "proved",
   "theorems": [
    "C91_never_constant",
    "C91_shares",
    "C91_records",
    "C91_whole_session"
   ],
   "note": "Streaming backends as modelled for C26, honest parties, ideal OT.  The no-collision condition on labels (clean_run) is a hypothesis, as in C26; C91_clean_ex meets it on the circuit of the premaster addition, it is not evaluated on a whole session.  The messages of the garbling are not interleaved with those of the records."
  },
  {
   "property": "C92",
   "status": "proved",
   "theorems": [
    "C92_own_inputs",
    "C92_evaluator_session",
    "C92_garbler_session",
    "C92_evaluator_tls",
    "C92_garbler_tls"
   ],
   "note": "Streaming backends, honest parties, ideal OT, the random-oracle argument of C85.  The no-collision conditions (clean_run; for the garbler's view in both runs) are hypotheses and are not evaluated on a whole session."
  },
  {
   "property": "C93",
   "status": "proved",
   "theorems": [
    "C93_programs",
    "C93_pairing",
    "C93_evaluator",
    "C93_garbler",
    "C93_stream_evaluator",
    "C93_stream_garbler"
   ],
   "note": "Honest parties, ideal OT, the random-oracle argument of C83/C85 and the conditions of C73 (r and H nonzero).  The circuit is run first and the record programs work on its labels, as in C90.  The point conversion before the circuit is C76; C98 composes the two.  The examples meet the conditions on keys, calls and openings; the no-collision conditions on hashed points are met for every circuit by C89_points_possible (two-phase) and are not evaluated on a whole session (streaming)."
  },
  {
   "property": "C94",
   "status": "proved",
   "theorems": [
    "C94_one_digest",
    "C94_honest",
    "C94_session",
    "C94_proves"
   ],
   "note": "emp-zk itself is ideal: a wire carries a value under the verifier's key, different PUBLIC inputs of the two parties stop the run, and the final comparison of digests is emp-zk's.  What the prover can choose is the value-level announcement of C69.  The last server record is not checked against shares."
  },
  {
   "property": "C95",
   "status": "proved",
   "theorems": [
    "C95_changed_records",
    "C95_own_text_refuted"
   ],
   "note": "The expectation is false for records with secret content: the ciphertext (encrypt) and the share z_B (decrypt) that BOB sends are not tied to BOB's labels, and the tag covers the ciphertext only.  For records with public content it is proved against every process.  The garbling itself is run honestly; two-phase backend.  The later proof phase shows the plaintext under the ciphertext sent (C69), not ALICE's message."
  },
  {
   "property": "C96",
   "status": "proved",
   "theorems": [
    "C96_view",
    "C96_enter",
    "C96_opened",
    "C96_forge",
    "C96_forge_refuted"
   ],
   "note": "emp-zk is ideal: the messages by which it authenticates inputs and multiplies are not modelled, a wire is the prover's block and the verifier's key, and the keys are arbitrary.  The values the handshake comparisons are made with are public (opened in the session).  The expectation that the connection stays usable after finalize_check is false (C96_forge_refuted); nothing in the code forbids further records on the connection."
  },
  {
   "property": "C97",
   "status": "proved",
   "theorems": [
    "C97_rotations",
    "C97_value"
   ],
   "note": "Amounts above the width are outside the statement (the shift count size - sht would be negative)."
  },
  {
   "property": "C98",
   "status": "proved",
   "theorems": [
    "C98_bob",
    "C98_alice"
   ],
   "note": "Composition of C76 and C93.  It inherits their assumptions: honest parties, ideal OT, the random-oracle argument of C83/C85, r and H nonzero, and triple shares uniform among those that fit (C77 shows that the masks the code draws are not).  The exchange of public keys before the conversion is not part of the view: ALICE has seen the peer's public key there, which fixes the peer's point."
  },
  {
   "property": "C99",
   "status": "proved",
   "theorems": [
    "C99_field",
    "C99_order",
    "C99_conversion"
   ],
   "note": "Pocklington certificates checked by computation; Fermat's little theorem and the criterion are proved in P_Prime256.  That OpenSSL's NID_X9_62_prime256v1 has these two numbers is taken from the standard (SEC 2)."
  },
  {
   "property": "C100",
   "status": "proved",
   "theorems": [
    "C100_streaming",
    "C100_two_phase",
    "C100_streaming_unflushed",
    "C100_two_phase_unflushed",
    "C100_alone_refuted"
   ],
   "note": "The expectation that a circuit alone completes is false: every circuit that ends with a PUBLIC opening can leave ALICE waiting until the evaluator flushes.  With a flush it is proved.  The messages inside the OT (ideal) and the seed of shared_prg are not part of the exchange."
  },
  {
   "property": "C101",
   "status": "proved",
   "theorems": [
    "C101_streaming",
    "C101_two_phase"
   ],
   "note": "Joins C90/C91 with C100.  The requests of the circuit are given in advance (openings used later as constants are already in place); C104 does without.  OT traffic and the key agreement before the circuit are not part of this exchange (for the latter see C64 and C90_whole_session)."
  },
  {
   "property": "C102",
   "status": "proved",
   "theorems": [
    "C102_mac_holder",
    "C102_key_holder",
    "C102_reveal"
   ],
   "note": "The programs of C78 and C66 run on arbitrary incoming bytes; the digests of the MAC holder are compared with strncmp, hence only up to a common zero byte (C40).  The key holder uses memcmp."
  },
  {
   "property": "C103",
   "status": "proved",
   "theorems": [
    "C103_requests",
    "C103_honest",
    "C103_gen",
    "C103_eva",
    "C103_ngen",
    "C103_neva"
   ],
   "note": "Requests are those of M_SymOn (handshake calls from the shares of the pre-master secret on, AEAD constructors and records); a feed of the peer is known up to its bits."
  },
  {
   "property": "C104",
   "status": "proved",
   "theorems": [
    "C104_streaming",
    "C104_two_phase",
    "C104_streaming_any",
    "C104_two_phase_any",
    "C104_own"
   ],
   "note": "Extends C101 by C103.  The strings of the random OTs are shared inputs (the library's).  A party finds its next request by running the calls again with the values opened so far; the code continues where it is."
  },
  {
   "property": "C105",
   "status": "proved",
   "theorems": [
    "C105_whole_run",
    "C105_abort"
   ],
   "note": "Joins C66 and C104 in one pair of programs, on the two-phase backend only: for the streaming backend the no-collision condition of C26 would be needed for every share a deviating peer might cause.  Without the conditions both parties stop with an error in the conversion (C105_abort).  The setup of the connection, the traffic inside the OT and the zero-knowledge part after the records are not part of the exchange."
  },
  {
   "property": "C106",
   "status": "proved",
   "theorems": [
    "C106_only_overrun",
    "C106_bob_refuted",
    "C106_alice_refuted"
   ],
   "note": "The expectation that no peer can cause undefined behaviour is false: both parties are led to the overrun of C42.  Proved: over the whole run it is the only way, for any bytes received.  Two-phase backend; what the model counts as undefined is listed in DESIGN.md, and the libraries' own traffic is not part of the exchange."
  },
  {
   "property": "C107",
   "status": "proved",
   "theorems": [
    "C107_only_overrun",
    "C107_overrun_refuted"
   ],
   "note": "The expectation that no peer can cause undefined behaviour is false: the party receiving in the OLE is led to the overrun of C42.  Proved: it is the only way, for any bytes received, if the vectors have the sizes the caller must give them."
  },
  {
   "property": "C108",
   "status": "proved",
   "theorems": [
    "C108_accepted",
    "C108_sessions",
    "C108_runs"
   ],
   "note": "C95 for the whole run and either party, with the position of the opening made explicit.  That the share itself cannot be guessed is a matter of its distribution (C83, C85) and not part of this statement; the digest is an arbitrary function."
  },
  {
   "property": "C109",
   "status": "proved",
   "theorems": [
    "C109_tag",
    "C109_chosen",
    "C109_tag_refuted"
   ],
   "note": "The expectation that a peer cannot choose the tag of an encrypted record is false: C109_chosen gives the share to send, for every run whose last call is an encryption, and C109_tag_refuted a concrete run.  Proved: the tag depends on nothing but the two shares.  Whether the tag sent to the server would be accepted there is outside the run."
  }
 ]
}