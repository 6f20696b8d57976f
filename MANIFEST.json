{
 "claims": [
  {
   "property": "C01",
   "status": "proved",
   "theorems": [
    "C01_signatures_verify"
   ],
   "note": "key generation, signing and verification may each run under a different configuration"
  },
  {
   "property": "C02",
   "status": "proved",
   "theorems": [
    "C02_signature_is_FIPS205"
   ],
   "note": ""
  },
  {
   "property": "C03",
   "status": "proved",
   "theorems": [
    "C03_chunking"
   ],
   "note": ""
  },
  {
   "property": "C04",
   "status": "proved",
   "theorems": [
    "C04_return_values",
    "C04_end_of_stream"
   ],
   "note": ""
  },
  {
   "property": "C05",
   "status": "proved",
   "theorems": [
    "C05_accepts_exactly_FIPS205"
   ],
   "note": ""
  },
  {
   "property": "C06",
   "status": "proved",
   "theorems": [
    "C06_chunking"
   ],
   "note": ""
  },
  {
   "property": "C07",
   "status": "proved",
   "theorems": [
    "C07_truncated"
   ],
   "note": ""
  },
  {
   "property": "C08",
   "status": "proved",
   "theorems": [
    "C08_trailing_bytes"
   ],
   "note": ""
  },
  {
   "property": "C09",
   "status": "proved",
   "theorems": [
    "C09_failure_is_final"
   ],
   "note": ""
  },
  {
   "property": "C10",
   "status": "proved",
   "theorems": [
    "C10_update_results"
   ],
   "note": ""
  },
  {
   "property": "C11",
   "status": "proved",
   "theorems": [
    "C11_keygen_is_FIPS205"
   ],
   "note": ""
  },
  {
   "property": "C12",
   "status": "proved",
   "theorems": [
    "C12_keygen_failure"
   ],
   "note": ""
  },
  {
   "property": "C13",
   "status": "proved",
   "theorems": [
    "C13_any_previous_contents",
    "C13_reuse"
   ],
   "note": ""
  },
  {
   "property": "C14",
   "status": "proved",
   "theorems": [
    "C14_C15_every_history_is_defined",
    "C12_keygen_failure"
   ],
   "note": "Ok excludes UB; the model's Ok/UB covers array bounds, unreadable memory, reads of uninitialised local arrays, shifts, overflow"
  },
  {
   "property": "C15",
   "status": "proved",
   "theorems": [
    "C14_C15_every_history_is_defined",
    "C12_keygen_failure"
   ],
   "note": "loops are modelled with fuel whose exhaustion is UB, so Ok gives termination"
  },
  {
   "property": "C16",
   "status": "proved",
   "theorems": [
    "C16_sign_on_verify_context",
    "C16_verify_on_sign_context"
   ],
   "note": ""
  },
  {
   "property": "C17",
   "status": "proved",
   "theorems": [
    "C17_only_public_data"
   ],
   "note": ""
  },
  {
   "property": "C18",
   "status": "proved",
   "theorems": [
    "C18_sign_needs_only_the_private_key",
    "C18_verify_needs_message_once"
   ],
   "note": ""
  },
  {
   "property": "C19",
   "status": "proved",
   "theorems": [
    "C19_fallback",
    "C19_only_the_delivered_bytes"
   ],
   "note": ""
  },
  {
   "property": "C20",
   "status": "proved",
   "theorems": [
    "C20_sha256_any_chunking"
   ],
   "note": "any chunking, any prior context, both byte orders"
  },
  {
   "property": "C21",
   "status": "proved",
   "theorems": [
    "C21_sha512_any_chunking"
   ],
   "note": "messages below 2^64 bits (the code's counter width)"
  },
  {
   "property": "C22",
   "status": "proved",
   "theorems": [
    "C22_shake256_any_chunking"
   ],
   "note": ""
  },
  {
   "property": "C23",
   "status": "proved",
   "theorems": [
    "C23_sha256_truncation",
    "C23_sha512_truncation"
   ],
   "note": ""
  },
  {
   "property": "C24",
   "status": "proved",
   "theorems": [
    "C24_midstate_optimisation",
    "C24_keygen"
   ],
   "note": ""
  },
  {
   "property": "C25",
   "status": "proved",
   "theorems": [
    "C25_permutation_is_keccak_p",
    "C25_all_implementations_agree"
   ],
   "note": ""
  },
  {
   "property": "C26",
   "status": "proved",
   "theorems": [
    "C26_configurations_agree",
    "C26_keygen_agrees"
   ],
   "note": "the two configurations may differ in every switch, in byte order, in pointer size (4 or 8) and in the alignment of uint64_t"
  },
  {
   "property": "C27",
   "status": "proved",
   "theorems": [
    "C27_read_big_endian",
    "C27_write_big_endian",
    "C27_write_then_read",
    "C27_read_then_write"
   ],
   "note": ""
  },
  {
   "property": "C28",
   "status": "proved",
   "theorems": [
    "C28_addresses_separate",
    "C28_only_these_uses",
    "C28_setters"
   ],
   "note": "C28_only_these_uses is about the specification the code is proved equal to (C02, C05, C11)"
  },
  {
   "property": "C29",
   "status": "proved",
   "theorems": [
    "C29_digest_split"
   ],
   "note": ""
  },
  {
   "property": "C30",
   "status": "proved",
   "theorems": [
    "C30_digits",
    "C30_incomparable"
   ],
   "note": ""
  },
  {
   "property": "C31",
   "status": "proved",
   "theorems": [
    "C31_fors_path",
    "C31_merkle_path"
   ],
   "note": "the two leaf functions the library uses"
  },
  {
   "property": "C32",
   "status": "proved",
   "theorems": [
    "C32_published_parameters",
    "C32_functions",
    "C32_consistent",
    "C32_lengths"
   ],
   "note": "finite tables, with every configuration"
  },
  {
   "property": "C33",
   "status": "proved",
   "theorems": [
    "C33_PRF_msg",
    "C33_H_msg",
    "C33_PRF",
    "C33_F",
    "C33_T",
    "C33_H_is_T2"
   ],
   "note": "messages below 2^60 bytes"
  },
  {
   "property": "C34",
   "status": "proved",
   "theorems": [
    "C34_documented_sizes",
    "C34_bounds",
    "C34_members_fit",
    "C34_cost_of_sha2_optimisation",
    "C34_less_support_less_memory",
    "C14_C15_every_history_is_defined"
   ],
   "note": "context size in the x86-64 layout of ramspace.out, and bounds for 32-bit layouts; every operation keeps the array sizes; automatic storage is C52"
  },
  {
   "property": "C35",
   "status": "proved",
   "theorems": [
    "C35_same_digest",
    "C35_same_randomiser",
    "C35_against_signed",
    "C35_inputs_in_range",
    "C35_inputs_complete",
    "C35_not_vacuous"
   ],
   "note": "the colliding strings are among those hashed when verifying the two signatures"
  },
  {
   "property": "C36",
   "status": "proved",
   "theorems": [
    "C36_as_if_alone",
    "C36_any_interleaving"
   ],
   "note": ""
  },
  {
   "property": "C37",
   "status": "proved",
   "theorems": [
    "C37_what_one_time_keys_sign",
    "C37_one_time_keys_sign_once"
   ],
   "note": ""
  },
  {
   "property": "C38",
   "status": "proved",
   "theorems": [
    "C38_what_few_time_keys_reveal",
    "C38_same_leaf_same_part",
    "C38_determined_by_the_digest"
   ],
   "note": ""
  },
  {
   "property": "C39",
   "status": "proved",
   "theorems": [
    "C39_copies",
    "C39_going_back",
    "C39_both_copies_finish_the_signature"
   ],
   "note": "struct assignment of a context is copying of the model's record: no member points into the context"
  },
  {
   "property": "C40",
   "status": "proved",
   "theorems": [
    "C40_signing_reads_the_key_per_block",
    "C40_the_private_key_may_go",
    "C40_verification_reads_the_key_per_block"
   ],
   "note": ""
  },
  {
   "property": "C41",
   "status": "proved",
   "theorems": [
    "C41_requests",
    "C41_histories",
    "C41_randomness_of_a_signature",
    "C41_stream"
   ],
   "note": ""
  },
  {
   "property": "C42",
   "status": "proved",
   "theorems": [
    "C42_what_a_forgery_implies",
    "C42_nothing_signed",
    "C42_cases_occur"
   ],
   "note": "a statement about what is in the strings, not about probabilities or running times"
  },
  {
   "property": "C43",
   "status": "proved",
   "theorems": [
    "C43_keygen_shows_nothing"
   ],
   "note": "the trace covers branches, array positions, addresses of caller memory, non-constant shift counts and indirect calls; not variable-latency arithmetic; verification handles public data only"
  },
  {
   "property": "C44",
   "status": "proved",
   "theorems": [
    "C44_init_sign_shows_nothing"
   ],
   "note": "as C43"
  },
  {
   "property": "C45",
   "status": "proved",
   "theorems": [
    "C45_signing_shows_only_the_public_view",
    "C45_public_data_fix_the_trace",
    "C45_each_request"
   ],
   "note": "as C43"
  },
  {
   "property": "C46",
   "status": "proved",
   "theorems": [
    "C46_keygen_work",
    "C46_keygen_refused",
    "C46_signing_work",
    "C46_signature_work",
    "C46_each_request_work",
    "C46_verification_work",
    "C46_whole_verification_work"
   ],
   "note": "calls counted in the traces of the watched program, whose outcome is that of the model; the closed formulas are in SpecWork.v"
  },
  {
   "property": "C47",
   "status": "proved",
   "theorems": [
    "C47_same_rest",
    "C47_altered",
    "C47_selects_decides",
    "C47_sessions_exist"
   ],
   "note": "the converse of C35: same rest, different randomiser or message; the excepted cases are defined in SpecBinding.v"
  },
  {
   "property": "C48",
   "status": "proved",
   "theorems": [
    "C48_do_test",
    "C48_failure_excused",
    "C48_test_verify",
    "C48_test_verify_excused",
    "C48_run_sign",
    "C48_get_sig_space",
    "C48_get_ver_space",
    "C48_run_keygen"
   ],
   "note": "what the programs print, and the measurement of the stack itself, are not modelled"
  },
  {
   "property": "C49",
   "status": "proved",
   "theorems": [
    "C49_test_sha512",
    "C49_run_sha512",
    "C49_test_shake",
    "C49_run_shake",
    "C49_lookup",
    "C49_vector",
    "C49_unknown_name",
    "C49_test_testvector",
    "C49_sha512_table",
    "C49_shake_table",
    "C49_testvector_table"
   ],
   "note": "that FIPS 205 has the answers of testvector.h is not proved in Coq (it would take hours in the kernel); tools/kat.sh runs the extracted model on them"
  },
  {
   "property": "C50",
   "status": "proved",
   "theorems": [
    "C50_exit_status",
    "C50_program",
    "C50_hash_tests"
   ],
   "note": "for any test routines that end; then with the modelled ones (C48, C49)"
  },
  {
   "property": "C51",
   "status": "proved",
   "theorems": [
    "C51_keygen_runs",
    "C51_keygen_refused",
    "C51_signing_runs",
    "C51_signature_runs",
    "C51_each_request_runs",
    "C51_verification_runs",
    "C51_whole_verification_runs",
    "C51_optimisation_halves_keygen",
    "C51_optimisation_halves_signing",
    "C51_shake_no_speedup"
   ],
   "note": "runs counted in the traces of the watched program, whose outcome is that of the model; the closed formulas are in SpecBlocks.v"
  },
  {
   "property": "C52",
   "status": "proved",
   "theorems": [
    "C52_one_call",
    "C52_every_history",
    "C52_signing",
    "C52_verification",
    "C52_keygen",
    "C52_constant",
    "C52_one_kilobyte",
    "C52_documented",
    "C52_shake_option",
    "C52_sha2_optimisation",
    "C52_advice",
    "C52_less_support_less_memory"
   ],
   "note": "declared sizes of parameters and automatic variables, those of inner blocks counted for the whole call; what a compiler adds (return addresses, saved registers, padding, temporaries) or keeps in registers, the C library and the caller's random function are outside; the outcome of the measured program is that of the model"
  },
  {
   "property": "C53",
   "status": "proved",
   "theorems": [
    "C53_finished_signing_residue",
    "C53_buffer_is_PK_root",
    "C53_same_for_every_message"
   ],
   "note": "iterators read as the hash object they store (padding bytes of the object and the slack of the union are not covered), scratch area: its first n bytes; nothing is claimed about a context in the middle of a signature, nor about the stack"
  },
  {
   "property": "C54",
   "status": "proved",
   "theorems": [
    "C54_every_history",
    "C54_writes_nothing_else",
    "C54_destination_may_overlap_the_message",
    "C54_round_trip",
    "C54_public_key_inside_the_private_key"
   ],
   "note": "contexts are objects of their own, outside the address space of the buffers; ts_update_verify's chunk is read at the start of the call (nothing is written to memory during it)"
  },
  {
   "property": "C55",
   "status": "proved",
   "theorems": [
    "C55_signing_latency",
    "C55_signing_latency_reached",
    "C55_verification_latency"
   ],
   "note": "time is counted in runs of the hash primitives (weighted), as in C51; ts_init_sign and ts_gen_key are not streamed (C51 has their figures)"
  },
  {
   "property": "C56",
   "status": "proved",
   "theorems": [
    "C56_session_with_a_changing_private_key",
    "C56_as_many_bytes_as_ever"
   ],
   "note": "the key changes between calls, not during one (a call is atomic in the model); some bytes have to be readable at its address"
  },
  {
   "property": "C57",
   "status": "proved",
   "theorems": [
    "C57_session_with_a_changing_public_key",
    "C57_never_accepts_a_wrong_length"
   ],
   "note": "the bytes change between calls, not during one (a call is atomic in the model); some bytes have to be readable at the addresses"
  },
  {
   "property": "C58",
   "status": "proved",
   "theorems": [
    "C58_signing_needs_these_parts",
    "C58_verification_needs_these_parts"
   ],
   "note": "PK.root is asked for in every call that reaches or passes the end of the signature; the code does not read it if bytes follow"
  },
  {
   "property": "C59",
   "status": "proved",
   "theorems": [
    "C59_measurement",
    "C59_no_more_than_used",
    "C59_ramspace",
    "C59_cannot_open",
    "C59_no_argument",
    "C59_table"
   ],
   "note": "assumes what stack.c assumes: that both arrays and the storage of the routine lie in the same place"
  },
  {
   "property": "C60",
   "status": "proved",
   "theorems": [
    "C60_self_check",
    "C60_generated_keys",
    "C60_damage"
   ],
   "note": ""
  }
 ]
}