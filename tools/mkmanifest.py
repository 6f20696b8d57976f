import json
P={}
def p(id,status,thms,note): P[id]=(status,thms,note)
p("C20","proved",["C20_sha256_any_chunking"],"any chunking, any prior context, both byte orders")
p("C21","proved",["C21_sha512_any_chunking"],"messages below 2^64 bits (the code's counter width)")
p("C22","proved",["C22_shake256_any_chunking"],"")
p("C25","proved",["C25_permutation_is_keccak_p","C25_all_implementations_agree"],"")
p("C23","proved",["C23_sha256_truncation","C23_sha512_truncation"],"")
p("C27","proved",["C27_read_big_endian","C27_write_big_endian","C27_write_then_read","C27_read_then_write"],"")
p("C01","proved",["C01_signatures_verify"],"key generation, signing and verification may each run under a different configuration")
p("C02","proved",["C02_signature_is_FIPS205"],"")
p("C03","proved",["C03_chunking"],"")
p("C04","proved",["C04_return_values","C04_end_of_stream"],"")
p("C05","proved",["C05_accepts_exactly_FIPS205"],"")
p("C06","proved",["C06_chunking"],"")
p("C07","proved",["C07_truncated"],"")
p("C08","proved",["C08_trailing_bytes"],"")
p("C09","proved",["C09_failure_is_final"],"")
p("C10","proved",["C10_update_results"],"")
p("C11","proved",["C11_keygen_is_FIPS205"],"")
p("C12","proved",["C12_keygen_failure"],"")
p("C13","proved",["C13_any_previous_contents","C13_reuse"],"")
p("C14","proved",["C14_C15_every_history_is_defined","C12_keygen_failure"],"Ok excludes UB; the model's Ok/UB covers array bounds, unreadable memory, reads of uninitialised local arrays, shifts, overflow")
p("C15","proved",["C14_C15_every_history_is_defined","C12_keygen_failure"],"loops are modelled with fuel whose exhaustion is UB, so Ok gives termination")
p("C16","proved",["C16_sign_on_verify_context","C16_verify_on_sign_context"],"")
p("C17","proved",["C17_only_public_data"],"")
p("C18","proved",["C18_sign_needs_only_the_private_key","C18_verify_needs_message_once"],"")
p("C19","proved",["C19_fallback","C19_only_the_delivered_bytes"],"")
p("C24","proved",["C24_midstate_optimisation","C24_keygen"],"")
p("C26","proved",["C26_configurations_agree","C26_keygen_agrees"],"the two configurations may differ in every switch, in byte order, in pointer size (4 or 8) and in the alignment of uint64_t")
p("C36","proved",["C36_as_if_alone","C36_any_interleaving"],"")
p("C32","proved",["C32_published_parameters","C32_functions","C32_consistent","C32_lengths"],"finite tables, with every configuration")
p("C34","proved",["C34_documented_sizes","C34_bounds","C34_members_fit","C34_cost_of_sha2_optimisation","C34_less_support_less_memory","C14_C15_every_history_is_defined"],"context size in the x86-64 layout of ramspace.out, and bounds for 32-bit layouts; every operation keeps the array sizes; automatic storage is C52")
p("C29","proved",["C29_digest_split"],"")
p("C30","proved",["C30_digits","C30_incomparable"],"")
p("C31","proved",["C31_fors_path","C31_merkle_path"],"the two leaf functions the library uses")
p("C33","proved",["C33_PRF_msg","C33_H_msg","C33_PRF","C33_F","C33_T","C33_H_is_T2"],"messages below 2^60 bytes")
p("C28","proved",["C28_addresses_separate","C28_only_these_uses","C28_setters"],"C28_only_these_uses is about the specification the code is proved equal to (C02, C05, C11)")
p("C35","proved",["C35_same_digest","C35_same_randomiser","C35_against_signed","C35_inputs_in_range","C35_inputs_complete","C35_not_vacuous"],"the colliding strings are among those hashed when verifying the two signatures")
p("C37","proved",["C37_what_one_time_keys_sign","C37_one_time_keys_sign_once"],"")
p("C38","proved",["C38_what_few_time_keys_reveal","C38_same_leaf_same_part","C38_determined_by_the_digest"],"")
p("C39","proved",["C39_copies","C39_going_back","C39_both_copies_finish_the_signature"],"struct assignment of a context is copying of the model's record: no member points into the context")
p("C40","proved",["C40_signing_reads_the_key_per_block","C40_the_private_key_may_go","C40_verification_reads_the_key_per_block"],"")
p("C41","proved",["C41_requests","C41_histories","C41_randomness_of_a_signature","C41_stream"],"")
p("C42","proved",["C42_what_a_forgery_implies","C42_nothing_signed","C42_cases_occur"],"a statement about what is in the strings, not about probabilities or running times")
p("C43","proved",["C43_keygen_shows_nothing"],"the trace covers branches, array positions, addresses of caller memory, non-constant shift counts and indirect calls; not variable-latency arithmetic; verification handles public data only")
p("C44","proved",["C44_init_sign_shows_nothing"],"as C43")
p("C45","proved",["C45_signing_shows_only_the_public_view","C45_public_data_fix_the_trace","C45_each_request"],"as C43")
p("C46","proved",["C46_keygen_work","C46_keygen_refused","C46_signing_work","C46_signature_work","C46_each_request_work","C46_verification_work","C46_whole_verification_work"],"calls counted in the traces of the watched program, whose outcome is that of the model; the closed formulas are in SpecWork.v")
p("C47","proved",["C47_same_rest","C47_altered","C47_selects_decides","C47_sessions_exist"],"the converse of C35: same rest, different randomiser or message; the excepted cases are defined in SpecBinding.v")
p("C48","proved",["C48_do_test","C48_failure_excused","C48_test_verify","C48_test_verify_excused","C48_run_sign","C48_get_sig_space","C48_get_ver_space","C48_run_keygen"],"what the programs print, and the measurement of the stack itself, are not modelled")
p("C49","proved",["C49_test_sha512","C49_run_sha512","C49_test_shake","C49_run_shake","C49_lookup","C49_vector","C49_unknown_name","C49_test_testvector","C49_sha512_table","C49_shake_table","C49_testvector_table"],"that FIPS 205 has the answers of testvector.h is not proved in Coq (it would take hours in the kernel); tools/kat.sh runs the extracted model on them")
p("C50","proved",["C50_exit_status","C50_program","C50_hash_tests"],"for any test routines that end; then with the modelled ones (C48, C49)")
p("C51","proved",["C51_keygen_runs","C51_keygen_refused","C51_signing_runs","C51_signature_runs","C51_each_request_runs","C51_verification_runs","C51_whole_verification_runs","C51_optimisation_halves_keygen","C51_optimisation_halves_signing","C51_shake_no_speedup"],"runs counted in the traces of the watched program, whose outcome is that of the model; the closed formulas are in SpecBlocks.v")
p("C52","proved",["C52_one_call","C52_every_history","C52_signing","C52_verification","C52_keygen","C52_constant","C52_one_kilobyte","C52_documented","C52_shake_option","C52_sha2_optimisation","C52_advice","C52_less_support_less_memory"],"declared sizes of parameters and automatic variables, those of inner blocks counted for the whole call; what a compiler adds (return addresses, saved registers, padding, temporaries) or keeps in registers, the C library and the caller's random function are outside; the outcome of the measured program is that of the model")
p("C53","proved",["C53_finished_signing_residue","C53_buffer_is_PK_root","C53_same_for_every_message"],"iterators read as the hash object they store (padding bytes of the object and the slack of the union are not covered), scratch area: its first n bytes; nothing is claimed about a context in the middle of a signature, nor about the stack")
p("C54","proved",["C54_every_history","C54_writes_nothing_else","C54_destination_may_overlap_the_message","C54_round_trip","C54_public_key_inside_the_private_key"],"contexts are objects of their own, outside the address space of the buffers; ts_update_verify's chunk is read at the start of the call (nothing is written to memory during it)")
p("C55","proved",["C55_signing_latency","C55_signing_latency_reached","C55_verification_latency"],"time is counted in runs of the hash primitives (weighted), as in C51; ts_init_sign and ts_gen_key are not streamed (C51 has their figures)")
p("C56","proved",["C56_session_with_a_changing_private_key","C56_as_many_bytes_as_ever"],"the key changes between calls, not during one (a call is atomic in the model); some bytes have to be readable at its address")
p("C57","proved",["C57_session_with_a_changing_public_key","C57_never_accepts_a_wrong_length"],"the bytes change between calls, not during one (a call is atomic in the model); some bytes have to be readable at the addresses")
p("C58","proved",["C58_signing_needs_these_parts","C58_verification_needs_these_parts"],"PK.root is asked for in every call that reaches or passes the end of the signature; the code does not read it if bytes follow")
p("C59","proved",["C59_measurement","C59_no_more_than_used","C59_ramspace","C59_cannot_open","C59_no_argument","C59_table"],"assumes what stack.c assumes: that both arrays and the storage of the routine lie in the same place")
p("C60","proved",["C60_self_check","C60_generated_keys","C60_damage"],"")
json.dump({"claims":[{"property":k,"status":v[0],"theorems":v[1],"note":v[2]} for k,v in sorted(P.items())]},open("/verif/MANIFEST.json","w"),indent=1)
