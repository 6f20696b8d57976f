{"id": "C01", "title": "Every signature produced verifies", "statement": "If ts_gen_key succeeds and a signature is produced by ts_init_sign followed by ts_sign calls of any sizes until the signature ends, then feeding exactly those bytes to a verify context (ts_init_verify with the same message, parameter set and generated public key), in pieces of any sizes, makes every ts_update_verify return 1 and ts_verify return 1.", "quantifier": "all 12 parameter sets, all tune.h configurations enabling them, all seeds, all messages below the hash length limit, all random functions (absent, failing, succeeding), all chunkings on both sides, any prior contents of both contexts", "why_tests_cant": "A test signs a handful of messages with a handful of keys and chunk sizes; the claim ranges over 2^(8*3n) keys, all messages and all chunkings.", "anchors": ["tiny_sphincs.c: ts_init_sign, ts_sign", "verify.c: ts_init_verify, ts_update_verify, ts_verify", "key_gen.c: ts_gen_key"]}
{"id": "C02", "title": "The signature is the SPHINCS+ (FIPS 205 'internal') signature", "statement": "The bytes produced by ts_init_sign/ts_sign are exactly slh_sign_internal(M, SK, addrnd) of the published algorithm for that parameter set, with addrnd the random function's output, or PK.seed when there is none or it fails.", "quantifier": "all parameter sets, private keys, messages, random functions, configurations", "why_tests_cant": "test_testvector.c compares one hash of one signature per parameter set; one key, one message.", "anchors": ["tiny_sphincs.c: ts_init_sign, ts_sign, ts_merkle_path, ts_wots_leaf, compute_wots_digits", "read.me lines 14-18"]}
{"id": "C03", "title": "Signing is independent of how the output is chunked", "statement": "For any two sequences of ts_sign request sizes, the concatenated outputs are both prefixes of one and the same signature; asking for a total of T bytes yields exactly its first min(T, size) bytes.", "quantifier": "all sequences of request sizes (including 0 and sizes beyond the end)", "why_tests_cant": "There are unboundedly many chunkings; tests use 42 and len+1.", "anchors": ["tiny_sphincs.c: ts_sign"]}
{"id": "C04", "title": "Signature length, return values and end of stream", "statement": "ts_sign(dest, m) returns min(m, bytes remaining), writes exactly that many bytes at the start of dest and leaves the rest of dest unchanged; the total over any call sequence never exceeds ts_size_signature(ps) and reaches it if enough is requested; after that every call returns 0 and writes nothing.", "quantifier": "all request sequences, all parameter sets", "why_tests_cant": "Only a few request sequences can be run.", "anchors": ["tiny_sphincs.c: ts_sign", "size.c: ts_size_signature"]}
{"id": "C05", "title": "Verification accepts exactly the valid SPHINCS+ signatures", "statement": "ts_verify returns 1 after the bytes S have been fed if and only if S has length ts_size_signature(ps) and slh_verify_internal(M, S, PK) of the published algorithm accepts.", "quantifier": "all byte strings S, of every length, all messages, all public keys, all parameter sets and configurations", "why_tests_cant": "test_verify.c flips bits of one signature; it cannot try all strings.", "anchors": ["verify.c: ts_update_verify, next_auth_path, ts_verify, my_memcmp"]}
{"id": "C06", "title": "Verification verdict is independent of chunking", "statement": "The result of ts_verify depends only on the concatenation of the chunks given to ts_update_verify, not on where it was cut, including empty chunks.", "quantifier": "all pairs of chunkings of the same byte string", "why_tests_cant": "Unboundedly many chunkings.", "anchors": ["verify.c: ts_update_verify, ts_verify"]}
{"id": "C07", "title": "Truncated signatures are never accepted", "statement": "If fewer than ts_size_signature(ps) bytes have been fed in total, ts_verify returns 0 (and every ts_update_verify so far returned 1).", "quantifier": "all byte strings shorter than the signature size, all chunkings", "why_tests_cant": "test tries one truncation.", "anchors": ["verify.c: ts_update_verify, ts_verify"]}
{"id": "C08", "title": "Trailing bytes are never accepted", "statement": "If more than ts_size_signature(ps) bytes have been fed in total, ts_verify returns 0, no matter whether the extra bytes came in the same call or in later calls, even if the first part is a valid signature.", "quantifier": "all over-long strings, all chunkings, including an extra chunk after success", "why_tests_cant": "test tries one extra byte in one call; the dangerous cases are extra bytes in later calls in numbers that wrap the block buffer.", "anchors": ["verify.c: ts_update_verify lines 104-124, 216-234, ts_verify"]}
{"id": "C09", "title": "Failure is final", "statement": "Once ts_update_verify has returned 0 on a context, every later ts_update_verify returns 0 and ts_verify returns 0, whatever is fed, until the context is initialised again; so ignoring intermediate failures is safe and aborting early is sound.", "quantifier": "all verify histories and all continuations", "why_tests_cant": "Quantifies over all continuations.", "anchors": ["verify.c: ts_update_verify, ts_verify", "read.me Step 3"]}
{"id": "C10", "title": "Meaning of ts_update_verify's result", "statement": "ts_update_verify returns 1 for every chunk as long as the bytes fed so far are a proper prefix in length of a signature; in the call that reaches the exact end it returns 1 iff the signature is valid and 0 otherwise; a call that passes the end returns 0; after the end of a valid signature further calls return 1 while fewer than n further bytes have come (ts_verify then returns 0 nevertheless, see C08) and 0 from then on; after a 0 always 0.", "quantifier": "all byte strings and chunkings", "why_tests_cant": "Unbounded.", "anchors": ["verify.c: ts_update_verify"]}
{"id": "C11", "title": "Key generation produces the SPHINCS+ key pair", "statement": "When ts_gen_key returns 1 the private key is SK.seed || SK.prf || PK.seed || PK.root with the first 3n bytes those returned by the random function and PK.root the root of the top XMSS tree of slh_keygen_internal; the public key, if asked for, is PK.seed || PK.root, i.e. the last 2n bytes of the private key; passing NULL for public_key changes nothing else; bytes beyond 4n / 2n are not written.", "quantifier": "all random outputs, parameter sets and configurations", "why_tests_cant": "Only one fixed seed per parameter set is compared in the tests.", "anchors": ["key_gen.c: ts_gen_key", "internal.h: CONVERT_* macros"]}
{"id": "C12", "title": "Key generation fails exactly when it must", "statement": "ts_gen_key returns 0 iff the random function is missing, private_key or ps is NULL, or the random function reports failure; on those paths the public key buffer is not written.", "quantifier": "all argument combinations and random function behaviours", "why_tests_cant": "Failure injection is not in the test-suite.", "anchors": ["key_gen.c: ts_gen_key lines 13-24"]}
{"id": "C13", "title": "Contexts need no initialisation and can be reused", "statement": "The results of a signing, verifying or key generation session do not depend on what the context memory held before ts_init_sign / ts_init_verify: not on garbage, nor on an earlier (possibly abandoned) operation of either kind.", "quantifier": "all pairs of initial context contents", "why_tests_cant": "Tests memset a few patterns.", "anchors": ["tiny_sphincs.h: struct ts_context", "read.me Step 1"]}
{"id": "C14", "title": "Memory safety under every tune.h configuration", "statement": "For every tune.h setting and every parameter set enabled by it, no API call sequence reads or writes outside the context's arrays, the caller's buffers or the keys, reads a local array before it is set, shifts out of range or overflows a signed integer.", "quantifier": "all configurations, parameter sets, histories, messages, signatures (also malicious ones)", "why_tests_cant": "Sanitizers only see executed inputs; the array sizes are derived by preprocessor arithmetic for 64 configurations.", "anchors": ["tiny_sphincs.h: TS_MAX_*, struct ts_context", "tune.h", "tiny_sphincs.c", "verify.c"]}
{"id": "C15", "title": "Every call terminates", "statement": "ts_sign, ts_update_verify, ts_gen_key and the hash functions terminate on every input.", "quantifier": "all inputs and states reachable through the API", "why_tests_cant": "Termination cannot be tested.", "anchors": ["tiny_sphincs.c: ts_sign", "verify.c: ts_update_verify"]}
{"id": "C16", "title": "Contexts of the wrong kind are refused", "statement": "ts_sign on a context set up for verification returns 0, writes nothing to dest and changes nothing; ts_update_verify on a context set up for signing returns 0 and changes nothing; ts_verify on it returns 0, at any point of the operation.", "quantifier": "all contexts reachable through the API", "why_tests_cant": "All reachable states cannot be enumerated.", "anchors": ["tiny_sphincs.c: ts_sign lines 446-450", "verify.c: lines 104-109, 243-251"]}
{"id": "C17", "title": "Verification needs only the public key", "statement": "Verification reads only the 2n bytes of the public key (never memory before it, where a private key would hold its secrets), the message and the signature.", "quantifier": "all inputs", "why_tests_cant": "Absence of reads is not observable by tests.", "anchors": ["verify.c", "internal.h: CONVERT_PUBLIC_KEY_TO_SEC_SEED, CONVERT_PUBLIC_KEY_TO_PRF"]}
{"id": "C18", "title": "Lifetimes of caller buffers", "statement": "After ts_init_sign returns, the message buffer may be overwritten: the rest of the signature depends on memory only through the private key buffer. A verify context depends on the message buffer only until the first n signature bytes were fed, and afterwards only on the public key.", "quantifier": "all contents of all other memory at each call", "why_tests_cant": "Needs a comparison over all later memory contents.", "anchors": ["read.me: Generating a signature, Step 2", "tiny_sphincs.h: ts_init_sign, ts_init_verify"]}
{"id": "C19", "title": "Deterministic signing and randomness fallback", "statement": "With no random function, or one that reports failure (whatever it left in the buffer), signing uses PK.seed and is a function of key and message only; with a successful random function the result depends on it only through the n bytes it delivered.", "quantifier": "all random functions, keys, messages", "why_tests_cant": "All random functions cannot be tried.", "anchors": ["tiny_sphincs.c: ts_init_sign lines 331-340"]}
{"id": "C20", "title": "SHA-256 conforms to FIPS 180-4 for any chunking", "statement": "ts_SHA256_init, then ts_SHA256_update over any split of a message, then ts_SHA256_final gives the FIPS 180-4 digest.", "quantifier": "all messages shorter than 2^61 bytes, all chunkings, any garbage in the context", "why_tests_cant": "KATs cover a few lengths.", "anchors": ["sha256.c"]}
{"id": "C21", "title": "SHA-512 conforms to FIPS 180-4 for any chunking", "statement": "Same for ts_SHA512_*.", "quantifier": "all messages shorter than 2^61 bytes, all chunkings, any garbage in the context", "why_tests_cant": "KATs cover a few lengths.", "anchors": ["sha512.c"]}
{"id": "C22", "title": "SHAKE256 conforms to FIPS 202 for any absorb and squeeze chunking", "statement": "init, absorb over any split of the input, finalize, squeeze over any split of the output gives the FIPS 202 SHAKE256 output stream.", "quantifier": "all inputs, all chunkings of input and output, any garbage in the context", "why_tests_cant": "KATs cover a few lengths.", "anchors": ["fips202.c"]}
{"id": "C23", "title": "Truncated finalisation is a prefix of the full digest", "statement": "ts_SHA256_final_trunc(n) / ts_SHA512_final_trunc(n) for n a multiple of the word size gives the first n bytes of the full digest and writes no byte after them.", "quantifier": "all messages and truncation lengths", "why_tests_cant": "Tests check SHA-512 for 8 lengths on a few messages.", "anchors": ["sha256.c: ts_SHA256_final_trunc", "sha512.c: ts_SHA512_final_trunc"]}
{"id": "C24", "title": "The SHA-2 midstate optimisation does not change any result", "statement": "Keys, signatures and verdicts are the same with TS_SHA2_OPTIMIZATION 0 and 1.", "quantifier": "all inputs, all SHA-2 parameter sets", "why_tests_cant": "Two builds cannot be compared on all inputs.", "anchors": ["sha256_hash.c: ts_sha256_init_ctx", "sha512_hash.c: ts_sha512_init_ctx", "sha256_L1_hash_simple.c: ts_sha2_L1_prehash", "sha512_L35_hash_simple.c: ts_sha2_L35_prehash"]}
{"id": "C25", "title": "The three SHAKE implementations are the same permutation", "statement": "The Keccak permutation selected by TS_SHAKE256_OPT = 0, 1 and 2 is, for every 1600-bit state, Keccak-f[1600] of FIPS 202.", "quantifier": "all 2^1600 states", "why_tests_cant": "2^1600 states.", "anchors": ["fips202.c: KeccakF1600_StatePermute (both versions)"]}
{"id": "C26", "title": "Results do not depend on the tune.h configuration or on the platform (byte order, pointer size, alignment)", "statement": "For a parameter set enabled by two configurations, key generation, signing and verification give the same results under both, on little- and big-endian, 32- and 64-bit hosts.", "quantifier": "all pairs of configurations and platforms, all inputs", "why_tests_cant": "Needs all builds on all platforms on all inputs.", "anchors": ["tune.h", "sha2.h: union x", "tiny_sphincs.h: union t_iterator, struct ts_context"]}
{"id": "C27", "title": "Big-endian integer conversion", "statement": "ts_bytes_to_ull and ts_ull_to_bytes are inverse to each other on 1..8 bytes; wider fields are zero extended; too-narrow fields keep the low-order bytes.", "quantifier": "all values and widths", "why_tests_cant": "2^64 values.", "anchors": ["endian.c"]}
{"id": "C28", "title": "Hash addresses separate all uses of the hash functions", "statement": "The address block fed to the hash (32 byte SHAKE format and 22 byte SHA-2 format) is an injective encoding of (layer, tree, type, keypair, height/chain, index/hash) within the ranges that occur, so two different hash uses within a key pair never share an address; every byte of the block is (re)written before each use.", "quantifier": "all addresses reachable for all parameter sets", "why_tests_cant": "Too many addresses (2^64 trees).", "anchors": ["tiny_sphincs.c lines 24-155", "internal.h lines 96-107"]}
{"id": "C29", "title": "The message digest is split into in-range indices as FIPS 205 prescribes", "statement": "The FORS leaf indices, hypertree tree index and leaf index taken from the message digest are those of FIPS 205 (base_2b on the first ceil(k*a/8) bytes, then the two integers), lie in range, and depend only on the first m bytes of the digest.", "quantifier": "all digests, all parameter sets", "why_tests_cant": "2^392 digests.", "anchors": ["tiny_sphincs.c: ts_convert_message_hash_to_hypertree_position, extract_int_from_hash"]}
{"id": "C30", "title": "WOTS+ checksum: one signature never covers another message", "statement": "For any two different n-byte values the digit vectors (with checksum) are incomparable: each has a position where its digit is strictly smaller; all digits are in 0..15 and there are 2n+3.", "quantifier": "all pairs of n-byte values", "why_tests_cant": "2^(16n) pairs.", "anchors": ["tiny_sphincs.c: compute_wots_digits"]}
{"id": "C31", "title": "Low-memory tree hashing equals the recursive tree definition", "statement": "Authentication path nodes and roots computed with the (height-1)-entry stack are the nodes of the complete binary hash tree, for every leaf and tree, and the running value ends as the tree root.", "quantifier": "all leaves, all tree heights of the parameter sets, all leaf functions", "why_tests_cant": "The stack algorithm depends on every bit pattern of the leaf counter.", "anchors": ["tiny_sphincs.c: ts_merkle_path"]}
{"id": "C32", "title": "Parameter sets are the published ones and are self-consistent", "statement": "The twelve parameter sets have the published n, h, d, h/d, a, k; merkle_h*d = h; the message digest fits in the digest buffer; ts_size_private_key, ts_size_public_key, ts_size_signature are the published sizes.", "quantifier": "all parameter sets", "why_tests_cant": "Finite table, but consistency (e.g. with buffer sizes of every configuration) is not observable by tests.", "anchors": ["sha2_*_simple.c", "shake256_*_simple.c", "size.c"]}
{"id": "C33", "title": "Randomised message hashing and message PRF conform to FIPS 205", "statement": "PRF_msg is HMAC-SHA-256/512 truncated (SHA2) or SHAKE256 (SHAKE); H_msg is MGF1 over SHA-256/512 or SHAKE256; PRF, F, H, T as in FIPS 205 section 11, for every input and for repeated use of the same context.", "quantifier": "all inputs", "why_tests_cant": "Unbounded inputs.", "anchors": ["sha256_L1_hash.c", "sha512_hash.c", "shake256_hash.c", "sha256_hash.c", "sha2_simple.c", "sha256_L1_hash_simple.c", "sha512_L35_hash_simple.c", "shake256_simple.c"]}
{"id": "C34", "title": "RAM bound: context size", "statement": "The context has a size fixed at compile time by tune.h, independent of message and signature length, equal to the documented CTX sizes for the twelve minimal configurations; no operation needs more context memory. The SHA-2 optimisation costs the documented 32 bytes (96 with L3 or L5), the choice of the SHAKE256 implementation nothing, and supporting less never makes the context larger.", "quantifier": "all configurations, all operations", "why_tests_cant": "ramspace measures one run per configuration.", "anchors": ["tiny_sphincs.h: struct ts_context", "ramspace.out"]}
{"id": "C35", "title": "Two accepted signatures with the same randomiser imply a hash break", "statement": "If two different byte strings both verify for the same message and public key and start with the same n bytes (R), or for two messages with the same digest, then the strings hashed while verifying them contain a collision of F, H or T_l at the same address, or at one layer each of them reveals a value of a hash chain that lies before the value revealed by the other; i.e. the verifier itself ignores no signature byte. In particular this holds between what the library signed and anything else that is accepted with the same R.", "quantifier": "all pairs of signatures", "why_tests_cant": "Bit flipping tests sample single-bit changes of one signature.", "anchors": ["verify.c: ts_update_verify"]}
{"id": "C36", "title": "Independent contexts do not interfere", "statement": "Interleaving operations on any number of contexts in any order gives each context the results it would have alone.", "quantifier": "all interleavings, any number of contexts", "why_tests_cant": "All schedules cannot be run.", "anchors": ["tiny_sphincs.h: struct ts_context (no static state in the package)"]}
{"id": "C37", "title": "A one-time key never signs two different values", "statement": "Whatever messages are signed with one private key, by whatever builds and with whatever randomness: on each layer of the hypertree a signature contains one one-time signature, made with the key that the message digest selects; the value it signs is a function of the two seeds in the private key and of that position alone; so two signatures that use the same one-time key contain the same bytes there.", "quantifier": "all pairs of messages, randomness, keys with the same seeds, configurations, request sizes", "why_tests_cant": "One pair of signatures with different values under a one-time key lets anybody forge; tests see a handful of signatures and do not compare them.", "anchors": ["tiny_sphincs.c: ts_init_sign, ts_sign, ts_set_up_wots_signature, compute_wots_digits, generate_next_wots_hash"]}
{"id": "C38", "title": "Signatures reveal only the few-time secrets that the digest selects", "statement": "Of each FORS tree a signature contains exactly the secret value at the leaf selected by the digest and its authentication path; two signatures that select the same leaf of the same tree agree there; apart from the first n bytes a signature depends on the message, the randomness and the message key through the digest only.", "quantifier": "all messages, randomness, keys, configurations, request sizes", "why_tests_cant": "Revealing one other secret value would weaken every later signature and no functional test would fail.", "anchors": ["tiny_sphincs.c: ts_init_sign, ts_sign, fors_prf, fors_leaf, ts_merkle_path"]}
{"id": "C39", "title": "A context may be copied at any time", "statement": "Struct assignment of a context between calls (in the middle of a signature or a verification, over contexts in use) gives two contexts that each continue as the original would have; a saved context that is restored continues as if what happened in between had never been; both copies of a signing context deliver the same remaining bytes.", "quantifier": "all histories of calls and copies on any number of contexts", "why_tests_cant": "Needs every copy point in every history.", "anchors": ["tiny_sphincs.h: struct ts_context (no member points into the context)"]}
{"id": "C40", "title": "The keys may go away between blocks", "statement": "The private key has to be readable (and unchanged) during ts_init_sign and during those calls to ts_sign that go beyond the n-byte blocks of the signature reached so far; during the others, in particular once the whole signature has been delivered, it may be erased or unmapped, with the same answers. Likewise the public key during verification: only in calls that complete a block of n signature bytes.", "quantifier": "all sessions, request and chunk sizes, memory contents of every call", "why_tests_cant": "A test whose key array lives until the end cannot notice a late read.", "anchors": ["tiny_sphincs.c: ts_sign", "verify.c: ts_update_verify"]}
{"id": "C41", "title": "Exactly the documented randomness is drawn, and never reused", "statement": "With a stateful random generator: ts_init_sign asks it exactly once, for n bytes; ts_gen_key exactly once, for 3n bytes (not at all if a required argument is NULL); no other function asks it. So after any history a signature is made from the bytes that the generator delivers next; with a generator that hands out a stream, no byte of it goes into two keys or signatures.", "quantifier": "all generators, all histories of key generation and signing over any number of contexts", "why_tests_cant": "The test generators are stateless or do not count; histories are unbounded.", "anchors": ["tiny_sphincs.c: ts_init_sign", "key_gen.c: ts_gen_key"]}
{"id": "C42", "title": "A forgery exhibits a hash break or reuses published secrets", "statement": "Take a generated key pair, any list of signatures that signing sessions produced under it, and any message and string that a verification session accepts (verdict 1). Then, comparing with the signature that the holder of the private key would make with the same first n bytes: verifying the two hashes two different strings to the same value for the same purpose; or the string contains a value of a one-time chain strictly before the only value that the listed signatures contain of that chain, leading to it; or it is that signature, and contains a few-time secret value that none of the listed signatures contains; or it is that signature, and every few-time secret value it contains is in a listed signature.", "quantifier": "all key pairs, lists of signatures, accepted strings, messages, configurations, chunkings", "why_tests_cant": "Quantifies over every string an attacker could submit.", "anchors": ["verify.c: ts_init_verify, ts_update_verify, ts_verify", "tiny_sphincs.c: ts_init_sign, ts_sign", "key_gen.c: ts_gen_key"]}
{"id": "C43", "title": "Key generation shows no secret in its control flow and memory accesses", "statement": "An observer who sees which way every branch goes, which position of which array is accessed, every variable shift count and which function is called through a pointer, but no data, cannot tell two calls of ts_gen_key apart that have the same parameter set and address of the private key, a public key buffer in both or in none, and random functions that both succeed or both fail.", "quantifier": "all random bytes (so all keys), all previous buffer contents, all configurations, parameter sets", "why_tests_cant": "A statement about pairs of executions, over all secrets; a functional test cannot see traces at all.", "anchors": ["key_gen.c: ts_gen_key", "tiny_sphincs.c: ts_do_merkle_path, ts_wots_leaf", "sha256.c, sha512.c, fips202.c"]}
{"id": "C44", "title": "ts_init_sign shows no secret in its control flow and memory accesses", "statement": "The same observer cannot tell two calls of ts_init_sign apart that have the same parameter set, the same addresses of key and message and the same length of message, and random functions that are both NULL, both succeed or both fail: not by the keys, not by the messages, not by the random bytes, not by what was in the contexts.", "quantifier": "all private keys, messages, random bytes, previous contexts, configurations, parameter sets", "why_tests_cant": "A statement about pairs of executions, over all secrets.", "anchors": ["tiny_sphincs.c: ts_init_sign", "sha256.c, sha512.c, fips202.c"]}
{"id": "C45", "title": "Signing shows only what the signature itself tells", "statement": "The same observer of a whole signing session (ts_init_sign and any requests) learns nothing but: where key and message are, the length of the message, the sizes of the requests, and for the blocks of the signature that are made, left or right at each node of the authentication paths and the number of steps in each chain of the one-time signatures - numbers that everybody computes from the public key, the message and the signature. In particular, if public key, message and signature are the same, the traces are the same whatever the two seeds in the private key are. A single request shows this only for the blocks it makes, however the bytes before it were requested.", "quantifier": "all pairs of private keys, messages, random bytes, request sizes, memory contents, configurations, parameter sets", "why_tests_cant": "A statement about pairs of executions, over all secrets and request sequences.", "anchors": ["tiny_sphincs.c: ts_init_sign, ts_sign, ts_merkle_path, ts_fors_leaf, ts_wots_leaf, generate_next_wots_hash, compute_wots_digits"]}
{"id": "C46", "title": "Signing, key generation and verification do exactly the work they have to", "statement": "The number of calls of each function of the parameter set (PRF_msg, H_msg, PRF, F, init/next/final of T_l, prehash) is exactly: for ts_gen_key, one XMSS tree (none if the random function fails or an argument is NULL); for a signing session, one randomiser and digest in ts_init_sign, and each n-byte block of the signature computed once, when its first byte is asked for, whatever the sizes of the requests; in total the k FORS trees, one XMSS tree per layer, and the steps of the one-time chains that the digits tell; for verification, each block once, when its last byte is there, whatever the sizes of the chunks and whether the signature is valid or not, and nothing after the end or after a failure; in total closed formulas, the chain steps being the complement to 15 of those of signing.", "quantifier": "all keys, messages, random bytes, request and chunk sizes, strings fed, configurations, parameter sets", "why_tests_cant": "Work depends on the message digest and on how the signature is cut into pieces; a timing test samples a few of each.", "anchors": ["key_gen.c: ts_gen_key", "tiny_sphincs.c: ts_init_sign, ts_sign, ts_merkle_path, ts_fors_leaf, ts_wots_leaf", "verify.c: ts_init_verify, ts_update_verify"]}
{"id": "C47", "title": "A signature with another randomiser or for another message is rejected, unless the hash functions fail", "statement": "The message and the randomiser (the first n bytes) act on the verdict only through the leaves that the digest selects: one of the hypertree, one in each FORS tree. If two verification sessions for the same key return 1, and the strings agree after the first n bytes, then the two digests select the same leaves, or verifying the two makes two different hash calls with the same result, or F leads from a string in the signature back to itself along a chain. In particular a signature that the library made, presented with another message or with an altered randomiser, is rejected, save in these cases. And if the same leaves are selected the verdicts agree.", "quantifier": "all key pairs, messages, randomisers, strings, chunkings, configurations, parameter sets", "why_tests_cant": "test_verify.c tries one wrong message and the bits of one randomiser.", "anchors": ["verify.c: ts_init_verify, ts_update_verify, ts_verify", "test_verify.c: do_test"]}
{"id": "C48", "title": "The test program passes, and the measurement programs use the library correctly, unless the hash functions fail", "statement": "The verification test of test_verify.c, for every parameter set and configuration and whatever is in uninitialised arrays, contexts and allocated memory, returns without undefined behaviour; the unaltered signature is accepted in one piece and in all the chunk sizes it tries, one byte less and one byte more are rejected; it reports success exactly if none of the altered cases (a flipped bit, another message) is accepted, and if it reports failure, then the case accepted exhibits two different hash calls with the same result, an inverted or cyclic chain, or digests that select the same leaves. The functions of get_space.c and get_space2.c: the byte-by-byte signing loop ends after exactly the signature has come out, and the signature that is measured verifies.", "quantifier": "all configurations, parameter sets, both modes of the test, contents of uninitialised memory", "why_tests_cant": "A run of the test shows the outcome on one machine, with one configuration and one content of uninitialised memory; whether the test is right is not what it tests.", "anchors": ["test_verify.c: do_test, test_verify", "get_space.c: get_sig_space, get_ver_space", "get_space2.c: run_keygen, run_sign, run_verify, get_sig_and_public_key"]}
{"id": "C49", "title": "The known answer tests succeed exactly if the expected answers are those of the standards", "statement": "The tests of test_sha512.c, test_shake.c and test_testvector.c, in every configuration and whatever is in uninitialised contexts and arrays, return without undefined behaviour, and they report success exactly if every expected answer in their tables is the answer of FIPS 180-4 (SHA-512), FIPS 202 (SHAKE256), or FIPS 205 (the public key from the seed 00 01 02..., and the SHA-256 hash of the signature of \"abc\" with the given randomness): cutting the message or the output into pieces of any size, truncating the digest, saving and restoring the state, and signing and verifying 42 bytes at a time never change the outcome, and never hide a wrong answer. With the tables of the repository the SHA-512 and SHAKE256 tests succeed.", "quantifier": "all configurations, all tables of vectors (messages below 2^31 bytes), all contents of uninitialised memory", "why_tests_cant": "A run compares the code with the table; that a success means agreement with the standards, and that a wrong answer cannot pass, is a statement about all tables and all contents of memory.", "anchors": ["test_sha512.c: test, test_sha512", "test_shake.c: test, test_shake256", "test_testvector.c: lookup_parameter_set, fixed_rand, optrand_rng, test_testvector", "testvector.h"]}
{"id": "C50", "title": "The test program's exit status says whether the tests that were asked for passed", "statement": "For every list of command line arguments the test program ends (if the tests do), and its exit status is success exactly if every argument is a test's name or an option, at least one test is asked for (by name, or all), and every test asked for passes. Nothing is run if an argument is not understood. The tests run in the order of the table, each at most once however often it is named; every test asked for is run if -f is given or no earlier one fails; without -f nothing is run after a failure. With the library's own tests, all parameter sets compiled in, and whatever is in uninitialised memory: naming the two hash tests always gives success; the other two give success exactly if the vectors of testvector.h are those of FIPS 205, and if no altered signature verifies.", "quantifier": "all argument lists, all results of the tests; all configurations with every parameter set, all contents of uninitialised memory", "why_tests_cant": "A test run uses one command line; that no combination of arguments can turn a failure into success, or pass without running anything, is about all of them.", "anchors": ["test_sphincs.c: main, run_tests, test_list"]}
{"id": "C51", "title": "The hash primitives run exactly as often as needed, and TS_SHA2_OPTIMIZATION halves their number", "statement": "The number of runs of the SHA-256 compression function, of the SHA-512 compression function and of the Keccak permutation is exactly the number of blocks that the inputs of the hash functions of FIPS 205 fill, padding included, with the block of the public seed counted once per session if TS_SHA2_OPTIMIZATION is set: for ts_gen_key, for ts_init_sign, for each block of the signature when it is asked for, for a whole signature, and for each block and the whole of a verification, whatever the sizes of the requests and chunks. For a SHA-2 parameter set, key generation without the option runs between 1.98 and 2 times as many compressions as with it, and a whole signature (message up to 100000 bytes) between 1.95 and 2 times as many; for a SHAKE parameter set no option changes the number.", "quantifier": "all keys, messages, random bytes, request and chunk sizes, strings fed, configurations, parameter sets", "why_tests_cant": "The number depends on the message's length and digest and on how the work is cut into calls; a timing test samples a few of each, on one machine.", "anchors": ["sha256.c: compress, ts_SHA256_update, ts_SHA256_final_trunc", "sha512.c: sha512_compress, ts_SHA512_update, ts_SHA512_final_trunc", "fips202.c: KeccakF1600_StatePermute, keccak_inc_absorb, keccak_inc_squeeze", "sha256_L1_hash_simple.c", "sha512_L35_hash_simple.c", "shake256_hash.c", "tune.h: TS_SHA2_OPTIMIZATION"]}
{"id": "C52", "title": "Automatic storage is bounded by a constant of the build: every operation fits in the documented RAM", "statement": "The bytes that the parameters and automatic variables of all active functions take together at any moment of a call of ts_init_sign, ts_sign, ts_init_verify, ts_update_verify, ts_verify or ts_gen_key never exceed a figure that depends only on the parameter set's hash family, the compile time options and the size of a pointer: not on message, key, signature, chunk sizes or what was called before. At most 797 bytes beside the context in any build; with the context less than 1 KB for signing, verifying and generating a key with SHA2-128f (961, 884 and 852 bytes); within the figures of ramspace.out (SHAKE verification: within 24 bytes). TS_SHAKE256_OPT saves 200 and 224 bytes of it; TS_SHA2_OPTIMIZATION costs none. Supporting less never takes more, and read.me's advice holds: of two builds for one parameter set each, an F set takes less RAM than the S set, SHA2-128 less than SHAKE-128, and SHA2-192 and SHA2-256 more than their SHAKE counterparts, in each of the three operations.", "quantifier": "all messages, keys, signatures, random functions, request and chunk sizes, histories of calls, configurations, parameter sets", "why_tests_cant": "The project measures the stack with one message per parameter set on one machine; which functions are active together depends on the state, the sizes asked for and the position in the signature.", "anchors": ["tiny_sphincs.c", "verify.c", "key_gen.c", "sha256.c", "sha512.c", "fips202.c", "tune.h: TS_SHAKE256_OPT", "README.md", "ramspace.out"]}
{"id": "C53", "title": "A finished signature leaves no secret in the hash objects and buffers of the context", "statement": "The library erases nothing. After at least ts_size_signature bytes of a signature have been asked for, whatever the requests were, what is left in the context's two hash iterators, its two block buffers and the first n bytes of its scratch area is: the root of the top tree (PK.root, if the key is genuine) in the tree buffer, one of the two nodes below it in the signature buffer, in the small iterator the hash object that computing the root from these two nodes leaves, in the large iterator the object that compressing the WOTS+ public key of one leaf of the top tree leaves, and the last chain end of that key at the start of the scratch area. What a hash object holds is determined by the hash input, not by what the object contained before. So the small iterator and the tree buffer are the same for any two messages, randomisers, values of SK.prf and earlier uses of the context.", "quantifier": "all private keys, messages, random functions, request sizes, earlier contents of the context, configurations, parameter sets", "why_tests_cant": "Whether a secret survives in a buffer depends on which hash computation was the last to overwrite each byte, for every message; a test finds a key in memory only if it looks for that key in that run.", "anchors": ["tiny_sphincs.c: ts_sign, ts_merkle_path, ts_wots_leaf", "sha256.c: ts_SHA256_final_trunc", "sha512.c: ts_SHA512_final_trunc", "fips202.c: ts_shake256_inc_init, ts_shake256_inc_squeeze"]}
{"id": "C54", "title": "Programs with all their buffers in one address space: calls compose through memory and write nothing else", "statement": "Take any program of calls on any number of contexts in which keys, messages, signatures and destinations are addresses of one memory, so that what one call writes is what later calls, and the rest of the same call, read. If the program keeps to the contract, it has no undefined behaviour, every call returns what the specification says and the memory ends up as the specification says. The contract on overlaps is: ts_sign's destination does not touch the private key while blocks remain to be computed, ts_gen_key's two destinations are apart; nothing else (the signature may be written over the message, the public key may be used inside the private key, buffers may be reused between calls). With or without the contract, a run that has a meaning writes only ts_sign's destination and the keys of ts_gen_key. In particular: generate a key, sign and verify with the buffers anywhere apart returns accept and changes only the keys' and the signature's bytes.", "quantifier": "all programs of calls, contexts, memories, addresses, messages, keys, random functions, sizes, parameter sets and configurations", "why_tests_cant": "Which buffers may overlap, and how, is a question about every placement in memory; tests use separate arrays.", "anchors": ["tiny_sphincs.h", "tiny_sphincs.c: ts_init_sign, ts_sign", "key_gen.c: ts_gen_key", "verify.c: ts_init_verify, ts_update_verify, ts_verify"]}
{"id": "C55", "title": "No single call takes long: streaming bounds the latency", "statement": "A call of ts_sign that asks for s bytes takes, in time spent in the hash primitives, at most half a key generation (rounded up by one two-node hash) for each n bytes or part of them, whatever was asked for before, the message, the key and the machine (one SHA-512 compression taking at most 16 times as long as a SHA-256 compression); so a call for up to n bytes never takes longer than that. The figure is reached in every layer of the hypertree. A call of ts_update_verify with s bytes runs each primitive at most as often as 15 evaluations of F and 3 two-node hashes need, for each n bytes or part of them, plus the message digest in the one call that completes the first n bytes; valid signature or not.", "quantifier": "all keys, messages, random functions, earlier requests or chunks, sizes, parameter sets, configurations, relative speeds of the primitives", "why_tests_cant": "The longest call depends on the position in the signature, the digits of the digest and how the stream is cut; timing tests sample a few calls on one machine.", "anchors": ["tiny_sphincs.c: ts_sign, ts_merkle_path, ts_wots_leaf", "verify.c: ts_update_verify", "README.md: streaming"]}
{"id": "C56", "title": "A private key that changes while a signature is being made: sizes, safety and what came before are not affected", "statement": "If the bytes at the address of the private key change between two calls of ts_sign (overwritten, zeroed, replaced by another key - the rule that they stay is broken, but they can still be read), the bytes that follow need not be a signature, but no call reads or writes anything outside the objects it was given, every call returns, every request is given as many bytes as it asks for and are left of the signature size, at the start of its destination, and the rest of the destination is untouched; what was delivered before the change is the beginning of the right signature; and the context is still one with which any new session works.", "quantifier": "all keys, messages, random functions, sequences of requests, points of change, contents at the address of the key at every later call, parameter sets, configurations, prior contents of the context", "why_tests_cant": "The hash objects kept in the context may mix two keys, and the tables of the precomputed seed no longer belong to the key that is read; a test would have to change the key at every point of every signature, and memory errors need not show.", "anchors": ["tiny_sphincs.c: ts_sign, ts_set_up_wots_signature, ts_merkle_path", "sha256_hash.c: ts_sha256_init_ctx", "tiny_sphincs.h: struct ts_context"]}
{"id": "C57", "title": "A public key or message that changes during a verification: safety and the rules of acceptance are not affected", "statement": "If the bytes at the address of the public key, or of the message, change between ts_init_verify and the calls of ts_update_verify (they can still be read), no call reads or writes anything outside the objects it was given, every call returns, and the answers follow the rules they always follow: 1 as long as fewer bytes came than a signature has, 0 if its length is passed within a call, 0 after any 0, after an accepted signature 1 until n further bytes have come; ts_verify returns 1 if and only if every update returned 1 and exactly ts_size_signature bytes were given. So too few or too many bytes are never accepted, whatever happens to the key.", "quantifier": "all keys, messages, sequences of chunks, contents of the bytes of key and message at every call, parameter sets, configurations, prior contents of the context", "why_tests_cant": "A test would have to change key and message at every point of every session, and memory errors need not show.", "anchors": ["verify.c: ts_init_verify, ts_update_verify, ts_verify, next_auth_path, set_up_wots_verify_signature"]}
{"id": "C58", "title": "Only some parts of the keys are needed in each call", "statement": "ts_init_sign does not need the first n bytes of the private key (SK.seed). ts_sign needs only those and, unless the parameter set is a SHA-2 one and the library was built with TS_SHA2_OPTIMIZATION, the n bytes of PK.seed; only in calls that go on to a further block of n bytes. ts_init_verify needs at most the first half of the public key (PK.seed), and that only for SHA-2 sets with TS_SHA2_OPTIMIZATION. ts_update_verify needs the whole public key and the message in the call that completes the first n bytes of the signature; after that PK.seed in calls that complete a block (not at all for SHA-2 sets with TS_SHA2_OPTIMIZATION) and PK.root in the call that reaches the end. If the other parts of the keys cannot be read or hold something else, the answers are the same. So the program may, for example, wipe SK.prf after ts_init_sign.", "quantifier": "all keys, messages, sequences of requests or chunks, contents of the parts that are not needed at every call, parameter sets, configurations, prior contents of the context", "why_tests_cant": "A test would have to remove each part at every call of every session; reading a byte too many need not show.", "anchors": ["tiny_sphincs.c: ts_init_sign, ts_sign", "verify.c: ts_init_verify, ts_update_verify", "internal.h: CONVERT_PUBLIC_KEY_TO_SEC_SEED, CONVERT_PUBLIC_KEY_TO_PRF, CONVERT_PUBLIC_KEY_TO_PUB_SEED, CONVERT_PUBLIC_KEY_TO_ROOT", "tune.h: TS_SHA2_OPTIMIZATION"]}
{"id": "C59", "title": "What the measurement programs report", "statement": "The figure that get_keygen_space, get_sig_space or get_ver_space returns is the depth to which the routine measured changed the 10000 bytes of stack below it: never more than it used, and no less if the lowest byte it used was not left as 'x'. ramspace appends one line with the parameter set, the size of the context and the three figures and exits with success; *FAILED* stands for the last only if there was no memory for the signature or the routine changed nothing. If the file cannot be opened nothing is printed and the exit status says so. ramspace.py makes twelve builds, one for each parameter set, each with that set in it and the context of the size that ramspace.out states.", "quantifier": "all contents of the stack before, effects of the routines measured, parameter sets, configurations, surroundings and messages of the C library", "why_tests_cant": "The figures depend on what was on the stack and on what the compiler leaves there; a run shows one.", "anchors": ["stack.c: init_stack, measure_stack", "get_space.c: get_keygen_space, get_sig_space, get_ver_space", "ramspace.c: main", "ramspace.py"]}
{"id": "C60", "title": "Private keys from elsewhere: what signing with them gives", "statement": "A signature made with any 4n bytes as the private key verifies with the public key in them (the last 2n bytes) exactly if PK.root is the root that belongs to SK.seed and PK.seed, whatever the message and however it was made and checked; keys from ts_gen_key are such. So one signature and one verification tell for certain whether an imported key is good. If SK.prf is damaged every signature still verifies with the original public key; if PK.root is, none verifies with the damaged one.", "quantifier": "all private keys (any bytes), messages, random functions, sequences of requests and chunks, parameter sets, configurations for signing and verifying, prior contents of the contexts", "why_tests_cant": "Tests sign with keys that were generated; a damaged key differs from a good one in one of 2^512 ways and a chance acceptance would not show.", "anchors": ["read.me: generating the key externally", "tiny_sphincs.c: ts_init_sign, ts_sign", "verify.c: ts_init_verify, ts_update_verify, ts_verify", "key_gen.c: ts_gen_key"]}
