# Formal model of low-ram-sphincsplus in Rocq (Coq 8.16.1)

`properties.jsonl` lists the properties, `MANIFEST.json` maps them to theorems,
`seeded/LOG.jsonl` records the wrong programs tried. All theories are in
`rocq/theories`; `cd rocq && coq_makefile -f _CoqProject -o Makefile && make -j4`.

## 1. How to read it

| files | what |
|---|---|
| `CSem.v` | C semantics used by the model: outcomes, integers, arrays, caller memory, loops |
| `Model*.v` | the code, function by function; every definition cites file and lines |
| `Spec*.v` | specifications; none of them uses the model's functions (`SpecMap`, `SpecSessions`, `SpecApi`, `SpecHeap` import `ModelParams` for the names of the parameter sets, and `CSem` for the type of memories), except `SpecResidue` (C53), which describes what a hash object holds after a hash by the object's own operations started from any contents |
| `CLeak.v`, `Leak*.v` | the code once more, with the trace of branches, memory positions and indirect calls (C43-C46; the parts that only handle public data, verify.c, are there for C46 and C51; each run of a compression function or permutation is an event too, for C51); `PfLeakErase*.v` prove that without the trace it is the model |
| `Prop*.v` | the theorems of MANIFEST.json, cases that meet their hypotheses, `Print Assumptions` |
| `Pf*.v`, `Arr.v`, `Sessions.v` | lemmas (`Sessions.v`: call sequences on the hash contexts) |

A reviewer needs `Prop*.v`, the `Spec*.v` named there, and, to check fidelity, `CSem.v`
and `Model*.v` against /repo.

## 2. The model

* **Outcomes.** Every modelled function returns `Ok result` or `UB reason`. Reasons:
  access outside the C array (of the member, not only of the enclosing struct), read of
  unmapped caller memory, shift count out of range, signed overflow, read of a local
  array element that was never assigned, loop that exceeds its fuel. A theorem that says
  `= Ok ...` excludes all of these.
* **Integers** are `Z`; conversions to `unsigned char`, `uint16/32/64_t` are explicit
  (`u8`, ...) where C converts; `int` arithmetic that is not evidently small is checked
  (`int_val`), shift counts too (`shift_count`).
* **Memory.** Caller memory is `Z -> option Z` (address to byte). The context stores
  addresses of key and message; every call gets the memory *as it is at that call*, so
  lifetimes (C17, C18) can be stated. Destination arrays and key buffers that are written
  are passed and returned as lists. The model functions return no caller memory: that
  the library never writes through its `const` pointers is seen by reading the code.
* **Context.** A record with every member of `struct ts_context`; the unions
  (`t_iterator`, `x`) are byte arrays of the C size with the members at their C offsets,
  words in host byte order. Initially the context has any contents of the right sizes.
* **Configurations and platforms.** `config` has all tune.h switches and what the layout
  depends on: byte order (`cfg_le`), pointers and size_t of 4 or 8 bytes (`cfg_ptr64`),
  uint64_t aligned to 4 or 8 bytes (`cfg_al64`): LP64, LLP64 and ILP32 (ARM, i386).
  `unsigned long` may have 32 or 64 bits (`RORc_any_unsigned_long`). `int` has 32 bits;
  with 16 bits (AVR) the FORS leaf numbers (up to 22 * 2^14) would not fit an int, so that
  is excluded for a reason. Array sizes follow tiny_sphincs.h. Theorems hold for every configuration in which the parameter
  set in question is compiled in (`ps_enabled`).
* **Function pointers** in `struct ts_parameter_set` are the modelled functions selected
  by the parameter set's hash kind; `gen_leaf` of `ts_merkle_path` is a function argument.
* **Random function.** Any function from the wanted length to (result, bytes written);
  contract: at most the wanted number of bytes, exactly that many on success. In C41 it is
  a generator with a state that the model threads through the calls.

### Modelled code
endian.c; sha256.c; sha512.c; fips202.c (the three implementations of the permutation);
sha256_hash.c, sha256_L1_hash.c, sha256_L1_hash_simple.c, sha512_hash.c,
sha512_L35_hash_simple.c, sha2_simple.c, shake256_hash.c, shake256_simple.c; the twelve
parameter set files; size.c; tiny_sphincs.c; verify.c; key_gen.c; tiny_sphincs.h,
internal.h, sha2.h, fips202.h, sha2_func.h, shake256_func.h, tune.h - that is the whole
library. Of the programs that use it: test_verify.c, get_space.c, get_space2.c (ModelTest.v),
test_sha512.c, test_shake.c, test_testvector.c, testvector.h (ModelKat.v), test_sphincs.c (ModelMain.v),
stack.c, ramspace.c and the builds of ramspace.py (ModelMeasure.v).

### Not modelled
* Of the programs around it: the printing and the percentages of test_verify.c, what
  test_sphincs.c prints, the formatting of what ramspace.c prints, how ramspace.py runs make. stack.c relies on undefined
  behaviour; ModelMeasure.v takes for granted what it takes for granted (one place on the stack).
* Running time (C15 says that each call returns; C46 counts calls of the hash functions, C51 runs of the compression functions). Side channels: C43-C45 are about the trace of `CLeak.v`: branches,
  positions of array accesses, addresses in caller memory, shift counts that are not
  constants, targets of indirect calls, lengths of memcpy and memset. Variable-latency
  arithmetic, what a cache keeps from outside the library and what the random function
  does are not in it.
* Automatic storage is measured in declared objects (C52, `CStack.v` and the `Stk*.v` files): at each
  call of a C function the sizes of its parameters and automatic variables, those of inner blocks
  counted for the whole call, are added while the call lasts. int, unsigned and enumerations have 4
  bytes, uint64_t and unsigned long long 8, pointers, size_t and unsigned long P (4 or 8). Not
  counted: return addresses, saved registers, alignment padding, temporaries, memcpy/memset/memcmp,
  the caller's random function; inlining and variables that live in registers only make it less.
* Compilers and machines: `CHAR_BIT` 8, 32-bit `int`, structure layout by natural
  alignment as recorded in ModelParams.v, strict aliasing of the union accesses.
* Caller behaviour outside the contract: null or dangling pointers, overlapping
  destination and key (what may overlap: C54), context not initialised by one of the init functions, messages of
  2^60 bytes or more, contexts modified by the caller.
* memcpy, memset, memcmp are modelled by their meaning.

### The contract (SpecApi.v `allowed`, SpecSessions.v)
ts_init_sign: private key and message readable, message below 2^60 bytes. ts_sign: private
key still readable and unchanged if the call goes on to a further n-byte block (C40),
destination as large as requested, sizes below 2^32. ts_init_verify: public key readable,
address and length of the message representable (2^32 or 2^64).
ts_update_verify: public key readable and unchanged if the chunk completes a block; the
message readable at the call that completes the first n signature bytes.

## 3. Trusted base

* Coq's kernel, and the reading of the C code recorded in the model's comments.
* `Print Assumptions` says **"Closed under the global context"** for every theorem listed
  in MANIFEST.json: no axioms at all. (mathcomp's ssreflect, loaded through the standard
  distribution, declares `ssrunder` axioms; no theorem depends on them.) No `Admitted`, no `Variable`
  outside sections, no functors or module types, no plugins.
* The specifications: SpecSha2 (FIPS 180-4), SpecKeccak (FIPS 202), SpecSLH (FIPS 205,
  internal functions and section 11), transcribed from the standards. They and the model
  were also run: `tools/kat.sh` extracts the model and compares it with the reference
  vectors in /repo/testvector.h (sections 6 and 7).

## 4. Properties

| id | theorems in | statement in short, and how it is proved |
|---|---|---|
| C01 | PropApi | key generation, signing and verification, each in its own build: verdict 1. From C02, C05, C11 and completeness of FIPS 205 (PfComplete: chains compose, paths lead to roots, by induction on heights and layers) |
| C02 | PropSign | collected bytes = slh_sign_internal. PfSign: invariant that ties the context to a position in the FIPS 205 signature, one lemma per state of the signing machine |
| C03, C04 | PropSign | corollaries of the simulation (below) by induction on the requests |
| C05 | PropVerify | ts_verify = 1 iff slh_verify_internal of exactly the bytes fed. PfVerify: invariant per state of the verifier |
| C06-C10 | PropVerify | corollaries: chunking, truncation, trailing bytes, finality, intermediate results |
| C11, C12 | PropApi | key generation = slh_keygen_internal; failure exactly on failing random function or null arguments |
| C13, C14, C15, C16, C36 | PropApi | **simulation**: the library on any number of contexts refines the abstract machine of SpecApi.v (`simulation` in PfApi), from any initial contents |
| C17, C18 | PropVerify, PropSign | same answers with only the public key (private key; message) readable |
| C19 | PropSign | fallback to PK.seed; only the delivered bytes matter |
| C20-C23 | PropHash | invariant (state, count, buffer) of each hash context = bytes absorbed; sessions of updates; truncated output |
| C24, C26 | PropApi | two builds, any switches, byte orders, pointer sizes, alignments: same observations |
| C25 | PropHash | each of the three permutation codes = Keccak-p[1600,24] of FIPS 202; lanes by symbolic evaluation of one round, then induction |
| C27 | PropHash | big-endian conversion |
| C28 | PropUses | the address encodings (22 and 32 bytes) are injective on the uses; the algorithms hash only at such uses; each setter gives the encoding of its use |
| C29 | PropParts | indices from the digest, bit-level induction |
| C30 | PropParts | WOTS+ digits; two values are incomparable (digit sums) |
| C31 | PropParts | stack algorithm = recursive tree (invariant indexed by the bits of the leaf counter) |
| C32 | PropParams | the twelve tables against the published ones (finite) |
| C33 | PropParts | the six hash functions against FIPS 205 section 11 |
| C34 | PropParams | size of the context for every configuration, documented sizes |
| C35 | PropForge | two accepted signatures with the same digest: equal, or a collision / chain inversion among the strings the verifier hashes (descent from the root) |
| C37, C38 | PropReuse | one-time keys sign functions of seeds and position; FORS reveals what the digest selects (PfReuse: the parts of the FIPS 205 signature) |
| C39 | PropCopy | histories with struct assignment of contexts refine the abstract machine |
| C40 | PropLifetimes | the abstract machine asks for the key only when a block is computed or consumed; the simulation shows that the code reads nothing else |
| C41 | PropRandom | the model threads the state of the caller's generator; induction over histories of key generation, signing and other calls |
| C42 | PropEUF | an accepted string against the signature the key holder would make with the same randomiser: C35's descent from the root, with C37 (what one-time keys sign) and C38 (few-time secrets) on the other side |
| C43, C44, C45 | PropLeak | `Leak*.v`: each function of the model with its trace; PfLeakErase: erasing the trace gives the model; then a relational proof (two runs, same trace, by a `sim` judgement for each function), with the invariant of C02 to express what differs through public values (PfLeakView) |
| C46 | PropWork | a judgement `costs m k` (in a run without undefined behaviour function m is called k times) through the same watched functions, here with verify.c too; then the invariants of C02 and C05 for the chain steps, and sums over the blocks |
| C47 | PropBinding | top down through the layers: equal roots give, unless two different calls of the two verifications coincide, equal nodes and equal positions in each tree, so the same leaf and the same key; the calls that coincide are found by decision over the two lists of SpecForge.v |
| C48 | PropTest | the test is a sequence of verification sessions (C05-C08) of a signature that is valid (C01); what an accepted altered case shows is C35 (flipped bit after the randomiser) or C47 (randomiser, message) |
| C49 | PropKat | the tests are hash sessions (C20-C23), a key generation (C11), a signing and a verification session (C02, C05); a loop over piece sizes keeps "equal so far" as invariant. The SHA-512 and SHAKE256 tables are then evaluated by the kernel |
| C50 | PropMain | induction over the arguments (the bits of the set of tests) and over the table; the results of the routines are C48 and C49 |
| C51 | PropBlocks | as C46, with runs of the primitives for calls: a judgement `takes q k` for the SHA-2 and Keccak code (the number of bytes in the buffer of a context is the invariant that tells when a block is full), then for the functions of the parameter sets, then the same way up as C46; for the iterated T_l the count of a call is a difference of two block counts, and the differences telescope. The ratios are evaluated by the kernel for the six SHA-2 sets |
| C52 | PropStack | `Stk*.v`: each function of the model with the sizes of its declarations; PfStkErase: forgetting the sizes gives the model; then a judgement `fits b post` (the run takes at most b bytes; the result satisfies post) through every function, bottom up, with loops by induction; examples evaluate runs in which the figures are reached |
| C53 | PropResidue | SpecResidue: what a hash object holds after a hash, by the hash input alone; PfResidue: final overwrites the whole block of SHA-2 and init the whole sponge, so the object after a hash does not depend on the object before; the lemmas about two-node hashes, WOTS+ leaves and authentication paths carry which hash each iterator and buffer saw last; the invariant of the finished state of signing keeps it |
| C54 | PropHeap | SpecHeap: memory as part of the state, which overlaps the contract allows, what each call writes; ModelHeap: ts_sign and ts_gen_key writing to the caller's memory, memcpy of overlapping ranges undefined; PfHeap: each call simulates the call with a separate destination (a stored byte is read back only through the private key, which the contract keeps apart), frame lemma for the calls that write |
| C55 | PropLatency | SpecLatency: figures; from C51 (runs per block, each block begun or completed once): a call of s bytes meets at most ceil(s/n) blocks, and no block costs more than the figure, checked for every parameter set with the weights of the primitives as variables |
| C56 | PropTurmoil | SpecTurmoil: any bytes at the address, answers of the right sizes. PfTurmoil: an invariant with the shape of every state of ts_sign but no values (a hash object has taken i strings under some seed or other), kept by every step under any two environments a context cannot tell apart; PfTwoMem: with the precomputed seed ts_sign sees memory only through PRF, so the old seed can be put back; then induction over the calls |
| C57 | PropTurmoilVerify | SpecTurmoil (feeds_any, well_judged). PfTurmoilVer: the same for ts_update_verify; with the precomputed seed only H_msg (which looks at no precomputed value, hash_msg_frame) and the last comparison see memory |
| C58 | PropKeyParts | SpecKeyParts: the parts of the keys each call needs. PfKeyParts: every hash function gives the same in two memories that agree on them; PfTwoMem, PfKeyPartsVer: so do ts_sign and ts_update_verify (the latter unless it ends the verification and the roots differ, which the length rules out); each call is compared with one in a memory that holds the whole key, to which the simulation applies |
| C59 | PropMeasure | ModelMeasure: the place on the stack is a list of bytes, what a routine leaves in it is arbitrary. SpecMeasure: the depth to which it was changed. Induction over the fill loop and the scan; C48 gives that the routines measured do their work, so nothing else makes `*FAILED*`. The table of builds: computation over the twelve sets, with `minimal` and `documented_size` of C34. |
| C60 | PropImport | SpecImport: `consistent`, `public_part`, `differs_at_most`. PfImport: the argument for C01 without the assumption on PK.root: the digest uses the stored root on both sides, and the hypertree gives the true one, so the verdict is the comparison of the two. Combined with C02 and the verification sessions. |

All are proved in full; none is partial.

Limits worth knowing: C14/C15 are about the model's notion of undefined behaviour
(section 2). C34 is about the context, C52 about declared automatic objects, not about the stack of a compiled program. C35 and C42 speak about values
that accepted strings exhibit, which is what can be said without assumptions on the hash
functions; they are not statements about probabilities.

## 5. Findings

No memory error or wrong result was found. Observations:

* **ts_update_verify after a valid signature** (C10): when a call ends exactly at the end
  of a valid signature, up to n - 1 further bytes still make ts_update_verify return 1,
  although ts_verify will return 0; the failure is reported when n of them have come.
  A call that contains the last byte and extra bytes reports failure at once. So the
  intermediate results depend on the chunking; the verdict does not (C06, C08).
* **Message length**: SHA-2 bit counters wrap at 2^64 bits; the theorems assume messages
  below 2^60 bytes.
* **read.me** documents `ts_verify(buffer, &ctx)`, the header has one parameter.
* A random function that fails during signing is not an error: ts_init_sign silently uses
  PK.seed (C19). During key generation it is (C12).
* **test_verify.c** passes one byte of its malloc block that nothing has written (the byte
  after the signature) to ts_update_verify; any byte gives the same results (C48).
* **H_msg is asked for 49 bytes** for every parameter set (MAX_MESSAGE_HASH, the most that one
  needs), also where FIPS 205 needs 30 to 47; for 128-bit SHA-2 sets this can be one round of MGF1
  more than needed (2 where the 30 bytes of SHA2-128s need 1; C51). The extra bytes are ignored.
* **tune.h** says that TS_SHA2_OPTIMIZATION "approximately halves the signing time"; in runs of
  the compression function the factor is between 1.95 and 2 (C51).
* **tune.h** says that TS_SHAKE256_OPT 1 is an attempt to need less stack than 0 but took 8 bytes
  more on the author's compiler, and that 2 takes about 180 bytes less. In declared objects 1
  takes 200 bytes less than 0 and 2 another 224 less (C52): the difference is register allocation.
* **Nothing is erased.** In the middle of a signature the small iterator may hold SK.seed in the
  clear between two calls (after a PRF it is in the message block of the SHA-256 object or in the
  sponge), so the context is as sensitive as the key until the signature is complete. A finished
  one is not (C53), with two reservations outside the theorem: for SHA2-192 and SHA2-256 on
  platforms that align uint64_t to 8, the four padding bytes of the SHA-512 object in the small
  iterator's union are not overwritten by the last hash, and the context that ts_gen_key and the
  hash functions keep on the stack is not wiped either.
* **Buffers may overlap more than the header says** (C54): the signature may be written over the
  message once ts_init_sign has returned, and a verifier can use the last 2n bytes of the private
  key as the public key. Passing `private_key + 2n` as ts_gen_key's public_key looks equivalent
  but makes its memcpy copy a range onto itself, which C leaves undefined: pass NULL instead.
* **A key that changes in the middle of a signature** does no harm to memory (C56), but what comes
  out must not be published: the one-time keys of some layer may have been made to sign a second
  value. The library does not check its output.
* **Least exposure of the keys** (C58): SK.seed may stay locked away until ts_init_sign has returned,
  SK.prf may be wiped then.
* **Imported keys are not checked**: ts_init_sign takes any bytes. One signature, verified with the last
  2n bytes of the private key, is a complete check of PK.root (C60); it says nothing about SK.prf.
* **ramspace.c** checks `argc < 1` where it means 2 (`C59_no_argument`); it is only called by ramspace.py.
* **stack.c** cannot tell a routine that left 'x' in its lowest bytes from one that used less, and
  reports 10000 for every routine that used 10000 or more (C59).

## 6. Tests of the model

* **Known answers.** `tools/kat.sh` extracts the model (not the specification) to OCaml
  and runs key generation, signing and verification on the reference vectors of
  /repo/testvector.h; results in section 7. Tests, not proofs.
* **Wrong programs.** `seeded/LOG.jsonl`: every line is one edit of the model and the
  theorems that stopped proving.

## 7. Known answers

The model (not the specification) against the vectors of /repo/testvector.h, as
test_testvector.c does it (42 bytes at a time, verified along the way):

| parameter sets | key | SHA-256 of the signature | verdict |
|---|---|---|---|
| all six f sets | same | same | 1 |
| all six s sets (shake_192s and shake_256s take hours) | same | same | 1 |
| sha2_128f without the midstate optimisation, big-endian | same | same | 1 |
| the same with 32-bit pointers and 4-byte alignment | same | same | 1 |
