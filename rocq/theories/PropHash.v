(** * Properties of the hash primitives (C20, C21, C22, C23, C25, C27)

    Only statements; the proofs are in the Pf* files.  The specification of SHA-256
    and SHA-512 is SpecSha2.v, of SHAKE256 SpecKeccak.v, that of integer/byte conversion is SpecBytes.v. *)
From Verif Require Import Arr SpecSha2 ModelEndian ModelSha256 ModelSha512 Sessions PfEndian
  PfHashSessions SpecKeccak ModelFips202 PfKeccakLanes PfKeccakBits PfShake.
From Verif Require PfSha256 PfSha512.

(** C20: for every previous content [c0] of the context, every byte order of the host
    and every division of the message into update calls, the digest written is
    SHA-256 of the concatenation. *)
Theorem C20_sha256_any_chunking : forall (le : bool) (c0 : sha256_ctx) (chunks : list (list Z)),
  is_bytes (s256_x c0) -> length (s256_x c0) = 64%nat ->
  Forall is_bytes chunks -> 8 * len (concat chunks) < 2 ^ 64 ->
  exists c', sha256_session le c0 chunks 32 = Ok (sha2 SHA256 (concat chunks), c').
Proof.
  intros le c0 chunks H1 H2 H3 H4.
  destruct (sha256_session_spec le c0 chunks 8 H1 H2 H3 H4) as (c' & E); [lia|].
  exists c'. change 32 with (4 * 8). rewrite E. do 2 f_equal. apply firstn_all2.
  rewrite sha256_length. reflexivity.
Qed.
Print Assumptions C20_sha256_any_chunking.

(** C21: the same for SHA-512 (the code keeps a 64-bit bit counter, so the message
    is limited to less than 2^64 bits). *)
Theorem C21_sha512_any_chunking : forall (le : bool) (c0 : sha512_ctx) (chunks : list (list Z)),
  is_bytes (s512_x c0) -> length (s512_x c0) = 128%nat ->
  Forall is_bytes chunks -> 8 * len (concat chunks) < 2 ^ 64 ->
  exists c', sha512_session le c0 chunks 64 = Ok (sha2 SHA512 (concat chunks), c').
Proof.
  intros le c0 chunks H1 H2 H3 H4.
  destruct (sha512_session_spec le c0 chunks 8 H1 H2 H3 H4) as (c' & E); [lia|].
  exists c'. change 64 with (8 * 8). rewrite E. do 2 f_equal. apply firstn_all2.
  rewrite sha512_length. reflexivity.
Qed.
Print Assumptions C21_sha512_any_chunking.

(** C23: asking for [n] bytes, [n] a multiple of the word size, gives the first [n]
    bytes of the digest, for every such [n] up to the digest size. *)
Theorem C23_sha256_truncation : forall le c0 chunks n,
  is_bytes (s256_x c0) -> length (s256_x c0) = 64%nat ->
  Forall is_bytes chunks -> 8 * len (concat chunks) < 2 ^ 64 ->
  0 <= n <= 32 -> n mod 4 = 0 ->
  exists c', sha256_session le c0 chunks n
    = Ok (firstn (Z.to_nat n) (sha2 SHA256 (concat chunks)), c').
Proof.
  intros le c0 chunks n H1 H2 H3 H4 Hn Hm.
  destruct (sha256_session_spec le c0 chunks (n / 4) H1 H2 H3 H4) as (c' & E).
  { clear - Hn Hm; lia. }
  replace (4 * (n / 4)) with n in E by (clear - Hm; lia). eauto.
Qed.
Theorem C23_sha512_truncation : forall le c0 chunks n,
  is_bytes (s512_x c0) -> length (s512_x c0) = 128%nat ->
  Forall is_bytes chunks -> 8 * len (concat chunks) < 2 ^ 64 ->
  0 <= n <= 64 -> n mod 8 = 0 ->
  exists c', sha512_session le c0 chunks n
    = Ok (firstn (Z.to_nat n) (sha2 SHA512 (concat chunks)), c').
Proof.
  intros le c0 chunks n H1 H2 H3 H4 Hn Hm.
  destruct (sha512_session_spec le c0 chunks (n / 8) H1 H2 H3 H4) as (c' & E).
  { clear - Hn Hm; lia. }
  replace (8 * (n / 8)) with n in E by (clear - Hm; lia). eauto.
Qed.
Print Assumptions C23_sha256_truncation.
Print Assumptions C23_sha512_truncation.

(** C27: reading [n <= 8] bytes gives the big-endian value; writing the low [n] bytes
    of a value gives its big-endian encoding; the two are inverse to each other. *)
Theorem C27_read_big_endian : forall p n, is_bytes p -> 0 <= n <= 8 -> len p = n ->
  ts_bytes_to_ull p n = Ok (toInt p).
Proof. exact bytes_to_ull_small. Qed.
Theorem C27_write_big_endian : forall v n, 0 <= v < 2 ^ 64 ->
  ts_ull_to_bytes v n = toByte v (Z.to_nat n).
Proof. exact ts_ull_to_bytes_small. Qed.
Theorem C27_write_then_read : forall v n, 0 <= n <= 8 -> 0 <= v < 256 ^ n ->
  ts_bytes_to_ull (ts_ull_to_bytes v n) n = Ok v.
Proof. exact write_then_read. Qed.
Theorem C27_read_then_write : forall p n, is_bytes p -> 0 <= n <= 8 -> len p = n ->
  exists v, ts_bytes_to_ull p n = Ok v /\ 0 <= v < 256 ^ n /\ ts_ull_to_bytes v n = p.
Proof. exact read_then_write. Qed.
Print Assumptions C27_write_then_read.
Print Assumptions C27_read_then_write.

(** C22: whatever the context held before, however the message is divided into absorb
    calls and the output into squeeze calls, and whichever of the three permutations is
    compiled in, the output is SHAKE256 of the concatenation of the chunks.  Each
    single chunk must be shorter than 2^64 - 136 bytes (the code adds its length, a
    size_t, to the position in the block); the total is not limited. *)
Theorem C22_shake256_any_chunking : forall (opt : Z) (s0 : list Z) (chunks : list (list Z))
    (sizes : list Z),
  length s0 = 26%nat -> Forall is_bytes chunks ->
  Forall (fun c => len c < 2 ^ 64 - 136) chunks -> Forall (fun n => 0 <= n) sizes ->
  exists outs s', shake256_session opt s0 chunks sizes = Ok (outs, s') /\
    map len outs = sizes /\
    concat outs = shake256 (concat chunks) (fold_right Z.add 0 sizes).
Proof. exact shake256_session_ok. Qed.
Print Assumptions C22_shake256_any_chunking.

(** C25: on every state each of the three implementations computes KECCAK-p[1600,24]
    (and leaves the byte counter [k], word 25 of the context, alone). *)
Theorem C25_permutation_is_keccak_p : forall (opt : Z) (L : list Z) (k : Z),
  length L = 25%nat -> Forall (fun w => 0 <= w < 2 ^ 64) L ->
  exists L', KeccakF1600_StatePermute opt (L ++ [k]) = Ok (L' ++ [k]) /\
    length L' = 25%nat /\ Forall (fun w => 0 <= w < 2 ^ 64) L' /\
    string_of_lanes L' = keccak_p (string_of_lanes L).
Proof.
  intros opt L k H1 H2. exists (perm L). rewrite permute_ok by exact H1.
  destruct (keccak_p_str L (conj H2 H1)) as [E [H3 H4]].
  split; [reflexivity|]. split; [exact H4|]. split; [exact H3|]. symmetry. exact E.
Qed.
Theorem C25_all_implementations_agree : forall (opt opt' : Z) (s : list Z), length s = 26%nat ->
  exists s', KeccakF1600_StatePermute opt s = Ok s' /\ KeccakF1600_StatePermute opt' s = Ok s'.
Proof.
  intros opt opt' s H. pose proof (firstn_skipn 25 s) as E.
  assert (H1 : length (firstn 25 s) = 25%nat) by (apply firstn_len; lia).
  assert (H2 : length (skipn 25 s) = 1%nat) by (rewrite skipn_length; lia).
  destruct (skipn 25 s) as [|k [|]]; try discriminate. rewrite <- E.
  rewrite !permute_ok by exact H1. eauto.
Qed.
Print Assumptions C25_permutation_is_keccak_p.
Print Assumptions C25_all_implementations_agree.

(** Non-vacuity: the hypotheses hold of ordinary calls. *)
Example C20_nonvacuous :
  let c0 := {| s256_h := repeat 3 8; s256_count := 17; s256_num := 99; s256_x := repeat 255 64 |} in
  is_bytes (s256_x c0) /\ length (s256_x c0) = 64%nat /\
  Forall is_bytes [[97]; []; [98; 99]] /\ 8 * len (concat [[97]; []; [98; 99]]) < 2 ^ 64.
Proof.
  split; [|split; [reflexivity|split; [|reflexivity]]];
  repeat (constructor; try (red; lia)).
Qed.
Example C27_nonvacuous : ts_bytes_to_ull [1; 2; 3] 3 = Ok 66051 /\ ts_ull_to_bytes 66051 3 = [1; 2; 3].
Proof. split; reflexivity. Qed.
Example C22_nonvacuous : exists outs s',
  shake256_session 1 (repeat 7 26) [[1]; []; repeat 9 200] [3; 0; 140] = Ok (outs, s') /\
  map len outs = [3; 0; 140].
Proof. do 2 eexists. split; [vm_compute; reflexivity|vm_compute; reflexivity]. Qed.
(** The specification computes the published value of SHAKE256 of the empty message
    (by C22 it is what the fast implementation computes). *)
Example C22_known_answer : shake256 [] 4 = [0x46; 0xb9; 0xdd; 0x2b].
Proof.
  assert (H1 : Forall is_bytes []) by constructor.
  assert (H2 : Forall (fun c => len c < 2 ^ 64 - 136) []) by constructor.
  assert (H3 : Forall (fun n => 0 <= n) [4]) by (constructor; [lia|constructor]).
  pose proof (C22_shake256_any_chunking 2 (repeat 0 26) [] [4] eq_refl H1 H2 H3) as H.
  assert (E2 : exists s2, shake256_session 2 (repeat 0 26) [] [4] = Ok ([[0x46; 0xb9; 0xdd; 0x2b]], s2))
    by (eexists; vm_compute; reflexivity).
  destruct E2 as (s2 & E2). rewrite E2 in H. clear E2. revert H.
  cbn [concat fold_right Z.add]. generalize (shake256 [] 4). intros x (outs & s' & E & _ & EC).
  injection E as <- _. symmetry. exact EC.
Qed.
