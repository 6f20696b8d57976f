(** * The parameter sets and the size of a context (C32, C34) *)
From Verif Require Import SpecSLH SpecMap CSem ModelParams ModelCtx ModelKeygen.
Ltac Zify.zify_post_hook ::= idtac.

(** ** C32: FIPS 205 Table 2, as published: n, h, d, h', a, k, and the sizes in bytes of
    public key, private key and signature *)
Definition Table2 (p : ps_name) : Z * Z * Z * Z * Z * Z * (Z * Z * Z) :=
  match p with
  | SHA2_128s | SHAKE_128s => (16, 63,  7, 9, 12, 14, (32,  64,  7856))
  | SHA2_128f | SHAKE_128f => (16, 66, 22, 3,  6, 33, (32,  64, 17088))
  | SHA2_192s | SHAKE_192s => (24, 63,  7, 9, 14, 17, (48,  96, 16224))
  | SHA2_192f | SHAKE_192f => (24, 66, 22, 3,  8, 33, (48,  96, 35664))
  | SHA2_256s | SHAKE_256s => (32, 64,  8, 8, 14, 22, (64, 128, 29792))
  | SHA2_256f | SHAKE_256f => (32, 68, 17, 4,  9, 35, (64, 128, 49856))
  end.
Theorem C32_published_parameters : forall cfg p,
  let ps := the_ps cfg p in
  (ps_n ps, ps_h ps, ps_d ps, ps_merkle_h ps, ps_t ps, ps_k ps,
   (ts_size_public_key ps, ts_size_private_key ps, ts_size_signature ps)) = Table2 p.
Proof. intros cfg p. destruct p; reflexivity. Qed.

(** Which functions a parameter set points to: those of its own hash family and
    category, the same for every member of the family *)
Definition is_sha2 (p : ps_name) : bool :=
  match p with SHA2_128f | SHA2_128s | SHA2_192f | SHA2_192s | SHA2_256f | SHA2_256s => true | _ => false end.
Definition category1 (p : ps_name) : bool :=
  match p with SHA2_128f | SHA2_128s | SHAKE_128f | SHAKE_128s => true | _ => false end.
Theorem C32_functions : forall cfg p,
  let ps := the_ps cfg p in
  ps_sha2 ps = is_sha2 p /\
  (ps_prf_msg ps, ps_hash_msg ps, ps_prf ps, ps_f ps, ps_init_t ps, ps_next_t ps, ps_final_t ps) =
  (if is_sha2 p then
     if category1 p then
       (sha2_L1_prf_msg, sha2_L1_hash_msg, sha2_prf, sha2_f_simple, sha2_L1_init_t_simple, sha2_L1_next_t_simple, sha2_L1_final_t_simple)
     else
       (sha2_L35_prf_msg, sha2_L35_hash_msg, sha2_prf, sha2_f_simple, sha2_L35_init_t_simple, sha2_L35_next_t_simple, sha2_L35_final_t_simple)
   else (shake256_prf_msg, shake256_hash_msg, shake256_prf, shake256_f_simple, shake256_init_t_simple, shake256_next_t_simple, shake256_final_t_simple)).
Proof. intros cfg p. split; destruct p; reflexivity. Qed.

(** The sets are consistent in themselves and with the arrays of every configuration
    that enables them: the layers make up the hypertree; the digest (m bytes) fits the
    digest array and the two integers in it fit their variables; the hashes, digits,
    FORS indices and stacks fit the arrays of the context. *)
Theorem C32_consistent : forall cfg p, ps_enabled cfg p = true ->
  let ps := the_ps cfg p in
  ps_merkle_h ps * ps_d ps = ps_h ps /\
  ceil_div (ps_k ps * ps_t ps) 8 + ceil_div (ps_h ps - ps_merkle_h ps) 8 + ceil_div (ps_merkle_h ps) 8 <= MAX_MESSAGE_HASH /\
  0 < ps_h ps - ps_merkle_h ps <= 64 /\ ps_merkle_h ps <= 16 /\ ps_t ps <= 16 /\
  ps_n ps <= TS_MAX_HASH cfg /\ 2 * ps_n ps + 3 <= TS_MAX_WOTS_DIGITS cfg /\
  ps_k ps <= TS_MAX_FORS /\ (ps_t ps - 1) * ps_n ps <= FORS_STACK_SIZE cfg /\
  (ps_merkle_h ps - 1) * ps_n ps <= MERKLE_STACK_SIZE cfg /\
  (* (k - 1) 2^t + 2^t - 1, the largest FORS leaf number, is an int *)
  ps_k ps * 2 ^ ps_t ps < 2 ^ 31.
Proof.
  intros [shake sha2 L5 L3 S so ko le p64 a64] p on.
  destruct p, shake, sha2, L5, L3, S; cbv in on; first [discriminate on|clear; cbv; intuition discriminate].
Qed.
(** For the derived quantities of FIPS 205 *)
Theorem C32_lengths : forall p,
  wlen (slh_of p) = 2 * p_n (slh_of p) + 3 /\ w (slh_of p) = 16 /\
  forall cfg, slh_sig_length (slh_of p) = ts_size_signature (the_ps cfg p).
Proof. intros p. split; [|split]; destruct p; reflexivity. Qed.
Print Assumptions C32_published_parameters.
Print Assumptions C32_functions.
Print Assumptions C32_consistent.
Print Assumptions C32_lengths.

(** ** C34: the size of a context *)
(** The configuration with which ramspace.py (lines 32-60) measures a parameter set, on
    a 64-bit machine *)
Definition minimal (p : ps_name) (le : bool) : config :=
  let l5 := match p with SHAKE_256f | SHAKE_256s | SHA2_256f | SHA2_256s => true | _ => false end in
  let l3 := negb (category1 p) in
  let s := match p with SHAKE_128s | SHAKE_192s | SHAKE_256s | SHA2_128s | SHA2_192s | SHA2_256s => true | _ => false end in
  mkConfig (negb (is_sha2 p)) (is_sha2 p) l5 l3 s false 2 le true true.
(** The column "CTX size" of ramspace.out *)
Definition documented_size (p : ps_name) : Z :=
  match p with
  | SHA2_128f => 472 | SHA2_128s => 568 | SHA2_192f => 768 | SHA2_192s => 912 | SHA2_256f => 872 | SHA2_256s => 1032
  | SHAKE_128f => 672 | SHAKE_128s => 768 | SHAKE_192f => 776 | SHAKE_192s => 920 | SHAKE_256f => 880 | SHAKE_256s => 1040
  end.
Theorem C34_documented_sizes : forall p le,
  ps_enabled (minimal p le) p = true /\ SIZEOF_TS_CONTEXT (minimal p le) = documented_size p.
Proof. intros p le. destruct p; split; reflexivity. Qed.
(** No configuration that supports a parameter set needs less on a 64-bit machine, and
    none needs more than 1136 bytes; with pointers of 4 bytes 8 bytes less may be enough,
    20 if moreover uint64_t is aligned to 4 only, and 1128 bytes always are. *)
Theorem C34_bounds : forall cfg p, ps_enabled cfg p = true ->
  let saved := if cfg_al64 cfg then (if cfg_ptr64 cfg then 0 else 8) else 20 in
  documented_size p - saved <= SIZEOF_TS_CONTEXT cfg <= (if cfg_ptr64 cfg then 1136 else 1128).
Proof.
  intros [shake sha2 L5 L3 S so ko le p64 a64] p on.
  destruct p, shake, sha2, L5, L3, S, so; cbv in on; first [discriminate on|clear; destruct p64, a64; cbv; intuition discriminate].
Qed.
(** The members of a context, with the sizes that every operation preserves
    (C14_C15_every_history_is_defined: [wf_ctx] before and after), fit into that size:
    two pointers, the state, four bytes, two shorts, one 64-bit integer, the arrays. *)
Definition member_bytes (cfg : config) (c : ts_context) : Z :=
  2 * (if cfg_ptr64 cfg then 8 else 4) + 4 + zlen (c_buffer c) + 4 + zlen (c_adr c) + 2 + 2 + 8 + zlen (c_auth_path_buffer c)
  + zlen (c_big_iter c) + zlen (c_small_iter c)
  + 4 * zlen (c_prehash_sha256 c) + 8 * zlen (c_prehash_sha512 c) + zlen (c_x c).
Theorem C34_members_fit : forall cfg c, wf_ctx cfg c ->
  member_bytes cfg c <= SIZEOF_TS_CONTEXT cfg <= member_bytes cfg c + 16.
Proof.
  intros cfg c W. unfold member_bytes.
  destruct (wf_buffer _ _ W) as [-> _], (wf_adr _ _ W) as [-> _], (wf_auth _ _ W) as [-> _], (wf_big _ _ W) as [-> _],
    (wf_small _ _ W) as [-> _], (wf_pre256 _ _ W) as [-> _], (wf_pre512 _ _ W) as [-> _], (wf_x _ _ W) as [-> _].
  clear. destruct cfg as [shake sha2 L5 L3 S so ko le p64 a64]. destruct shake, sha2, L5, L3, S, so, p64, a64; cbv; intuition discriminate.
Qed.
(** What the options of tune.h cost (tune.h:38-41, read.me:22-45): the SHA-2 optimisation 32
    bytes, 96 if L3 or L5 is supported, and nothing if SHA-2 is not; which SHAKE256
    implementation is used, and the order of bytes, make no difference; *)
Definition with_sha2_opt (cfg : config) (b : bool) : config :=
  mkConfig (cfg_shake cfg) (cfg_sha2 cfg) (cfg_L5 cfg) (cfg_L3 cfg) (cfg_S cfg) b (cfg_shake_opt cfg) (cfg_le cfg) (cfg_ptr64 cfg) (cfg_al64 cfg).
Theorem C34_cost_of_sha2_optimisation : forall cfg,
  SIZEOF_TS_CONTEXT (with_sha2_opt cfg true) - SIZEOF_TS_CONTEXT (with_sha2_opt cfg false) =
  if cfg_sha2 cfg then (if cfg_L5 cfg || cfg_L3 cfg then 96 else 32) else 0.
Proof. intros [shake sha2 L5 L3 S so ko le p64 a64]. destruct shake, sha2, L5, L3, S, p64, a64; reflexivity. Qed.
(** ... and to support less never makes the context larger. *)
Definition supports_less (c d : config) : Prop :=
  Bool.le (cfg_shake c) (cfg_shake d) /\ Bool.le (cfg_sha2 c) (cfg_sha2 d) /\ Bool.le (cfg_L5 c) (cfg_L5 d) /\ Bool.le (cfg_L3 c) (cfg_L3 d) /\
  Bool.le (cfg_S c) (cfg_S d) /\ Bool.le (cfg_sha2_opt c) (cfg_sha2_opt d) /\ cfg_ptr64 c = cfg_ptr64 d /\ cfg_al64 c = cfg_al64 d.
Theorem C34_less_support_less_memory : forall c d, supports_less c d -> SIZEOF_TS_CONTEXT c <= SIZEOF_TS_CONTEXT d.
Proof.
  intros [sh s2 l5 l3 ss so ko le p64 a64] [sh' s2' l5' l3' ss' so' ko' le' p64' a64'] (H1 & H2 & H3 & H4 & H5 & H6 & H7 & H8).
  cbn [cfg_shake cfg_sha2 cfg_L5 cfg_L3 cfg_S cfg_sha2_opt cfg_ptr64 cfg_al64] in *. subst p64' a64'.
  destruct sh, sh'; cbn [Bool.le] in H1; try discriminate H1; clear H1;
  destruct s2, s2'; cbn [Bool.le] in H2; try discriminate H2; clear H2;
  destruct l5, l5'; cbn [Bool.le] in H3; try discriminate H3; clear H3;
  destruct l3, l3'; cbn [Bool.le] in H4; try discriminate H4; clear H4;
  destruct ss, ss'; cbn [Bool.le] in H5; try discriminate H5; clear H5;
  destruct so, so'; cbn [Bool.le] in H6; try discriminate H6; clear H6;
  destruct p64, a64; apply Z.leb_le; reflexivity.
Qed.
Example ex_supports_less : supports_less (minimal SHA2_128f true) (minimal SHA2_256s false) /\
  SIZEOF_TS_CONTEXT (minimal SHA2_128f true) < SIZEOF_TS_CONTEXT (minimal SHA2_256s false).
Proof. split; [unfold supports_less; cbn; intuition|reflexivity]. Qed.
Print Assumptions C34_documented_sizes.
Print Assumptions C34_bounds.
Print Assumptions C34_members_fit.
Print Assumptions C34_cost_of_sha2_optimisation.
Print Assumptions C34_less_support_less_memory.
