(** * Model of tune.h, the sizes in tiny_sphincs.h, internal.h:18-58 and the twelve
      parameter set files *)
From Verif Require Import CSem.

(** tune.h:22-62: the user's switches (0/1 macros are booleans), plus what is not in
    tune.h but in the platform: the byte order, the size of a pointer and the alignment of
    uint64_t. *)
Record config := mkConfig {
  cfg_shake : bool;     (* TS_SUPPORT_SHAKE *)
  cfg_sha2 : bool;      (* TS_SUPPORT_SHA2 *)
  cfg_L5 : bool;        (* TS_SUPPORT_L5 *)
  cfg_L3 : bool;        (* TS_SUPPORT_L3 *)
  cfg_S : bool;         (* TS_SUPPORT_S *)
  cfg_sha2_opt : bool;  (* TS_SHA2_OPTIMIZATION *)
  cfg_shake_opt : Z;    (* TS_SHAKE256_OPT *)
  cfg_le : bool;        (* little-endian *)
  cfg_ptr64 : bool;     (* pointers and size_t have 8 bytes (else 4) *)
  cfg_al64 : bool       (* uint64_t is aligned to 8 bytes (else to 4, as on i386) *)
}.

Section Sizes.
Variable cfg : config.

(** tiny_sphincs.h:17-23 *)
Definition TS_MAX_HASH : Z :=
  if cfg_L5 cfg then 32 else if cfg_L3 cfg then 24 else 16.
(** tiny_sphincs.h:25 *)
Definition TS_MAX_WOTS_DIGITS : Z := 2 * TS_MAX_HASH + 3.
(** tiny_sphincs.h:26 *)
Definition TS_MAX_FORS : Z := 35.
(** tiny_sphincs.h:29-43 *)
Definition TS_MAX_T : Z :=
  if cfg_S cfg then
    if cfg_L5 cfg || cfg_L3 cfg then 14 else 12
  else
    if cfg_L5 cfg then 9 else if cfg_L3 cfg then 8 else 6.
(** tiny_sphincs.h:45-53 *)
Definition TS_MAX_MERKLE_H : Z :=
  if cfg_S cfg then 9 else if cfg_L5 cfg then 4 else 3.
(** tiny_sphincs.h:55-59 *)
Definition ADR_SIZE : Z := if cfg_shake cfg then 32 else 22.

(** internal.h:88 *)
Definition MAX_MESSAGE_HASH : Z := 49.
(** internal.h:92 *)
Definition SHA2_ADR_SIZE : Z := 22.

(** ** Layout of the structures and unions: every member at the next multiple of its
    alignment, the size a multiple of the largest alignment *)
(** the layout rule of the ABI, for tiny_sphincs.h:66-169 *)
Definition round_up (a s : Z) : Z := (s + a - 1) / a * a.
(** Size and alignment of a pointer, and of size_t *)
(** the ABI, for tiny_sphincs.h:86-90,164-167 *)
Definition SIZEOF_PTR : Z := if cfg_ptr64 cfg then 8 else 4.
(** Alignment of uint64_t *)
(** the ABI, for fips202.h:35 and sha2.h:16-62 *)
Definition ALIGN_64 : Z := if cfg_al64 cfg then 8 else 4.
(** sha2.h:16-29: h at 0, count at 32, num at 40, x at 44 *)
Definition SIZEOF_SHA256_CTX : Z := round_up ALIGN_64 (44 + 64).
(** sha2.h:48-62: state at 0, count at 64, in_buffer at 72, x (aligned as uint64_t) *)
Definition SHA512_X_OFFSET : Z := round_up ALIGN_64 76.
(** sha2.h:48-62 *)
Definition SIZEOF_SHA512_CTX : Z := SHA512_X_OFFSET + 128.
(** fips202.h:35-37 *)
Definition SIZEOF_SHAKE256_CTX : Z := 208.
(** tiny_sphincs.h:66-76 [union t_iterator] *)
Definition SIZEOF_T_ITERATOR : Z :=
  Z.max (if cfg_shake cfg then SIZEOF_SHAKE256_CTX else 0)
  (Z.max (if cfg_sha2 cfg then SIZEOF_SHA256_CTX else 0)
         (if cfg_sha2 cfg && (cfg_L3 cfg || cfg_L5 cfg) then SIZEOF_SHA512_CTX else 0)).

(** tiny_sphincs.h:152-155: the stack in x.fors, at byte 70 (after 35 shorts) *)
Definition FORS_STACK_OFFSET : Z := 2 * TS_MAX_FORS.
(** tiny_sphincs.h:152-155 *)
Definition FORS_STACK_SIZE : Z := (TS_MAX_T - 1) * TS_MAX_HASH.
(** tiny_sphincs.h:160-163: the stack in x.merkle, after buffer *)
Definition MERKLE_STACK_OFFSET : Z := TS_MAX_HASH.
(** tiny_sphincs.h:160-163 *)
Definition MERKLE_STACK_SIZE : Z := (TS_MAX_MERKLE_H - 1) * TS_MAX_HASH.

(** tiny_sphincs.h:151-168: size of the union x (aligned because of the pointer and the
    size_t in x.verify) *)
Definition SIZEOF_X : Z :=
  round_up SIZEOF_PTR
   (Z.max (round_up 2 (FORS_STACK_OFFSET + FORS_STACK_SIZE))
   (Z.max (1 + TS_MAX_WOTS_DIGITS)
   (Z.max (MERKLE_STACK_OFFSET + MERKLE_STACK_SIZE) (2 * SIZEOF_PTR)))).

(** tiny_sphincs.h:141-148: whether the prehash arrays exist *)
Definition has_prehash256 : bool := cfg_sha2 cfg && cfg_sha2_opt cfg.
(** tiny_sphincs.h:141-148 *)
Definition has_prehash512 : bool :=
  cfg_sha2 cfg && cfg_sha2_opt cfg && (cfg_L5 cfg || cfg_L3 cfg).

(** tiny_sphincs.h:85-169: sizeof(struct ts_context), with the offset of each member
    computed from its alignment. *)
Definition SIZEOF_TS_CONTEXT : Z :=
  let o := SIZEOF_PTR + SIZEOF_PTR in                  (* ps, public_key *)
  let o := o + 4 in                                    (* state *)
  let o := o + TS_MAX_HASH in                          (* buffer *)
  let o := o + 4 in                                    (* four unsigned chars *)
  let o := o + ADR_SIZE in                             (* adr *)
  let o := round_up 2 o + 2 + 2 in                     (* two unsigned shorts *)
  let o := round_up ALIGN_64 o + 8 in                  (* tree_address *)
  let o := o + TS_MAX_HASH in                          (* auth_path_buffer *)
  let o := round_up ALIGN_64 o + 2 * SIZEOF_T_ITERATOR in (* big_iter, small_iter *)
  let o := o + (if has_prehash256 then 32 else 0) in   (* prehash_sha256 *)
  let o := (if has_prehash512 then round_up ALIGN_64 o + 64 else o) in (* prehash_sha512 *)
  let o := round_up SIZEOF_PTR o + SIZEOF_X in         (* x *)
  round_up (Z.max SIZEOF_PTR ALIGN_64) o.
End Sizes.

(** ** Parameter sets *)

(** The functions a parameter set can point to. *)
(** internal.h:31-33 *)
Inductive prf_msg_fn : Set := shake256_prf_msg | sha2_L1_prf_msg | sha2_L35_prf_msg.
(** internal.h:34-37 *)
Inductive hash_msg_fn : Set := shake256_hash_msg | sha2_L1_hash_msg | sha2_L35_hash_msg.
(** internal.h:38 *)
Inductive prf_fn : Set := shake256_prf | sha2_prf.
(** internal.h:39-41 *)
Inductive f_fn : Set := shake256_f_simple | sha2_f_simple.
(** internal.h:48 *)
Inductive init_t_fn : Set :=
  shake256_init_t_simple | sha2_L1_init_t_simple | sha2_L35_init_t_simple.
(** internal.h:49-50 *)
Inductive next_t_fn : Set :=
  shake256_next_t_simple | sha2_L1_next_t_simple | sha2_L35_next_t_simple.
(** internal.h:51-52 *)
Inductive final_t_fn : Set :=
  shake256_final_t_simple | sha2_L1_final_t_simple | sha2_L35_final_t_simple.
(** internal.h:57 *)
Inductive prehash_fn : Set := sha2_L1_prehash | sha2_L35_prehash.

(** internal.h:18-58 [struct ts_parameter_set] *)
Record parameter_set := mkPS {
  ps_n : Z; ps_k : Z; ps_t : Z; ps_h : Z; ps_d : Z; ps_merkle_h : Z;
  ps_sha2 : bool;
  ps_prf_msg : prf_msg_fn; ps_hash_msg : hash_msg_fn; ps_prf : prf_fn; ps_f : f_fn;
  ps_init_t : init_t_fn; ps_next_t : next_t_fn; ps_final_t : final_t_fn;
  ps_compute_prehash : option prehash_fn
}.

(** shake256_128f_simple.c:7-24 *)
Definition ts_ps_shake_128f_simple (cfg : config) : parameter_set :=
  mkPS 16 33 6 66 22 3 false
       shake256_prf_msg shake256_hash_msg shake256_prf shake256_f_simple
       shake256_init_t_simple shake256_next_t_simple shake256_final_t_simple
       None.

(** shake256_128s_simple.c:7-24 *)
Definition ts_ps_shake_128s_simple (cfg : config) : parameter_set :=
  mkPS 16 14 12 63 7 9 false
       shake256_prf_msg shake256_hash_msg shake256_prf shake256_f_simple
       shake256_init_t_simple shake256_next_t_simple shake256_final_t_simple
       None.

(** shake256_192f_simple.c:7-24 *)
Definition ts_ps_shake_192f_simple (cfg : config) : parameter_set :=
  mkPS 24 33 8 66 22 3 false
       shake256_prf_msg shake256_hash_msg shake256_prf shake256_f_simple
       shake256_init_t_simple shake256_next_t_simple shake256_final_t_simple
       None.

(** shake256_192s_simple.c:7-24 *)
Definition ts_ps_shake_192s_simple (cfg : config) : parameter_set :=
  mkPS 24 17 14 63 7 9 false
       shake256_prf_msg shake256_hash_msg shake256_prf shake256_f_simple
       shake256_init_t_simple shake256_next_t_simple shake256_final_t_simple
       None.

(** shake256_256f_simple.c:7-24 *)
Definition ts_ps_shake_256f_simple (cfg : config) : parameter_set :=
  mkPS 32 35 9 68 17 4 false
       shake256_prf_msg shake256_hash_msg shake256_prf shake256_f_simple
       shake256_init_t_simple shake256_next_t_simple shake256_final_t_simple
       None.

(** shake256_256s_simple.c:7-24 *)
Definition ts_ps_shake_256s_simple (cfg : config) : parameter_set :=
  mkPS 32 22 14 64 8 8 false
       shake256_prf_msg shake256_hash_msg shake256_prf shake256_f_simple
       shake256_init_t_simple shake256_next_t_simple shake256_final_t_simple
       None.

(** sha2_128f_simple.c:7-28 *)
Definition ts_ps_sha2_128f_simple (cfg : config) : parameter_set :=
  mkPS 16 33 6 66 22 3 true
       sha2_L1_prf_msg sha2_L1_hash_msg sha2_prf sha2_f_simple
       sha2_L1_init_t_simple sha2_L1_next_t_simple sha2_L1_final_t_simple
       (if cfg_sha2_opt cfg then Some sha2_L1_prehash else None).

(** sha2_128s_simple.c:7-28 *)
Definition ts_ps_sha2_128s_simple (cfg : config) : parameter_set :=
  mkPS 16 14 12 63 7 9 true
       sha2_L1_prf_msg sha2_L1_hash_msg sha2_prf sha2_f_simple
       sha2_L1_init_t_simple sha2_L1_next_t_simple sha2_L1_final_t_simple
       (if cfg_sha2_opt cfg then Some sha2_L1_prehash else None).

(** sha2_192f_simple.c:7-28 *)
Definition ts_ps_sha2_192f_simple (cfg : config) : parameter_set :=
  mkPS 24 33 8 66 22 3 true
       sha2_L35_prf_msg sha2_L35_hash_msg sha2_prf sha2_f_simple
       sha2_L35_init_t_simple sha2_L35_next_t_simple sha2_L35_final_t_simple
       (if cfg_sha2_opt cfg then Some sha2_L35_prehash else None).

(** sha2_192s_simple.c:7-28 *)
Definition ts_ps_sha2_192s_simple (cfg : config) : parameter_set :=
  mkPS 24 17 14 63 7 9 true
       sha2_L35_prf_msg sha2_L35_hash_msg sha2_prf sha2_f_simple
       sha2_L35_init_t_simple sha2_L35_next_t_simple sha2_L35_final_t_simple
       (if cfg_sha2_opt cfg then Some sha2_L35_prehash else None).

(** sha2_256f_simple.c:7-28 *)
Definition ts_ps_sha2_256f_simple (cfg : config) : parameter_set :=
  mkPS 32 35 9 68 17 4 true
       sha2_L35_prf_msg sha2_L35_hash_msg sha2_prf sha2_f_simple
       sha2_L35_init_t_simple sha2_L35_next_t_simple sha2_L35_final_t_simple
       (if cfg_sha2_opt cfg then Some sha2_L35_prehash else None).

(** sha2_256s_simple.c:7-28 *)
Definition ts_ps_sha2_256s_simple (cfg : config) : parameter_set :=
  mkPS 32 22 14 64 8 8 true
       sha2_L35_prf_msg sha2_L35_hash_msg sha2_prf sha2_f_simple
       sha2_L35_init_t_simple sha2_L35_next_t_simple sha2_L35_final_t_simple
       (if cfg_sha2_opt cfg then Some sha2_L35_prehash else None).

(** The names of the parameter sets. *)
(** tiny_sphincs.h:280-316 *)
Inductive ps_name : Set :=
| SHAKE_128f | SHAKE_128s | SHAKE_192f | SHAKE_192s | SHAKE_256f | SHAKE_256s
| SHA2_128f | SHA2_128s | SHA2_192f | SHA2_192s | SHA2_256f | SHA2_256s.

(** The parameter set object of that name in a program compiled with [cfg]. *)
(** tiny_sphincs.h:280-316 *)
Definition the_ps (cfg : config) (p : ps_name) : parameter_set :=
  match p with
  | SHAKE_128f => ts_ps_shake_128f_simple cfg
  | SHAKE_128s => ts_ps_shake_128s_simple cfg
  | SHAKE_192f => ts_ps_shake_192f_simple cfg
  | SHAKE_192s => ts_ps_shake_192s_simple cfg
  | SHAKE_256f => ts_ps_shake_256f_simple cfg
  | SHAKE_256s => ts_ps_shake_256s_simple cfg
  | SHA2_128f => ts_ps_sha2_128f_simple cfg
  | SHA2_128s => ts_ps_sha2_128s_simple cfg
  | SHA2_192f => ts_ps_sha2_192f_simple cfg
  | SHA2_192s => ts_ps_sha2_192s_simple cfg
  | SHA2_256f => ts_ps_sha2_256f_simple cfg
  | SHA2_256s => ts_ps_sha2_256s_simple cfg
  end.

(** Whether it exists: the #if of each parameter set file (line 5), plus the sanity
    check of tune.h:65-67 (implied). *)
Definition ps_enabled (cfg : config) (p : ps_name) : bool :=
  match p with
  | SHAKE_128f => cfg_shake cfg
  | SHAKE_128s => cfg_shake cfg && cfg_S cfg
  | SHAKE_192f => cfg_shake cfg && (cfg_L5 cfg || cfg_L3 cfg)
  | SHAKE_192s => cfg_shake cfg && (cfg_L5 cfg || cfg_L3 cfg) && cfg_S cfg
  | SHAKE_256f => cfg_shake cfg && cfg_L5 cfg
  | SHAKE_256s => cfg_shake cfg && cfg_L5 cfg && cfg_S cfg
  | SHA2_128f => cfg_sha2 cfg
  | SHA2_128s => cfg_sha2 cfg && cfg_S cfg
  | SHA2_192f => cfg_sha2 cfg && (cfg_L5 cfg || cfg_L3 cfg)
  | SHA2_192s => cfg_sha2 cfg && (cfg_L5 cfg || cfg_L3 cfg) && cfg_S cfg
  | SHA2_256f => cfg_sha2 cfg && cfg_L5 cfg
  | SHA2_256s => cfg_sha2 cfg && cfg_L5 cfg && cfg_S cfg
  end.
