(** * Model of the hash glue: sha256_hash.c, sha256_L1_hash.c, sha256_L1_hash_simple.c,
      sha2_simple.c, sha512_hash.c, sha512_L35_hash_simple.c, shake256_hash.c,
      shake256_simple.c, and the dispatch through struct ts_parameter_set

    Outputs: a function with an [output] pointer returns the bytes it writes there;
    the caller stores them (bounds checked) into the destination.  All these C
    functions write their output after the last read of their inputs, except
    [hash_msg], whose output never overlaps its inputs.

    The public key pointer is an address in caller memory [mem]. *)
From Verif Require Import CSem ModelEndian ModelSha256 ModelSha512 ModelFips202
  ModelParams ModelCtx.

Section Hash.
Variable cfg : config.
Variable mem : memory.
Local Notation le := (cfg_le cfg).
Local Notation opt := (cfg_shake_opt cfg).

(** internal.h:70-74 *)
Definition CONVERT_PRIVATE_KEY_TO_PUBLIC (pk n : Z) : Z := pk + 2 * n.
(** internal.h:70-74 *)
Definition CONVERT_PUBLIC_KEY_TO_SEC_SEED (pk n : Z) : Z := pk - 2 * n.
(** internal.h:70-74 *)
Definition CONVERT_PUBLIC_KEY_TO_PRF (pk n : Z) : Z := pk - n.
(** internal.h:70-74 *)
Definition CONVERT_PUBLIC_KEY_TO_PUB_SEED (pk n : Z) : Z := pk.
(** internal.h:70-74 *)
Definition CONVERT_PUBLIC_KEY_TO_ROOT (pk n : Z) : Z := pk + n.

(** The loops [for (int i = n; i < block; i++) update( ctx, "\0", 1 )]
    (sha256_hash.c:51-53, sha256_L1_hash_simple.c:66-68). *)
Definition sha256_pad_zero (ctx : sha256_ctx) (n : Z) : outcome sha256_ctx :=
  for_loop (Z.to_nat (64 - n)) n (fun _ ctx => ts_SHA256_update le ctx [0]) ctx.
(** sha512_hash.c:89-91, sha512_L35_hash_simple.c:71-73 *)
Definition sha512_pad_zero (ctx : sha512_ctx) (n : Z) : outcome sha512_ctx :=
  for_loop (Z.to_nat (128 - n)) n (fun _ ctx => ts_SHA512_update le ctx [0]) ctx.

(** sha256_hash.c:35-55 [ts_sha256_init_ctx] *)
Definition ts_sha256_init_ctx (ctx : sha256_ctx) (sc : ts_context) : outcome sha256_ctx :=
  if cfg_sha2_opt cfg then
    ts_SHA256_restore_state_after_64 ctx (c_prehash_sha256 sc)
  else
    let ctx := ts_SHA256_init ctx in
    let n := ps_n (c_ps sc) in
    seed <- load mem (CONVERT_PUBLIC_KEY_TO_PUB_SEED (c_public_key sc) n) n ;;
    ctx <- ts_SHA256_update le ctx seed ;;
    sha256_pad_zero ctx n.

(** sha512_hash.c:79-93 [ts_sha512_init_ctx] *)
Definition ts_sha512_init_ctx (ctx : sha512_ctx) (sc : ts_context) : outcome sha512_ctx :=
  if cfg_sha2_opt cfg then
    ts_SHA512_restore_state_after_128 ctx (c_prehash_sha512 sc)
  else
    let ctx := ts_SHA512_init ctx in
    let n := ps_n (c_ps sc) in
    seed <- load mem (CONVERT_PUBLIC_KEY_TO_PUB_SEED (c_public_key sc) n) n ;;
    ctx <- ts_SHA512_update le ctx seed ;;
    sha512_pad_zero ctx n.

(** sha256_hash.c:19-29 [ts_sha2_prf] *)
Definition ts_sha2_prf (sc : ts_context) : outcome (list Z * ts_context) :=
  let n := ps_n (c_ps sc) in
  ctx <- get_sha256 le (c_small_iter sc) ;;
  ctx <- ts_sha256_init_ctx ctx sc ;;
  a <- rd_range (c_adr sc) 0 SHA2_ADR_SIZE ;;
  ctx <- ts_SHA256_update le ctx a ;;
  sk <- load mem (CONVERT_PUBLIC_KEY_TO_SEC_SEED (c_public_key sc) n) n ;;
  ctx <- ts_SHA256_update le ctx sk ;;
  '(out, ctx) <- ts_SHA256_final_trunc le ctx n ;;
  it <- put_sha256 le (c_small_iter sc) ctx ;;
  Ok (out, set_small_iter it sc).

(** sha2_simple.c:14-25 [ts_sha2_f_simple]; [inblock] is the object [inblock] points to *)
Definition ts_sha2_f_simple (inblock : list Z) (sc : ts_context)
  : outcome (list Z * ts_context) :=
  let n := ps_n (c_ps sc) in
  ctx <- get_sha256 le (c_small_iter sc) ;;
  ctx <- ts_sha256_init_ctx ctx sc ;;
  a <- rd_range (c_adr sc) 0 SHA2_ADR_SIZE ;;
  ctx <- ts_SHA256_update le ctx a ;;
  b <- rd_range inblock 0 n ;;
  ctx <- ts_SHA256_update le ctx b ;;
  '(out, ctx) <- ts_SHA256_final_trunc le ctx n ;;
  it <- put_sha256 le (c_small_iter sc) ctx ;;
  Ok (out, set_small_iter it sc).

(** sha256_L1_hash_simple.c:29-34 [ts_sha2_L1_init_t_simple]; [it] is [*t] *)
Definition ts_sha2_L1_init_t_simple (it : list Z) (sc : ts_context) : outcome (list Z) :=
  ctx <- get_sha256 le it ;;
  ctx <- ts_sha256_init_ctx ctx sc ;;
  a <- rd_range (c_adr sc) 0 SHA2_ADR_SIZE ;;
  ctx <- ts_SHA256_update le ctx a ;;
  put_sha256 le it ctx.

(** sha256_L1_hash_simple.c:37-41 [ts_sha2_L1_next_t_simple] *)
Definition ts_sha2_L1_next_t_simple (it : list Z) (input : list Z) (sc : ts_context)
  : outcome (list Z) :=
  let n := ps_n (c_ps sc) in
  ctx <- get_sha256 le it ;;
  b <- rd_range input 0 n ;;
  ctx <- ts_SHA256_update le ctx b ;;
  put_sha256 le it ctx.

(** sha256_L1_hash_simple.c:45-49 [ts_sha2_L1_final_t_simple] *)
Definition ts_sha2_L1_final_t_simple (it : list Z) (sc : ts_context)
  : outcome (list Z * list Z) :=
  let n := ps_n (c_ps sc) in
  ctx <- get_sha256 le it ;;
  '(out, ctx) <- ts_SHA256_final_trunc le ctx n ;;
  it <- put_sha256 le it ctx ;;
  Ok (out, it).

(** sha256_L1_hash_simple.c:59-71 [ts_sha2_L1_prehash] *)
Definition ts_sha2_L1_prehash (sc : ts_context) : outcome ts_context :=
  let n := ps_n (c_ps sc) in
  ctx <- get_sha256 le (c_small_iter sc) ;;
  let ctx := ts_SHA256_init ctx in
  seed <- load mem (CONVERT_PUBLIC_KEY_TO_PUB_SEED (c_public_key sc) n) n ;;
  ctx <- ts_SHA256_update le ctx seed ;;
  ctx <- sha256_pad_zero ctx n ;;
  s <- ts_SHA256_save_state ctx ;;
  pre <- wr_range (c_prehash_sha256 sc) 0 s ;;
  it <- put_sha256 le (c_small_iter sc) ctx ;;
  Ok (set_prehash_sha256 pre (set_small_iter it sc)).

(** sha512_L35_hash_simple.c:28-32 [ts_sha2_L35_init_t_simple] *)
Definition ts_sha2_L35_init_t_simple (it : list Z) (sc : ts_context) : outcome (list Z) :=
  ctx <- get_sha512 cfg it ;;
  ctx <- ts_sha512_init_ctx ctx sc ;;
  a <- rd_range (c_adr sc) 0 SHA2_ADR_SIZE ;;
  ctx <- ts_SHA512_update le ctx a ;;
  put_sha512 cfg it ctx.

(** sha512_L35_hash_simple.c:35-39 [ts_sha2_L35_next_t_simple] *)
Definition ts_sha2_L35_next_t_simple (it : list Z) (input : list Z) (sc : ts_context)
  : outcome (list Z) :=
  let n := ps_n (c_ps sc) in
  ctx <- get_sha512 cfg it ;;
  b <- rd_range input 0 n ;;
  ctx <- ts_SHA512_update le ctx b ;;
  put_sha512 cfg it ctx.

(** sha512_L35_hash_simple.c:43-47 [ts_sha2_L35_final_t_simple] *)
Definition ts_sha2_L35_final_t_simple (it : list Z) (sc : ts_context)
  : outcome (list Z * list Z) :=
  let n := ps_n (c_ps sc) in
  ctx <- get_sha512 cfg it ;;
  '(out, ctx) <- ts_SHA512_final_trunc le ctx n ;;
  it <- put_sha512 cfg it ctx ;;
  Ok (out, it).

(** sha512_L35_hash_simple.c:60-76 [ts_sha2_L35_prehash] *)
Definition ts_sha2_L35_prehash (sc : ts_context) : outcome ts_context :=
  sc <- ts_sha2_L1_prehash sc ;;
  let n := ps_n (c_ps sc) in
  ctx <- get_sha512 cfg (c_small_iter sc) ;;
  let ctx := ts_SHA512_init ctx in
  seed <- load mem (CONVERT_PUBLIC_KEY_TO_PUB_SEED (c_public_key sc) n) n ;;
  ctx <- ts_SHA512_update le ctx seed ;;
  ctx <- sha512_pad_zero ctx n ;;
  s <- ts_SHA512_save_state ctx ;;
  pre <- wr_range (c_prehash_sha512 sc) 0 s ;;
  it <- put_sha512 cfg (c_small_iter sc) ctx ;;
  Ok (set_prehash_sha512 pre (set_small_iter it sc)).

(** sha256_L1_hash.c:31-34 and 42-45, sha512_hash.c:22-25 and 33-36: fill the local
    array [block] with [v ^ PRF key] and the padding byte [v]. *)
Definition hmac_block (block : list (option Z)) (size v pk n : Z) : outcome (list (option Z)) :=
  block <- for_loop (Z.to_nat n) 0 (fun i block =>
    kb <- load mem (CONVERT_PUBLIC_KEY_TO_PRF pk n + i) 1 ;;
    b <- rd kb 0 ;;
    wr block i (Some (Z.lxor v b))) block ;;
  memset block n (Some v) (size - n).

(** sha256_L1_hash.c:16-49 [ts_sha2_L1_prf_msg]; [message] is the [len_message] bytes
    at the message pointer, [opt_buffer] the caller's array. *)
Definition ts_sha2_L1_prf_msg (opt_buffer message : list Z) (sc : ts_context)
  : outcome (list Z * ts_context) :=
  let n := ps_n (c_ps sc) in
  let pk := c_public_key sc in
  ctx <- get_sha256 le (c_small_iter sc) ;;
  let block := uninit 64 in
  (* inner hash *)
  let ctx := ts_SHA256_init ctx in
  block <- hmac_block block 64 0x36 pk n ;;
  bl <- defined block ;;
  ctx <- ts_SHA256_update le ctx bl ;;
  o <- rd_range opt_buffer 0 n ;;
  ctx <- ts_SHA256_update le ctx o ;;
  ctx <- ts_SHA256_update le ctx message ;;
  '(hash_output, ctx) <- ts_SHA256_final le ctx ;;
  (* outer hash *)
  let ctx := ts_SHA256_init ctx in
  block <- hmac_block block 64 0x5c pk n ;;
  bl <- defined block ;;
  ctx <- ts_SHA256_update le ctx bl ;;
  ho <- rd_range hash_output 0 32 ;;
  ctx <- ts_SHA256_update le ctx ho ;;
  '(out, ctx) <- ts_SHA256_final_trunc le ctx n ;;
  it <- put_sha256 le (c_small_iter sc) ctx ;;
  Ok (out, set_small_iter it sc).

(** sha256_L1_hash.c:70-91: the MGF1 loop; [msg_hash] is the local array, [i] the
    counter, [len_output] what is left; returns the bytes written to [output]. *)
Fixpoint sha256_mgf_loop (fuel : nat) (n : Z) (msg_hash : list (option Z)) (ctx : sha256_ctx)
    (i len_output : Z) : outcome (list Z * sha256_ctx) :=
  match fuel with
  | O => UB NonTermination
  | S fuel' =>
    if len_output =? 0 then Ok ([], ctx) else
    msg_hash <- wr_local msg_hash (2 * n + 32) (ts_ull_to_bytes i 4) ;;
    let ctx := ts_SHA256_init ctx in
    m <- rd_local msg_hash 0 (2 * n + 32 + 4) ;;
    ctx <- ts_SHA256_update le ctx m ;;
    '(buffer, ctx) <- ts_SHA256_final le ctx ;;
    let bytes := if 32 <=? len_output then 32 else len_output in
    out <- rd_range buffer 0 bytes ;;
    i <- int_val (i + 1) ;;
    '(rest, ctx) <- sha256_mgf_loop fuel' n msg_hash ctx i (len_output - bytes) ;;
    Ok (out ++ rest, ctx)
  end.

(** sha256_L1_hash.c:51-92 [ts_sha2_L1_hash_msg] *)
Definition ts_sha2_L1_hash_msg (len_output : Z) (randomness message : list Z)
    (sc : ts_context) : outcome (list Z * ts_context) :=
  let n := ps_n (c_ps sc) in
  let pk := c_public_key sc in
  ctx <- get_sha256 le (c_small_iter sc) ;;
  let msg_hash := uninit (2 * TS_MAX_HASH cfg + 32 + 4) in
  let ctx := ts_SHA256_init ctx in
  r <- rd_range randomness 0 n ;;
  ctx <- ts_SHA256_update le ctx r ;;
  seed <- load mem (CONVERT_PUBLIC_KEY_TO_PUB_SEED pk n) n ;;
  ctx <- ts_SHA256_update le ctx seed ;;
  root <- load mem (CONVERT_PUBLIC_KEY_TO_ROOT pk n) n ;;
  ctx <- ts_SHA256_update le ctx root ;;
  ctx <- ts_SHA256_update le ctx message ;;
  '(h, ctx) <- ts_SHA256_final le ctx ;;
  msg_hash <- wr_local msg_hash (2 * n) h ;;
  msg_hash <- wr_local msg_hash 0 r ;;
  msg_hash <- wr_local msg_hash n seed ;;
  '(out, ctx) <- sha256_mgf_loop (S (Z.to_nat len_output)) n msg_hash ctx 0 len_output ;;
  it <- put_sha256 le (c_small_iter sc) ctx ;;
  Ok (out, set_small_iter it sc).

(** sha512_hash.c:10-40 [ts_sha2_L35_prf_msg] *)
Definition ts_sha2_L35_prf_msg (opt_buffer message : list Z) (sc : ts_context)
  : outcome (list Z * ts_context) :=
  let n := ps_n (c_ps sc) in
  let pk := c_public_key sc in
  ctx <- get_sha512 cfg (c_small_iter sc) ;;
  let block := uninit 128 in
  (* inner hash *)
  let ctx := ts_SHA512_init ctx in
  block <- hmac_block block 128 0x36 pk n ;;
  bl <- defined block ;;
  ctx <- ts_SHA512_update le ctx bl ;;
  o <- rd_range opt_buffer 0 n ;;
  ctx <- ts_SHA512_update le ctx o ;;
  ctx <- ts_SHA512_update le ctx message ;;
  '(hash_output, ctx) <- ts_SHA512_final le ctx ;;
  (* outer hash *)
  let ctx := ts_SHA512_init ctx in
  block <- hmac_block block 128 0x5c pk n ;;
  bl <- defined block ;;
  ctx <- ts_SHA512_update le ctx bl ;;
  ho <- rd_range hash_output 0 64 ;;
  ctx <- ts_SHA512_update le ctx ho ;;
  '(out, ctx) <- ts_SHA512_final_trunc le ctx n ;;
  it <- put_sha512 cfg (c_small_iter sc) ctx ;;
  Ok (out, set_small_iter it sc).

(** sha512_hash.c:61-76: the MGF1 loop. *)
Fixpoint sha512_mgf_loop (fuel : nat) (n : Z) (msg_hash : list (option Z)) (ctx : sha512_ctx)
    (i len_output : Z) : outcome (list Z * sha512_ctx) :=
  match fuel with
  | O => UB NonTermination
  | S fuel' =>
    if len_output =? 0 then Ok ([], ctx) else
    msg_hash <- wr_local msg_hash (2 * n + 64) (ts_ull_to_bytes i 4) ;;
    let ctx := ts_SHA512_init ctx in
    m <- rd_local msg_hash 0 (2 * n + 64 + 4) ;;
    ctx <- ts_SHA512_update le ctx m ;;
    '(buffer, ctx) <- ts_SHA512_final le ctx ;;
    let bytes := if 64 <=? len_output then 64 else len_output in
    out <- rd_range buffer 0 bytes ;;
    i <- int_val (i + 1) ;;
    '(rest, ctx) <- sha512_mgf_loop fuel' n msg_hash ctx i (len_output - bytes) ;;
    Ok (out ++ rest, ctx)
  end.

(** sha512_hash.c:42-77 [ts_sha2_L35_hash_msg] *)
Definition ts_sha2_L35_hash_msg (len_output : Z) (randomness message : list Z)
    (sc : ts_context) : outcome (list Z * ts_context) :=
  let n := ps_n (c_ps sc) in
  let pk := c_public_key sc in
  ctx <- get_sha512 cfg (c_small_iter sc) ;;
  let msg_hash := uninit (2 * TS_MAX_HASH cfg + 64 + 4) in
  let ctx := ts_SHA512_init ctx in
  r <- rd_range randomness 0 n ;;
  ctx <- ts_SHA512_update le ctx r ;;
  seed <- load mem (CONVERT_PUBLIC_KEY_TO_PUB_SEED pk n) n ;;
  ctx <- ts_SHA512_update le ctx seed ;;
  root <- load mem (CONVERT_PUBLIC_KEY_TO_ROOT pk n) n ;;
  ctx <- ts_SHA512_update le ctx root ;;
  ctx <- ts_SHA512_update le ctx message ;;
  '(h, ctx) <- ts_SHA512_final le ctx ;;
  msg_hash <- wr_local msg_hash (2 * n) h ;;
  msg_hash <- wr_local msg_hash 0 r ;;
  msg_hash <- wr_local msg_hash n seed ;;
  '(out, ctx) <- sha512_mgf_loop (S (Z.to_nat len_output)) n msg_hash ctx 0 len_output ;;
  it <- put_sha512 cfg (c_small_iter sc) ctx ;;
  Ok (out, set_small_iter it sc).

(** shake256_hash.c:17-32 [ts_shake256_prf_msg] *)
Definition ts_shake256_prf_msg (opt_rand message : list Z) (sc : ts_context)
  : outcome (list Z * ts_context) :=
  let n := ps_n (c_ps sc) in
  let pk := c_public_key sc in
  s <- get_shake le (c_small_iter sc) ;;
  s <- ts_shake256_inc_init s ;;
  k <- load mem (CONVERT_PUBLIC_KEY_TO_PRF pk n) n ;;
  s <- ts_shake256_inc_absorb opt s k ;;
  o <- rd_range opt_rand 0 n ;;
  s <- ts_shake256_inc_absorb opt s o ;;
  s <- ts_shake256_inc_absorb opt s message ;;
  s <- ts_shake256_inc_finalize s ;;
  '(out, s) <- ts_shake256_inc_squeeze opt n s ;;
  it <- put_shake le (c_small_iter sc) s ;;
  Ok (out, set_small_iter it sc).

(** shake256_hash.c:37-58 [ts_shake256_hash_msg] *)
Definition ts_shake256_hash_msg (len_output : Z) (randomness message : list Z)
    (sc : ts_context) : outcome (list Z * ts_context) :=
  let n := ps_n (c_ps sc) in
  let pk := c_public_key sc in
  s <- get_shake le (c_small_iter sc) ;;
  s <- ts_shake256_inc_init s ;;
  r <- rd_range randomness 0 n ;;
  s <- ts_shake256_inc_absorb opt s r ;;
  seed <- load mem (CONVERT_PUBLIC_KEY_TO_PUB_SEED pk n) n ;;
  s <- ts_shake256_inc_absorb opt s seed ;;
  root <- load mem (CONVERT_PUBLIC_KEY_TO_ROOT pk n) n ;;
  s <- ts_shake256_inc_absorb opt s root ;;
  s <- ts_shake256_inc_absorb opt s message ;;
  s <- ts_shake256_inc_finalize s ;;
  '(out, s) <- ts_shake256_inc_squeeze opt len_output s ;;
  it <- put_shake le (c_small_iter sc) s ;;
  Ok (out, set_small_iter it sc).

(** shake256_hash.c:63-77 [ts_shake256_prf] *)
Definition ts_shake256_prf (sc : ts_context) : outcome (list Z * ts_context) :=
  let n := ps_n (c_ps sc) in
  let pk := c_public_key sc in
  s <- get_shake le (c_small_iter sc) ;;
  s <- ts_shake256_inc_init s ;;
  seed <- load mem (CONVERT_PUBLIC_KEY_TO_PUB_SEED pk n) n ;;
  s <- ts_shake256_inc_absorb opt s seed ;;
  a <- rd_range (c_adr sc) 0 (ADR_SIZE cfg) ;;
  s <- ts_shake256_inc_absorb opt s a ;;
  sk <- load mem (CONVERT_PUBLIC_KEY_TO_SEC_SEED pk n) n ;;
  s <- ts_shake256_inc_absorb opt s sk ;;
  s <- ts_shake256_inc_finalize s ;;
  '(out, s) <- ts_shake256_inc_squeeze opt n s ;;
  it <- put_shake le (c_small_iter sc) s ;;
  Ok (out, set_small_iter it sc).

(** shake256_simple.c:32-42 [ts_shake256_init_t_simple] *)
Definition ts_shake256_init_t_simple (it : list Z) (sc : ts_context) : outcome (list Z) :=
  let n := ps_n (c_ps sc) in
  s <- get_shake le it ;;
  s <- ts_shake256_inc_init s ;;
  seed <- load mem (CONVERT_PUBLIC_KEY_TO_PUB_SEED (c_public_key sc) n) n ;;
  s <- ts_shake256_inc_absorb opt s seed ;;
  a <- rd_range (c_adr sc) 0 (ADR_SIZE cfg) ;;
  s <- ts_shake256_inc_absorb opt s a ;;
  put_shake le it s.

(** shake256_simple.c:45-50 [ts_shake256_next_t_simple] *)
Definition ts_shake256_next_t_simple (it : list Z) (input : list Z) (sc : ts_context)
  : outcome (list Z) :=
  let n := ps_n (c_ps sc) in
  s <- get_shake le it ;;
  b <- rd_range input 0 n ;;
  s <- ts_shake256_inc_absorb opt s b ;;
  put_shake le it s.

(** shake256_simple.c:54-62 [ts_shake256_final_t_simple] *)
Definition ts_shake256_final_t_simple (it : list Z) (sc : ts_context)
  : outcome (list Z * list Z) :=
  let n := ps_n (c_ps sc) in
  s <- get_shake le it ;;
  s <- ts_shake256_inc_finalize s ;;
  '(out, s) <- ts_shake256_inc_squeeze opt n s ;;
  it <- put_shake le it s ;;
  Ok (out, it).

(** shake256_simple.c:17-28 [ts_shake256_f_simple] *)
Definition ts_shake256_f_simple (inblock : list Z) (sc : ts_context)
  : outcome (list Z * ts_context) :=
  it <- ts_shake256_init_t_simple (c_small_iter sc) sc ;;
  it <- ts_shake256_next_t_simple it inblock sc ;;
  '(out, it) <- ts_shake256_final_t_simple it sc ;;
  Ok (out, set_small_iter it sc).

(** ** Calls through the function pointers of [ctx->ps] *)
(** internal.h:31-33; called at tiny_sphincs.c:339 *)
Definition call_prf_msg (opt_buffer message : list Z) (sc : ts_context) :=
  match ps_prf_msg (c_ps sc) with
  | shake256_prf_msg => ts_shake256_prf_msg opt_buffer message sc
  | sha2_L1_prf_msg => ts_sha2_L1_prf_msg opt_buffer message sc
  | sha2_L35_prf_msg => ts_sha2_L35_prf_msg opt_buffer message sc
  end.
(** internal.h:34-37; called at tiny_sphincs.c:344, verify.c:133 *)
Definition call_hash_msg (len_output : Z) (randomness message : list Z) (sc : ts_context) :=
  match ps_hash_msg (c_ps sc) with
  | shake256_hash_msg => ts_shake256_hash_msg len_output randomness message sc
  | sha2_L1_hash_msg => ts_sha2_L1_hash_msg len_output randomness message sc
  | sha2_L35_hash_msg => ts_sha2_L35_hash_msg len_output randomness message sc
  end.
(** internal.h:38; called at tiny_sphincs.c:163,172,181 *)
Definition call_prf (sc : ts_context) :=
  match ps_prf (c_ps sc) with
  | shake256_prf => ts_shake256_prf sc
  | sha2_prf => ts_sha2_prf sc
  end.
(** internal.h:39-41; called at tiny_sphincs.c:184,411,429, verify.c:156,187 *)
Definition call_f (inblock : list Z) (sc : ts_context) :=
  match ps_f (c_ps sc) with
  | shake256_f_simple => ts_shake256_f_simple inblock sc
  | sha2_f_simple => ts_sha2_f_simple inblock sc
  end.
(** internal.h:48; called at tiny_sphincs.c:229,250,363,422, verify.c:64,91,150 *)
Definition call_init_t (it : list Z) (sc : ts_context) : outcome (list Z) :=
  match ps_init_t (c_ps sc) with
  | shake256_init_t_simple => ts_shake256_init_t_simple it sc
  | sha2_L1_init_t_simple => ts_sha2_L1_init_t_simple it sc
  | sha2_L35_init_t_simple => ts_sha2_L35_init_t_simple it sc
  end.
(** internal.h:49-50; called at tiny_sphincs.c:230,231,252-256,431,488, verify.c:67-72,166,190 *)
Definition call_next_t (it : list Z) (input : list Z) (sc : ts_context) : outcome (list Z) :=
  match ps_next_t (c_ps sc) with
  | shake256_next_t_simple => ts_shake256_next_t_simple it input sc
  | sha2_L1_next_t_simple => ts_sha2_L1_next_t_simple it input sc
  | sha2_L35_next_t_simple => ts_sha2_L35_next_t_simple it input sc
  end.
(** internal.h:51-52; called at tiny_sphincs.c:232,258,433,494, verify.c:76,171,197 *)
Definition call_final_t (it : list Z) (sc : ts_context) : outcome (list Z * list Z) :=
  match ps_final_t (c_ps sc) with
  | shake256_final_t_simple => ts_shake256_final_t_simple it sc
  | sha2_L1_final_t_simple => ts_sha2_L1_final_t_simple it sc
  | sha2_L35_final_t_simple => ts_sha2_L35_final_t_simple it sc
  end.
(** [if (ps->compute_prehash) ps->compute_prehash( ctx )] under
    #if TS_SHA2_OPTIMIZATION (tiny_sphincs.c:323-325, verify.c:41-43, key_gen.c:36-38). *)
Definition call_compute_prehash (sc : ts_context) : outcome ts_context :=
  if cfg_sha2_opt cfg then
    match ps_compute_prehash (c_ps sc) with
    | None => Ok sc
    | Some sha2_L1_prehash => ts_sha2_L1_prehash sc
    | Some sha2_L35_prehash => ts_sha2_L35_prehash sc
    end
  else Ok sc.
End Hash.
