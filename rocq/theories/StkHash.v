(** * The hash glue of the model, with the storage each call takes

    The byte views of ModelCtx and all of ModelHash once more with the operations of CStack
    (see StkSha2). *)
From Verif Require Import CSem CStack ModelSha256 ModelSha512 ModelFips202 ModelParams ModelCtx ModelHash StkSha2 StkFips202.
Open Scope stack_scope.

(** ** Byte views of the members of [union t_iterator] (layouts: ModelParams) *)

(** [&it->sha2_L1_simple] read as a SHA256_CTX, and written back. *)
(** SHA256_CTX sha2.h:16-29, member of tiny_sphincs.h:66-76 (line 71); used at sha256_L1_hash.c:22,57, sha256_L1_hash_simple.c:61, sha256_hash.c:22, sha2_simple.c:17 *)
Definition k_get_sha256 (le : bool) (it : list Z) : stacked sha256_ctx :=
  h <- k_for 8 0 (fun i h => w <- k_rd_word le 4 it 0 i ;; kret (h ++ [w])) [] ;;
  count <- k_rd_word le 8 it 32 0 ;;
  num <- k_rd_word le 4 it 40 0 ;;
  x <- k_rd_range it 44 64 ;;
  kret (mkSha256 h count num x).
(** SHA256_CTX sha2.h:16-29, member of tiny_sphincs.h:66-76 (line 71); used at sha256_L1_hash.c:22,57, sha256_L1_hash_simple.c:61, sha256_hash.c:22, sha2_simple.c:17 *)
Definition k_put_sha256 (le : bool) (it : list Z) (c : sha256_ctx) : stacked (list Z) :=
  it <- k_wr_range it 0 (enc_words le 4 (s256_h c)) ;;
  it <- k_wr_word le 8 it 32 0 (s256_count c) ;;
  it <- k_wr_word le 4 it 40 0 (s256_num c) ;;
  k_wr_range it 44 (s256_x c).

(** [&it->sha2_L35_simple] read as a SHA512_CTX, and written back. *)
(** SHA512_CTX sha2.h:49-62, member of tiny_sphincs.h:66-76 (line 74); used at sha512_L35_hash_simple.c:66, sha512_hash.c:16,48 *)
Definition k_get_sha512 (cfg : config) (it : list Z) : stacked sha512_ctx :=
  let le := cfg_le cfg in
  h <- k_for 8 0 (fun i h => w <- k_rd_word le 8 it 0 i ;; kret (h ++ [w])) [] ;;
  count <- k_rd_word le 8 it 64 0 ;;
  num <- k_rd_word le 4 it 72 0 ;;
  x <- k_rd_range it (SHA512_X_OFFSET cfg) 128 ;;
  kret (mkSha512 h count num x).
(** SHA512_CTX sha2.h:49-62, member of tiny_sphincs.h:66-76 (line 74); used at sha512_L35_hash_simple.c:66, sha512_hash.c:16,48 *)
Definition k_put_sha512 (cfg : config) (it : list Z) (c : sha512_ctx) : stacked (list Z) :=
  let le := cfg_le cfg in
  it <- k_wr_range it 0 (enc_words le 8 (s512_h c)) ;;
  it <- k_wr_word le 8 it 64 0 (s512_count c) ;;
  it <- k_wr_word le 4 it 72 0 (s512_num c) ;;
  k_wr_range it (SHA512_X_OFFSET cfg) (s512_x c).

(** [&it->shake256_simple] read as the 26 words of a SHAKE256_CTX, and written back. *)
(** fips202.h:35 SHAKE256_CTX, member of tiny_sphincs.h:66-76 (line 68); used at shake256_hash.c:23,43,66, shake256_simple.c:20 *)
Definition k_get_shake (le : bool) (it : list Z) : stacked (list Z) :=
  k_for 26 0 (fun i h => w <- k_rd_word le 8 it 0 i ;; kret (h ++ [w])) [].
(** fips202.h:35 SHAKE256_CTX, member of tiny_sphincs.h:66-76 (line 68); used at shake256_hash.c:23,43,66, shake256_simple.c:20 *)
Definition k_put_shake (le : bool) (it : list Z) (s : list Z) : stacked (list Z) :=
  k_wr_range it 0 (enc_words le 8 s).

(** ** Access to the members of the union x *)

(** A member array of [size] bytes at byte [base] of x: element range [off, off+len)
    must lie inside the member. *)
(** array members of the union x, tiny_sphincs.h:151-168 *)
Definition k_sub_rd (x : list Z) (base size off len : Z) : stacked (list Z) :=
  if (0 <=? off) && (off + len <=? size) then k_rd_range x (base + off) len
  else kub OutOfBounds.
(** array members of the union x, tiny_sphincs.h:151-168 *)
Definition k_sub_wr (x : list Z) (base size off : Z) (v : list Z) : stacked (list Z) :=
  if (0 <=? off) && (off + zlen v <=? size) then k_wr_range x (base + off) v
  else kub OutOfBounds.

(** [x.fors.fors_node[k]] (unsigned short) *)
(** tiny_sphincs.h:152-155 *)
Definition k_get_fors_node (cfg : config) (x : list Z) (k : Z) : stacked Z :=
  if (0 <=? k) && (k <? TS_MAX_FORS) then k_rd_word (cfg_le cfg) 2 x 0 k
  else kub OutOfBounds.
(** tiny_sphincs.h:152-155 *)
Definition k_set_fors_node (cfg : config) (x : list Z) (k v : Z) : stacked (list Z) :=
  if (0 <=? k) && (k <? TS_MAX_FORS) then k_wr_word (cfg_le cfg) 2 x 0 k (u16 v)
  else kub OutOfBounds.

(** [x.wots.digit] and [x.wots.digits[i]] *)
(** tiny_sphincs.h:156-159 *)
Definition k_get_digit (x : list Z) : stacked Z := k_rd x 0.
(** tiny_sphincs.h:156-159 *)
Definition k_set_digit (x : list Z) (v : Z) : stacked (list Z) := k_wr x 0 (u8 v).
(** tiny_sphincs.h:156-159 *)
Definition k_get_digits (cfg : config) (x : list Z) (i : Z) : stacked Z :=
  if (0 <=? i) && (i <? TS_MAX_WOTS_DIGITS cfg) then k_rd x (1 + i) else kub OutOfBounds.
(** tiny_sphincs.h:156-159 *)
Definition k_set_digits (cfg : config) (x : list Z) (i v : Z) : stacked (list Z) :=
  if (0 <=? i) && (i <? TS_MAX_WOTS_DIGITS cfg) then k_wr x (1 + i) (u8 v)
  else kub OutOfBounds.

(** tiny_sphincs.h:110-112,134-135,151-168 *)
Definition k_get_buf (cfg : config) (c : ts_context) (b : bufid) (n : Z) : stacked (list Z) :=
  match b with
  | BufBuffer => k_rd_range (c_buffer c) 0 n
  | BufAuth => k_rd_range (c_auth_path_buffer c) 0 n
  | BufMerkle => k_sub_rd (c_x c) 0 (TS_MAX_HASH cfg) 0 n
  end.
(** tiny_sphincs.h:110-112,134-135,151-168 *)
Definition k_put_buf (cfg : config) (c : ts_context) (b : bufid) (v : list Z)
  : stacked ts_context :=
  match b with
  | BufBuffer => l <- k_wr_range (c_buffer c) 0 v ;; kret (set_buffer l c)
  | BufAuth => l <- k_wr_range (c_auth_path_buffer c) 0 v ;; kret (set_auth_path_buffer l c)
  | BufMerkle => x <- k_sub_wr (c_x c) 0 (TS_MAX_HASH cfg) 0 v ;; kret (set_x x c)
  end.

Section Hash.
Variable cfg : config.
Variable mem : memory.
Local Notation le := (cfg_le cfg).
Local Notation P := (SIZEOF_PTR cfg).
Local Notation opt := (cfg_shake_opt cfg).

(** The loops [for (int i = n; i < block; i++) update( ctx, "\0", 1 )]
    (sha256_hash.c:51-53, sha256_L1_hash_simple.c:66-68). *)
Definition k_sha256_pad_zero (ctx : sha256_ctx) (n : Z) : stacked sha256_ctx :=
  k_for (Z.to_nat (64 - n)) n (fun _ ctx => k_ts_SHA256_update P le ctx [0]) ctx.
(** sha512_hash.c:89-91, sha512_L35_hash_simple.c:71-73 *)
Definition k_sha512_pad_zero (ctx : sha512_ctx) (n : Z) : stacked sha512_ctx :=
  k_for (Z.to_nat (128 - n)) n (fun _ ctx => k_ts_SHA512_update P le ctx [0]) ctx.

(** sha256_hash.c:35-55 [ts_sha256_init_ctx] *)
Definition k_ts_sha256_init_ctx (ctx : sha256_ctx) (sc : ts_context) : stacked sha256_ctx :=
  call (P + P + (if cfg_sha2_opt cfg then 0 else 4 + 4))   (* ctx, sc; n, i unless TS_SHA2_OPTIMIZATION *)
  (if cfg_sha2_opt cfg then
    k_ts_SHA256_restore_state_after_64 P ctx (c_prehash_sha256 sc)
  else
    ctx <- k_ts_SHA256_init P ctx ;;
    let n := ps_n (c_ps sc) in
    seed <- k_load mem (CONVERT_PUBLIC_KEY_TO_PUB_SEED (c_public_key sc) n) n ;;
    ctx <- k_ts_SHA256_update P le ctx seed ;;
    k_sha256_pad_zero ctx n).

(** sha512_hash.c:79-93 [ts_sha512_init_ctx] *)
Definition k_ts_sha512_init_ctx (ctx : sha512_ctx) (sc : ts_context) : stacked sha512_ctx :=
  call (P + P + (if cfg_sha2_opt cfg then 0 else 4 + 4))   (* ctx, sc; n, i unless TS_SHA2_OPTIMIZATION *)
  (if cfg_sha2_opt cfg then
    k_ts_SHA512_restore_state_after_128 P ctx (c_prehash_sha512 sc)
  else
    ctx <- k_ts_SHA512_init P ctx ;;
    let n := ps_n (c_ps sc) in
    seed <- k_load mem (CONVERT_PUBLIC_KEY_TO_PUB_SEED (c_public_key sc) n) n ;;
    ctx <- k_ts_SHA512_update P le ctx seed ;;
    k_sha512_pad_zero ctx n).

(** sha256_hash.c:19-29 [ts_sha2_prf] *)
Definition k_ts_sha2_prf (sc : ts_context) : stacked (list Z * ts_context) :=
  call (P + P + (4 + P))   (* output, sc; n, ctx *)
  (let n := ps_n (c_ps sc) in
  ctx <- k_get_sha256 le (c_small_iter sc) ;;
  ctx <- k_ts_sha256_init_ctx ctx sc ;;
  a <- k_rd_range (c_adr sc) 0 SHA2_ADR_SIZE ;;
  ctx <- k_ts_SHA256_update P le ctx a ;;
  sk <- k_load mem (CONVERT_PUBLIC_KEY_TO_SEC_SEED (c_public_key sc) n) n ;;
  ctx <- k_ts_SHA256_update P le ctx sk ;;
  '(out, ctx) <- k_ts_SHA256_final_trunc P le ctx n ;;
  it <- k_put_sha256 le (c_small_iter sc) ctx ;;
  kret (out, set_small_iter it sc)).

(** sha2_simple.c:14-25 [ts_sha2_f_simple]; [inblock] is the object [inblock] points to *)
Definition k_ts_sha2_f_simple (inblock : list Z) (sc : ts_context)
  : stacked (list Z * ts_context) :=
  call (P + P + P + (P + 4))   (* output, inblock, sc; ctx, n *)
  (let n := ps_n (c_ps sc) in
  ctx <- k_get_sha256 le (c_small_iter sc) ;;
  ctx <- k_ts_sha256_init_ctx ctx sc ;;
  a <- k_rd_range (c_adr sc) 0 SHA2_ADR_SIZE ;;
  ctx <- k_ts_SHA256_update P le ctx a ;;
  b <- k_rd_range inblock 0 n ;;
  ctx <- k_ts_SHA256_update P le ctx b ;;
  '(out, ctx) <- k_ts_SHA256_final_trunc P le ctx n ;;
  it <- k_put_sha256 le (c_small_iter sc) ctx ;;
  kret (out, set_small_iter it sc)).

(** sha256_L1_hash_simple.c:29-34 [ts_sha2_L1_init_t_simple]; [it] is [*t] *)
Definition k_ts_sha2_L1_init_t_simple (it : list Z) (sc : ts_context) : stacked (list Z) :=
  call (P + P)   (* t, ctx *)
  (ctx <- k_get_sha256 le it ;;
  ctx <- k_ts_sha256_init_ctx ctx sc ;;
  a <- k_rd_range (c_adr sc) 0 SHA2_ADR_SIZE ;;
  ctx <- k_ts_SHA256_update P le ctx a ;;
  k_put_sha256 le it ctx).

(** sha256_L1_hash_simple.c:37-41 [ts_sha2_L1_next_t_simple] *)
Definition k_ts_sha2_L1_next_t_simple (it : list Z) (input : list Z) (sc : ts_context)
  : stacked (list Z) :=
  call (P + P + P + 4)   (* t, input, ctx; n *)
  (let n := ps_n (c_ps sc) in
  ctx <- k_get_sha256 le it ;;
  b <- k_rd_range input 0 n ;;
  ctx <- k_ts_SHA256_update P le ctx b ;;
  k_put_sha256 le it ctx).

(** sha256_L1_hash_simple.c:45-49 [ts_sha2_L1_final_t_simple] *)
Definition k_ts_sha2_L1_final_t_simple (it : list Z) (sc : ts_context)
  : stacked (list Z * list Z) :=
  call (P + P + P + 4)   (* output, t, ctx; n *)
  (let n := ps_n (c_ps sc) in
  ctx <- k_get_sha256 le it ;;
  '(out, ctx) <- k_ts_SHA256_final_trunc P le ctx n ;;
  it <- k_put_sha256 le it ctx ;;
  kret (out, it)).

(** sha256_L1_hash_simple.c:59-71 [ts_sha2_L1_prehash] *)
Definition k_ts_sha2_L1_prehash (sc : ts_context) : stacked ts_context :=
  call (P + (4 + P + 4))   (* sc; n, ctx, i *)
  (let n := ps_n (c_ps sc) in
  ctx <- k_get_sha256 le (c_small_iter sc) ;;
  ctx <- k_ts_SHA256_init P ctx ;;
  seed <- k_load mem (CONVERT_PUBLIC_KEY_TO_PUB_SEED (c_public_key sc) n) n ;;
  ctx <- k_ts_SHA256_update P le ctx seed ;;
  ctx <- k_sha256_pad_zero ctx n ;;
  s <- k_ts_SHA256_save_state P ctx ;;
  pre <- k_wr_range (c_prehash_sha256 sc) 0 s ;;
  it <- k_put_sha256 le (c_small_iter sc) ctx ;;
  kret (set_prehash_sha256 pre (set_small_iter it sc))).

(** sha512_L35_hash_simple.c:28-32 [ts_sha2_L35_init_t_simple] *)
Definition k_ts_sha2_L35_init_t_simple (it : list Z) (sc : ts_context) : stacked (list Z) :=
  call (P + P)   (* t, ctx *)
  (ctx <- k_get_sha512 cfg it ;;
  ctx <- k_ts_sha512_init_ctx ctx sc ;;
  a <- k_rd_range (c_adr sc) 0 SHA2_ADR_SIZE ;;
  ctx <- k_ts_SHA512_update P le ctx a ;;
  k_put_sha512 cfg it ctx).

(** sha512_L35_hash_simple.c:35-39 [ts_sha2_L35_next_t_simple] *)
Definition k_ts_sha2_L35_next_t_simple (it : list Z) (input : list Z) (sc : ts_context)
  : stacked (list Z) :=
  call (P + P + P + 4)   (* t, input, ctx; n *)
  (let n := ps_n (c_ps sc) in
  ctx <- k_get_sha512 cfg it ;;
  b <- k_rd_range input 0 n ;;
  ctx <- k_ts_SHA512_update P le ctx b ;;
  k_put_sha512 cfg it ctx).

(** sha512_L35_hash_simple.c:43-47 [ts_sha2_L35_final_t_simple] *)
Definition k_ts_sha2_L35_final_t_simple (it : list Z) (sc : ts_context)
  : stacked (list Z * list Z) :=
  call (P + P + P + 4)   (* output, t, ctx; n *)
  (let n := ps_n (c_ps sc) in
  ctx <- k_get_sha512 cfg it ;;
  '(out, ctx) <- k_ts_SHA512_final_trunc P le ctx n ;;
  it <- k_put_sha512 cfg it ctx ;;
  kret (out, it)).

(** sha512_L35_hash_simple.c:60-76 [ts_sha2_L35_prehash] *)
Definition k_ts_sha2_L35_prehash (sc : ts_context) : stacked ts_context :=
  call (P + (4 + P + 4))   (* sc; n, ctx, i *)
  (sc <- k_ts_sha2_L1_prehash sc ;;
  let n := ps_n (c_ps sc) in
  ctx <- k_get_sha512 cfg (c_small_iter sc) ;;
  ctx <- k_ts_SHA512_init P ctx ;;
  seed <- k_load mem (CONVERT_PUBLIC_KEY_TO_PUB_SEED (c_public_key sc) n) n ;;
  ctx <- k_ts_SHA512_update P le ctx seed ;;
  ctx <- k_sha512_pad_zero ctx n ;;
  s <- k_ts_SHA512_save_state P ctx ;;
  pre <- k_wr_range (c_prehash_sha512 sc) 0 s ;;
  it <- k_put_sha512 cfg (c_small_iter sc) ctx ;;
  kret (set_prehash_sha512 pre (set_small_iter it sc))).

(** sha256_L1_hash.c:31-34 and 42-45, sha512_hash.c:22-25 and 33-36: fill the local
    array [block] with [v ^ PRF key] and the padding byte [v]. *)
Definition k_hmac_block (block : list (option Z)) (size v pk n : Z) : stacked (list (option Z)) :=
  block <- k_for (Z.to_nat n) 0 (fun i block =>
    kb <- k_load mem (CONVERT_PUBLIC_KEY_TO_PRF pk n + i) 1 ;;
    b <- k_rd kb 0 ;;
    k_wr block i (Some (Z.lxor v b))) block ;;
  k_memset block n (Some v) (size - n).

(** sha256_L1_hash.c:16-49 [ts_sha2_L1_prf_msg]; [message] is the [len_message] bytes
    at the message pointer, [opt_buffer] the caller's array. *)
Definition k_ts_sha2_L1_prf_msg (opt_buffer message : list Z) (sc : ts_context)
  : stacked (list Z * ts_context) :=
  call (P + P + P + P + P + (4 + P + P + 64 + 32 + 4 + 4))   (* output, opt_buffer, message, len_message, sc; n, public_key, ctx, block, hash_output, i, i *)
  (let n := ps_n (c_ps sc) in
  let pk := c_public_key sc in
  ctx <- k_get_sha256 le (c_small_iter sc) ;;
  let block := uninit 64 in
  (* inner hash *)
  ctx <- k_ts_SHA256_init P ctx ;;
  block <- k_hmac_block block 64 0x36 pk n ;;
  bl <- k_defined block ;;
  ctx <- k_ts_SHA256_update P le ctx bl ;;
  o <- k_rd_range opt_buffer 0 n ;;
  ctx <- k_ts_SHA256_update P le ctx o ;;
  ctx <- k_ts_SHA256_update P le ctx message ;;
  '(hash_output, ctx) <- k_ts_SHA256_final P le ctx ;;
  (* outer hash *)
  ctx <- k_ts_SHA256_init P ctx ;;
  block <- k_hmac_block block 64 0x5c pk n ;;
  bl <- k_defined block ;;
  ctx <- k_ts_SHA256_update P le ctx bl ;;
  ho <- k_rd_range hash_output 0 32 ;;
  ctx <- k_ts_SHA256_update P le ctx ho ;;
  '(out, ctx) <- k_ts_SHA256_final_trunc P le ctx n ;;
  it <- k_put_sha256 le (c_small_iter sc) ctx ;;
  kret (out, set_small_iter it sc)).

(** sha256_L1_hash.c:70-91: the MGF1 loop; [msg_hash] is the local array, [i] the
    counter, [len_output] what is left; returns the bytes written to [output]. *)
Fixpoint k_sha256_mgf_loop (fuel : nat) (n : Z) (msg_hash : list (option Z)) (ctx : sha256_ctx)
    (i len_output : Z) : stacked (list Z * sha256_ctx) :=
  match fuel with
  | O => kub NonTermination
  | S fuel' =>
    If len_output =? 0 Then kret ([], ctx) Else
    ib <- k_ts_ull_to_bytes P i 4 ;;
    msg_hash <- k_wr_local msg_hash (2 * n + 32) ib ;;
    ctx <- k_ts_SHA256_init P ctx ;;
    m <- k_rd_local msg_hash 0 (2 * n + 32 + 4) ;;
    ctx <- k_ts_SHA256_update P le ctx m ;;
    '(buffer, ctx) <- k_ts_SHA256_final P le ctx ;;
    bytes <- (If 32 <=? len_output Then kret 32 Else kret len_output) ;;
    out <- k_rd_range buffer 0 bytes ;;
    i <- k_int_val (i + 1) ;;
    '(rest, ctx) <- k_sha256_mgf_loop fuel' n msg_hash ctx i (len_output - bytes) ;;
    kret (out ++ rest, ctx)
  end.

(** sha256_L1_hash.c:51-92 [ts_sha2_L1_hash_msg] *)
Definition k_ts_sha2_L1_hash_msg (len_output : Z) (randomness message : list Z)
    (sc : ts_context) : stacked (list Z * ts_context) :=
  call (P + P + P + P + P + P + (4 + P + P + (2 * TS_MAX_HASH cfg + 32 + 4) + 4 + 32 + 4))   (* output, len_output, randomness, message, len_message, sc; n, public_key, ctx, msg_hash, i, buffer, bytes *)
  (let n := ps_n (c_ps sc) in
  let pk := c_public_key sc in
  ctx <- k_get_sha256 le (c_small_iter sc) ;;
  let msg_hash := uninit (2 * TS_MAX_HASH cfg + 32 + 4) in
  ctx <- k_ts_SHA256_init P ctx ;;
  r <- k_rd_range randomness 0 n ;;
  ctx <- k_ts_SHA256_update P le ctx r ;;
  seed <- k_load mem (CONVERT_PUBLIC_KEY_TO_PUB_SEED pk n) n ;;
  ctx <- k_ts_SHA256_update P le ctx seed ;;
  root <- k_load mem (CONVERT_PUBLIC_KEY_TO_ROOT pk n) n ;;
  ctx <- k_ts_SHA256_update P le ctx root ;;
  ctx <- k_ts_SHA256_update P le ctx message ;;
  '(h, ctx) <- k_ts_SHA256_final P le ctx ;;
  msg_hash <- k_wr_local msg_hash (2 * n) h ;;
  msg_hash <- k_wr_local msg_hash 0 r ;;
  msg_hash <- k_wr_local msg_hash n seed ;;
  '(out, ctx) <- k_sha256_mgf_loop (S (Z.to_nat len_output)) n msg_hash ctx 0 len_output ;;
  it <- k_put_sha256 le (c_small_iter sc) ctx ;;
  kret (out, set_small_iter it sc)).

(** sha512_hash.c:10-40 [ts_sha2_L35_prf_msg] *)
Definition k_ts_sha2_L35_prf_msg (opt_buffer message : list Z) (sc : ts_context)
  : stacked (list Z * ts_context) :=
  call (P + P + P + P + P + (4 + P + P + 128 + 64 + 4 + 4))   (* output, opt_buffer, message, len_message, sc; n, public_key, ctx, block, hash_output, i, i *)
  (let n := ps_n (c_ps sc) in
  let pk := c_public_key sc in
  ctx <- k_get_sha512 cfg (c_small_iter sc) ;;
  let block := uninit 128 in
  (* inner hash *)
  ctx <- k_ts_SHA512_init P ctx ;;
  block <- k_hmac_block block 128 0x36 pk n ;;
  bl <- k_defined block ;;
  ctx <- k_ts_SHA512_update P le ctx bl ;;
  o <- k_rd_range opt_buffer 0 n ;;
  ctx <- k_ts_SHA512_update P le ctx o ;;
  ctx <- k_ts_SHA512_update P le ctx message ;;
  '(hash_output, ctx) <- k_ts_SHA512_final P le ctx ;;
  (* outer hash *)
  ctx <- k_ts_SHA512_init P ctx ;;
  block <- k_hmac_block block 128 0x5c pk n ;;
  bl <- k_defined block ;;
  ctx <- k_ts_SHA512_update P le ctx bl ;;
  ho <- k_rd_range hash_output 0 64 ;;
  ctx <- k_ts_SHA512_update P le ctx ho ;;
  '(out, ctx) <- k_ts_SHA512_final_trunc P le ctx n ;;
  it <- k_put_sha512 cfg (c_small_iter sc) ctx ;;
  kret (out, set_small_iter it sc)).

(** sha512_hash.c:61-76: the MGF1 loop. *)
Fixpoint k_sha512_mgf_loop (fuel : nat) (n : Z) (msg_hash : list (option Z)) (ctx : sha512_ctx)
    (i len_output : Z) : stacked (list Z * sha512_ctx) :=
  match fuel with
  | O => kub NonTermination
  | S fuel' =>
    If len_output =? 0 Then kret ([], ctx) Else
    ib <- k_ts_ull_to_bytes P i 4 ;;
    msg_hash <- k_wr_local msg_hash (2 * n + 64) ib ;;
    ctx <- k_ts_SHA512_init P ctx ;;
    m <- k_rd_local msg_hash 0 (2 * n + 64 + 4) ;;
    ctx <- k_ts_SHA512_update P le ctx m ;;
    '(buffer, ctx) <- k_ts_SHA512_final P le ctx ;;
    bytes <- (If 64 <=? len_output Then kret 64 Else kret len_output) ;;
    out <- k_rd_range buffer 0 bytes ;;
    i <- k_int_val (i + 1) ;;
    '(rest, ctx) <- k_sha512_mgf_loop fuel' n msg_hash ctx i (len_output - bytes) ;;
    kret (out ++ rest, ctx)
  end.

(** sha512_hash.c:42-77 [ts_sha2_L35_hash_msg] *)
Definition k_ts_sha2_L35_hash_msg (len_output : Z) (randomness message : list Z)
    (sc : ts_context) : stacked (list Z * ts_context) :=
  call (P + P + P + P + P + P + (4 + P + P + (2 * TS_MAX_HASH cfg + 64 + 4) + 4 + 64 + 4))   (* output, len_output, randomness, message, len_message, sc; n, public_key, ctx, msg_hash, i, buffer, bytes *)
  (let n := ps_n (c_ps sc) in
  let pk := c_public_key sc in
  ctx <- k_get_sha512 cfg (c_small_iter sc) ;;
  let msg_hash := uninit (2 * TS_MAX_HASH cfg + 64 + 4) in
  ctx <- k_ts_SHA512_init P ctx ;;
  r <- k_rd_range randomness 0 n ;;
  ctx <- k_ts_SHA512_update P le ctx r ;;
  seed <- k_load mem (CONVERT_PUBLIC_KEY_TO_PUB_SEED pk n) n ;;
  ctx <- k_ts_SHA512_update P le ctx seed ;;
  root <- k_load mem (CONVERT_PUBLIC_KEY_TO_ROOT pk n) n ;;
  ctx <- k_ts_SHA512_update P le ctx root ;;
  ctx <- k_ts_SHA512_update P le ctx message ;;
  '(h, ctx) <- k_ts_SHA512_final P le ctx ;;
  msg_hash <- k_wr_local msg_hash (2 * n) h ;;
  msg_hash <- k_wr_local msg_hash 0 r ;;
  msg_hash <- k_wr_local msg_hash n seed ;;
  '(out, ctx) <- k_sha512_mgf_loop (S (Z.to_nat len_output)) n msg_hash ctx 0 len_output ;;
  it <- k_put_sha512 cfg (c_small_iter sc) ctx ;;
  kret (out, set_small_iter it sc)).

(** shake256_hash.c:17-32 [ts_shake256_prf_msg] *)
Definition k_ts_shake256_prf_msg (opt_rand message : list Z) (sc : ts_context)
  : stacked (list Z * ts_context) :=
  call (P + P + P + P + P + (4 + P + P))   (* output, opt_rand, message, len_message, sc; n, public_key, ctx *)
  (let n := ps_n (c_ps sc) in
  let pk := c_public_key sc in
  s <- k_get_shake le (c_small_iter sc) ;;
  s <- k_ts_shake256_inc_init P s ;;
  k <- k_load mem (CONVERT_PUBLIC_KEY_TO_PRF pk n) n ;;
  s <- k_ts_shake256_inc_absorb P opt s k ;;
  o <- k_rd_range opt_rand 0 n ;;
  s <- k_ts_shake256_inc_absorb P opt s o ;;
  s <- k_ts_shake256_inc_absorb P opt s message ;;
  s <- k_ts_shake256_inc_finalize P s ;;
  '(out, s) <- k_ts_shake256_inc_squeeze P opt n s ;;
  it <- k_put_shake le (c_small_iter sc) s ;;
  kret (out, set_small_iter it sc)).

(** shake256_hash.c:37-58 [ts_shake256_hash_msg] *)
Definition k_ts_shake256_hash_msg (len_output : Z) (randomness message : list Z)
    (sc : ts_context) : stacked (list Z * ts_context) :=
  call (P + P + P + P + P + P + (4 + P + P + P + P))   (* output, len_output, randomness, message, len_message, sc; n, public_key, ctx, pk_seed, pk_root *)
  (let n := ps_n (c_ps sc) in
  let pk := c_public_key sc in
  s <- k_get_shake le (c_small_iter sc) ;;
  s <- k_ts_shake256_inc_init P s ;;
  r <- k_rd_range randomness 0 n ;;
  s <- k_ts_shake256_inc_absorb P opt s r ;;
  seed <- k_load mem (CONVERT_PUBLIC_KEY_TO_PUB_SEED pk n) n ;;
  s <- k_ts_shake256_inc_absorb P opt s seed ;;
  root <- k_load mem (CONVERT_PUBLIC_KEY_TO_ROOT pk n) n ;;
  s <- k_ts_shake256_inc_absorb P opt s root ;;
  s <- k_ts_shake256_inc_absorb P opt s message ;;
  s <- k_ts_shake256_inc_finalize P s ;;
  '(out, s) <- k_ts_shake256_inc_squeeze P opt len_output s ;;
  it <- k_put_shake le (c_small_iter sc) s ;;
  kret (out, set_small_iter it sc)).

(** shake256_hash.c:63-77 [ts_shake256_prf] *)
Definition k_ts_shake256_prf (sc : ts_context) : stacked (list Z * ts_context) :=
  call (P + P + (4 + P))   (* output, sc; n, ctx *)
  (let n := ps_n (c_ps sc) in
  let pk := c_public_key sc in
  s <- k_get_shake le (c_small_iter sc) ;;
  s <- k_ts_shake256_inc_init P s ;;
  seed <- k_load mem (CONVERT_PUBLIC_KEY_TO_PUB_SEED pk n) n ;;
  s <- k_ts_shake256_inc_absorb P opt s seed ;;
  a <- k_rd_range (c_adr sc) 0 (ADR_SIZE cfg) ;;
  s <- k_ts_shake256_inc_absorb P opt s a ;;
  sk <- k_load mem (CONVERT_PUBLIC_KEY_TO_SEC_SEED pk n) n ;;
  s <- k_ts_shake256_inc_absorb P opt s sk ;;
  s <- k_ts_shake256_inc_finalize P s ;;
  '(out, s) <- k_ts_shake256_inc_squeeze P opt n s ;;
  it <- k_put_shake le (c_small_iter sc) s ;;
  kret (out, set_small_iter it sc)).

(** shake256_simple.c:32-42 [ts_shake256_init_t_simple] *)
Definition k_ts_shake256_init_t_simple (it : list Z) (sc : ts_context) : stacked (list Z) :=
  call (P + P + (4 + P + P))   (* t, ctx; n, public_key, iter *)
  (let n := ps_n (c_ps sc) in
  s <- k_get_shake le it ;;
  s <- k_ts_shake256_inc_init P s ;;
  seed <- k_load mem (CONVERT_PUBLIC_KEY_TO_PUB_SEED (c_public_key sc) n) n ;;
  s <- k_ts_shake256_inc_absorb P opt s seed ;;
  a <- k_rd_range (c_adr sc) 0 (ADR_SIZE cfg) ;;
  s <- k_ts_shake256_inc_absorb P opt s a ;;
  k_put_shake le it s).

(** shake256_simple.c:45-50 [ts_shake256_next_t_simple] *)
Definition k_ts_shake256_next_t_simple (it : list Z) (input : list Z) (sc : ts_context)
  : stacked (list Z) :=
  call (P + P + P + (4 + P))   (* t, input, ctx; n, iter *)
  (let n := ps_n (c_ps sc) in
  s <- k_get_shake le it ;;
  b <- k_rd_range input 0 n ;;
  s <- k_ts_shake256_inc_absorb P opt s b ;;
  k_put_shake le it s).

(** shake256_simple.c:54-62 [ts_shake256_final_t_simple] *)
Definition k_ts_shake256_final_t_simple (it : list Z) (sc : ts_context)
  : stacked (list Z * list Z) :=
  call (P + P + P + (4 + P))   (* output, t, ctx; n, iter *)
  (let n := ps_n (c_ps sc) in
  s <- k_get_shake le it ;;
  s <- k_ts_shake256_inc_finalize P s ;;
  '(out, s) <- k_ts_shake256_inc_squeeze P opt n s ;;
  it <- k_put_shake le it s ;;
  kret (out, it)).

(** shake256_simple.c:17-28 [ts_shake256_f_simple] *)
Definition k_ts_shake256_f_simple (inblock : list Z) (sc : ts_context)
  : stacked (list Z * ts_context) :=
  call (P + P + P + P)   (* output, inblock, ctx; t *)
  (it <- k_ts_shake256_init_t_simple (c_small_iter sc) sc ;;
  it <- k_ts_shake256_next_t_simple it inblock sc ;;
  '(out, it) <- k_ts_shake256_final_t_simple it sc ;;
  kret (out, set_small_iter it sc)).

(** ** Calls through the function pointers of [ctx->ps] *)
(** internal.h:31-33; called at tiny_sphincs.c:339 *)
Definition k_call_prf_msg (opt_buffer message : list Z) (sc : ts_context) :=
  match ps_prf_msg (c_ps sc) with
  | shake256_prf_msg => (k_ts_shake256_prf_msg opt_buffer message sc)
  | sha2_L1_prf_msg => (k_ts_sha2_L1_prf_msg opt_buffer message sc)
  | sha2_L35_prf_msg => (k_ts_sha2_L35_prf_msg opt_buffer message sc)
  end.
(** internal.h:34-37; called at tiny_sphincs.c:344, verify.c:133 *)
Definition k_call_hash_msg (len_output : Z) (randomness message : list Z) (sc : ts_context) :=
  match ps_hash_msg (c_ps sc) with
  | shake256_hash_msg => (k_ts_shake256_hash_msg len_output randomness message sc)
  | sha2_L1_hash_msg => (k_ts_sha2_L1_hash_msg len_output randomness message sc)
  | sha2_L35_hash_msg => (k_ts_sha2_L35_hash_msg len_output randomness message sc)
  end.
(** internal.h:38; called at tiny_sphincs.c:163,172,181 *)
Definition k_call_prf (sc : ts_context) :=
  match ps_prf (c_ps sc) with
  | shake256_prf => (k_ts_shake256_prf sc)
  | sha2_prf => (k_ts_sha2_prf sc)
  end.
(** internal.h:39-41; called at tiny_sphincs.c:184,411,429, verify.c:156,187 *)
Definition k_call_f (inblock : list Z) (sc : ts_context) :=
  match ps_f (c_ps sc) with
  | shake256_f_simple => (k_ts_shake256_f_simple inblock sc)
  | sha2_f_simple => (k_ts_sha2_f_simple inblock sc)
  end.
(** internal.h:48; called at tiny_sphincs.c:229,250,363,422, verify.c:64,91,150 *)
Definition k_call_init_t (it : list Z) (sc : ts_context) : stacked (list Z) :=
  match ps_init_t (c_ps sc) with
  | shake256_init_t_simple => (k_ts_shake256_init_t_simple it sc)
  | sha2_L1_init_t_simple => (k_ts_sha2_L1_init_t_simple it sc)
  | sha2_L35_init_t_simple => (k_ts_sha2_L35_init_t_simple it sc)
  end.
(** internal.h:49-50; called at tiny_sphincs.c:230,231,252-256,431,488, verify.c:67-72,166,190 *)
Definition k_call_next_t (it : list Z) (input : list Z) (sc : ts_context) : stacked (list Z) :=
  match ps_next_t (c_ps sc) with
  | shake256_next_t_simple => (k_ts_shake256_next_t_simple it input sc)
  | sha2_L1_next_t_simple => (k_ts_sha2_L1_next_t_simple it input sc)
  | sha2_L35_next_t_simple => (k_ts_sha2_L35_next_t_simple it input sc)
  end.
(** internal.h:51-52; called at tiny_sphincs.c:232,258,433,494, verify.c:76,171,197 *)
Definition k_call_final_t (it : list Z) (sc : ts_context) : stacked (list Z * list Z) :=
  match ps_final_t (c_ps sc) with
  | shake256_final_t_simple => (k_ts_shake256_final_t_simple it sc)
  | sha2_L1_final_t_simple => (k_ts_sha2_L1_final_t_simple it sc)
  | sha2_L35_final_t_simple => (k_ts_sha2_L35_final_t_simple it sc)
  end.
(** [if (ps->compute_prehash) ps->compute_prehash( ctx )] under
    #if TS_SHA2_OPTIMIZATION (tiny_sphincs.c:323-325, verify.c:41-43, key_gen.c:36-38). *)
Definition k_call_compute_prehash (sc : ts_context) : stacked ts_context :=
  if cfg_sha2_opt cfg then
    match ps_compute_prehash (c_ps sc) with
    | None => (kret sc)
    | Some sha2_L1_prehash => ((k_ts_sha2_L1_prehash sc))
    | Some sha2_L35_prehash => ((k_ts_sha2_L35_prehash sc))
    end
  else kret sc.
End Hash.
