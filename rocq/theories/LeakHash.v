(** * The hash glue of the model, watched

    The byte views of ModelCtx and all of ModelHash once more with the operations of CLeak
    (see LeakSha2).  Configuration macros are not branches; a call through a function
    pointer shows its target. *)
From Verif Require Import CSem CLeak ModelSha256 ModelSha512 ModelFips202 ModelParams ModelCtx ModelHash LeakSha2 LeakFips202.
Open Scope leak_scope.

(** ** Byte views of the members of [union t_iterator] (layouts: ModelParams) *)

(** [&it->sha2_L1_simple] read as a SHA256_CTX, and written back. *)
(** SHA256_CTX sha2.h:16-29, member of tiny_sphincs.h:66-76 (line 71); used at sha256_L1_hash.c:22,57, sha256_L1_hash_simple.c:61, sha256_hash.c:22, sha2_simple.c:17 *)
Definition l_get_sha256 (le : bool) (it : list Z) : leaky sha256_ctx :=
  h <- l_for 8 0 (fun i h => w <- l_rd_word le 4 it 0 i ;; lret (h ++ [w])) [] ;;
  count <- l_rd_word le 8 it 32 0 ;;
  num <- l_rd_word le 4 it 40 0 ;;
  x <- l_rd_range it 44 64 ;;
  lret (mkSha256 h count num x).
(** SHA256_CTX sha2.h:16-29, member of tiny_sphincs.h:66-76 (line 71); used at sha256_L1_hash.c:22,57, sha256_L1_hash_simple.c:61, sha256_hash.c:22, sha2_simple.c:17 *)
Definition l_put_sha256 (le : bool) (it : list Z) (c : sha256_ctx) : leaky (list Z) :=
  it <- l_wr_range it 0 (enc_words le 4 (s256_h c)) ;;
  it <- l_wr_word le 8 it 32 0 (s256_count c) ;;
  it <- l_wr_word le 4 it 40 0 (s256_num c) ;;
  l_wr_range it 44 (s256_x c).

(** [&it->sha2_L35_simple] read as a SHA512_CTX, and written back. *)
(** SHA512_CTX sha2.h:49-62, member of tiny_sphincs.h:66-76 (line 74); used at sha512_L35_hash_simple.c:66, sha512_hash.c:16,48 *)
Definition l_get_sha512 (cfg : config) (it : list Z) : leaky sha512_ctx :=
  let le := cfg_le cfg in
  h <- l_for 8 0 (fun i h => w <- l_rd_word le 8 it 0 i ;; lret (h ++ [w])) [] ;;
  count <- l_rd_word le 8 it 64 0 ;;
  num <- l_rd_word le 4 it 72 0 ;;
  x <- l_rd_range it (SHA512_X_OFFSET cfg) 128 ;;
  lret (mkSha512 h count num x).
(** SHA512_CTX sha2.h:49-62, member of tiny_sphincs.h:66-76 (line 74); used at sha512_L35_hash_simple.c:66, sha512_hash.c:16,48 *)
Definition l_put_sha512 (cfg : config) (it : list Z) (c : sha512_ctx) : leaky (list Z) :=
  let le := cfg_le cfg in
  it <- l_wr_range it 0 (enc_words le 8 (s512_h c)) ;;
  it <- l_wr_word le 8 it 64 0 (s512_count c) ;;
  it <- l_wr_word le 4 it 72 0 (s512_num c) ;;
  l_wr_range it (SHA512_X_OFFSET cfg) (s512_x c).

(** [&it->shake256_simple] read as the 26 words of a SHAKE256_CTX, and written back. *)
(** fips202.h:35 SHAKE256_CTX, member of tiny_sphincs.h:66-76 (line 68); used at shake256_hash.c:23,43,66, shake256_simple.c:20 *)
Definition l_get_shake (le : bool) (it : list Z) : leaky (list Z) :=
  l_for 26 0 (fun i h => w <- l_rd_word le 8 it 0 i ;; lret (h ++ [w])) [].
(** fips202.h:35 SHAKE256_CTX, member of tiny_sphincs.h:66-76 (line 68); used at shake256_hash.c:23,43,66, shake256_simple.c:20 *)
Definition l_put_shake (le : bool) (it : list Z) (s : list Z) : leaky (list Z) :=
  l_wr_range it 0 (enc_words le 8 s).

(** ** Access to the members of the union x *)

(** A member array of [size] bytes at byte [base] of x: element range [off, off+len)
    must lie inside the member. *)
(** array members of the union x, tiny_sphincs.h:151-168 *)
Definition l_sub_rd (x : list Z) (base size off len : Z) : leaky (list Z) :=
  if (0 <=? off) && (off + len <=? size) then l_rd_range x (base + off) len
  else lub OutOfBounds.
(** array members of the union x, tiny_sphincs.h:151-168 *)
Definition l_sub_wr (x : list Z) (base size off : Z) (v : list Z) : leaky (list Z) :=
  if (0 <=? off) && (off + zlen v <=? size) then l_wr_range x (base + off) v
  else lub OutOfBounds.

(** [x.fors.fors_node[k]] (unsigned short) *)
(** tiny_sphincs.h:152-155 *)
Definition l_get_fors_node (cfg : config) (x : list Z) (k : Z) : leaky Z :=
  if (0 <=? k) && (k <? TS_MAX_FORS) then l_rd_word (cfg_le cfg) 2 x 0 k
  else lub OutOfBounds.
(** tiny_sphincs.h:152-155 *)
Definition l_set_fors_node (cfg : config) (x : list Z) (k v : Z) : leaky (list Z) :=
  if (0 <=? k) && (k <? TS_MAX_FORS) then l_wr_word (cfg_le cfg) 2 x 0 k (u16 v)
  else lub OutOfBounds.

(** [x.wots.digit] and [x.wots.digits[i]] *)
(** tiny_sphincs.h:156-159 *)
Definition l_get_digit (x : list Z) : leaky Z := l_rd x 0.
(** tiny_sphincs.h:156-159 *)
Definition l_set_digit (x : list Z) (v : Z) : leaky (list Z) := l_wr x 0 (u8 v).
(** tiny_sphincs.h:156-159 *)
Definition l_get_digits (cfg : config) (x : list Z) (i : Z) : leaky Z :=
  if (0 <=? i) && (i <? TS_MAX_WOTS_DIGITS cfg) then l_rd x (1 + i) else lub OutOfBounds.
(** tiny_sphincs.h:156-159 *)
Definition l_set_digits (cfg : config) (x : list Z) (i v : Z) : leaky (list Z) :=
  if (0 <=? i) && (i <? TS_MAX_WOTS_DIGITS cfg) then l_wr x (1 + i) (u8 v)
  else lub OutOfBounds.

(** tiny_sphincs.h:110-112,134-135,151-168 *)
Definition l_get_buf (cfg : config) (c : ts_context) (b : bufid) (n : Z) : leaky (list Z) :=
  match b with
  | BufBuffer => l_rd_range (c_buffer c) 0 n
  | BufAuth => l_rd_range (c_auth_path_buffer c) 0 n
  | BufMerkle => l_sub_rd (c_x c) 0 (TS_MAX_HASH cfg) 0 n
  end.
(** tiny_sphincs.h:110-112,134-135,151-168 *)
Definition l_put_buf (cfg : config) (c : ts_context) (b : bufid) (v : list Z)
  : leaky ts_context :=
  match b with
  | BufBuffer => l <- l_wr_range (c_buffer c) 0 v ;; lret (set_buffer l c)
  | BufAuth => l <- l_wr_range (c_auth_path_buffer c) 0 v ;; lret (set_auth_path_buffer l c)
  | BufMerkle => x <- l_sub_wr (c_x c) 0 (TS_MAX_HASH cfg) 0 v ;; lret (set_x x c)
  end.

Section Hash.
Variable cfg : config.
Variable mem : memory.
Local Notation le := (cfg_le cfg).
Local Notation opt := (cfg_shake_opt cfg).

(** The loops [for (int i = n; i < block; i++) update( ctx, "\0", 1 )]
    (sha256_hash.c:51-53, sha256_L1_hash_simple.c:66-68). *)
Definition l_sha256_pad_zero (ctx : sha256_ctx) (n : Z) : leaky sha256_ctx :=
  l_for (Z.to_nat (64 - n)) n (fun _ ctx => l_ts_SHA256_update le ctx [0]) ctx.
(** sha512_hash.c:89-91, sha512_L35_hash_simple.c:71-73 *)
Definition l_sha512_pad_zero (ctx : sha512_ctx) (n : Z) : leaky sha512_ctx :=
  l_for (Z.to_nat (128 - n)) n (fun _ ctx => l_ts_SHA512_update le ctx [0]) ctx.

(** sha256_hash.c:35-55 [ts_sha256_init_ctx] *)
Definition l_ts_sha256_init_ctx (ctx : sha256_ctx) (sc : ts_context) : leaky sha256_ctx :=
  if cfg_sha2_opt cfg then
    l_ts_SHA256_restore_state_after_64 ctx (c_prehash_sha256 sc)
  else
    let ctx := ts_SHA256_init ctx in
    let n := ps_n (c_ps sc) in
    seed <- l_load mem (CONVERT_PUBLIC_KEY_TO_PUB_SEED (c_public_key sc) n) n ;;
    ctx <- l_ts_SHA256_update le ctx seed ;;
    l_sha256_pad_zero ctx n.

(** sha512_hash.c:79-93 [ts_sha512_init_ctx] *)
Definition l_ts_sha512_init_ctx (ctx : sha512_ctx) (sc : ts_context) : leaky sha512_ctx :=
  if cfg_sha2_opt cfg then
    l_ts_SHA512_restore_state_after_128 ctx (c_prehash_sha512 sc)
  else
    let ctx := ts_SHA512_init ctx in
    let n := ps_n (c_ps sc) in
    seed <- l_load mem (CONVERT_PUBLIC_KEY_TO_PUB_SEED (c_public_key sc) n) n ;;
    ctx <- l_ts_SHA512_update le ctx seed ;;
    l_sha512_pad_zero ctx n.

(** sha256_hash.c:19-29 [ts_sha2_prf] *)
Definition l_ts_sha2_prf (sc : ts_context) : leaky (list Z * ts_context) :=
  let n := ps_n (c_ps sc) in
  ctx <- l_get_sha256 le (c_small_iter sc) ;;
  ctx <- l_ts_sha256_init_ctx ctx sc ;;
  a <- l_rd_range (c_adr sc) 0 SHA2_ADR_SIZE ;;
  ctx <- l_ts_SHA256_update le ctx a ;;
  sk <- l_load mem (CONVERT_PUBLIC_KEY_TO_SEC_SEED (c_public_key sc) n) n ;;
  ctx <- l_ts_SHA256_update le ctx sk ;;
  '(out, ctx) <- l_ts_SHA256_final_trunc le ctx n ;;
  it <- l_put_sha256 le (c_small_iter sc) ctx ;;
  lret (out, set_small_iter it sc).

(** sha2_simple.c:14-25 [ts_sha2_f_simple]; [inblock] is the object [inblock] points to *)
Definition l_ts_sha2_f_simple (inblock : list Z) (sc : ts_context)
  : leaky (list Z * ts_context) :=
  let n := ps_n (c_ps sc) in
  ctx <- l_get_sha256 le (c_small_iter sc) ;;
  ctx <- l_ts_sha256_init_ctx ctx sc ;;
  a <- l_rd_range (c_adr sc) 0 SHA2_ADR_SIZE ;;
  ctx <- l_ts_SHA256_update le ctx a ;;
  b <- l_rd_range inblock 0 n ;;
  ctx <- l_ts_SHA256_update le ctx b ;;
  '(out, ctx) <- l_ts_SHA256_final_trunc le ctx n ;;
  it <- l_put_sha256 le (c_small_iter sc) ctx ;;
  lret (out, set_small_iter it sc).

(** sha256_L1_hash_simple.c:29-34 [ts_sha2_L1_init_t_simple]; [it] is [*t] *)
Definition l_ts_sha2_L1_init_t_simple (it : list Z) (sc : ts_context) : leaky (list Z) :=
  ctx <- l_get_sha256 le it ;;
  ctx <- l_ts_sha256_init_ctx ctx sc ;;
  a <- l_rd_range (c_adr sc) 0 SHA2_ADR_SIZE ;;
  ctx <- l_ts_SHA256_update le ctx a ;;
  l_put_sha256 le it ctx.

(** sha256_L1_hash_simple.c:37-41 [ts_sha2_L1_next_t_simple] *)
Definition l_ts_sha2_L1_next_t_simple (it : list Z) (input : list Z) (sc : ts_context)
  : leaky (list Z) :=
  let n := ps_n (c_ps sc) in
  ctx <- l_get_sha256 le it ;;
  b <- l_rd_range input 0 n ;;
  ctx <- l_ts_SHA256_update le ctx b ;;
  l_put_sha256 le it ctx.

(** sha256_L1_hash_simple.c:45-49 [ts_sha2_L1_final_t_simple] *)
Definition l_ts_sha2_L1_final_t_simple (it : list Z) (sc : ts_context)
  : leaky (list Z * list Z) :=
  let n := ps_n (c_ps sc) in
  ctx <- l_get_sha256 le it ;;
  '(out, ctx) <- l_ts_SHA256_final_trunc le ctx n ;;
  it <- l_put_sha256 le it ctx ;;
  lret (out, it).

(** sha256_L1_hash_simple.c:59-71 [ts_sha2_L1_prehash] *)
Definition l_ts_sha2_L1_prehash (sc : ts_context) : leaky ts_context :=
  let n := ps_n (c_ps sc) in
  ctx <- l_get_sha256 le (c_small_iter sc) ;;
  let ctx := ts_SHA256_init ctx in
  seed <- l_load mem (CONVERT_PUBLIC_KEY_TO_PUB_SEED (c_public_key sc) n) n ;;
  ctx <- l_ts_SHA256_update le ctx seed ;;
  ctx <- l_sha256_pad_zero ctx n ;;
  s <- l_ts_SHA256_save_state ctx ;;
  pre <- l_wr_range (c_prehash_sha256 sc) 0 s ;;
  it <- l_put_sha256 le (c_small_iter sc) ctx ;;
  lret (set_prehash_sha256 pre (set_small_iter it sc)).

(** sha512_L35_hash_simple.c:28-32 [ts_sha2_L35_init_t_simple] *)
Definition l_ts_sha2_L35_init_t_simple (it : list Z) (sc : ts_context) : leaky (list Z) :=
  ctx <- l_get_sha512 cfg it ;;
  ctx <- l_ts_sha512_init_ctx ctx sc ;;
  a <- l_rd_range (c_adr sc) 0 SHA2_ADR_SIZE ;;
  ctx <- l_ts_SHA512_update le ctx a ;;
  l_put_sha512 cfg it ctx.

(** sha512_L35_hash_simple.c:35-39 [ts_sha2_L35_next_t_simple] *)
Definition l_ts_sha2_L35_next_t_simple (it : list Z) (input : list Z) (sc : ts_context)
  : leaky (list Z) :=
  let n := ps_n (c_ps sc) in
  ctx <- l_get_sha512 cfg it ;;
  b <- l_rd_range input 0 n ;;
  ctx <- l_ts_SHA512_update le ctx b ;;
  l_put_sha512 cfg it ctx.

(** sha512_L35_hash_simple.c:43-47 [ts_sha2_L35_final_t_simple] *)
Definition l_ts_sha2_L35_final_t_simple (it : list Z) (sc : ts_context)
  : leaky (list Z * list Z) :=
  let n := ps_n (c_ps sc) in
  ctx <- l_get_sha512 cfg it ;;
  '(out, ctx) <- l_ts_SHA512_final_trunc le ctx n ;;
  it <- l_put_sha512 cfg it ctx ;;
  lret (out, it).

(** sha512_L35_hash_simple.c:60-76 [ts_sha2_L35_prehash] *)
Definition l_ts_sha2_L35_prehash (sc : ts_context) : leaky ts_context :=
  sc <- l_ts_sha2_L1_prehash sc ;;
  let n := ps_n (c_ps sc) in
  ctx <- l_get_sha512 cfg (c_small_iter sc) ;;
  let ctx := ts_SHA512_init ctx in
  seed <- l_load mem (CONVERT_PUBLIC_KEY_TO_PUB_SEED (c_public_key sc) n) n ;;
  ctx <- l_ts_SHA512_update le ctx seed ;;
  ctx <- l_sha512_pad_zero ctx n ;;
  s <- l_ts_SHA512_save_state ctx ;;
  pre <- l_wr_range (c_prehash_sha512 sc) 0 s ;;
  it <- l_put_sha512 cfg (c_small_iter sc) ctx ;;
  lret (set_prehash_sha512 pre (set_small_iter it sc)).

(** sha256_L1_hash.c:31-34 and 42-45, sha512_hash.c:22-25 and 33-36: fill the local
    array [block] with [v ^ PRF key] and the padding byte [v]. *)
Definition l_hmac_block (block : list (option Z)) (size v pk n : Z) : leaky (list (option Z)) :=
  block <- l_for (Z.to_nat n) 0 (fun i block =>
    kb <- l_load mem (CONVERT_PUBLIC_KEY_TO_PRF pk n + i) 1 ;;
    b <- l_rd kb 0 ;;
    l_wr block i (Some (Z.lxor v b))) block ;;
  l_memset block n (Some v) (size - n).

(** sha256_L1_hash.c:16-49 [ts_sha2_L1_prf_msg]; [message] is the [len_message] bytes
    at the message pointer, [opt_buffer] the caller's array. *)
Definition l_ts_sha2_L1_prf_msg (opt_buffer message : list Z) (sc : ts_context)
  : leaky (list Z * ts_context) :=
  let n := ps_n (c_ps sc) in
  let pk := c_public_key sc in
  ctx <- l_get_sha256 le (c_small_iter sc) ;;
  let block := uninit 64 in
  (* inner hash *)
  let ctx := ts_SHA256_init ctx in
  block <- l_hmac_block block 64 0x36 pk n ;;
  bl <- l_defined block ;;
  ctx <- l_ts_SHA256_update le ctx bl ;;
  o <- l_rd_range opt_buffer 0 n ;;
  ctx <- l_ts_SHA256_update le ctx o ;;
  ctx <- l_ts_SHA256_update le ctx message ;;
  '(hash_output, ctx) <- l_ts_SHA256_final le ctx ;;
  (* outer hash *)
  let ctx := ts_SHA256_init ctx in
  block <- l_hmac_block block 64 0x5c pk n ;;
  bl <- l_defined block ;;
  ctx <- l_ts_SHA256_update le ctx bl ;;
  ho <- l_rd_range hash_output 0 32 ;;
  ctx <- l_ts_SHA256_update le ctx ho ;;
  '(out, ctx) <- l_ts_SHA256_final_trunc le ctx n ;;
  it <- l_put_sha256 le (c_small_iter sc) ctx ;;
  lret (out, set_small_iter it sc).

(** sha256_L1_hash.c:70-91: the MGF1 loop; [msg_hash] is the local array, [i] the
    counter, [len_output] what is left; returns the bytes written to [output]. *)
Fixpoint l_sha256_mgf_loop (fuel : nat) (n : Z) (msg_hash : list (option Z)) (ctx : sha256_ctx)
    (i len_output : Z) : leaky (list Z * sha256_ctx) :=
  match fuel with
  | O => lub NonTermination
  | S fuel' =>
    If len_output =? 0 Then lret ([], ctx) Else
    ib <- l_ts_ull_to_bytes i 4 ;;
    msg_hash <- l_wr_local msg_hash (2 * n + 32) ib ;;
    let ctx := ts_SHA256_init ctx in
    m <- l_rd_local msg_hash 0 (2 * n + 32 + 4) ;;
    ctx <- l_ts_SHA256_update le ctx m ;;
    '(buffer, ctx) <- l_ts_SHA256_final le ctx ;;
    bytes <- (If 32 <=? len_output Then lret 32 Else lret len_output) ;;
    out <- l_rd_range buffer 0 bytes ;;
    i <- l_int_val (i + 1) ;;
    '(rest, ctx) <- l_sha256_mgf_loop fuel' n msg_hash ctx i (len_output - bytes) ;;
    lret (out ++ rest, ctx)
  end.

(** sha256_L1_hash.c:51-92 [ts_sha2_L1_hash_msg] *)
Definition l_ts_sha2_L1_hash_msg (len_output : Z) (randomness message : list Z)
    (sc : ts_context) : leaky (list Z * ts_context) :=
  let n := ps_n (c_ps sc) in
  let pk := c_public_key sc in
  ctx <- l_get_sha256 le (c_small_iter sc) ;;
  let msg_hash := uninit (2 * TS_MAX_HASH cfg + 32 + 4) in
  let ctx := ts_SHA256_init ctx in
  r <- l_rd_range randomness 0 n ;;
  ctx <- l_ts_SHA256_update le ctx r ;;
  seed <- l_load mem (CONVERT_PUBLIC_KEY_TO_PUB_SEED pk n) n ;;
  ctx <- l_ts_SHA256_update le ctx seed ;;
  root <- l_load mem (CONVERT_PUBLIC_KEY_TO_ROOT pk n) n ;;
  ctx <- l_ts_SHA256_update le ctx root ;;
  ctx <- l_ts_SHA256_update le ctx message ;;
  '(h, ctx) <- l_ts_SHA256_final le ctx ;;
  msg_hash <- l_wr_local msg_hash (2 * n) h ;;
  msg_hash <- l_wr_local msg_hash 0 r ;;
  msg_hash <- l_wr_local msg_hash n seed ;;
  '(out, ctx) <- l_sha256_mgf_loop (S (Z.to_nat len_output)) n msg_hash ctx 0 len_output ;;
  it <- l_put_sha256 le (c_small_iter sc) ctx ;;
  lret (out, set_small_iter it sc).

(** sha512_hash.c:10-40 [ts_sha2_L35_prf_msg] *)
Definition l_ts_sha2_L35_prf_msg (opt_buffer message : list Z) (sc : ts_context)
  : leaky (list Z * ts_context) :=
  let n := ps_n (c_ps sc) in
  let pk := c_public_key sc in
  ctx <- l_get_sha512 cfg (c_small_iter sc) ;;
  let block := uninit 128 in
  (* inner hash *)
  let ctx := ts_SHA512_init ctx in
  block <- l_hmac_block block 128 0x36 pk n ;;
  bl <- l_defined block ;;
  ctx <- l_ts_SHA512_update le ctx bl ;;
  o <- l_rd_range opt_buffer 0 n ;;
  ctx <- l_ts_SHA512_update le ctx o ;;
  ctx <- l_ts_SHA512_update le ctx message ;;
  '(hash_output, ctx) <- l_ts_SHA512_final le ctx ;;
  (* outer hash *)
  let ctx := ts_SHA512_init ctx in
  block <- l_hmac_block block 128 0x5c pk n ;;
  bl <- l_defined block ;;
  ctx <- l_ts_SHA512_update le ctx bl ;;
  ho <- l_rd_range hash_output 0 64 ;;
  ctx <- l_ts_SHA512_update le ctx ho ;;
  '(out, ctx) <- l_ts_SHA512_final_trunc le ctx n ;;
  it <- l_put_sha512 cfg (c_small_iter sc) ctx ;;
  lret (out, set_small_iter it sc).

(** sha512_hash.c:61-76: the MGF1 loop. *)
Fixpoint l_sha512_mgf_loop (fuel : nat) (n : Z) (msg_hash : list (option Z)) (ctx : sha512_ctx)
    (i len_output : Z) : leaky (list Z * sha512_ctx) :=
  match fuel with
  | O => lub NonTermination
  | S fuel' =>
    If len_output =? 0 Then lret ([], ctx) Else
    ib <- l_ts_ull_to_bytes i 4 ;;
    msg_hash <- l_wr_local msg_hash (2 * n + 64) ib ;;
    let ctx := ts_SHA512_init ctx in
    m <- l_rd_local msg_hash 0 (2 * n + 64 + 4) ;;
    ctx <- l_ts_SHA512_update le ctx m ;;
    '(buffer, ctx) <- l_ts_SHA512_final le ctx ;;
    bytes <- (If 64 <=? len_output Then lret 64 Else lret len_output) ;;
    out <- l_rd_range buffer 0 bytes ;;
    i <- l_int_val (i + 1) ;;
    '(rest, ctx) <- l_sha512_mgf_loop fuel' n msg_hash ctx i (len_output - bytes) ;;
    lret (out ++ rest, ctx)
  end.

(** sha512_hash.c:42-77 [ts_sha2_L35_hash_msg] *)
Definition l_ts_sha2_L35_hash_msg (len_output : Z) (randomness message : list Z)
    (sc : ts_context) : leaky (list Z * ts_context) :=
  let n := ps_n (c_ps sc) in
  let pk := c_public_key sc in
  ctx <- l_get_sha512 cfg (c_small_iter sc) ;;
  let msg_hash := uninit (2 * TS_MAX_HASH cfg + 64 + 4) in
  let ctx := ts_SHA512_init ctx in
  r <- l_rd_range randomness 0 n ;;
  ctx <- l_ts_SHA512_update le ctx r ;;
  seed <- l_load mem (CONVERT_PUBLIC_KEY_TO_PUB_SEED pk n) n ;;
  ctx <- l_ts_SHA512_update le ctx seed ;;
  root <- l_load mem (CONVERT_PUBLIC_KEY_TO_ROOT pk n) n ;;
  ctx <- l_ts_SHA512_update le ctx root ;;
  ctx <- l_ts_SHA512_update le ctx message ;;
  '(h, ctx) <- l_ts_SHA512_final le ctx ;;
  msg_hash <- l_wr_local msg_hash (2 * n) h ;;
  msg_hash <- l_wr_local msg_hash 0 r ;;
  msg_hash <- l_wr_local msg_hash n seed ;;
  '(out, ctx) <- l_sha512_mgf_loop (S (Z.to_nat len_output)) n msg_hash ctx 0 len_output ;;
  it <- l_put_sha512 cfg (c_small_iter sc) ctx ;;
  lret (out, set_small_iter it sc).

(** shake256_hash.c:17-32 [ts_shake256_prf_msg] *)
Definition l_ts_shake256_prf_msg (opt_rand message : list Z) (sc : ts_context)
  : leaky (list Z * ts_context) :=
  let n := ps_n (c_ps sc) in
  let pk := c_public_key sc in
  s <- l_get_shake le (c_small_iter sc) ;;
  s <- l_ts_shake256_inc_init s ;;
  k <- l_load mem (CONVERT_PUBLIC_KEY_TO_PRF pk n) n ;;
  s <- l_ts_shake256_inc_absorb opt s k ;;
  o <- l_rd_range opt_rand 0 n ;;
  s <- l_ts_shake256_inc_absorb opt s o ;;
  s <- l_ts_shake256_inc_absorb opt s message ;;
  s <- l_ts_shake256_inc_finalize s ;;
  '(out, s) <- l_ts_shake256_inc_squeeze opt n s ;;
  it <- l_put_shake le (c_small_iter sc) s ;;
  lret (out, set_small_iter it sc).

(** shake256_hash.c:37-58 [ts_shake256_hash_msg] *)
Definition l_ts_shake256_hash_msg (len_output : Z) (randomness message : list Z)
    (sc : ts_context) : leaky (list Z * ts_context) :=
  let n := ps_n (c_ps sc) in
  let pk := c_public_key sc in
  s <- l_get_shake le (c_small_iter sc) ;;
  s <- l_ts_shake256_inc_init s ;;
  r <- l_rd_range randomness 0 n ;;
  s <- l_ts_shake256_inc_absorb opt s r ;;
  seed <- l_load mem (CONVERT_PUBLIC_KEY_TO_PUB_SEED pk n) n ;;
  s <- l_ts_shake256_inc_absorb opt s seed ;;
  root <- l_load mem (CONVERT_PUBLIC_KEY_TO_ROOT pk n) n ;;
  s <- l_ts_shake256_inc_absorb opt s root ;;
  s <- l_ts_shake256_inc_absorb opt s message ;;
  s <- l_ts_shake256_inc_finalize s ;;
  '(out, s) <- l_ts_shake256_inc_squeeze opt len_output s ;;
  it <- l_put_shake le (c_small_iter sc) s ;;
  lret (out, set_small_iter it sc).

(** shake256_hash.c:63-77 [ts_shake256_prf] *)
Definition l_ts_shake256_prf (sc : ts_context) : leaky (list Z * ts_context) :=
  let n := ps_n (c_ps sc) in
  let pk := c_public_key sc in
  s <- l_get_shake le (c_small_iter sc) ;;
  s <- l_ts_shake256_inc_init s ;;
  seed <- l_load mem (CONVERT_PUBLIC_KEY_TO_PUB_SEED pk n) n ;;
  s <- l_ts_shake256_inc_absorb opt s seed ;;
  a <- l_rd_range (c_adr sc) 0 (ADR_SIZE cfg) ;;
  s <- l_ts_shake256_inc_absorb opt s a ;;
  sk <- l_load mem (CONVERT_PUBLIC_KEY_TO_SEC_SEED pk n) n ;;
  s <- l_ts_shake256_inc_absorb opt s sk ;;
  s <- l_ts_shake256_inc_finalize s ;;
  '(out, s) <- l_ts_shake256_inc_squeeze opt n s ;;
  it <- l_put_shake le (c_small_iter sc) s ;;
  lret (out, set_small_iter it sc).

(** shake256_simple.c:32-42 [ts_shake256_init_t_simple] *)
Definition l_ts_shake256_init_t_simple (it : list Z) (sc : ts_context) : leaky (list Z) :=
  let n := ps_n (c_ps sc) in
  s <- l_get_shake le it ;;
  s <- l_ts_shake256_inc_init s ;;
  seed <- l_load mem (CONVERT_PUBLIC_KEY_TO_PUB_SEED (c_public_key sc) n) n ;;
  s <- l_ts_shake256_inc_absorb opt s seed ;;
  a <- l_rd_range (c_adr sc) 0 (ADR_SIZE cfg) ;;
  s <- l_ts_shake256_inc_absorb opt s a ;;
  l_put_shake le it s.

(** shake256_simple.c:45-50 [ts_shake256_next_t_simple] *)
Definition l_ts_shake256_next_t_simple (it : list Z) (input : list Z) (sc : ts_context)
  : leaky (list Z) :=
  let n := ps_n (c_ps sc) in
  s <- l_get_shake le it ;;
  b <- l_rd_range input 0 n ;;
  s <- l_ts_shake256_inc_absorb opt s b ;;
  l_put_shake le it s.

(** shake256_simple.c:54-62 [ts_shake256_final_t_simple] *)
Definition l_ts_shake256_final_t_simple (it : list Z) (sc : ts_context)
  : leaky (list Z * list Z) :=
  let n := ps_n (c_ps sc) in
  s <- l_get_shake le it ;;
  s <- l_ts_shake256_inc_finalize s ;;
  '(out, s) <- l_ts_shake256_inc_squeeze opt n s ;;
  it <- l_put_shake le it s ;;
  lret (out, it).

(** shake256_simple.c:17-28 [ts_shake256_f_simple] *)
Definition l_ts_shake256_f_simple (inblock : list Z) (sc : ts_context)
  : leaky (list Z * ts_context) :=
  it <- l_ts_shake256_init_t_simple (c_small_iter sc) sc ;;
  it <- l_ts_shake256_next_t_simple it inblock sc ;;
  '(out, it) <- l_ts_shake256_final_t_simple it sc ;;
  lret (out, set_small_iter it sc).

(** ** Calls through the function pointers of [ctx->ps].  The number in a [Jump] says
    through which member (tens) and to which function (units). *)
(** internal.h:31-33; called at tiny_sphincs.c:339 *)
Definition l_call_prf_msg (opt_buffer message : list Z) (sc : ts_context) :=
  match ps_prf_msg (c_ps sc) with
  | shake256_prf_msg => tick (Jump 11) (l_ts_shake256_prf_msg opt_buffer message sc)
  | sha2_L1_prf_msg => tick (Jump 12) (l_ts_sha2_L1_prf_msg opt_buffer message sc)
  | sha2_L35_prf_msg => tick (Jump 13) (l_ts_sha2_L35_prf_msg opt_buffer message sc)
  end.
(** internal.h:34-37; called at tiny_sphincs.c:344, verify.c:133 *)
Definition l_call_hash_msg (len_output : Z) (randomness message : list Z) (sc : ts_context) :=
  match ps_hash_msg (c_ps sc) with
  | shake256_hash_msg => tick (Jump 21) (l_ts_shake256_hash_msg len_output randomness message sc)
  | sha2_L1_hash_msg => tick (Jump 22) (l_ts_sha2_L1_hash_msg len_output randomness message sc)
  | sha2_L35_hash_msg => tick (Jump 23) (l_ts_sha2_L35_hash_msg len_output randomness message sc)
  end.
(** internal.h:38; called at tiny_sphincs.c:163,172,181 *)
Definition l_call_prf (sc : ts_context) :=
  match ps_prf (c_ps sc) with
  | shake256_prf => tick (Jump 31) (l_ts_shake256_prf sc)
  | sha2_prf => tick (Jump 32) (l_ts_sha2_prf sc)
  end.
(** internal.h:39-41; called at tiny_sphincs.c:184,411,429, verify.c:156,187 *)
Definition l_call_f (inblock : list Z) (sc : ts_context) :=
  match ps_f (c_ps sc) with
  | shake256_f_simple => tick (Jump 41) (l_ts_shake256_f_simple inblock sc)
  | sha2_f_simple => tick (Jump 42) (l_ts_sha2_f_simple inblock sc)
  end.
(** internal.h:48; called at tiny_sphincs.c:229,250,363,422, verify.c:64,91,150 *)
Definition l_call_init_t (it : list Z) (sc : ts_context) : leaky (list Z) :=
  match ps_init_t (c_ps sc) with
  | shake256_init_t_simple => tick (Jump 51) (l_ts_shake256_init_t_simple it sc)
  | sha2_L1_init_t_simple => tick (Jump 52) (l_ts_sha2_L1_init_t_simple it sc)
  | sha2_L35_init_t_simple => tick (Jump 53) (l_ts_sha2_L35_init_t_simple it sc)
  end.
(** internal.h:49-50; called at tiny_sphincs.c:230,231,252-256,431,488, verify.c:67-72,166,190 *)
Definition l_call_next_t (it : list Z) (input : list Z) (sc : ts_context) : leaky (list Z) :=
  match ps_next_t (c_ps sc) with
  | shake256_next_t_simple => tick (Jump 61) (l_ts_shake256_next_t_simple it input sc)
  | sha2_L1_next_t_simple => tick (Jump 62) (l_ts_sha2_L1_next_t_simple it input sc)
  | sha2_L35_next_t_simple => tick (Jump 63) (l_ts_sha2_L35_next_t_simple it input sc)
  end.
(** internal.h:51-52; called at tiny_sphincs.c:232,258,433,494, verify.c:76,171,197 *)
Definition l_call_final_t (it : list Z) (sc : ts_context) : leaky (list Z * list Z) :=
  match ps_final_t (c_ps sc) with
  | shake256_final_t_simple => tick (Jump 71) (l_ts_shake256_final_t_simple it sc)
  | sha2_L1_final_t_simple => tick (Jump 72) (l_ts_sha2_L1_final_t_simple it sc)
  | sha2_L35_final_t_simple => tick (Jump 73) (l_ts_sha2_L35_final_t_simple it sc)
  end.
(** [if (ps->compute_prehash) ps->compute_prehash( ctx )] under
    #if TS_SHA2_OPTIMIZATION (tiny_sphincs.c:323-325, verify.c:41-43, key_gen.c:36-38). *)
Definition l_call_compute_prehash (sc : ts_context) : leaky ts_context :=
  if cfg_sha2_opt cfg then
    match ps_compute_prehash (c_ps sc) with
    | None => tick (Branch false) (lret sc)
    | Some sha2_L1_prehash => tick (Branch true) (tick (Jump 81) (l_ts_sha2_L1_prehash sc))
    | Some sha2_L35_prehash => tick (Branch true) (tick (Jump 82) (l_ts_sha2_L35_prehash sc))
    end
  else lret sc.
End Hash.
