(** * Model of tiny_sphincs.c: addresses, tree hashing, signing *)
From Verif Require Import CSem ModelEndian ModelParams ModelCtx ModelHash.

(** internal.h:78-86 [enum hash_reason] *)
Definition ADR_TYPE_WOTS : Z := 0.
(** internal.h:78-86 *)
Definition ADR_TYPE_WOTSPK : Z := 1.
(** internal.h:78-86 *)
Definition ADR_TYPE_HASHTREE : Z := 2.
(** internal.h:78-86 *)
Definition ADR_TYPE_FORSTREE : Z := 3.
(** internal.h:78-86 *)
Definition ADR_TYPE_FORSPK : Z := 4.
(** internal.h:78-86 *)
Definition ADR_TYPE_WOTS_PRF : Z := 5.
(** internal.h:78-86 *)
Definition ADR_TYPE_FORS_PRF : Z := 6.

(** internal.h:96-107 *)
Definition LAYER_OFFSET : Z := 0.
(** internal.h:96-107 *)
Definition LAYER_SHA2_OFFSET : Z := 0.
(** internal.h:96-107 *)
Definition TREE_OFFSET : Z := 4.
(** internal.h:96-107 *)
Definition TREE_SHA2_OFFSET : Z := 1.
(** internal.h:96-107 *)
Definition TYPE_OFFSET : Z := 16.
(** internal.h:96-107 *)
Definition TYPE_SHA2_OFFSET : Z := 9.
(** internal.h:96-107 *)
Definition KEYPAIR_OFFSET : Z := 20.
(** internal.h:96-107 *)
Definition KEYPAIR_SHA2_OFFSET : Z := 10.
(** internal.h:96-107 *)
Definition TREEHEIGHT_OFFSET : Z := 24.
(** internal.h:96-107 *)
Definition TREEHEIGHT_SHA2_OFFSET : Z := 14.
(** internal.h:96-107 *)
Definition TREEINDEX_OFFSET : Z := 28.
(** internal.h:96-107 *)
Definition TREEINDEX_SHA2_OFFSET : Z := 18.

Section Sphincs.
Variable cfg : config.
Variable mem : memory.

(** tiny_sphincs.c:11-18 [extract_int_from_hash]: returns the value and the new
    [*hash_offset]. *)
Definition extract_int_from_hash (hash : list Z) (hash_offset num_bits : Z)
  : outcome (Z * Z) :=
  '(sum, off) <- for_loop (Z.to_nat ((num_bits + 7) / 8)) 0 (fun _ '(sum, off) =>
      let off := u32 (off + 1) in
      b <- rd hash off ;;
      Ok (u64 (256 * sum + b), off)) (0, hash_offset) ;;
  sh <- shift_count 64 (64 - num_bits) ;;
  Ok (Z.land sum (Z.shiftr (u64 (Z.lnot 0)) sh), off).

(** [!TS_SUPPORT_SHAKE || ctx->ps->sha2] *)
(** tiny_sphincs.c:25,34,43,52,61,71 *)
Definition use_sha2_adr (ctx : ts_context) : bool :=
  negb (cfg_shake cfg) || ps_sha2 (c_ps ctx).

(** Store bytes into ctx->adr. *)
(** the stores into ctx->adr, tiny_sphincs.c:26-74 *)
Definition wr_adr (off : Z) (v : list Z) (ctx : ts_context) : outcome ts_context :=
  a <- wr_range (c_adr ctx) off v ;; Ok (set_adr a ctx).

(** tiny_sphincs.c:24-30 *)
Definition set_layer_adr (layer : Z) (ctx : ts_context) : outcome ts_context :=
  if use_sha2_adr ctx then wr_adr LAYER_SHA2_OFFSET [u8 layer] ctx
  else wr_adr LAYER_OFFSET (ts_ull_to_bytes (u32 layer) 4) ctx.
(** tiny_sphincs.c:32-39 *)
Definition set_tree_adr (tree : Z) (ctx : ts_context) : outcome ts_context :=
  if use_sha2_adr ctx then wr_adr TREE_SHA2_OFFSET (ts_ull_to_bytes tree 8) ctx
  else wr_adr TREE_OFFSET (ts_ull_to_bytes tree 12) ctx.
(** tiny_sphincs.c:41-48 *)
Definition set_type_adr (type : Z) (ctx : ts_context) : outcome ts_context :=
  if use_sha2_adr ctx then wr_adr TYPE_SHA2_OFFSET [u8 type] ctx
  else wr_adr TYPE_OFFSET (ts_ull_to_bytes (u32 type) 4) ctx.
(** tiny_sphincs.c:50-57 *)
Definition set_keypair_adr (keypair : Z) (ctx : ts_context) : outcome ts_context :=
  if use_sha2_adr ctx then wr_adr KEYPAIR_SHA2_OFFSET (ts_ull_to_bytes (u32 keypair) 4) ctx
  else wr_adr KEYPAIR_OFFSET (ts_ull_to_bytes (u32 keypair) 4) ctx.
(** tiny_sphincs.c:59-66 *)
Definition set_tree_height_adr (tree_height : Z) (ctx : ts_context) : outcome ts_context :=
  if use_sha2_adr ctx
  then wr_adr TREEHEIGHT_SHA2_OFFSET (ts_ull_to_bytes (u32 tree_height) 4) ctx
  else wr_adr TREEHEIGHT_OFFSET (ts_ull_to_bytes (u32 tree_height) 4) ctx.
(** tiny_sphincs.c:59-66 *)
Definition set_chain_adr := set_tree_height_adr.
(** tiny_sphincs.c:69-76 *)
Definition set_tree_index_adr (tree_index : Z) (ctx : ts_context) : outcome ts_context :=
  if use_sha2_adr ctx
  then wr_adr TREEINDEX_SHA2_OFFSET (ts_ull_to_bytes (u32 tree_index) 4) ctx
  else wr_adr TREEINDEX_OFFSET (ts_ull_to_bytes (u32 tree_index) 4) ctx.
(** tiny_sphincs.c:69-76 *)
Definition set_hash_adr := set_tree_index_adr.

(** [(ctx->fors_tree << ctx->ps->t) + leaf_index], int arithmetic *)
(** tiny_sphincs.c:92,103,135 *)
Definition fors_index (ctx : ts_context) (leaf_index : Z) : outcome Z :=
  sh <- shift_count 32 (ps_t (c_ps ctx)) ;;
  a <- int_val (Z.shiftl (c_fors_tree ctx) sh) ;;
  int_val (a + leaf_index).

(** tiny_sphincs.c:84-93 *)
Definition set_fors_prf_adr (leaf_index : Z) (ctx : ts_context) : outcome ts_context :=
  ctx <- set_layer_adr 0 ctx ;;
  ctx <- set_tree_adr (c_tree_address ctx) ctx ;;
  ctx <- set_type_adr ADR_TYPE_FORS_PRF ctx ;;
  ctx <- set_keypair_adr (c_fors_keypair_addr ctx) ctx ;;
  ctx <- set_tree_height_adr 0 ctx ;;
  i <- fors_index ctx leaf_index ;;
  set_tree_index_adr i ctx.

(** tiny_sphincs.c:95-104 *)
Definition ts_set_fors_leaf_adr (leaf_index : Z) (ctx : ts_context) : outcome ts_context :=
  ctx <- set_layer_adr 0 ctx ;;
  ctx <- set_tree_adr (c_tree_address ctx) ctx ;;
  ctx <- set_type_adr ADR_TYPE_FORSTREE ctx ;;
  ctx <- set_keypair_adr (c_fors_keypair_addr ctx) ctx ;;
  ctx <- set_tree_height_adr 0 ctx ;;
  i <- fors_index ctx leaf_index ;;
  set_tree_index_adr i ctx.

(** tiny_sphincs.c:107-115 *)
Definition set_wots_prf_adr (tree_index leaf_index : Z) (ctx : ts_context)
  : outcome ts_context :=
  ctx <- set_layer_adr (c_hypertree_level ctx) ctx ;;
  ctx <- set_tree_adr (c_tree_address ctx) ctx ;;
  ctx <- set_type_adr ADR_TYPE_WOTS_PRF ctx ;;
  ctx <- set_keypair_adr tree_index ctx ;;
  ctx <- set_chain_adr leaf_index ctx ;;
  set_hash_adr 0 ctx.

(** tiny_sphincs.c:117-125 *)
Definition ts_set_wots_f_adr (tree_index leaf_index hash_address : Z) (ctx : ts_context)
  : outcome ts_context :=
  ctx <- set_layer_adr (c_hypertree_level ctx) ctx ;;
  ctx <- set_tree_adr (c_tree_address ctx) ctx ;;
  ctx <- set_type_adr ADR_TYPE_WOTS ctx ;;
  ctx <- set_keypair_adr tree_index ctx ;;
  ctx <- set_chain_adr leaf_index ctx ;;
  set_hash_adr hash_address ctx.

(** tiny_sphincs.c:127-136 *)
Definition ts_set_merkle_adr (node level typecode : Z) (ctx : ts_context)
  : outcome ts_context :=
  ctx <- set_layer_adr (c_hypertree_level ctx) ctx ;;
  ctx <- set_tree_adr (c_tree_address ctx) ctx ;;
  ctx <- set_type_adr typecode ctx ;;
  ctx <- set_keypair_adr (c_fors_keypair_addr ctx) ctx ;;
  ctx <- set_tree_height_adr (u32 (level + 1)) ctx ;;
  sh <- shift_count 32 (ps_t (c_ps ctx)) ;;
  a <- int_val (Z.shiftl (c_fors_tree ctx) sh) ;;
  sh <- shift_count 32 (u32 (level + 1)) ;;
  set_tree_index_adr (Z.shiftr (u32 (a + node)) sh) ctx.

(** tiny_sphincs.c:138-145 *)
Definition ts_set_fors_root_adr (ctx : ts_context) : outcome ts_context :=
  ctx <- set_layer_adr 0 ctx ;;
  ctx <- set_tree_adr (c_tree_address ctx) ctx ;;
  ctx <- set_type_adr ADR_TYPE_FORSPK ctx ;;
  ctx <- set_keypair_adr (c_fors_keypair_addr ctx) ctx ;;
  ctx <- set_tree_height_adr 0 ctx ;;
  set_tree_index_adr 0 ctx.

(** tiny_sphincs.c:147-155 *)
Definition ts_set_wots_header_adr (merkle_leaf : Z) (ctx : ts_context)
  : outcome ts_context :=
  ctx <- set_layer_adr (c_hypertree_level ctx) ctx ;;
  ctx <- set_tree_adr (c_tree_address ctx) ctx ;;
  ctx <- set_type_adr ADR_TYPE_WOTSPK ctx ;;
  ctx <- set_keypair_adr merkle_leaf ctx ;;
  ctx <- set_tree_height_adr 0 ctx ;;
  set_tree_index_adr 0 ctx.

(** [(ctx->ps->prf)( output, ctx )] with output a buffer of the context *)
(** tiny_sphincs.c:163,172,181 *)
Definition do_prf (output : bufid) (ctx : ts_context) : outcome ts_context :=
  '(out, ctx) <- call_prf cfg mem ctx ;;
  put_buf cfg ctx output out.

(** [(ctx->ps->f)( output, output, ctx )] *)
(** tiny_sphincs.c:184,411,429, verify.c:156,187 *)
Definition do_f (output inblock : bufid) (ctx : ts_context) : outcome ts_context :=
  i <- get_buf cfg ctx inblock (ps_n (c_ps ctx)) ;;
  '(out, ctx) <- call_f cfg mem i ctx ;;
  put_buf cfg ctx output out.

(** init_t / next_t / final_t on [&ctx->small_iter] *)
(** tiny_sphincs.c:229,250, verify.c:64 *)
Definition small_init_t (ctx : ts_context) : outcome ts_context :=
  it <- call_init_t cfg mem (c_small_iter ctx) ctx ;; Ok (set_small_iter it ctx).
(** tiny_sphincs.c:230,231,252-256, verify.c:67-72 *)
Definition small_next_t (input : list Z) (ctx : ts_context) : outcome ts_context :=
  it <- call_next_t cfg (c_small_iter ctx) input ctx ;; Ok (set_small_iter it ctx).
(** tiny_sphincs.c:232,258, verify.c:76 *)
Definition small_final_t (output : bufid) (ctx : ts_context) : outcome ts_context :=
  '(out, it) <- call_final_t cfg (c_small_iter ctx) ctx ;;
  put_buf cfg (set_small_iter it ctx) output out.

(** and on [&ctx->big_iter] *)
(** tiny_sphincs.c:363,422, verify.c:91,150 *)
Definition big_init_t (ctx : ts_context) : outcome ts_context :=
  it <- call_init_t cfg mem (c_big_iter ctx) ctx ;; Ok (set_big_iter it ctx).
(** tiny_sphincs.c:431,488, verify.c:166,190 *)
Definition big_next_t (input : list Z) (ctx : ts_context) : outcome ts_context :=
  it <- call_next_t cfg (c_big_iter ctx) input ctx ;; Ok (set_big_iter it ctx).
(** tiny_sphincs.c:433,494, verify.c:171,197 *)
Definition big_final_t (output : bufid) (ctx : ts_context) : outcome ts_context :=
  '(out, it) <- call_final_t cfg (c_big_iter ctx) ctx ;;
  put_buf cfg (set_big_iter it ctx) output out.

(** tiny_sphincs.c:160-164 *)
Definition fors_prf (output : bufid) (leaf_index : Z) (ctx : ts_context)
  : outcome ts_context :=
  ctx <- set_fors_prf_adr leaf_index ctx ;;
  do_prf output ctx.

(** tiny_sphincs.c:169-173 *)
Definition wots_prf (output : bufid) (tree_index digit_index : Z) (ctx : ts_context)
  : outcome ts_context :=
  ctx <- set_wots_prf_adr tree_index digit_index ctx ;;
  do_prf output ctx.

(** tiny_sphincs.c:178-185 *)
Definition fors_leaf (output : bufid) (leaf_index : Z) (ctx : ts_context)
  : outcome ts_context :=
  ctx <- set_fors_prf_adr leaf_index ctx ;;
  ctx <- do_prf output ctx ;;
  ctx <- set_type_adr ADR_TYPE_FORSTREE ctx ;;
  do_f output output ctx.

(** [memcpy( buffer, stack + off, n )] and back, for the stack of x.fors or x.merkle
    (given by its offset and size in x). *)
(** tiny_sphincs.c:230,238; the arrays are tiny_sphincs.h:152-155,160-163 *)
Definition rd_stack (stk : Z * Z) (off n : Z) (ctx : ts_context) : outcome (list Z) :=
  sub_rd (c_x ctx) (fst stk) (snd stk) off n.
(** tiny_sphincs.c:230,238; the arrays are tiny_sphincs.h:152-155,160-163 *)
Definition wr_stack (stk : Z * Z) (off : Z) (v : list Z) (ctx : ts_context)
  : outcome ts_context :=
  x <- sub_wr (c_x ctx) (fst stk) (snd stk) off v ;; Ok (set_x x ctx).
(** tiny_sphincs.h:152-155 *)
Definition fors_stack : Z * Z := (FORS_STACK_OFFSET, FORS_STACK_SIZE cfg).
(** tiny_sphincs.h:160-163 *)
Definition merkle_stack : Z * Z := (MERKLE_STACK_OFFSET cfg, MERKLE_STACK_SIZE cfg).

(** tiny_sphincs.c:227-234: combine the new node with the stacked ones,
    [for (nod = i; nod & 1; nod >>= 1, k++)].  Returns k. *)
Fixpoint combine_loop (fuel : nat) (stk : Z * Z) (typecode leaf nod k : Z)
    (ctx : ts_context) : outcome (Z * ts_context) :=
  match fuel with
  | O => UB NonTermination
  | S fuel' =>
    if Z.land nod 1 =? 0 then Ok (k, ctx) else
    let n := ps_n (c_ps ctx) in
    ctx <- ts_set_merkle_adr leaf k typecode ctx ;;
    ctx <- small_init_t ctx ;;
    l <- rd_stack stk (u32 (k * n)) n ctx ;;
    ctx <- small_next_t l ctx ;;
    ctx <- small_next_t (c_buffer ctx) ctx ;;
    ctx <- small_final_t BufBuffer ctx ;;
    combine_loop fuel' stk typecode leaf (Z.shiftr nod 1) (k + 1) ctx
  end.

(** tiny_sphincs.c:204-260 [ts_merkle_path] *)
Definition ts_merkle_path (gen_leaf : bufid -> Z -> ts_context -> outcome ts_context)
    (typecode : Z) (stk : Z * Z) (ctx : ts_context) : outcome ts_context :=
  let n := ps_n (c_ps ctx) in
  let h := c_merkle_level ctx in
  let ctx := set_merkle_level (u8 (c_merkle_level ctx + 1)) ctx in
  sh <- shift_count 31 h ;;              (* 1 << h in int *)
  let size_h := Z.shiftl 1 sh in
  let node := Z.lxor (c_auth_path_node ctx) size_h in
  let node := Z.land node (u32 (Z.lnot (size_h - 1))) in
  ctx <- for_loop (Z.to_nat size_h) 0 (fun i ctx =>
    ctx <- gen_leaf BufBuffer (u32 (node + i)) ctx ;;
    '(k, ctx) <- combine_loop 33 stk typecode (u32 (node + i)) i 0 ctx ;;
    if k <? h then
      b <- rd_range (c_buffer ctx) 0 n ;;
      wr_stack stk (u32 (k * n)) b ctx
    else Ok ctx) ctx ;;
  let ctx := set_buffer_offset 0 ctx in
  ctx <- ts_set_merkle_adr node h typecode ctx ;;
  ctx <- small_init_t ctx ;;
  ctx <- (if negb (Z.land (c_auth_path_node ctx) size_h =? 0) then
            ctx <- small_next_t (c_buffer ctx) ctx ;;
            small_next_t (c_auth_path_buffer ctx) ctx
          else
            ctx <- small_next_t (c_auth_path_buffer ctx) ctx ;;
            small_next_t (c_buffer ctx) ctx) ;;
  small_final_t BufAuth ctx.

(** tiny_sphincs.c:275-291: one bit of a FORS index; the state is
    (message_hash, hash_offset, bit_so_far, this_index). *)
Definition convert_bit (st : list Z * Z * Z * Z) : outcome (list Z * Z * Z * Z) :=
  let '(mh, hash_offset, bit_so_far, this_index) := st in
  let '(hash_offset, bit_so_far) :=
    if bit_so_far =? 8 then (u32 (hash_offset + 1), 0) else (hash_offset, bit_so_far) in
  bit <- rd mh hash_offset ;;
  mh <- wr mh hash_offset (u8 (Z.shiftl bit 1)) ;;
  let bit := Z.shiftr bit 7 in
  Ok (mh, hash_offset, bit_so_far + 1, u32 (2 * this_index + Z.land bit 1)).

(** tiny_sphincs.c:266-305 [ts_convert_message_hash_to_hypertree_position]: returns
    the context and the (modified) message hash. *)
Definition ts_convert_message_hash_to_hypertree_position (message_hash : list Z)
    (ctx : ts_context) : outcome (list Z * ts_context) :=
  let ps := c_ps ctx in
  '(mh, hash_offset, bit_so_far, ctx) <-
    for_loop (Z.to_nat (ps_k ps)) 0 (fun k '(mh, hash_offset, bit_so_far, ctx) =>
      '(mh, hash_offset, bit_so_far, this_index) <-
        for_loop (Z.to_nat (ps_t ps)) 0 (fun _ st => convert_bit st)
                 (mh, hash_offset, bit_so_far, 0) ;;
      x <- set_fors_node cfg (c_x ctx) k this_index ;;
      Ok (mh, hash_offset, bit_so_far, set_x x ctx)) (message_hash, 0, 0, ctx) ;;
  '(v, hash_offset) <- extract_int_from_hash mh hash_offset (ps_h ps - ps_merkle_h ps) ;;
  let ctx := set_tree_address v ctx in
  '(v, hash_offset) <- extract_int_from_hash mh hash_offset (ps_merkle_h ps) ;;
  Ok (mh, set_fors_keypair_addr (u16 v) ctx).

(** The [random_function] parameter: NULL, or a function that is given a length and
    returns its result code and the bytes it stores at the start of the buffer. *)
(** the parameter of tiny_sphincs.c:317 and key_gen.c:12 *)
Definition random_function := option (Z -> Z * list Z).

(** What is behind such a pointer: a generator with a state of its own. *)
(** behind the parameter of tiny_sphincs.c:317 and key_gen.c:12 *)
Definition random_generator (R : Type) := option (R -> Z -> Z * list Z * R).

(** tiny_sphincs.c:313-364 [ts_init_sign].  [message] and [private_key] are addresses
    in [mem].  The functions called with the local arrays opt_buffer and
    message_hash read the first n bytes of the one and all of the other.  [r] is the
    state of the generator, returned as it is afterwards. *)
Definition ts_init_sign_gen {R : Type} (ctx : ts_context) (message len_message : Z)
    (ps : parameter_set) (private_key : Z) (rng : random_generator R) (r : R)
  : outcome (ts_context * R) :=
  let n := ps_n ps in
  let ctx := set_ps ps ctx in
  let ctx := set_public_key (CONVERT_PRIVATE_KEY_TO_PUBLIC private_key n) ctx in
  ctx <- call_compute_prehash cfg mem ctx ;;
  (* Step 1: generate the randomness *)
  let opt_buffer := uninit (TS_MAX_HASH cfg) in
  '(ok, opt_buffer, r) <-
     match rng with
     | None => Ok (false, opt_buffer, r)
     | Some f =>
       let '(ret, data, r) := f r n in
       b <- wr_local opt_buffer 0 data ;;
       Ok (negb (ret =? 0), b, r)
     end ;;
  opt_buffer <-
     (if ok : bool then Ok opt_buffer
      else
        seed <- load mem (CONVERT_PUBLIC_KEY_TO_PUB_SEED (c_public_key ctx) n) n ;;
        wr_local opt_buffer 0 seed) ;;
  msg <- load mem message len_message ;;
  optrand <- rd_local opt_buffer 0 n ;;
  '(rand, ctx) <- call_prf_msg cfg mem optrand msg ctx ;;
  ctx <- put_buf cfg ctx BufBuffer rand ;;
  (* Step 2: hash the message *)
  let message_hash := uninit MAX_MESSAGE_HASH in
  '(mh, ctx) <- call_hash_msg cfg mem MAX_MESSAGE_HASH (c_buffer ctx) msg ctx ;;
  message_hash <- wr_local message_hash 0 mh ;;
  message_hash <- defined message_hash ;;
  (* Step 3: convert the hash into fors_tree leaves and hypertree position *)
  '(_, ctx) <- ts_convert_message_hash_to_hypertree_position message_hash ctx ;;
  let ctx := set_buffer_offset 0 ctx in
  let ctx := set_state ts_fors_leaf ctx in
  let ctx := set_fors_tree 0 ctx in
  let ctx := set_merkle_level 0 ctx in
  let ctx := set_hypertree_level 0 ctx in
  ctx <- ts_set_fors_root_adr ctx ;;
  ctx <- big_init_t ctx ;;
  Ok (ctx, r).

(** The same with the generator in a fixed state (what follows does not depend on what
    it would do if asked again): a [random_function]. *)
(** tiny_sphincs.c:313-364 *)
Definition ts_init_sign (ctx : ts_context) (message len_message : Z)
    (ps : parameter_set) (private_key : Z) (rng : random_function)
  : outcome ts_context :=
  '(ctx, _) <- ts_init_sign_gen ctx message len_message ps private_key
     (option_map (fun f (_ : unit) len => (f len, tt)) rng) tt ;;
  Ok ctx.

(** tiny_sphincs.c:369-383 [compute_wots_digits]: [digits] is x.wots.digits, [hash]
    the array pointed to. *)
Definition compute_wots_digits (x : list Z) (hash : list Z) (n : Z) : outcome (list Z) :=
  sum0 <- int_val (2 * 15 * n) ;;
  '(x, sum) <- for_loop (Z.to_nat n) 0 (fun i '(x, sum) =>
      byte <- rd hash i ;;
      let d := Z.shiftr byte 4 in
      x <- set_digits cfg x (2 * i) d ;;
      let sum := u32 (sum - d) in
      let d := Z.land byte 15 in
      x <- set_digits cfg x (2 * i + 1) d ;;
      Ok (x, u32 (sum - d))) (x, u32 sum0) ;;
  x <- set_digits cfg x (2 * n) (Z.land (Z.shiftr sum 8) 15) ;;
  x <- set_digits cfg x (2 * n + 1) (Z.land (Z.shiftr sum 4) 15) ;;
  set_digits cfg x (2 * n + 2) (Z.land sum 15).

(** tiny_sphincs.c:391-400 [ts_set_up_wots_signature] *)
Definition ts_set_up_wots_signature (next_leaf : Z) (ctx : ts_context)
  : outcome ts_context :=
  let ctx := set_state ts_wots ctx in
  x <- set_digit (c_x ctx) 0 ;;
  x <- compute_wots_digits x (c_auth_path_buffer ctx) (ps_n (c_ps ctx)) ;;
  let ctx := set_x x ctx in
  let ctx := set_auth_path_node (u16 next_leaf) ctx in
  Ok (set_fors_keypair_addr 0 ctx).

(** [for (int i = from; i < to; i++) { ts_set_wots_f_adr; f }] on a buffer
    (tiny_sphincs.c:409-412 and 427-430, verify.c:185-188). *)
Definition chain_loop (buf : bufid) (tree_index digit from to : Z) (ctx : ts_context)
  : outcome ts_context :=
  for_loop (Z.to_nat (to - from)) from (fun i ctx =>
    ctx <- ts_set_wots_f_adr tree_index digit i ctx ;;
    do_f buf buf ctx) ctx.

(** tiny_sphincs.c:405-414 [generate_next_wots_hash].  The loop bound
    x.wots.digits[digit] is read once: the loop body does not write x. *)
Definition generate_next_wots_hash (ctx : ts_context) : outcome ts_context :=
  digit <- get_digit (c_x ctx) ;;
  x <- set_digit (c_x ctx) (digit + 1) ;;
  let ctx := set_x x ctx in
  ctx <- wots_prf BufBuffer (c_auth_path_node ctx) digit ctx ;;
  limit <- get_digits cfg (c_x ctx) digit ;;
  ctx <- chain_loop BufBuffer (c_auth_path_node ctx) digit 0 limit ctx ;;
  Ok (set_buffer_offset 0 ctx).

(** tiny_sphincs.c:419-434 [ts_wots_leaf] *)
Definition ts_wots_leaf (output : bufid) (leaf_index : Z) (ctx : ts_context)
  : outcome ts_context :=
  ctx <- ts_set_wots_header_adr leaf_index ctx ;;
  ctx <- big_init_t ctx ;;
  ctx <- for_loop (Z.to_nat (2 * ps_n (c_ps ctx) + 3)) 0 (fun d ctx =>
    ctx <- wots_prf BufMerkle leaf_index d ctx ;;
    ctx <- chain_loop BufMerkle leaf_index d 0 15 ctx ;;
    b <- get_buf cfg ctx BufMerkle (ps_n (c_ps ctx)) ;;
    big_next_t b ctx) ctx ;;
  big_final_t output ctx.

(** tiny_sphincs.c:467-537: the switch of [ts_sign]; [None] means no more bytes. *)
Definition sign_switch (ctx : ts_context) : outcome (option ts_context) :=
  if c_state ctx =? ts_fors_leaf then
    node <- get_fors_node cfg (c_x ctx) (c_fors_tree ctx) ;;
    let ctx := set_auth_path_node (u16 node) ctx in
    ctx <- fors_prf BufBuffer node ctx ;;
    let ctx := set_buffer_offset 0 ctx in
    let ctx := set_merkle_level 0 ctx in
    let ctx := set_state ts_fors ctx in
    ctx <- fors_leaf BufAuth node ctx ;;
    Ok (Some ctx)
  else if c_state ctx =? ts_fors then
    ctx <- ts_merkle_path fors_leaf ADR_TYPE_FORSTREE fors_stack ctx ;;
    if c_merkle_level ctx =? ps_t (c_ps ctx) then
      ctx <- big_next_t (c_auth_path_buffer ctx) ctx ;;
      let ctx := set_state ts_fors_leaf ctx in
      let ctx := set_fors_tree (u8 (c_fors_tree ctx + 1)) ctx in
      if c_fors_tree ctx =? ps_k (c_ps ctx) then
        ctx <- big_final_t BufAuth ctx ;;
        let ctx := set_fors_tree 0 ctx in
        ctx <- ts_set_up_wots_signature (c_fors_keypair_addr ctx) ctx ;;
        Ok (Some ctx)
      else Ok (Some ctx)
    else Ok (Some ctx)
  else if c_state ctx =? ts_wots then
    ctx <- generate_next_wots_hash ctx ;;
    d <- get_digit (c_x ctx) ;;
    if d =? 2 * ps_n (c_ps ctx) + 3 then
      let ctx := set_state ts_merkle ctx in
      let ctx := set_merkle_level 0 ctx in
      ctx <- ts_wots_leaf BufAuth (c_auth_path_node ctx) ctx ;;
      Ok (Some ctx)
    else Ok (Some ctx)
  else if c_state ctx =? ts_merkle then
    ctx <- ts_merkle_path ts_wots_leaf ADR_TYPE_HASHTREE merkle_stack ctx ;;
    if c_merkle_level ctx =? ps_merkle_h (c_ps ctx) then
      let ctx := set_hypertree_level (u8 (c_hypertree_level ctx + 1)) ctx in
      if c_hypertree_level ctx =? ps_d (c_ps ctx) then
        Ok (Some (set_state ts_done ctx))
      else
        sh <- shift_count 31 (ps_merkle_h (c_ps ctx)) ;;
        let ctx := set_auth_path_node
                     (u16 (Z.land (c_tree_address ctx) (Z.shiftl 1 sh - 1))) ctx in
        let ctx := set_tree_address (Z.shiftr (c_tree_address ctx) sh) ctx in
        ctx <- ts_set_up_wots_signature (c_auth_path_node ctx) ctx ;;
        Ok (Some ctx)
    else Ok (Some ctx)
  else Ok None.

(** tiny_sphincs.c:452-539: the loop of [ts_sign]: [dest] is the destination array,
    [pos] the current position, [m] the bytes still wanted. *)
Fixpoint sign_loop (fuel : nat) (dest : list Z) (pos m : Z) (ctx : ts_context)
  : outcome (Z * list Z * ts_context) :=
  match fuel with
  | O => UB NonTermination
  | S fuel' =>
    if m =? 0 then Ok (m, dest, ctx) else
    let n := ps_n (c_ps ctx) in
    let remain := u32 (n - c_buffer_offset ctx) in
    if 0 <? remain then
      let remain := if m <? remain then m else remain in
      src <- rd_range (c_buffer ctx) (c_buffer_offset ctx) remain ;;
      dest <- wr_range dest pos src ;;
      let ctx := set_buffer_offset (u8 (c_buffer_offset ctx + remain)) ctx in
      sign_loop fuel' dest (pos + remain) (m - remain) ctx
    else
      o <- sign_switch ctx ;;
      match o with
      | Some ctx => sign_loop fuel' dest pos m ctx
      | None => Ok (m, dest, ctx)
      end
  end.

(** tiny_sphincs.c:441-542 [ts_sign]: result, destination array, context. *)
Definition ts_sign (dest : list Z) (m : Z) (ctx : ts_context)
  : outcome (Z * list Z * ts_context) :=
  if (c_state ctx <=? ts_sign_state) || (ts_verify_state <=? c_state ctx) then
    Ok (0, dest, ctx)
  else
    '(m', dest, ctx) <- sign_loop (2 * Z.to_nat m + 2) dest 0 m ctx ;;
    Ok (u32 (m - m'), dest, ctx).
End Sphincs.
