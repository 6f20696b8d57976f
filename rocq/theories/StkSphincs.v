(** * tiny_sphincs.c and key_gen.c of the model, with the storage each call takes

    ModelSphincs and ModelKeygen once more with the operations of CStack (see StkSha2).
    The function that the caller passes for randomness is the caller's: what it needs is
    not counted. *)
From Verif Require Import CSem CStack ModelParams ModelCtx ModelHash ModelSphincs ModelKeygen StkSha2 StkHash.
Open Scope stack_scope.

Section Sphincs.
Variable cfg : config.
Variable mem : memory.
Local Notation P := (SIZEOF_PTR cfg).

(** tiny_sphincs.c:11-18 [extract_int_from_hash]: returns the value and the new
    [*hash_offset]. *)
Definition k_extract_int_from_hash (hash : list Z) (hash_offset num_bits : Z)
  : stacked (Z * Z) :=
  call (P + P + 4 + (8 + 4))   (* hash, hash_offset, num_bits; sum, i *)
  ('(sum, off) <- k_for (Z.to_nat ((num_bits + 7) / 8)) 0 (fun _ '(sum, off) =>
      let off := u32 (off + 1) in
      b <- k_rd hash off ;;
      kret (u64 (256 * sum + b), off)) (0, hash_offset) ;;
  sh <- k_shift_count 64 (64 - num_bits) ;;
  kret (Z.land sum (Z.shiftr (u64 (Z.lnot 0)) sh), off)).

(** Store bytes into ctx->adr. *)
(** the stores into ctx->adr, tiny_sphincs.c:26-74 *)
Definition k_wr_adr (off : Z) (v : list Z) (ctx : ts_context) : stacked ts_context :=
  a <- k_wr_range (c_adr ctx) off v ;; kret (set_adr a ctx).

(** tiny_sphincs.c:24-30 *)
Definition k_set_layer_adr (layer : Z) (ctx : ts_context) : stacked ts_context :=
  call (4 + P)   (* layer, ctx *)
  (If use_sha2_adr cfg ctx Then k_wr_adr LAYER_SHA2_OFFSET [u8 layer] ctx
  Else v <- k_ts_ull_to_bytes P (u32 layer) 4 ;; k_wr_adr LAYER_OFFSET v ctx).
(** tiny_sphincs.c:32-39 *)
Definition k_set_tree_adr (tree : Z) (ctx : ts_context) : stacked ts_context :=
  call (8 + P)   (* tree, ctx *)
  (If use_sha2_adr cfg ctx Then v <- k_ts_ull_to_bytes P tree 8 ;; k_wr_adr TREE_SHA2_OFFSET v ctx
  Else v <- k_ts_ull_to_bytes P tree 12 ;; k_wr_adr TREE_OFFSET v ctx).
(** tiny_sphincs.c:41-48 *)
Definition k_set_type_adr (type : Z) (ctx : ts_context) : stacked ts_context :=
  call (4 + P)   (* type, ctx *)
  (If use_sha2_adr cfg ctx Then k_wr_adr TYPE_SHA2_OFFSET [u8 type] ctx
  Else v <- k_ts_ull_to_bytes P (u32 type) 4 ;; k_wr_adr TYPE_OFFSET v ctx).
(** tiny_sphincs.c:50-57 *)
Definition k_set_keypair_adr (keypair : Z) (ctx : ts_context) : stacked ts_context :=
  call (4 + P)   (* keypair, ctx *)
  (If use_sha2_adr cfg ctx Then v <- k_ts_ull_to_bytes P (u32 keypair) 4 ;; k_wr_adr KEYPAIR_SHA2_OFFSET v ctx
  Else v <- k_ts_ull_to_bytes P (u32 keypair) 4 ;; k_wr_adr KEYPAIR_OFFSET v ctx).
(** tiny_sphincs.c:59-66 *)
Definition k_set_tree_height_adr (tree_height : Z) (ctx : ts_context) : stacked ts_context :=
  call (4 + P)   (* tree_height, ctx *)
  (If use_sha2_adr cfg ctx Then v <- k_ts_ull_to_bytes P (u32 tree_height) 4 ;; k_wr_adr TREEHEIGHT_SHA2_OFFSET v ctx
  Else v <- k_ts_ull_to_bytes P (u32 tree_height) 4 ;; k_wr_adr TREEHEIGHT_OFFSET v ctx).
(** tiny_sphincs.c:59-66 *)
Definition k_set_chain_adr := k_set_tree_height_adr.
(** tiny_sphincs.c:69-76 *)
Definition k_set_tree_index_adr (tree_index : Z) (ctx : ts_context) : stacked ts_context :=
  call (4 + P)   (* tree_index, ctx *)
  (If use_sha2_adr cfg ctx Then v <- k_ts_ull_to_bytes P (u32 tree_index) 4 ;; k_wr_adr TREEINDEX_SHA2_OFFSET v ctx
  Else v <- k_ts_ull_to_bytes P (u32 tree_index) 4 ;; k_wr_adr TREEINDEX_OFFSET v ctx).
(** tiny_sphincs.c:69-76 *)
Definition k_set_hash_adr := k_set_tree_index_adr.

(** [(ctx->fors_tree << ctx->ps->t) + leaf_index], int arithmetic *)
(** tiny_sphincs.c:92,103,135 *)
Definition k_fors_index (ctx : ts_context) (leaf_index : Z) : stacked Z :=
  sh <- k_shift_count 32 (ps_t (c_ps ctx)) ;;
  a <- k_int_val (Z.shiftl (c_fors_tree ctx) sh) ;;
  k_int_val (a + leaf_index).

(** tiny_sphincs.c:84-93 *)
Definition k_set_fors_prf_adr (leaf_index : Z) (ctx : ts_context) : stacked ts_context :=
  call (P + 4)   (* ctx, leaf_index *)
  (ctx <- k_set_layer_adr 0 ctx ;;
  ctx <- k_set_tree_adr (c_tree_address ctx) ctx ;;
  ctx <- k_set_type_adr ADR_TYPE_FORS_PRF ctx ;;
  ctx <- k_set_keypair_adr (c_fors_keypair_addr ctx) ctx ;;
  ctx <- k_set_tree_height_adr 0 ctx ;;
  i <- k_fors_index ctx leaf_index ;;
  k_set_tree_index_adr i ctx).

(** tiny_sphincs.c:95-104 *)
Definition k_ts_set_fors_leaf_adr (leaf_index : Z) (ctx : ts_context) : stacked ts_context :=
  call (P + 4)   (* ctx, leaf_index *)
  (ctx <- k_set_layer_adr 0 ctx ;;
  ctx <- k_set_tree_adr (c_tree_address ctx) ctx ;;
  ctx <- k_set_type_adr ADR_TYPE_FORSTREE ctx ;;
  ctx <- k_set_keypair_adr (c_fors_keypair_addr ctx) ctx ;;
  ctx <- k_set_tree_height_adr 0 ctx ;;
  i <- k_fors_index ctx leaf_index ;;
  k_set_tree_index_adr i ctx).

(** tiny_sphincs.c:107-115 *)
Definition k_set_wots_prf_adr (tree_index leaf_index : Z) (ctx : ts_context)
  : stacked ts_context :=
  call (P + 4 + 4)   (* ctx, tree_index, leaf_index *)
  (ctx <- k_set_layer_adr (c_hypertree_level ctx) ctx ;;
  ctx <- k_set_tree_adr (c_tree_address ctx) ctx ;;
  ctx <- k_set_type_adr ADR_TYPE_WOTS_PRF ctx ;;
  ctx <- k_set_keypair_adr tree_index ctx ;;
  ctx <- k_set_chain_adr leaf_index ctx ;;
  k_set_hash_adr 0 ctx).

(** tiny_sphincs.c:117-125 *)
Definition k_ts_set_wots_f_adr (tree_index leaf_index hash_address : Z) (ctx : ts_context)
  : stacked ts_context :=
  call (P + 4 + 4 + 4)   (* ctx, tree_index, leaf_index, hash_address *)
  (ctx <- k_set_layer_adr (c_hypertree_level ctx) ctx ;;
  ctx <- k_set_tree_adr (c_tree_address ctx) ctx ;;
  ctx <- k_set_type_adr ADR_TYPE_WOTS ctx ;;
  ctx <- k_set_keypair_adr tree_index ctx ;;
  ctx <- k_set_chain_adr leaf_index ctx ;;
  k_set_hash_adr hash_address ctx).

(** tiny_sphincs.c:127-136 *)
Definition k_ts_set_merkle_adr (node level typecode : Z) (ctx : ts_context)
  : stacked ts_context :=
  call (P + 4 + 4 + 4)   (* ctx, node, level, typecode *)
  (ctx <- k_set_layer_adr (c_hypertree_level ctx) ctx ;;
  ctx <- k_set_tree_adr (c_tree_address ctx) ctx ;;
  ctx <- k_set_type_adr typecode ctx ;;
  ctx <- k_set_keypair_adr (c_fors_keypair_addr ctx) ctx ;;
  ctx <- k_set_tree_height_adr (u32 (level + 1)) ctx ;;
  sh <- k_shift_count 32 (ps_t (c_ps ctx)) ;;
  a <- k_int_val (Z.shiftl (c_fors_tree ctx) sh) ;;
  sh <- k_shift_count 32 (u32 (level + 1)) ;;
  k_set_tree_index_adr (Z.shiftr (u32 (a + node)) sh) ctx).

(** tiny_sphincs.c:138-145 *)
Definition k_ts_set_fors_root_adr (ctx : ts_context) : stacked ts_context :=
  call (P)   (* ctx *)
  (ctx <- k_set_layer_adr 0 ctx ;;
  ctx <- k_set_tree_adr (c_tree_address ctx) ctx ;;
  ctx <- k_set_type_adr ADR_TYPE_FORSPK ctx ;;
  ctx <- k_set_keypair_adr (c_fors_keypair_addr ctx) ctx ;;
  ctx <- k_set_tree_height_adr 0 ctx ;;
  k_set_tree_index_adr 0 ctx).

(** tiny_sphincs.c:147-155 *)
Definition k_ts_set_wots_header_adr (merkle_leaf : Z) (ctx : ts_context)
  : stacked ts_context :=
  call (4 + P)   (* merkle_leaf, ctx *)
  (ctx <- k_set_layer_adr (c_hypertree_level ctx) ctx ;;
  ctx <- k_set_tree_adr (c_tree_address ctx) ctx ;;
  ctx <- k_set_type_adr ADR_TYPE_WOTSPK ctx ;;
  ctx <- k_set_keypair_adr merkle_leaf ctx ;;
  ctx <- k_set_tree_height_adr 0 ctx ;;
  k_set_tree_index_adr 0 ctx).

(** [(ctx->ps->prf)( output, ctx )] with output a buffer of the context *)
(** tiny_sphincs.c:163,172,181 *)
Definition k_do_prf (output : bufid) (ctx : ts_context) : stacked ts_context :=
  '(out, ctx) <- k_call_prf cfg mem ctx ;;
  k_put_buf cfg ctx output out.

(** [(ctx->ps->f)( output, output, ctx )] *)
(** tiny_sphincs.c:184,411,429, verify.c:156,187 *)
Definition k_do_f (output inblock : bufid) (ctx : ts_context) : stacked ts_context :=
  i <- k_get_buf cfg ctx inblock (ps_n (c_ps ctx)) ;;
  '(out, ctx) <- k_call_f cfg mem i ctx ;;
  k_put_buf cfg ctx output out.

(** init_t / next_t / final_t on [&ctx->small_iter] *)
(** tiny_sphincs.c:229,250, verify.c:64 *)
Definition k_small_init_t (ctx : ts_context) : stacked ts_context :=
  it <- k_call_init_t cfg mem (c_small_iter ctx) ctx ;; kret (set_small_iter it ctx).
(** tiny_sphincs.c:230,231,252-256, verify.c:67-72 *)
Definition k_small_next_t (input : list Z) (ctx : ts_context) : stacked ts_context :=
  it <- k_call_next_t cfg (c_small_iter ctx) input ctx ;; kret (set_small_iter it ctx).
(** tiny_sphincs.c:232,258, verify.c:76 *)
Definition k_small_final_t (output : bufid) (ctx : ts_context) : stacked ts_context :=
  '(out, it) <- k_call_final_t cfg (c_small_iter ctx) ctx ;;
  k_put_buf cfg (set_small_iter it ctx) output out.

(** and on [&ctx->big_iter] *)
(** tiny_sphincs.c:363,422, verify.c:91,150 *)
Definition k_big_init_t (ctx : ts_context) : stacked ts_context :=
  it <- k_call_init_t cfg mem (c_big_iter ctx) ctx ;; kret (set_big_iter it ctx).
(** tiny_sphincs.c:431,488, verify.c:166,190 *)
Definition k_big_next_t (input : list Z) (ctx : ts_context) : stacked ts_context :=
  it <- k_call_next_t cfg (c_big_iter ctx) input ctx ;; kret (set_big_iter it ctx).
(** tiny_sphincs.c:433,494, verify.c:171,197 *)
Definition k_big_final_t (output : bufid) (ctx : ts_context) : stacked ts_context :=
  '(out, it) <- k_call_final_t cfg (c_big_iter ctx) ctx ;;
  k_put_buf cfg (set_big_iter it ctx) output out.

(** tiny_sphincs.c:160-164 *)
Definition k_fors_prf (output : bufid) (leaf_index : Z) (ctx : ts_context)
  : stacked ts_context :=
  call (P + 4 + P)   (* output, leaf_index, ctx *)
  (ctx <- k_set_fors_prf_adr leaf_index ctx ;;
  k_do_prf output ctx).

(** tiny_sphincs.c:169-173 *)
Definition k_wots_prf (output : bufid) (tree_index digit_index : Z) (ctx : ts_context)
  : stacked ts_context :=
  call (P + 4 + 4 + P)   (* output, tree_index, digit_index, ctx *)
  (ctx <- k_set_wots_prf_adr tree_index digit_index ctx ;;
  k_do_prf output ctx).

(** tiny_sphincs.c:178-185 *)
Definition k_fors_leaf (output : bufid) (leaf_index : Z) (ctx : ts_context)
  : stacked ts_context :=
  call (P + 4 + P)   (* output, leaf_index, ctx *)
  (ctx <- k_set_fors_prf_adr leaf_index ctx ;;
  ctx <- k_do_prf output ctx ;;
  ctx <- k_set_type_adr ADR_TYPE_FORSTREE ctx ;;
  k_do_f output output ctx).

(** [memcpy( buffer, stack + off, n )] and back, for the stack of x.fors or x.merkle
    (given by its offset and size in x). *)
(** tiny_sphincs.c:230,238; the arrays are tiny_sphincs.h:152-155,160-163 *)
Definition k_rd_stack (stk : Z * Z) (off n : Z) (ctx : ts_context) : stacked (list Z) :=
  k_sub_rd (c_x ctx) (fst stk) (snd stk) off n.
(** tiny_sphincs.c:230,238; the arrays are tiny_sphincs.h:152-155,160-163 *)
Definition k_wr_stack (stk : Z * Z) (off : Z) (v : list Z) (ctx : ts_context)
  : stacked ts_context :=
  x <- k_sub_wr (c_x ctx) (fst stk) (snd stk) off v ;; kret (set_x x ctx).

(** tiny_sphincs.c:227-234: combine the new node with the stacked ones,
    [for (nod = i; nod & 1; nod >>= 1, k++)].  Returns k. *)
Fixpoint k_combine_loop (fuel : nat) (stk : Z * Z) (typecode leaf nod k : Z)
    (ctx : ts_context) : stacked (Z * ts_context) :=
  match fuel with
  | O => kub NonTermination
  | S fuel' =>
    If Z.land nod 1 =? 0 Then kret (k, ctx) Else
    let n := ps_n (c_ps ctx) in
    ctx <- k_ts_set_merkle_adr leaf k typecode ctx ;;
    ctx <- k_small_init_t ctx ;;
    l <- k_rd_stack stk (u32 (k * n)) n ctx ;;
    ctx <- k_small_next_t l ctx ;;
    ctx <- k_small_next_t (c_buffer ctx) ctx ;;
    ctx <- k_small_final_t BufBuffer ctx ;;
    k_combine_loop fuel' stk typecode leaf (Z.shiftr nod 1) (k + 1) ctx
  end.

(** tiny_sphincs.c:204-260 [ts_merkle_path] *)
Definition k_ts_merkle_path (gen_leaf : bufid -> Z -> ts_context -> stacked ts_context)
    (typecode : Z) (stk : Z * Z) (ctx : ts_context) : stacked ts_context :=
  call (P + P + 4 + P + (7 * 4 + P + P))   (* gen_leaf, ctx, typecode, stack; n, h, size_h, node, i, k, nod, t, t *)
  (let n := ps_n (c_ps ctx) in
  let h := c_merkle_level ctx in
  let ctx := set_merkle_level (u8 (c_merkle_level ctx + 1)) ctx in
  sh <- k_shift_count 31 h ;;              (* 1 << h in int *)
  let size_h := Z.shiftl 1 sh in
  let node := Z.lxor (c_auth_path_node ctx) size_h in
  let node := Z.land node (u32 (Z.lnot (size_h - 1))) in
  ctx <- k_for (Z.to_nat size_h) 0 (fun i ctx =>
    ctx <- gen_leaf BufBuffer (u32 (node + i)) ctx ;;
    '(k, ctx) <- k_combine_loop 33 stk typecode (u32 (node + i)) i 0 ctx ;;
    If k <? h Then
      b <- k_rd_range (c_buffer ctx) 0 n ;;
      k_wr_stack stk (u32 (k * n)) b ctx
    Else kret ctx) ctx ;;
  let ctx := set_buffer_offset 0 ctx in
  ctx <- k_ts_set_merkle_adr node h typecode ctx ;;
  ctx <- k_small_init_t ctx ;;
  ctx <- (If negb (Z.land (c_auth_path_node ctx) size_h =? 0) Then
            ctx <- k_small_next_t (c_buffer ctx) ctx ;;
            k_small_next_t (c_auth_path_buffer ctx) ctx
          Else
            ctx <- k_small_next_t (c_auth_path_buffer ctx) ctx ;;
            k_small_next_t (c_buffer ctx) ctx) ;;
  k_small_final_t BufAuth ctx).

(** tiny_sphincs.c:275-291: one bit of a FORS index; the state is
    (message_hash, hash_offset, bit_so_far, this_index). *)
Definition k_convert_bit (st : list Z * Z * Z * Z) : stacked (list Z * Z * Z * Z) :=
  let '(mh, hash_offset, bit_so_far, this_index) := st in
  '(hash_offset, bit_so_far) <-
    (If bit_so_far =? 8 Then kret (u32 (hash_offset + 1), 0) Else kret (hash_offset, bit_so_far)) ;;
  bit <- k_rd mh hash_offset ;;
  mh <- k_wr mh hash_offset (u8 (Z.shiftl bit 1)) ;;
  let bit := Z.shiftr bit 7 in
  kret (mh, hash_offset, bit_so_far + 1, u32 (2 * this_index + Z.land bit 1)).

(** tiny_sphincs.c:266-305 [ts_convert_message_hash_to_hypertree_position]: returns
    the context and the (modified) message hash. *)
Definition k_ts_convert_message_hash_to_hypertree_position (message_hash : list Z)
    (ctx : ts_context) : stacked (list Z * ts_context) :=
  call (P + P + (P + 6 * 4))   (* ctx, message_hash; ps, hash_offset, bit_so_far, k, this_index, t, bit *)
  (let ps := c_ps ctx in
  '(mh, hash_offset, bit_so_far, ctx) <-
    k_for (Z.to_nat (ps_k ps)) 0 (fun k '(mh, hash_offset, bit_so_far, ctx) =>
      '(mh, hash_offset, bit_so_far, this_index) <-
        k_for (Z.to_nat (ps_t ps)) 0 (fun _ st => k_convert_bit st)
                 (mh, hash_offset, bit_so_far, 0) ;;
      x <- k_set_fors_node cfg (c_x ctx) k this_index ;;
      kret (mh, hash_offset, bit_so_far, set_x x ctx)) (message_hash, 0, 0, ctx) ;;
  '(v, hash_offset) <- k_extract_int_from_hash mh hash_offset (ps_h ps - ps_merkle_h ps) ;;
  let ctx := set_tree_address v ctx in
  '(v, hash_offset) <- k_extract_int_from_hash mh hash_offset (ps_merkle_h ps) ;;
  kret (mh, set_fors_keypair_addr (u16 v) ctx)).

(** tiny_sphincs.c:313-364 [ts_init_sign].  [message] and [private_key] are addresses
    in [mem].  The functions called with the local arrays opt_buffer and
    message_hash read the first n bytes of the one and all of the other.  [r] is the
    state of the generator, returned as it is afterwards. *)
Definition k_ts_init_sign_gen {R : Type} (ctx : ts_context) (message len_message : Z)
    (ps : parameter_set) (private_key : Z) (rng : random_generator R) (r : R)
  : stacked (ts_context * R) :=
  call (P + P + P + P + P + P + (4 + P + TS_MAX_HASH cfg + MAX_MESSAGE_HASH))   (* ctx, message, len_message, ps, private_key, random_function; n, randomness, opt_buffer, message_hash *)
  (let n := ps_n ps in
  let ctx := set_ps ps ctx in
  let ctx := set_public_key (CONVERT_PRIVATE_KEY_TO_PUBLIC private_key n) ctx in
  ctx <- k_call_compute_prehash cfg mem ctx ;;
  (* Step 1: generate the randomness *)
  let opt_buffer := uninit (TS_MAX_HASH cfg) in
  '(ok, opt_buffer, r) <-
     match rng with
     | None => (kret (false, opt_buffer, r))
     | Some f =>
       (
       let '(ret, data, r) := f r n in
       b <- calm (wr_local opt_buffer 0 data) ;;   (* by the function called, not by the library *)
       kret (negb (ret =? 0), b, r))
     end ;;
  opt_buffer <-
     (If ok Then kret opt_buffer
      Else
        seed <- k_load mem (CONVERT_PUBLIC_KEY_TO_PUB_SEED (c_public_key ctx) n) n ;;
        k_wr_local opt_buffer 0 seed) ;;
  msg <- k_load mem message len_message ;;
  optrand <- k_rd_local opt_buffer 0 n ;;
  '(rand, ctx) <- k_call_prf_msg cfg mem optrand msg ctx ;;
  ctx <- k_put_buf cfg ctx BufBuffer rand ;;
  (* Step 2: hash the message *)
  let message_hash := uninit MAX_MESSAGE_HASH in
  '(mh, ctx) <- k_call_hash_msg cfg mem MAX_MESSAGE_HASH (c_buffer ctx) msg ctx ;;
  message_hash <- k_wr_local message_hash 0 mh ;;
  message_hash <- k_defined message_hash ;;
  (* Step 3: convert the hash into fors_tree leaves and hypertree position *)
  '(_, ctx) <- k_ts_convert_message_hash_to_hypertree_position message_hash ctx ;;
  let ctx := set_buffer_offset 0 ctx in
  let ctx := set_state ts_fors_leaf ctx in
  let ctx := set_fors_tree 0 ctx in
  let ctx := set_merkle_level 0 ctx in
  let ctx := set_hypertree_level 0 ctx in
  ctx <- k_ts_set_fors_root_adr ctx ;;
  ctx <- k_big_init_t ctx ;;
  kret (ctx, r)).

(** The same with the generator in a fixed state (what follows does not depend on what
    it would do if asked again): a [random_function]. *)
(** tiny_sphincs.c:313-364 *)
Definition k_ts_init_sign (ctx : ts_context) (message len_message : Z)
    (ps : parameter_set) (private_key : Z) (rng : random_function)
  : stacked ts_context :=
  '(ctx, _) <- k_ts_init_sign_gen ctx message len_message ps private_key
     (option_map (fun f (_ : unit) len => (f len, tt)) rng) tt ;;
  kret ctx.

(** tiny_sphincs.c:369-383 [compute_wots_digits]: [digits] is x.wots.digits, [hash]
    the array pointed to. *)
Definition k_compute_wots_digits (x : list Z) (hash : list Z) (n : Z) : stacked (list Z) :=
  call (P + P + 4 + (4 + 4 + 1 + 4))   (* digits, hash, n; sum, i, byte, d *)
  (sum0 <- k_int_val (2 * 15 * n) ;;
  '(x, sum) <- k_for (Z.to_nat n) 0 (fun i '(x, sum) =>
      byte <- k_rd hash i ;;
      let d := Z.shiftr byte 4 in
      x <- k_set_digits cfg x (2 * i) d ;;
      let sum := u32 (sum - d) in
      let d := Z.land byte 15 in
      x <- k_set_digits cfg x (2 * i + 1) d ;;
      kret (x, u32 (sum - d))) (x, u32 sum0) ;;
  x <- k_set_digits cfg x (2 * n) (Z.land (Z.shiftr sum 8) 15) ;;
  x <- k_set_digits cfg x (2 * n + 1) (Z.land (Z.shiftr sum 4) 15) ;;
  k_set_digits cfg x (2 * n + 2) (Z.land sum 15)).

(** tiny_sphincs.c:391-400 [ts_set_up_wots_signature] *)
Definition k_ts_set_up_wots_signature (next_leaf : Z) (ctx : ts_context)
  : stacked ts_context :=
  call (P + 4)   (* ctx, next_leaf *)
  (let ctx := set_state ts_wots ctx in
  x <- k_set_digit (c_x ctx) 0 ;;
  x <- k_compute_wots_digits x (c_auth_path_buffer ctx) (ps_n (c_ps ctx)) ;;
  let ctx := set_x x ctx in
  let ctx := set_auth_path_node (u16 next_leaf) ctx in
  kret (set_fors_keypair_addr 0 ctx)).

(** [for (int i = from; i < to; i++) { ts_set_wots_f_adr; f }] on a buffer
    (tiny_sphincs.c:409-412 and 427-430, verify.c:185-188). *)
Definition k_chain_loop (buf : bufid) (tree_index digit from to : Z) (ctx : ts_context)
  : stacked ts_context :=
  k_for (Z.to_nat (to - from)) from (fun i ctx =>
    ctx <- k_ts_set_wots_f_adr tree_index digit i ctx ;;
    k_do_f buf buf ctx) ctx.

(** tiny_sphincs.c:405-414 [generate_next_wots_hash].  The loop bound
    x.wots.digits[digit] is read once: the loop body does not write x. *)
Definition k_generate_next_wots_hash (ctx : ts_context) : stacked ts_context :=
  call (P + (4 + 4))   (* ctx; digit, i *)
  (digit <- k_get_digit (c_x ctx) ;;
  x <- k_set_digit (c_x ctx) (digit + 1) ;;
  let ctx := set_x x ctx in
  ctx <- k_wots_prf BufBuffer (c_auth_path_node ctx) digit ctx ;;
  limit <- k_get_digits cfg (c_x ctx) digit ;;
  ctx <- k_chain_loop BufBuffer (c_auth_path_node ctx) digit 0 limit ctx ;;
  kret (set_buffer_offset 0 ctx)).

(** tiny_sphincs.c:419-434 [ts_wots_leaf] *)
Definition k_ts_wots_leaf (output : bufid) (leaf_index : Z) (ctx : ts_context)
  : stacked ts_context :=
  call (P + 4 + P + (4 + P + 4))   (* output, leaf_index, ctx; d, buffer, i *)
  (ctx <- k_ts_set_wots_header_adr leaf_index ctx ;;
  ctx <- k_big_init_t ctx ;;
  ctx <- k_for (Z.to_nat (2 * ps_n (c_ps ctx) + 3)) 0 (fun d ctx =>
    ctx <- k_wots_prf BufMerkle leaf_index d ctx ;;
    ctx <- k_chain_loop BufMerkle leaf_index d 0 15 ctx ;;
    b <- k_get_buf cfg ctx BufMerkle (ps_n (c_ps ctx)) ;;
    k_big_next_t b ctx) ctx ;;
  k_big_final_t output ctx).

(** tiny_sphincs.c:467-537: the switch of [ts_sign]; [None] means no more bytes. *)
Definition k_sign_switch (ctx : ts_context) : stacked (option ts_context) :=
  If c_state ctx =? ts_fors_leaf Then
    node <- k_get_fors_node cfg (c_x ctx) (c_fors_tree ctx) ;;
    let ctx := set_auth_path_node (u16 node) ctx in
    ctx <- k_fors_prf BufBuffer node ctx ;;
    let ctx := set_buffer_offset 0 ctx in
    let ctx := set_merkle_level 0 ctx in
    let ctx := set_state ts_fors ctx in
    ctx <- k_fors_leaf BufAuth node ctx ;;
    kret (Some ctx)
  Else If c_state ctx =? ts_fors Then
    ctx <- k_ts_merkle_path k_fors_leaf ADR_TYPE_FORSTREE (fors_stack cfg) ctx ;;
    If c_merkle_level ctx =? ps_t (c_ps ctx) Then
      ctx <- k_big_next_t (c_auth_path_buffer ctx) ctx ;;
      let ctx := set_state ts_fors_leaf ctx in
      let ctx := set_fors_tree (u8 (c_fors_tree ctx + 1)) ctx in
      If c_fors_tree ctx =? ps_k (c_ps ctx) Then
        ctx <- k_big_final_t BufAuth ctx ;;
        let ctx := set_fors_tree 0 ctx in
        ctx <- k_ts_set_up_wots_signature (c_fors_keypair_addr ctx) ctx ;;
        kret (Some ctx)
      Else kret (Some ctx)
    Else kret (Some ctx)
  Else If c_state ctx =? ts_wots Then
    ctx <- k_generate_next_wots_hash ctx ;;
    d <- k_get_digit (c_x ctx) ;;
    If d =? 2 * ps_n (c_ps ctx) + 3 Then
      let ctx := set_state ts_merkle ctx in
      let ctx := set_merkle_level 0 ctx in
      ctx <- k_ts_wots_leaf BufAuth (c_auth_path_node ctx) ctx ;;
      kret (Some ctx)
    Else kret (Some ctx)
  Else If c_state ctx =? ts_merkle Then
    ctx <- k_ts_merkle_path k_ts_wots_leaf ADR_TYPE_HASHTREE (merkle_stack cfg) ctx ;;
    If c_merkle_level ctx =? ps_merkle_h (c_ps ctx) Then
      let ctx := set_hypertree_level (u8 (c_hypertree_level ctx + 1)) ctx in
      If c_hypertree_level ctx =? ps_d (c_ps ctx) Then
        kret (Some (set_state ts_done ctx))
      Else
        sh <- k_shift_count 31 (ps_merkle_h (c_ps ctx)) ;;
        let ctx := set_auth_path_node
                     (u16 (Z.land (c_tree_address ctx) (Z.shiftl 1 sh - 1))) ctx in
        let ctx := set_tree_address (Z.shiftr (c_tree_address ctx) sh) ctx in
        ctx <- k_ts_set_up_wots_signature (c_auth_path_node ctx) ctx ;;
        kret (Some ctx)
    Else kret (Some ctx)
  Else kret None.

(** tiny_sphincs.c:452-539: the loop of [ts_sign]: [dest] is the destination array,
    [pos] the current position, [m] the bytes still wanted. *)
Fixpoint k_sign_loop (fuel : nat) (dest : list Z) (pos m : Z) (ctx : ts_context)
  : stacked (Z * list Z * ts_context) :=
  match fuel with
  | O => kub NonTermination
  | S fuel' =>
    If m =? 0 Then kret (m, dest, ctx) Else
    let n := ps_n (c_ps ctx) in
    let remain := u32 (n - c_buffer_offset ctx) in
    If 0 <? remain Then
      remain <- (If m <? remain Then kret m Else kret remain) ;;
      src <- k_rd_range (c_buffer ctx) (c_buffer_offset ctx) remain ;;
      dest <- k_wr_range dest pos src ;;
      let ctx := set_buffer_offset (u8 (c_buffer_offset ctx + remain)) ctx in
      k_sign_loop fuel' dest (pos + remain) (m - remain) ctx
    Else
      o <- k_sign_switch ctx ;;
      match o with
      | Some ctx => k_sign_loop fuel' dest pos m ctx
      | None => kret (m, dest, ctx)
      end
  end.

(** tiny_sphincs.c:441-542 [ts_sign]: result, destination array, context. *)
Definition k_ts_sign (dest : list Z) (m : Z) (ctx : ts_context)
  : stacked (Z * list Z * ts_context) :=
  call (P + 4 + P + 5 * 4)   (* dest, m, ctx; orig_m, n, remain, node, d *)
  (If (c_state ctx <=? ts_sign_state) || (ts_verify_state <=? c_state ctx) Then
    kret (0, dest, ctx)
  Else
    '(m', dest, ctx) <- k_sign_loop (2 * Z.to_nat m + 2) dest 0 m ctx ;;
    kret (u32 (m - m'), dest, ctx)).
End Sphincs.

(** key_gen.c:30-54: compute the root of the top level Merkle tree from the private
    key at address [private_key] of [mem]; returns auth_path_buffer[0..n-1]. *)
Definition k_gen_root (cfg : config) (mem : memory) (private_key : Z) (ps : parameter_set)
  : stacked (list Z) :=
  let n := ps_n ps in
  let ctx := set_ps ps (zero_ctx cfg ps) in
  let ctx := set_public_key (CONVERT_PRIVATE_KEY_TO_PUBLIC private_key n) ctx in
  ctx <- k_call_compute_prehash cfg mem ctx ;;
  let ctx := set_buffer_offset (u8 n) ctx in
  let ctx := set_hypertree_level (u8 (ps_d ps - 1)) ctx in
  let ctx := set_tree_address 0 ctx in
  let ctx := set_auth_path_node 0 ctx in
  let ctx := set_merkle_level 0 ctx in
  ctx <- k_ts_wots_leaf cfg mem BufAuth (c_auth_path_node ctx) ctx ;;
  ctx <- k_for (Z.to_nat (ps_merkle_h ps)) 0 (fun _ ctx =>
    k_ts_merkle_path cfg mem (k_ts_wots_leaf cfg mem) ADR_TYPE_HASHTREE
      (merkle_stack cfg) ctx) ctx ;;
  k_rd_range (c_auth_path_buffer ctx) 0 n.

(** key_gen.c:9-68 [ts_gen_key].  A non-NULL pointer argument is given by its address
    and the contents of the array it points to; the result is the return value and the
    contents of the arrays afterwards.  While the tree is computed the memory that the
    library can read is exactly the private key array.  [r] is the state of the random
    generator, returned as it is afterwards. *)
Definition k_ts_gen_key_gen {R : Type} (cfg : config) (private_key : option (Z * list Z))
    (public_key : option (list Z)) (ps : option parameter_set)
    (rng : random_generator R) (r : R)
  : stacked (Z * option (list Z) * option (list Z) * R) :=
  call (SIZEOF_PTR cfg + SIZEOF_PTR cfg + SIZEOF_PTR cfg + SIZEOF_PTR cfg + (4 + SIZEOF_TS_CONTEXT cfg + SIZEOF_PTR cfg + 4))   (* private_key, public_key, ps, random_function; n, ctx, pub, i *)
  (match rng, private_key, ps with
  | Some random, Some (addr, priv), Some ps =>
    (
    let n := ps_n ps in
    let '(ret, data, r) := random r (3 * n) in
    priv <- calm (wr_range priv 0 data) ;;    (* by the function called, not by the library *)
    If ret =? 0 Then kret (0, Some priv, public_key, r) Else
    root <- k_gen_root cfg (mem_of addr priv) addr ps ;;
    priv <- k_wr_range priv (CONVERT_PUBLIC_KEY_TO_ROOT
                             (CONVERT_PRIVATE_KEY_TO_PUBLIC 0 n) n) root ;;
    match public_key with
    | None => (kret (1, Some priv, None, r))
    | Some pub => (
      p <- k_rd_range priv (CONVERT_PRIVATE_KEY_TO_PUBLIC 0 n) (2 * n) ;;
      pub <- k_wr_range pub 0 p ;;
      kret (1, Some priv, Some pub, r))
    end)
  | _, _, _ => (kret (0, option_map snd private_key, public_key, r))
  end).
(** The same with the generator in a fixed state *)
(** key_gen.c:9-68 *)
Definition k_ts_gen_key (cfg : config) (private_key : option (Z * list Z))
    (public_key : option (list Z)) (ps : option parameter_set)
    (rng : random_function)
  : stacked (Z * option (list Z) * option (list Z)) :=
  '(x, _) <- k_ts_gen_key_gen cfg private_key public_key ps
     (option_map (fun f (_ : unit) len => (f len, tt)) rng) tt ;;
  kret x.

