(** * Model of verify.c *)
From Verif Require Import CSem ModelEndian ModelParams ModelCtx ModelHash ModelSphincs.

(** verify.c:17-25 [my_memcmp]: [n] is the number of bytes left, [i] the position. *)
Fixpoint my_memcmp (a b : list Z) (n : nat) (i : Z) : outcome Z :=
  match n with
  | O => Ok 0
  | S n' =>
    x <- rd a i ;; y <- rd b i ;;
    if negb (x =? y) then Ok 1 else my_memcmp a b n' (i + 1)
  end.

Section Verify.
Variable cfg : config.
Variable mem : memory.

(** verify.c:30-44 [ts_init_verify] *)
Definition ts_init_verify (ctx : ts_context) (message len_message : Z)
    (ps : parameter_set) (public_key : Z) : outcome ts_context :=
  let ctx := set_ps ps ctx in
  let ctx := set_public_key public_key ctx in
  let ctx := set_state ts_verify_init ctx in
  let ctx := set_buffer_offset 0 ctx in
  x <- set_verify_message cfg (c_x ctx) message ;;
  x <- set_verify_len cfg x len_message ;;
  let ctx := set_x x ctx in
  call_compute_prehash cfg mem ctx.

(** verify.c:55-77 [next_auth_path] *)
Definition next_auth_path (typecode : Z) (ctx : ts_context) : outcome ts_context :=
  let h := c_merkle_level ctx in
  sh <- shift_count 31 h ;;              (* 1 << h in int *)
  let size_h := Z.shiftl 1 sh in
  let ctx := set_merkle_level (u8 (c_merkle_level ctx + 1)) ctx in
  ctx <- ts_set_merkle_adr cfg (c_auth_path_node ctx) h typecode ctx ;;
  ctx <- small_init_t cfg mem ctx ;;
  ctx <- (if negb (Z.land (c_auth_path_node ctx) size_h =? 0) then
            ctx <- small_next_t cfg (c_buffer ctx) ctx ;;
            small_next_t cfg (c_auth_path_buffer ctx) ctx
          else
            ctx <- small_next_t cfg (c_auth_path_buffer ctx) ctx ;;
            small_next_t cfg (c_buffer ctx) ctx) ;;
  small_final_t cfg BufAuth ctx.

(** verify.c:82-94 [set_up_wots_verify_signature] *)
Definition set_up_wots_verify_signature (next_leaf : Z) (ctx : ts_context)
  : outcome ts_context :=
  ctx <- ts_set_up_wots_signature cfg next_leaf ctx ;;
  let ctx := set_state ts_verify_wots ctx in
  ctx <- ts_set_wots_header_adr cfg next_leaf ctx ;;
  ctx <- big_init_t cfg mem ctx ;;
  Ok (set_merkle_level 0 ctx).

(** verify.c:130-235: the switch of [ts_update_verify]; [m] is the number of bytes
    left in this call.  [inl ctx]: go on with the loop; [inr (ret, ctx)]: return. *)
Definition verify_switch (m : Z) (ctx : ts_context)
  : outcome (ts_context + Z * ts_context) :=
  let n := ps_n (c_ps ctx) in
  if c_state ctx =? ts_verify_init then
    message <- get_verify_message cfg (c_x ctx) ;;
    len_message <- get_verify_len cfg (c_x ctx) ;;
    msg <- load mem message len_message ;;
    '(mh, ctx) <- call_hash_msg cfg mem MAX_MESSAGE_HASH (c_buffer ctx) msg ctx ;;
    ctx <- wr_stack (fors_stack cfg) 0 mh ctx ;;
    (* the conversion works in place on x.fors.stack, while writing x.fors.fors_node *)
    stack <- rd_stack (fors_stack cfg) 0 (FORS_STACK_SIZE cfg) ctx ;;
    '(stack, ctx) <- ts_convert_message_hash_to_hypertree_position cfg stack ctx ;;
    ctx <- wr_stack (fors_stack cfg) 0 stack ctx ;;
    let ctx := set_state ts_verify_fors_leaf ctx in
    let ctx := set_fors_tree 0 ctx in
    let ctx := set_merkle_level 0 ctx in
    let ctx := set_hypertree_level 0 ctx in
    ctx <- ts_set_fors_root_adr cfg ctx ;;
    ctx <- big_init_t cfg mem ctx ;;
    Ok (inl ctx)
  else if c_state ctx =? ts_verify_fors_leaf then
    node <- get_fors_node cfg (c_x ctx) (c_fors_tree ctx) ;;
    let ctx := set_auth_path_node (u16 node) ctx in
    let ctx := set_merkle_level 0 ctx in
    ctx <- ts_set_fors_leaf_adr cfg (c_auth_path_node ctx) ctx ;;
    ctx <- do_f cfg mem BufAuth BufBuffer ctx ;;
    Ok (inl (set_state ts_verify_fors ctx))
  else if c_state ctx =? ts_verify_fors then
    ctx <- next_auth_path ADR_TYPE_FORSTREE ctx ;;
    if c_merkle_level ctx =? ps_t (c_ps ctx) then
      ctx <- big_next_t cfg (c_auth_path_buffer ctx) ctx ;;
      let ctx := set_state ts_verify_fors_leaf ctx in
      let ctx := set_fors_tree (u8 (c_fors_tree ctx + 1)) ctx in
      if c_fors_tree ctx =? ps_k (c_ps ctx) then
        ctx <- big_final_t cfg BufAuth ctx ;;
        let ctx := set_fors_tree 0 ctx in
        ctx <- set_up_wots_verify_signature (c_fors_keypair_addr ctx) ctx ;;
        Ok (inl ctx)
      else Ok (inl ctx)
    else Ok (inl ctx)
  else if c_state ctx =? ts_verify_wots then
    digit <- get_digit (c_x ctx) ;;
    x <- set_digit (c_x ctx) (digit + 1) ;;
    let ctx := set_x x ctx in
    from <- get_digits cfg (c_x ctx) digit ;;
    ctx <- chain_loop cfg mem BufBuffer (c_auth_path_node ctx) digit from 15 ctx ;;
    ctx <- big_next_t cfg (c_buffer ctx) ctx ;;
    d <- get_digit (c_x ctx) ;;
    if negb (d =? 2 * ps_n (c_ps ctx) + 3) then Ok (inl ctx) else
    ctx <- big_final_t cfg BufAuth ctx ;;
    Ok (inl (set_state ts_verify_merkle ctx))
  else if c_state ctx =? ts_verify_merkle then
    ctx <- next_auth_path ADR_TYPE_HASHTREE ctx ;;
    if negb (c_merkle_level ctx =? ps_merkle_h (c_ps ctx)) then Ok (inl ctx) else
    let ctx := set_hypertree_level (u8 (c_hypertree_level ctx + 1)) ctx in
    if c_hypertree_level ctx <? ps_d (c_ps ctx) then
      sh <- shift_count 31 (ps_merkle_h (c_ps ctx)) ;;
      let next_leaf := u32 (Z.land (c_tree_address ctx) (Z.shiftl 1 sh - 1)) in
      let ctx := set_tree_address (Z.shiftr (c_tree_address ctx) sh) ctx in
      ctx <- set_up_wots_verify_signature next_leaf ctx ;;
      Ok (inl ctx)
    else
      good <- (if m =? 0 then
                 root <- load mem (CONVERT_PUBLIC_KEY_TO_ROOT (c_public_key ctx) n) n ;;
                 r <- my_memcmp root (c_auth_path_buffer ctx) (Z.to_nat n) 0 ;;
                 Ok (r =? 0)
               else Ok false) ;;
      if good : bool then Ok (inr (1, set_state ts_verify_success ctx))
      else Ok (inr (0, set_state ts_verify_fail ctx))
  else Ok (inr (0, set_state ts_verify_fail ctx)).

(** verify.c:112-236: the loop of [ts_update_verify]; [sig] is the signature array of
    this call, [pos] the current position in it, [m] the bytes left. *)
Fixpoint verify_loop (fuel : nat) (sig : list Z) (pos m : Z) (ctx : ts_context)
  : outcome (Z * ts_context) :=
  match fuel with
  | O => UB NonTermination
  | S fuel' =>
    let n := ps_n (c_ps ctx) in
    let buffer_offset := c_buffer_offset ctx in
    let remain := u32 (n - buffer_offset) in
    let remain := if m <? remain then m else remain in
    src <- rd_range sig pos remain ;;
    b <- wr_range (c_buffer ctx) buffer_offset src ;;
    let ctx := set_buffer b ctx in
    let pos := pos + remain in
    let buffer_offset := u32 (buffer_offset + remain) in
    let m := u32 (m - remain) in
    if buffer_offset <? n then
      Ok (1, set_buffer_offset (u8 buffer_offset) ctx)
    else
      let ctx := set_buffer_offset 0 ctx in
      o <- verify_switch m ctx ;;
      match o with
      | inl ctx => verify_loop fuel' sig pos m ctx
      | inr r => Ok r
      end
  end.

(** verify.c:101-237 [ts_update_verify]: the result and the context. *)
Definition ts_update_verify (sig : list Z) (m : Z) (ctx : ts_context)
  : outcome (Z * ts_context) :=
  if (c_state ctx <=? ts_verify_state) || (ts_verify_fail <=? c_state ctx) then
    Ok (0, ctx)
  else verify_loop (Z.to_nat m + 2) sig 0 m ctx.
End Verify.

(** verify.c:243-251 [ts_verify] *)
Definition ts_verify (ctx : ts_context) : Z :=
  if (c_state ctx =? ts_verify_success) && (c_buffer_offset ctx =? 0) then 1 else 0.
