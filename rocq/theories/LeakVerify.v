(** * verify.c of the model, watched

    ModelVerify once more with the operations of CLeak (see LeakSha2). *)
From Verif Require Import CSem CLeak ModelParams ModelCtx ModelHash ModelSphincs LeakSha2 LeakHash LeakSphincs.
Open Scope leak_scope.

(** The members of x.verify_init (ModelCtx) *)
(** tiny_sphincs.h:164-167 *)
Definition l_get_verify_message (cfg : config) (x : list Z) : leaky Z :=
  l_rd_word (cfg_le cfg) (Z.to_nat (SIZEOF_PTR cfg)) x 0 0.
(** tiny_sphincs.h:164-167 *)
Definition l_get_verify_len (cfg : config) (x : list Z) : leaky Z :=
  l_rd_word (cfg_le cfg) (Z.to_nat (SIZEOF_PTR cfg)) x (SIZEOF_PTR cfg) 0.
(** tiny_sphincs.h:164-167 *)
Definition l_set_verify_message (cfg : config) (x : list Z) (v : Z) : leaky (list Z) :=
  l_wr_word (cfg_le cfg) (Z.to_nat (SIZEOF_PTR cfg)) x 0 0 v.
(** tiny_sphincs.h:164-167 *)
Definition l_set_verify_len (cfg : config) (x : list Z) (v : Z) : leaky (list Z) :=
  l_wr_word (cfg_le cfg) (Z.to_nat (SIZEOF_PTR cfg)) x (SIZEOF_PTR cfg) 0 v.

(** verify.c:17-25 [my_memcmp]: [n] is the number of bytes left, [i] the position. *)
Fixpoint l_my_memcmp (a b : list Z) (n : nat) (i : Z) : leaky Z :=
  match n with
  | O => lret 0
  | S n' =>
    x <- l_rd a i ;; y <- l_rd b i ;;
    If negb (x =? y) Then lret 1 Else l_my_memcmp a b n' (i + 1)
  end.

Section Verify.
Variable cfg : config.
Variable mem : memory.

(** verify.c:30-44 [ts_init_verify] *)
Definition l_ts_init_verify (ctx : ts_context) (message len_message : Z)
    (ps : parameter_set) (public_key : Z) : leaky ts_context :=
  let ctx := set_ps ps ctx in
  let ctx := set_public_key public_key ctx in
  let ctx := set_state ts_verify_init ctx in
  let ctx := set_buffer_offset 0 ctx in
  x <- l_set_verify_message cfg (c_x ctx) message ;;
  x <- l_set_verify_len cfg x len_message ;;
  let ctx := set_x x ctx in
  l_call_compute_prehash cfg mem ctx.

(** verify.c:55-77 [next_auth_path] *)
Definition l_next_auth_path (typecode : Z) (ctx : ts_context) : leaky ts_context :=
  let h := c_merkle_level ctx in
  sh <- l_shift_count 31 h ;;              (* 1 << h in int *)
  let size_h := Z.shiftl 1 sh in
  let ctx := set_merkle_level (u8 (c_merkle_level ctx + 1)) ctx in
  ctx <- l_ts_set_merkle_adr cfg (c_auth_path_node ctx) h typecode ctx ;;
  ctx <- l_small_init_t cfg mem ctx ;;
  ctx <- (If negb (Z.land (c_auth_path_node ctx) size_h =? 0) Then
            ctx <- l_small_next_t cfg (c_buffer ctx) ctx ;;
            l_small_next_t cfg (c_auth_path_buffer ctx) ctx
          Else
            ctx <- l_small_next_t cfg (c_auth_path_buffer ctx) ctx ;;
            l_small_next_t cfg (c_buffer ctx) ctx) ;;
  l_small_final_t cfg BufAuth ctx.

(** verify.c:82-94 [set_up_wots_verify_signature] *)
Definition l_set_up_wots_verify_signature (next_leaf : Z) (ctx : ts_context)
  : leaky ts_context :=
  ctx <- l_ts_set_up_wots_signature cfg next_leaf ctx ;;
  let ctx := set_state ts_verify_wots ctx in
  ctx <- l_ts_set_wots_header_adr cfg next_leaf ctx ;;
  ctx <- l_big_init_t cfg mem ctx ;;
  lret (set_merkle_level 0 ctx).

(** verify.c:130-235: the switch of [ts_update_verify]; [m] is the number of bytes
    left in this call.  [inl ctx]: go on with the loop; [inr (ret, ctx)]: return. *)
Definition l_verify_switch (m : Z) (ctx : ts_context)
  : leaky (ts_context + Z * ts_context) :=
  let n := ps_n (c_ps ctx) in
  If c_state ctx =? ts_verify_init Then
    message <- l_get_verify_message cfg (c_x ctx) ;;
    len_message <- l_get_verify_len cfg (c_x ctx) ;;
    msg <- l_load mem message len_message ;;
    '(mh, ctx) <- l_call_hash_msg cfg mem MAX_MESSAGE_HASH (c_buffer ctx) msg ctx ;;
    ctx <- l_wr_stack (fors_stack cfg) 0 mh ctx ;;
    (* the conversion works in place on x.fors.stack, while writing x.fors.fors_node *)
    stack <- l_rd_stack (fors_stack cfg) 0 (FORS_STACK_SIZE cfg) ctx ;;
    '(stack, ctx) <- l_ts_convert_message_hash_to_hypertree_position cfg stack ctx ;;
    ctx <- l_wr_stack (fors_stack cfg) 0 stack ctx ;;
    let ctx := set_state ts_verify_fors_leaf ctx in
    let ctx := set_fors_tree 0 ctx in
    let ctx := set_merkle_level 0 ctx in
    let ctx := set_hypertree_level 0 ctx in
    ctx <- l_ts_set_fors_root_adr cfg ctx ;;
    ctx <- l_big_init_t cfg mem ctx ;;
    lret (inl ctx)
  Else If c_state ctx =? ts_verify_fors_leaf Then
    node <- l_get_fors_node cfg (c_x ctx) (c_fors_tree ctx) ;;
    let ctx := set_auth_path_node (u16 node) ctx in
    let ctx := set_merkle_level 0 ctx in
    ctx <- l_ts_set_fors_leaf_adr cfg (c_auth_path_node ctx) ctx ;;
    ctx <- l_do_f cfg mem BufAuth BufBuffer ctx ;;
    lret (inl (set_state ts_verify_fors ctx))
  Else If c_state ctx =? ts_verify_fors Then
    ctx <- l_next_auth_path ADR_TYPE_FORSTREE ctx ;;
    If c_merkle_level ctx =? ps_t (c_ps ctx) Then
      ctx <- l_big_next_t cfg (c_auth_path_buffer ctx) ctx ;;
      let ctx := set_state ts_verify_fors_leaf ctx in
      let ctx := set_fors_tree (u8 (c_fors_tree ctx + 1)) ctx in
      If c_fors_tree ctx =? ps_k (c_ps ctx) Then
        ctx <- l_big_final_t cfg BufAuth ctx ;;
        let ctx := set_fors_tree 0 ctx in
        ctx <- l_set_up_wots_verify_signature (c_fors_keypair_addr ctx) ctx ;;
        lret (inl ctx)
      Else lret (inl ctx)
    Else lret (inl ctx)
  Else If c_state ctx =? ts_verify_wots Then
    digit <- l_get_digit (c_x ctx) ;;
    x <- l_set_digit (c_x ctx) (digit + 1) ;;
    let ctx := set_x x ctx in
    from <- l_get_digits cfg (c_x ctx) digit ;;
    ctx <- l_chain_loop cfg mem BufBuffer (c_auth_path_node ctx) digit from 15 ctx ;;
    ctx <- l_big_next_t cfg (c_buffer ctx) ctx ;;
    d <- l_get_digit (c_x ctx) ;;
    If negb (d =? 2 * ps_n (c_ps ctx) + 3) Then lret (inl ctx) Else
    ctx <- l_big_final_t cfg BufAuth ctx ;;
    lret (inl (set_state ts_verify_merkle ctx))
  Else If c_state ctx =? ts_verify_merkle Then
    ctx <- l_next_auth_path ADR_TYPE_HASHTREE ctx ;;
    If negb (c_merkle_level ctx =? ps_merkle_h (c_ps ctx)) Then lret (inl ctx) Else
    let ctx := set_hypertree_level (u8 (c_hypertree_level ctx + 1)) ctx in
    If c_hypertree_level ctx <? ps_d (c_ps ctx) Then
      sh <- l_shift_count 31 (ps_merkle_h (c_ps ctx)) ;;
      let next_leaf := u32 (Z.land (c_tree_address ctx) (Z.shiftl 1 sh - 1)) in
      let ctx := set_tree_address (Z.shiftr (c_tree_address ctx) sh) ctx in
      ctx <- l_set_up_wots_verify_signature next_leaf ctx ;;
      lret (inl ctx)
    Else
      good <- (If m =? 0 Then
                 root <- l_load mem (CONVERT_PUBLIC_KEY_TO_ROOT (c_public_key ctx) n) n ;;
                 r <- l_my_memcmp root (c_auth_path_buffer ctx) (Z.to_nat n) 0 ;;
                 lret (r =? 0)
               Else lret false) ;;
      If good Then lret (inr (1, set_state ts_verify_success ctx))
      Else lret (inr (0, set_state ts_verify_fail ctx))
  Else lret (inr (0, set_state ts_verify_fail ctx)).

(** verify.c:112-236: the loop of [ts_update_verify]; [sig] is the signature array of
    this call, [pos] the current position in it, [m] the bytes left. *)
Fixpoint l_verify_loop (fuel : nat) (sig : list Z) (pos m : Z) (ctx : ts_context)
  : leaky (Z * ts_context) :=
  match fuel with
  | O => lub NonTermination
  | S fuel' =>
    let n := ps_n (c_ps ctx) in
    let buffer_offset := c_buffer_offset ctx in
    let remain := u32 (n - buffer_offset) in
    remain <- (If m <? remain Then lret m Else lret remain) ;;
    src <- l_rd_range sig pos remain ;;
    b <- l_wr_range (c_buffer ctx) buffer_offset src ;;
    let ctx := set_buffer b ctx in
    let pos := pos + remain in
    let buffer_offset := u32 (buffer_offset + remain) in
    let m := u32 (m - remain) in
    If buffer_offset <? n Then
      lret (1, set_buffer_offset (u8 buffer_offset) ctx)
    Else
      let ctx := set_buffer_offset 0 ctx in
      o <- l_verify_switch m ctx ;;
      match o with
      | inl ctx => l_verify_loop fuel' sig pos m ctx
      | inr r => lret r
      end
  end.

(** verify.c:101-237 [ts_update_verify]: the result and the context. *)
Definition l_ts_update_verify (sig : list Z) (m : Z) (ctx : ts_context)
  : leaky (Z * ts_context) :=
  If (c_state ctx <=? ts_verify_state) || (ts_verify_fail <=? c_state ctx) Then
    lret (0, ctx)
  Else l_verify_loop (Z.to_nat m + 2) sig 0 m ctx.
End Verify.

