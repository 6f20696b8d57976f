(** * Model of key_gen.c and size.c *)
From Verif Require Import CSem ModelParams ModelCtx ModelHash ModelSphincs.

(** key_gen.c:32: the zeroed local context ([c_ps] has to be some parameter set; it is
    overwritten at once with [ps], which is what the model starts from). *)
Definition zero_ctx (cfg : config) (ps : parameter_set) : ts_context :=
  let z n := repeat 0 (Z.to_nat n) in
  mkCtx ps 0 0 (z (TS_MAX_HASH cfg)) 0 0 0 0 (z (ADR_SIZE cfg)) 0 0 0
    (z (TS_MAX_HASH cfg)) (z (SIZEOF_T_ITERATOR cfg)) (z (SIZEOF_T_ITERATOR cfg))
    (z (if has_prehash256 cfg then 8 else 0)) (z (if has_prehash512 cfg then 8 else 0))
    (z (SIZEOF_X cfg)).

(** key_gen.c:30-54: compute the root of the top level Merkle tree from the private
    key at address [private_key] of [mem]; returns auth_path_buffer[0..n-1]. *)
Definition gen_root (cfg : config) (mem : memory) (private_key : Z) (ps : parameter_set)
  : outcome (list Z) :=
  let n := ps_n ps in
  let ctx := set_ps ps (zero_ctx cfg ps) in
  let ctx := set_public_key (CONVERT_PRIVATE_KEY_TO_PUBLIC private_key n) ctx in
  ctx <- call_compute_prehash cfg mem ctx ;;
  let ctx := set_buffer_offset (u8 n) ctx in
  let ctx := set_hypertree_level (u8 (ps_d ps - 1)) ctx in
  let ctx := set_tree_address 0 ctx in
  let ctx := set_auth_path_node 0 ctx in
  let ctx := set_merkle_level 0 ctx in
  ctx <- ts_wots_leaf cfg mem BufAuth (c_auth_path_node ctx) ctx ;;
  ctx <- for_loop (Z.to_nat (ps_merkle_h ps)) 0 (fun _ ctx =>
    ts_merkle_path cfg mem (ts_wots_leaf cfg mem) ADR_TYPE_HASHTREE
      (merkle_stack cfg) ctx) ctx ;;
  rd_range (c_auth_path_buffer ctx) 0 n.

(** key_gen.c:9-68 [ts_gen_key].  A non-NULL pointer argument is given by its address
    and the contents of the array it points to; the result is the return value and the
    contents of the arrays afterwards.  While the tree is computed the memory that the
    library can read is exactly the private key array.  [r] is the state of the random
    generator, returned as it is afterwards. *)
Definition ts_gen_key_gen {R : Type} (cfg : config) (private_key : option (Z * list Z))
    (public_key : option (list Z)) (ps : option parameter_set)
    (rng : random_generator R) (r : R)
  : outcome (Z * option (list Z) * option (list Z) * R) :=
  match rng, private_key, ps with
  | Some random, Some (addr, priv), Some ps =>
    let n := ps_n ps in
    let '(ret, data, r) := random r (3 * n) in
    priv <- wr_range priv 0 data ;;
    if ret =? 0 then Ok (0, Some priv, public_key, r) else
    root <- gen_root cfg (mem_of addr priv) addr ps ;;
    priv <- wr_range priv (CONVERT_PUBLIC_KEY_TO_ROOT
                             (CONVERT_PRIVATE_KEY_TO_PUBLIC 0 n) n) root ;;
    match public_key with
    | None => Ok (1, Some priv, None, r)
    | Some pub =>
      p <- rd_range priv (CONVERT_PRIVATE_KEY_TO_PUBLIC 0 n) (2 * n) ;;
      pub <- wr_range pub 0 p ;;
      Ok (1, Some priv, Some pub, r)
    end
  | _, _, _ => Ok (0, option_map snd private_key, public_key, r)
  end.
(** The same with the generator in a fixed state *)
(** key_gen.c:9-68 *)
Definition ts_gen_key (cfg : config) (private_key : option (Z * list Z))
    (public_key : option (list Z)) (ps : option parameter_set)
    (rng : random_function)
  : outcome (Z * option (list Z) * option (list Z)) :=
  '(x, _) <- ts_gen_key_gen cfg private_key public_key ps
     (option_map (fun f (_ : unit) len => (f len, tt)) rng) tt ;;
  Ok x.

(** size.c:9-11 *)
Definition ts_size_private_key (ps : parameter_set) : Z := 4 * ps_n ps.
(** size.c:13-15 *)
Definition ts_size_public_key (ps : parameter_set) : Z := 2 * ps_n ps.
(** size.c:16-21 *)
Definition ts_size_signature (ps : parameter_set) : Z :=
  ps_n ps * (1 + (ps_t ps + 1) * ps_k ps + ps_d ps * (2 * ps_n ps + 3) + ps_h ps).
