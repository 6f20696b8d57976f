(** * What a hash iterator may still hold after a hash was computed with it (C53)

    The hash objects of the library are not erased after use.  [T_leaves] says exactly
    what one holds: the object that computing T_l(PK.seed, ADRS, M) of FIPS 205 (H is the
    same function with two blocks) leaves, and that this is determined by those three
    inputs, whatever the object contained when it was started. *)
From Verif Require Import Arr SpecSLH SpecMap ModelSha256 ModelSha512 ModelFips202 ModelParams ModelCtx.

(** [o] is what an object holds after it was started, was given [m] and delivered [k]
    bytes of digest, whatever [o0] it held before *)
Definition sha256_leaves (le : bool) (m : list Z) (k : Z) (o : sha256_ctx) : Prop :=
  forall o0, length (s256_h o0) = 8%nat -> length (s256_x o0) = 64%nat -> is_bytes (s256_x o0) ->
  exists o1 digest, ts_SHA256_update le (ts_SHA256_init o0) m = Ok o1 /\ ts_SHA256_final_trunc le o1 k = Ok (digest, o).
Definition sha512_leaves (le : bool) (m : list Z) (k : Z) (o : sha512_ctx) : Prop :=
  forall o0, length (s512_h o0) = 8%nat -> length (s512_x o0) = 128%nat -> is_bytes (s512_x o0) ->
  exists o1 digest, ts_SHA512_update le (ts_SHA512_init o0) m = Ok o1 /\ ts_SHA512_final_trunc le o1 k = Ok (digest, o).
Definition shake256_leaves (opt : Z) (m : list Z) (k : Z) (o : list Z) : Prop :=
  forall o0, length o0 = 26%nat ->
  exists o1 o2 o3 digest, ts_shake256_inc_init o0 = Ok o1 /\ ts_shake256_inc_absorb opt o1 m = Ok o2 /\
    ts_shake256_inc_finalize o2 = Ok o3 /\ ts_shake256_inc_squeeze opt k o3 = Ok (digest, o).

(** The hash function that T_l is built on *)
Inductive base_hash : Set := on_shake256 | on_sha256 | on_sha512.
Definition T_base (p : ps_name) : base_hash :=
  match p with
  | SHAKE_128f | SHAKE_128s | SHAKE_192f | SHAKE_192s | SHAKE_256f | SHAKE_256s => on_shake256
  | SHA2_128f | SHA2_128s => on_sha256
  | SHA2_192f | SHA2_192s | SHA2_256f | SHA2_256s => on_sha512
  end.

(** The bytes [it] of an iterator hold what computing T_l(PKseed, A, M) leaves. *)
Definition T_leaves (cfg : config) (p : ps_name) (PKseed : list Z) (A : ADRS) (M : list Z) (it : list Z) : Prop :=
  let n := p_n (slh_of p) in
  let le := cfg_le cfg in
  match T_base p with
  | on_shake256 => exists o, get_shake le it = Ok o /\
      shake256_leaves (cfg_shake_opt cfg) (PKseed ++ adrs_bytes A ++ M) n o
  | on_sha256 => exists o, get_sha256 le it = Ok o /\
      sha256_leaves le (PKseed ++ zero_bytes (64 - n) ++ adrs_compressed A ++ M) n o
  | on_sha512 => exists o, get_sha512 cfg it = Ok o /\
      sha512_leaves le (PKseed ++ zero_bytes (128 - n) ++ adrs_compressed A ++ M) n o
  end.

(** ** The top tree *)
(** The tree of the top layer: layer d - 1, tree 0 *)
Definition top_ADRS (P : params) : ADRS := mkADRS (p_d P - 1) 0 0 0 0 0.
(** Its node [i] at height [z] *)
Definition top_node (P : params) (PKseed SKseed : list Z) (z i : Z) : list Z :=
  xmss_node P PKseed SKseed i (Z.to_nat z) (top_ADRS P).
(** The chain ends of its WOTS+ key pair [leaf] (a WOTS+ public key before compression) *)
Definition top_chain_ends (P : params) (PKseed SKseed : list Z) (leaf : Z) : list (list Z) :=
  let A := setKeyPairAddress leaf (setTypeAndClear WOTS_HASH (top_ADRS P)) in
  map (fun i => chain P PKseed (wots_sk P PKseed SKseed A i) 0 15 (setChainAddress i A)) (upto (wlen P)).
