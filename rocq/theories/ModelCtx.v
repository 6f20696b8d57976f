(** * Model of struct ts_context (tiny_sphincs.h:62-169) *)
From Verif Require Import CSem ModelSha256 ModelSha512 ModelFips202 ModelParams.

(** tiny_sphincs.h:92-110: the values of [state] (C numbers enumerators from 0). *)
Definition ts_sign_state : Z := 0.
(** tiny_sphincs.h:92-110 *)
Definition ts_fors_leaf : Z := 1.
(** tiny_sphincs.h:92-110 *)
Definition ts_fors : Z := 2.
(** tiny_sphincs.h:92-110 *)
Definition ts_wots : Z := 3.
(** tiny_sphincs.h:92-110 *)
Definition ts_merkle : Z := 4.
(** tiny_sphincs.h:92-110 *)
Definition ts_done : Z := 5.
(** tiny_sphincs.h:92-110 *)
Definition ts_verify_state : Z := 6.
(** tiny_sphincs.h:92-110 *)
Definition ts_verify_init : Z := 7.
(** tiny_sphincs.h:92-110 *)
Definition ts_verify_fors_leaf : Z := 8.
(** tiny_sphincs.h:92-110 *)
Definition ts_verify_fors : Z := 9.
(** tiny_sphincs.h:92-110 *)
Definition ts_verify_wots : Z := 10.
(** tiny_sphincs.h:92-110 *)
Definition ts_verify_merkle : Z := 11.
(** tiny_sphincs.h:92-110 *)
Definition ts_verify_success : Z := 12.
(** tiny_sphincs.h:92-110 *)
Definition ts_verify_fail : Z := 13.

(** tiny_sphincs.h:85-169.  [c_ps] is the pointed-to parameter set itself (a constant
    object); [c_public_key] is an address in caller memory; the iterators and the
    union [x] are their bytes; the prehash arrays are empty lists when the
    configuration does not declare them. *)
Record ts_context := mkCtx {
  c_ps : parameter_set;
  c_public_key : Z;
  c_state : Z;
  c_buffer : list Z;             (* unsigned char buffer[TS_MAX_HASH] *)
  c_buffer_offset : Z;           (* unsigned char *)
  c_hypertree_level : Z;         (* unsigned char *)
  c_fors_tree : Z;               (* unsigned char *)
  c_merkle_level : Z;            (* unsigned char *)
  c_adr : list Z;                (* unsigned char adr[ADR_SIZE] *)
  c_auth_path_node : Z;          (* unsigned short *)
  c_fors_keypair_addr : Z;       (* unsigned short *)
  c_tree_address : Z;            (* uint64_t *)
  c_auth_path_buffer : list Z;   (* unsigned char auth_path_buffer[TS_MAX_HASH] *)
  c_big_iter : list Z;           (* union t_iterator, as bytes *)
  c_small_iter : list Z;
  c_prehash_sha256 : list Z;     (* uint32_t prehash_sha256[8] *)
  c_prehash_sha512 : list Z;     (* uint64_t prehash_sha512[8] *)
  c_x : list Z                   (* the union x, as bytes *)
}.

(** Member updates (one per member that the code assigns). *)
(** assignment of the member, tiny_sphincs.h:86 *)
Definition set_ps v c := mkCtx v (c_public_key c) (c_state c) (c_buffer c) (c_buffer_offset c) (c_hypertree_level c) (c_fors_tree c) (c_merkle_level c) (c_adr c) (c_auth_path_node c) (c_fors_keypair_addr c) (c_tree_address c) (c_auth_path_buffer c) (c_big_iter c) (c_small_iter c) (c_prehash_sha256 c) (c_prehash_sha512 c) (c_x c).
(** assignment of the member, tiny_sphincs.h:87-90 *)
Definition set_public_key v c := mkCtx (c_ps c) v (c_state c) (c_buffer c) (c_buffer_offset c) (c_hypertree_level c) (c_fors_tree c) (c_merkle_level c) (c_adr c) (c_auth_path_node c) (c_fors_keypair_addr c) (c_tree_address c) (c_auth_path_buffer c) (c_big_iter c) (c_small_iter c) (c_prehash_sha256 c) (c_prehash_sha512 c) (c_x c).
(** assignment of the member, tiny_sphincs.h:93-109 *)
Definition set_state v c := mkCtx (c_ps c) (c_public_key c) v (c_buffer c) (c_buffer_offset c) (c_hypertree_level c) (c_fors_tree c) (c_merkle_level c) (c_adr c) (c_auth_path_node c) (c_fors_keypair_addr c) (c_tree_address c) (c_auth_path_buffer c) (c_big_iter c) (c_small_iter c) (c_prehash_sha256 c) (c_prehash_sha512 c) (c_x c).
(** assignment of the member, tiny_sphincs.h:110-112 *)
Definition set_buffer v c := mkCtx (c_ps c) (c_public_key c) (c_state c) v (c_buffer_offset c) (c_hypertree_level c) (c_fors_tree c) (c_merkle_level c) (c_adr c) (c_auth_path_node c) (c_fors_keypair_addr c) (c_tree_address c) (c_auth_path_buffer c) (c_big_iter c) (c_small_iter c) (c_prehash_sha256 c) (c_prehash_sha512 c) (c_x c).
(** assignment of the member, tiny_sphincs.h:113-114 *)
Definition set_buffer_offset v c := mkCtx (c_ps c) (c_public_key c) (c_state c) (c_buffer c) v (c_hypertree_level c) (c_fors_tree c) (c_merkle_level c) (c_adr c) (c_auth_path_node c) (c_fors_keypair_addr c) (c_tree_address c) (c_auth_path_buffer c) (c_big_iter c) (c_small_iter c) (c_prehash_sha256 c) (c_prehash_sha512 c) (c_x c).
(** assignment of the member, tiny_sphincs.h:116-118 *)
Definition set_hypertree_level v c := mkCtx (c_ps c) (c_public_key c) (c_state c) (c_buffer c) (c_buffer_offset c) v (c_fors_tree c) (c_merkle_level c) (c_adr c) (c_auth_path_node c) (c_fors_keypair_addr c) (c_tree_address c) (c_auth_path_buffer c) (c_big_iter c) (c_small_iter c) (c_prehash_sha256 c) (c_prehash_sha512 c) (c_x c).
(** assignment of the member, tiny_sphincs.h:119-120 *)
Definition set_fors_tree v c := mkCtx (c_ps c) (c_public_key c) (c_state c) (c_buffer c) (c_buffer_offset c) (c_hypertree_level c) v (c_merkle_level c) (c_adr c) (c_auth_path_node c) (c_fors_keypair_addr c) (c_tree_address c) (c_auth_path_buffer c) (c_big_iter c) (c_small_iter c) (c_prehash_sha256 c) (c_prehash_sha512 c) (c_x c).
(** assignment of the member, tiny_sphincs.h:121-122 *)
Definition set_merkle_level v c := mkCtx (c_ps c) (c_public_key c) (c_state c) (c_buffer c) (c_buffer_offset c) (c_hypertree_level c) (c_fors_tree c) v (c_adr c) (c_auth_path_node c) (c_fors_keypair_addr c) (c_tree_address c) (c_auth_path_buffer c) (c_big_iter c) (c_small_iter c) (c_prehash_sha256 c) (c_prehash_sha512 c) (c_x c).
(** assignment of the member, tiny_sphincs.h:123-124 *)
Definition set_adr v c := mkCtx (c_ps c) (c_public_key c) (c_state c) (c_buffer c) (c_buffer_offset c) (c_hypertree_level c) (c_fors_tree c) (c_merkle_level c) v (c_auth_path_node c) (c_fors_keypair_addr c) (c_tree_address c) (c_auth_path_buffer c) (c_big_iter c) (c_small_iter c) (c_prehash_sha256 c) (c_prehash_sha512 c) (c_x c).
(** assignment of the member, tiny_sphincs.h:125-126 *)
Definition set_auth_path_node v c := mkCtx (c_ps c) (c_public_key c) (c_state c) (c_buffer c) (c_buffer_offset c) (c_hypertree_level c) (c_fors_tree c) (c_merkle_level c) (c_adr c) v (c_fors_keypair_addr c) (c_tree_address c) (c_auth_path_buffer c) (c_big_iter c) (c_small_iter c) (c_prehash_sha256 c) (c_prehash_sha512 c) (c_x c).
(** assignment of the member, tiny_sphincs.h:127-130 *)
Definition set_fors_keypair_addr v c := mkCtx (c_ps c) (c_public_key c) (c_state c) (c_buffer c) (c_buffer_offset c) (c_hypertree_level c) (c_fors_tree c) (c_merkle_level c) (c_adr c) (c_auth_path_node c) v (c_tree_address c) (c_auth_path_buffer c) (c_big_iter c) (c_small_iter c) (c_prehash_sha256 c) (c_prehash_sha512 c) (c_x c).
(** assignment of the member, tiny_sphincs.h:131-132 *)
Definition set_tree_address v c := mkCtx (c_ps c) (c_public_key c) (c_state c) (c_buffer c) (c_buffer_offset c) (c_hypertree_level c) (c_fors_tree c) (c_merkle_level c) (c_adr c) (c_auth_path_node c) (c_fors_keypair_addr c) v (c_auth_path_buffer c) (c_big_iter c) (c_small_iter c) (c_prehash_sha256 c) (c_prehash_sha512 c) (c_x c).
(** assignment of the member, tiny_sphincs.h:134-135 *)
Definition set_auth_path_buffer v c := mkCtx (c_ps c) (c_public_key c) (c_state c) (c_buffer c) (c_buffer_offset c) (c_hypertree_level c) (c_fors_tree c) (c_merkle_level c) (c_adr c) (c_auth_path_node c) (c_fors_keypair_addr c) (c_tree_address c) v (c_big_iter c) (c_small_iter c) (c_prehash_sha256 c) (c_prehash_sha512 c) (c_x c).
(** assignment of the member, tiny_sphincs.h:137-138 *)
Definition set_big_iter v c := mkCtx (c_ps c) (c_public_key c) (c_state c) (c_buffer c) (c_buffer_offset c) (c_hypertree_level c) (c_fors_tree c) (c_merkle_level c) (c_adr c) (c_auth_path_node c) (c_fors_keypair_addr c) (c_tree_address c) (c_auth_path_buffer c) v (c_small_iter c) (c_prehash_sha256 c) (c_prehash_sha512 c) (c_x c).
(** assignment of the member, tiny_sphincs.h:139 *)
Definition set_small_iter v c := mkCtx (c_ps c) (c_public_key c) (c_state c) (c_buffer c) (c_buffer_offset c) (c_hypertree_level c) (c_fors_tree c) (c_merkle_level c) (c_adr c) (c_auth_path_node c) (c_fors_keypair_addr c) (c_tree_address c) (c_auth_path_buffer c) (c_big_iter c) v (c_prehash_sha256 c) (c_prehash_sha512 c) (c_x c).
(** assignment of the member, tiny_sphincs.h:144 *)
Definition set_prehash_sha256 v c := mkCtx (c_ps c) (c_public_key c) (c_state c) (c_buffer c) (c_buffer_offset c) (c_hypertree_level c) (c_fors_tree c) (c_merkle_level c) (c_adr c) (c_auth_path_node c) (c_fors_keypair_addr c) (c_tree_address c) (c_auth_path_buffer c) (c_big_iter c) (c_small_iter c) v (c_prehash_sha512 c) (c_x c).
(** assignment of the member, tiny_sphincs.h:146 *)
Definition set_prehash_sha512 v c := mkCtx (c_ps c) (c_public_key c) (c_state c) (c_buffer c) (c_buffer_offset c) (c_hypertree_level c) (c_fors_tree c) (c_merkle_level c) (c_adr c) (c_auth_path_node c) (c_fors_keypair_addr c) (c_tree_address c) (c_auth_path_buffer c) (c_big_iter c) (c_small_iter c) (c_prehash_sha256 c) v (c_x c).
(** assignment of the member, tiny_sphincs.h:151-168 *)
Definition set_x v c := mkCtx (c_ps c) (c_public_key c) (c_state c) (c_buffer c) (c_buffer_offset c) (c_hypertree_level c) (c_fors_tree c) (c_merkle_level c) (c_adr c) (c_auth_path_node c) (c_fors_keypair_addr c) (c_tree_address c) (c_auth_path_buffer c) (c_big_iter c) (c_small_iter c) (c_prehash_sha256 c) (c_prehash_sha512 c) v.

(** ** Byte views of the members of [union t_iterator] (layouts: ModelParams) *)

(** [&it->sha2_L1_simple] read as a SHA256_CTX, and written back. *)
(** SHA256_CTX sha2.h:16-29, member of tiny_sphincs.h:66-76 (line 71); used at sha256_L1_hash.c:22,57, sha256_L1_hash_simple.c:61, sha256_hash.c:22, sha2_simple.c:17 *)
Definition get_sha256 (le : bool) (it : list Z) : outcome sha256_ctx :=
  h <- for_loop 8 0 (fun i h => w <- rd_word le 4 it 0 i ;; Ok (h ++ [w])) [] ;;
  count <- rd_word le 8 it 32 0 ;;
  num <- rd_word le 4 it 40 0 ;;
  x <- rd_range it 44 64 ;;
  Ok (mkSha256 h count num x).
(** SHA256_CTX sha2.h:16-29, member of tiny_sphincs.h:66-76 (line 71); used at sha256_L1_hash.c:22,57, sha256_L1_hash_simple.c:61, sha256_hash.c:22, sha2_simple.c:17 *)
Definition put_sha256 (le : bool) (it : list Z) (c : sha256_ctx) : outcome (list Z) :=
  it <- wr_range it 0 (enc_words le 4 (s256_h c)) ;;
  it <- wr_word le 8 it 32 0 (s256_count c) ;;
  it <- wr_word le 4 it 40 0 (s256_num c) ;;
  wr_range it 44 (s256_x c).

(** [&it->sha2_L35_simple] read as a SHA512_CTX, and written back. *)
(** SHA512_CTX sha2.h:49-62, member of tiny_sphincs.h:66-76 (line 74); used at sha512_L35_hash_simple.c:66, sha512_hash.c:16,48 *)
Definition get_sha512 (cfg : config) (it : list Z) : outcome sha512_ctx :=
  let le := cfg_le cfg in
  h <- for_loop 8 0 (fun i h => w <- rd_word le 8 it 0 i ;; Ok (h ++ [w])) [] ;;
  count <- rd_word le 8 it 64 0 ;;
  num <- rd_word le 4 it 72 0 ;;
  x <- rd_range it (SHA512_X_OFFSET cfg) 128 ;;
  Ok (mkSha512 h count num x).
(** SHA512_CTX sha2.h:49-62, member of tiny_sphincs.h:66-76 (line 74); used at sha512_L35_hash_simple.c:66, sha512_hash.c:16,48 *)
Definition put_sha512 (cfg : config) (it : list Z) (c : sha512_ctx) : outcome (list Z) :=
  let le := cfg_le cfg in
  it <- wr_range it 0 (enc_words le 8 (s512_h c)) ;;
  it <- wr_word le 8 it 64 0 (s512_count c) ;;
  it <- wr_word le 4 it 72 0 (s512_num c) ;;
  wr_range it (SHA512_X_OFFSET cfg) (s512_x c).

(** [&it->shake256_simple] read as the 26 words of a SHAKE256_CTX, and written back. *)
(** fips202.h:35 SHAKE256_CTX, member of tiny_sphincs.h:66-76 (line 68); used at shake256_hash.c:23,43,66, shake256_simple.c:20 *)
Definition get_shake (le : bool) (it : list Z) : outcome (list Z) :=
  for_loop 26 0 (fun i h => w <- rd_word le 8 it 0 i ;; Ok (h ++ [w])) [].
(** fips202.h:35 SHAKE256_CTX, member of tiny_sphincs.h:66-76 (line 68); used at shake256_hash.c:23,43,66, shake256_simple.c:20 *)
Definition put_shake (le : bool) (it : list Z) (s : list Z) : outcome (list Z) :=
  wr_range it 0 (enc_words le 8 s).

(** ** Access to the members of the union x *)

(** A member array of [size] bytes at byte [base] of x: element range [off, off+len)
    must lie inside the member. *)
(** array members of the union x, tiny_sphincs.h:151-168 *)
Definition sub_rd (x : list Z) (base size off len : Z) : outcome (list Z) :=
  if (0 <=? off) && (off + len <=? size) then rd_range x (base + off) len
  else UB OutOfBounds.
(** array members of the union x, tiny_sphincs.h:151-168 *)
Definition sub_wr (x : list Z) (base size off : Z) (v : list Z) : outcome (list Z) :=
  if (0 <=? off) && (off + zlen v <=? size) then wr_range x (base + off) v
  else UB OutOfBounds.

(** [x.fors.fors_node[k]] (unsigned short) *)
(** tiny_sphincs.h:152-155 *)
Definition get_fors_node (cfg : config) (x : list Z) (k : Z) : outcome Z :=
  if (0 <=? k) && (k <? TS_MAX_FORS) then rd_word (cfg_le cfg) 2 x 0 k
  else UB OutOfBounds.
(** tiny_sphincs.h:152-155 *)
Definition set_fors_node (cfg : config) (x : list Z) (k v : Z) : outcome (list Z) :=
  if (0 <=? k) && (k <? TS_MAX_FORS) then wr_word (cfg_le cfg) 2 x 0 k (u16 v)
  else UB OutOfBounds.

(** [x.wots.digit] and [x.wots.digits[i]] *)
(** tiny_sphincs.h:156-159 *)
Definition get_digit (x : list Z) : outcome Z := rd x 0.
(** tiny_sphincs.h:156-159 *)
Definition set_digit (x : list Z) (v : Z) : outcome (list Z) := wr x 0 (u8 v).
(** tiny_sphincs.h:156-159 *)
Definition get_digits (cfg : config) (x : list Z) (i : Z) : outcome Z :=
  if (0 <=? i) && (i <? TS_MAX_WOTS_DIGITS cfg) then rd x (1 + i) else UB OutOfBounds.
(** tiny_sphincs.h:156-159 *)
Definition set_digits (cfg : config) (x : list Z) (i v : Z) : outcome (list Z) :=
  if (0 <=? i) && (i <? TS_MAX_WOTS_DIGITS cfg) then wr x (1 + i) (u8 v)
  else UB OutOfBounds.

(** [x.verify.message] (an address) and [x.verify.len_message] *)
(** tiny_sphincs.h:164-167 *)
Definition get_verify_message (cfg : config) (x : list Z) : outcome Z :=
  rd_word (cfg_le cfg) (Z.to_nat (SIZEOF_PTR cfg)) x 0 0.
(** tiny_sphincs.h:164-167 *)
Definition get_verify_len (cfg : config) (x : list Z) : outcome Z :=
  rd_word (cfg_le cfg) (Z.to_nat (SIZEOF_PTR cfg)) x (SIZEOF_PTR cfg) 0.
(** tiny_sphincs.h:164-167 *)
Definition set_verify_message (cfg : config) (x : list Z) (v : Z) : outcome (list Z) :=
  wr_word (cfg_le cfg) (Z.to_nat (SIZEOF_PTR cfg)) x 0 0 v.
(** tiny_sphincs.h:164-167 *)
Definition set_verify_len (cfg : config) (x : list Z) (v : Z) : outcome (list Z) :=
  wr_word (cfg_le cfg) (Z.to_nat (SIZEOF_PTR cfg)) x (SIZEOF_PTR cfg) 0 v.

(** ** The hash sized buffers of the context that the code passes by pointer *)
(** tiny_sphincs.h:110-112 (buffer), 134-135 (auth_path_buffer), 151-168 (buffers in x) *)
Inductive bufid : Set :=
| BufBuffer     (* ctx->buffer *)
| BufAuth       (* ctx->auth_path_buffer *)
| BufMerkle.    (* ctx->x.merkle.buffer *)

(** tiny_sphincs.h:110-112,134-135,151-168 *)
Definition get_buf (cfg : config) (c : ts_context) (b : bufid) (n : Z) : outcome (list Z) :=
  match b with
  | BufBuffer => rd_range (c_buffer c) 0 n
  | BufAuth => rd_range (c_auth_path_buffer c) 0 n
  | BufMerkle => sub_rd (c_x c) 0 (TS_MAX_HASH cfg) 0 n
  end.
(** tiny_sphincs.h:110-112,134-135,151-168 *)
Definition put_buf (cfg : config) (c : ts_context) (b : bufid) (v : list Z)
  : outcome ts_context :=
  match b with
  | BufBuffer => l <- wr_range (c_buffer c) 0 v ;; Ok (set_buffer l c)
  | BufAuth => l <- wr_range (c_auth_path_buffer c) 0 v ;; Ok (set_auth_path_buffer l c)
  | BufMerkle => x <- sub_wr (c_x c) 0 (TS_MAX_HASH cfg) 0 v ;; Ok (set_x x c)
  end.

(** ** Which contexts are possible at all: every member has its declared size and
    type.  (Any bytes: this is what uninitialised memory can hold.) *)
(** unsigned char, as in tiny_sphincs.h:85-169 *)
Definition byte (b : Z) : Prop := 0 <= b < 256.
(** arrays of unsigned char, as in tiny_sphincs.h:85-169 *)
Definition bytes (l : list Z) : Prop := Forall byte l.
(** arrays of uint32_t and uint64_t, as in tiny_sphincs.h:144-146 *)
Definition words (w : Z) (l : list Z) : Prop := Forall (fun v => 0 <= v < 2 ^ w) l.

(** tiny_sphincs.h:85-169 *)
Record wf_ctx (cfg : config) (c : ts_context) : Prop := mkWf {
  wf_state : 0 <= c_state c < 2 ^ 32;
  wf_buffer : zlen (c_buffer c) = TS_MAX_HASH cfg /\ bytes (c_buffer c);
  wf_buffer_offset : byte (c_buffer_offset c);
  wf_hypertree_level : byte (c_hypertree_level c);
  wf_fors_tree : byte (c_fors_tree c);
  wf_merkle_level : byte (c_merkle_level c);
  wf_adr : zlen (c_adr c) = ADR_SIZE cfg /\ bytes (c_adr c);
  wf_auth_path_node : 0 <= c_auth_path_node c < 2 ^ 16;
  wf_fors_keypair_addr : 0 <= c_fors_keypair_addr c < 2 ^ 16;
  wf_tree_address : 0 <= c_tree_address c < 2 ^ 64;
  wf_auth : zlen (c_auth_path_buffer c) = TS_MAX_HASH cfg /\ bytes (c_auth_path_buffer c);
  wf_big : zlen (c_big_iter c) = SIZEOF_T_ITERATOR cfg /\ bytes (c_big_iter c);
  wf_small : zlen (c_small_iter c) = SIZEOF_T_ITERATOR cfg /\ bytes (c_small_iter c);
  wf_pre256 : zlen (c_prehash_sha256 c) = (if has_prehash256 cfg then 8 else 0)
              /\ words 32 (c_prehash_sha256 c);
  wf_pre512 : zlen (c_prehash_sha512 c) = (if has_prehash512 cfg then 8 else 0)
              /\ words 64 (c_prehash_sha512 c);
  wf_x : zlen (c_x c) = SIZEOF_X cfg /\ bytes (c_x c)
}.
