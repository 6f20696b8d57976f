(** * Model of sha256.c (and the SHA-256 part of sha2.h) *)
From Verif Require Import CSem ModelEndian.

(** sha2.h:16-29 [SHA256_CTX].  The union [x] (64 bytes of [data] / 16 words [W])
    is kept as its 64 bytes; [W] is accessed in host byte order. *)
Record sha256_ctx := mkSha256 {
  s256_h : list Z;      (* uint32_t h[8] *)
  s256_count : Z;       (* uint64_t count *)
  s256_num : Z;         (* unsigned num *)
  s256_x : list Z       (* union { unsigned char data[64]; uint32_t W[16]; } x *)
}.

(** sha256.c:21-35 *)
Definition K256 : list Z := [
    0x428a2f98; 0x71374491; 0xb5c0fbcf; 0xe9b5dba5; 0x3956c25b;
    0x59f111f1; 0x923f82a4; 0xab1c5ed5; 0xd807aa98; 0x12835b01;
    0x243185be; 0x550c7dc3; 0x72be5d74; 0x80deb1fe; 0x9bdc06a7;
    0xc19bf174; 0xe49b69c1; 0xefbe4786; 0x0fc19dc6; 0x240ca1cc;
    0x2de92c6f; 0x4a7484aa; 0x5cb0a9dc; 0x76f988da; 0x983e5152;
    0xa831c66d; 0xb00327c8; 0xbf597fc7; 0xc6e00bf3; 0xd5a79147;
    0x06ca6351; 0x14292967; 0x27b70a85; 0x2e1b2138; 0x4d2c6dfc;
    0x53380d13; 0x650a7354; 0x766a0abb; 0x81c2c92e; 0x92722c85;
    0xa2bfe8a1; 0xa81a664b; 0xc24b8b70; 0xc76c51a3; 0xd192e819;
    0xd6990624; 0xf40e3585; 0x106aa070; 0x19a4c116; 0x1e376c08;
    0x2748774c; 0x34b0bcb5; 0x391c0cb3; 0x4ed8aa4a; 0x5b9cca4f;
    0x682e6ff3; 0x748f82ee; 0x78a5636f; 0x84c87814; 0x8cc70208;
    0x90befffa; 0xa4506ceb; 0xbef9a3f7; 0xc67178f2 ].

(** sha256.c:21-35 *)
Definition mask32 : Z := 0xFFFFFFFF.

(** sha256.c:40-45 [RORc], with an [unsigned long] of 64 bits: the left part keeps high
    bits that the final mask removes.  With 32 bits they are lost before; the result is
    the same (PfSha256, RORc_any_unsigned_long). *)
Definition RORc (x rot0 : Z) : Z :=
  let rot := Z.land rot0 31 in
  if rot =? 0 then x else
  let right := Z.shiftr (Z.land x mask32) rot in
  let left := u64 (Z.shiftl (Z.land x mask32) (32 - rot)) in
  Z.land (Z.lor right left) mask32.

(** sha256.c:46-53 *)
Definition Ch32 (x y z : Z) : Z := Z.lxor z (Z.land x (Z.lxor y z)).
(** sha256.c:46-53 *)
Definition Maj32 (x y z : Z) : Z := Z.lor (Z.land (Z.lor x y) z) (Z.land x y).
(** sha256.c:46-53 *)
Definition R32 (x n : Z) : Z := Z.shiftr (Z.land x mask32) n.
(** sha256.c:46-53 *)
Definition Sigma0_32 (x : Z) : Z := Z.lxor (Z.lxor (RORc x 2) (RORc x 13)) (RORc x 22).
(** sha256.c:46-53 *)
Definition Sigma1_32 (x : Z) : Z := Z.lxor (Z.lxor (RORc x 6) (RORc x 11)) (RORc x 25).
(** sha256.c:46-53 *)
Definition Gamma0_32 (x : Z) : Z := Z.lxor (Z.lxor (RORc x 7) (RORc x 18)) (R32 x 3).
(** sha256.c:46-53 *)
Definition Gamma1_32 (x : Z) : Z := Z.lxor (Z.lxor (RORc x 17) (RORc x 19)) (R32 x 10).

(** The eight working variables S0..S7 of [compress]. *)
(** sha256.c:55-107 *)
Record regs := mkRegs { S0 : Z; S1 : Z; S2 : Z; S3 : Z; S4 : Z; S5 : Z; S6 : Z; S7 : Z }.

(** sha256.c:75-79: load the block as 16 big-endian words into W.  [buf = None]
    means that [buf] is [ctx->x.data] itself, which overlaps W: each word is then
    read from the current contents of the union. *)
Definition sha256_load_W (le : bool) (buf : option (list Z)) (x : list Z)
  : outcome (list Z) :=
  for_loop 16 0 (fun i x =>
    p <- rd_range (match buf with Some b => b | None => x end) (4 * i) 4 ;;
    v <- ts_bytes_to_ull p 4 ;;
    wr_word le 4 x 0 i (u32 v)) x.

(** sha256.c:88-96: one round (the RND macro inlined), on W and the registers. *)
Definition sha256_round (le : bool) (i : Z) (st : list Z * regs)
  : outcome (list Z * regs) :=
  let '(x, r) := st in
  x <- (if 16 <=? i then
          w2 <- rd_word le 4 x 0 (Z.land (i - 2) 15) ;;
          w7 <- rd_word le 4 x 0 (Z.land (i - 7) 15) ;;
          w15 <- rd_word le 4 x 0 (Z.land (i - 15) 15) ;;
          w16 <- rd_word le 4 x 0 (Z.land (i - 16) 15) ;;
          wr_word le 4 x 0 (Z.land i 15)
            (u32 (Gamma1_32 w2 + w7 + Gamma0_32 w15 + w16))
        else Ok x) ;;
  k <- rd K256 i ;;
  w <- rd_word le 4 x 0 (Z.land i 15) ;;
  let t0 := u32 (S7 r + Sigma1_32 (S4 r) + Ch32 (S4 r) (S5 r) (S6 r) + k + w) in
  let t1 := u32 (Sigma0_32 (S0 r) + Maj32 (S0 r) (S1 r) (S2 r)) in
  let s3 := u32 (S3 r + t0) in
  let s7 := u32 (t0 + t1) in
  Ok (x, mkRegs s7 (S0 r) (S1 r) (S2 r) s3 (S4 r) (S5 r) (S6 r)).

(** sha256.c:55-108 [compress] *)
Definition compress (le : bool) (ctx : sha256_ctx) (buf : option (list Z))
  : outcome sha256_ctx :=
  let h := s256_h ctx in
  h0 <- rd h 0 ;; h1 <- rd h 1 ;; h2 <- rd h 2 ;; h3 <- rd h 3 ;;
  h4 <- rd h 4 ;; h5 <- rd h 5 ;; h6 <- rd h 6 ;; h7 <- rd h 7 ;;
  x <- sha256_load_W le buf (s256_x ctx) ;;
  '(x, r) <- for_loop 64 0 (sha256_round le) (x, mkRegs h0 h1 h2 h3 h4 h5 h6 h7) ;;
  Ok (mkSha256
        [u32 (h0 + S0 r); u32 (h1 + S1 r); u32 (h2 + S2 r); u32 (h3 + S3 r);
         u32 (h4 + S4 r); u32 (h5 + S5 r); u32 (h6 + S6 r); u32 (h7 + S7 r)]
        (s256_count ctx) (s256_num ctx) x).

(** sha256.c:113-120 *)
Definition sha256_init_h : list Z :=
  [0x6A09E667; 0xBB67AE85; 0x3C6EF372; 0xA54FF53A;
   0x510E527F; 0x9B05688C; 0x1F83D9AB; 0x5BE0CD19].

(** sha256.c:110-121 [ts_SHA256_init]: the data buffer is left as it is. *)
Definition ts_SHA256_init (ctx : sha256_ctx) : sha256_ctx :=
  mkSha256 sha256_init_h 0 0 (s256_x ctx).

(** sha256.c:127-150: the loop of [ts_SHA256_update]; [p] is the rest of the input,
    [input_count] its length. *)
Fixpoint sha256_update_loop (le : bool) (fuel : nat) (ctx : sha256_ctx) (p : list Z)
  : outcome sha256_ctx :=
  match fuel with
  | O => UB NonTermination
  | S fuel' =>
    let input_count := zlen p in
    if input_count =? 0 then Ok ctx else
    let step0 := u32 (64 - s256_num ctx) in
    let this_step := if input_count <? step0 then u32 input_count else step0 in
    if this_step =? 64 then
      (* the entire block comes directly from the data stream *)
      blk <- rd_range p 0 64 ;;
      ctx <- compress le (mkSha256 (s256_h ctx) (s256_count ctx) 0 (s256_x ctx))
                      (Some blk) ;;
      sha256_update_loop le fuel' ctx (skipn (Z.to_nat this_step) p)
    else
      src <- rd_range p 0 this_step ;;
      x <- wr_range (s256_x ctx) (s256_num ctx) src ;;
      if u32 (this_step + s256_num ctx) <? 64 then
        Ok (mkSha256 (s256_h ctx) (s256_count ctx) (u32 (s256_num ctx + this_step)) x)
      else
        ctx <- compress le (mkSha256 (s256_h ctx) (s256_count ctx) 0 x) None ;;
        sha256_update_loop le fuel' ctx (skipn (Z.to_nat this_step) p)
  end.

(** sha256.c:123-151 [ts_SHA256_update]; [src] is the [input_count] input bytes. *)
Definition ts_SHA256_update (le : bool) (ctx : sha256_ctx) (src : list Z)
  : outcome sha256_ctx :=
  let count := u64 (s256_count ctx + u64 (8 * zlen src)) in
  sha256_update_loop le (S (S (length src)))
    (mkSha256 (s256_h ctx) count (s256_num ctx) (s256_x ctx)) src.

(** sha256.c:160-181 [ts_SHA256_final_trunc]: returns the bytes written to [digest]
    and the final context. *)
Definition ts_SHA256_final_trunc (le : bool) (ctx : sha256_ctx) (n : Z)
  : outcome (list Z * sha256_ctx) :=
  let finalcount := ts_ull_to_bytes (s256_count ctx) 8 in
  ctx <- ts_SHA256_update le ctx [128] ;;
  ctx <- (if 56 <? s256_num ctx
          then ts_SHA256_update le ctx [0;0;0;0;0;0;0;0]
          else Ok ctx) ;;
  x <- memset (s256_x ctx) (s256_num ctx) 0 (u32 (56 - s256_num ctx)) ;;
  ctx <- ts_SHA256_update le (mkSha256 (s256_h ctx) (s256_count ctx) 56 x) finalcount ;;
  digest <- for_loop (Z.to_nat (n / 4)) 0 (fun i d =>
              w <- rd (s256_h ctx) i ;; Ok (d ++ ts_ull_to_bytes w 4)) [] ;;
  Ok (digest, ctx).

(** sha256.c:156-158 [ts_SHA256_final] *)
Definition ts_SHA256_final (le : bool) (ctx : sha256_ctx)
  : outcome (list Z * sha256_ctx) :=
  ts_SHA256_final_trunc le ctx 32.

(** sha256.c:183-187 [ts_SHA256_save_state]: the eight words written to [s]. *)
Definition ts_SHA256_save_state (ctx : sha256_ctx) : outcome (list Z) :=
  for_loop 8 0 (fun i s => w <- rd (s256_h ctx) i ;; Ok (s ++ [w])) [].

(** sha256.c:189-195 [ts_SHA256_restore_state_after_64] *)
Definition ts_SHA256_restore_state_after_64 (ctx : sha256_ctx) (s : list Z)
  : outcome sha256_ctx :=
  h <- for_loop 8 0 (fun i h => w <- rd s i ;; wr h i w) (s256_h ctx) ;;
  Ok (mkSha256 h (8 * 64) 0 (s256_x ctx)).
