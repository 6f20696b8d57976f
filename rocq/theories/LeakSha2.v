(** * The model of endian.c, sha256.c and sha512.c, watched

    ModelEndian, ModelSha256 and ModelSha512 once more, statement by statement, with the
    operations of CLeak: every branch of the C source is an [If] or a loop of CLeak.  The
    outcomes are those of the model (PfLeakErase).  Each definition models the lines of
    /repo that its namesake (without l_) cites; only the traces are new. *)
From Verif Require Import CSem CLeak ModelEndian ModelSha256 ModelSha512.
Open Scope leak_scope.

(** endian.c:7-13 [ts_bytes_to_ull] *)
Definition l_ts_bytes_to_ull (p : list Z) (n : Z) : leaky Z :=
  l_for (Z.to_nat n) 0
    (fun i res => b <- l_rd p i ;; lret (u64 (256 * res + b))) 0.
(** endian.c:19-24 [ts_ull_to_bytes]: n passes, one byte each *)
Definition l_ts_ull_to_bytes (val : Z) (n : Z) : leaky (list Z) :=
  tick (Loop n) (lret (ts_ull_to_bytes val n)).

(** ** sha256.c *)

(** sha256.c:40-45 [RORc]: the test of the count is a branch. *)
Definition l_RORc (x rot0 : Z) : leaky Z :=
  let rot := Z.land rot0 31 in
  If rot =? 0 Then lret x Else
  tick (Shift rot) (lret (RORc x rot0)).
(** sha256.c:46-53 *)
Definition l_Sigma0_32 (x : Z) : leaky Z :=
  a <- l_RORc x 2 ;; b <- l_RORc x 13 ;; c <- l_RORc x 22 ;; lret (Z.lxor (Z.lxor a b) c).
(** sha256.c:46-53 *)
Definition l_Sigma1_32 (x : Z) : leaky Z :=
  a <- l_RORc x 6 ;; b <- l_RORc x 11 ;; c <- l_RORc x 25 ;; lret (Z.lxor (Z.lxor a b) c).
(** sha256.c:46-53 *)
Definition l_Gamma0_32 (x : Z) : leaky Z :=
  a <- l_RORc x 7 ;; b <- l_RORc x 18 ;; lret (Z.lxor (Z.lxor a b) (R32 x 3)).
(** sha256.c:46-53 *)
Definition l_Gamma1_32 (x : Z) : leaky Z :=
  a <- l_RORc x 17 ;; b <- l_RORc x 19 ;; lret (Z.lxor (Z.lxor a b) (R32 x 10)).

(** sha256.c:75-79: load the block as 16 big-endian words into W.  [buf = None]
    means that [buf] is [ctx->x.data] itself, which overlaps W: each word is then
    read from the current contents of the union. *)
Definition l_sha256_load_W (le : bool) (buf : option (list Z)) (x : list Z)
  : leaky (list Z) :=
  l_for 16 0 (fun i x =>
    p <- l_rd_range (match buf with Some b => b | None => x end) (4 * i) 4 ;;
    v <- l_ts_bytes_to_ull p 4 ;;
    l_wr_word le 4 x 0 i (u32 v)) x.

(** sha256.c:88-96: one round (the RND macro inlined), on W and the registers. *)
Definition l_sha256_round (le : bool) (i : Z) (st : list Z * regs)
  : leaky (list Z * regs) :=
  let '(x, r) := st in
  x <- (If 16 <=? i Then
          w2 <- l_rd_word le 4 x 0 (Z.land (i - 2) 15) ;;
          w7 <- l_rd_word le 4 x 0 (Z.land (i - 7) 15) ;;
          w15 <- l_rd_word le 4 x 0 (Z.land (i - 15) 15) ;;
          w16 <- l_rd_word le 4 x 0 (Z.land (i - 16) 15) ;;
          g1 <- l_Gamma1_32 w2 ;;
          g0 <- l_Gamma0_32 w15 ;;
          l_wr_word le 4 x 0 (Z.land i 15)
            (u32 (g1 + w7 + g0 + w16))
        Else lret x) ;;
  k <- l_rd K256 i ;;
  w <- l_rd_word le 4 x 0 (Z.land i 15) ;;
  s1 <- l_Sigma1_32 (S4 r) ;;
  s0 <- l_Sigma0_32 (S0 r) ;;
  let t0 := u32 (S7 r + s1 + Ch32 (S4 r) (S5 r) (S6 r) + k + w) in
  let t1 := u32 (s0 + Maj32 (S0 r) (S1 r) (S2 r)) in
  let s3 := u32 (S3 r + t0) in
  let s7 := u32 (t0 + t1) in
  lret (x, mkRegs s7 (S0 r) (S1 r) (S2 r) s3 (S4 r) (S5 r) (S6 r)).

(** sha256.c:55-108 [compress] *)
Definition l_compress (le : bool) (ctx : sha256_ctx) (buf : option (list Z))
  : leaky sha256_ctx :=
  tick (Block 64) (
  let h := s256_h ctx in
  h0 <- l_rd h 0 ;; h1 <- l_rd h 1 ;; h2 <- l_rd h 2 ;; h3 <- l_rd h 3 ;;
  h4 <- l_rd h 4 ;; h5 <- l_rd h 5 ;; h6 <- l_rd h 6 ;; h7 <- l_rd h 7 ;;
  x <- l_sha256_load_W le buf (s256_x ctx) ;;
  '(x, r) <- l_for 64 0 (l_sha256_round le) (x, mkRegs h0 h1 h2 h3 h4 h5 h6 h7) ;;
  lret (mkSha256
        [u32 (h0 + S0 r); u32 (h1 + S1 r); u32 (h2 + S2 r); u32 (h3 + S3 r);
         u32 (h4 + S4 r); u32 (h5 + S5 r); u32 (h6 + S6 r); u32 (h7 + S7 r)]
        (s256_count ctx) (s256_num ctx) x)).

(** sha256.c:127-150: the loop of [ts_SHA256_update]; [p] is the rest of the input,
    [input_count] its length. *)
Fixpoint l_sha256_update_loop (le : bool) (fuel : nat) (ctx : sha256_ctx) (p : list Z)
  : leaky sha256_ctx :=
  match fuel with
  | O => lub NonTermination
  | S fuel' =>
    let input_count := zlen p in
    If input_count =? 0 Then lret ctx Else
    let step0 := u32 (64 - s256_num ctx) in
    this_step <- (If input_count <? step0 Then lret (u32 input_count) Else lret step0) ;;
    If this_step =? 64 Then
      (* the entire block comes directly from the data stream *)
      blk <- l_rd_range p 0 64 ;;
      ctx <- l_compress le (mkSha256 (s256_h ctx) (s256_count ctx) 0 (s256_x ctx))
                      (Some blk) ;;
      l_sha256_update_loop le fuel' ctx (skipn (Z.to_nat this_step) p)
    Else
      src <- l_rd_range p 0 this_step ;;
      x <- l_wr_range (s256_x ctx) (s256_num ctx) src ;;
      If u32 (this_step + s256_num ctx) <? 64 Then
        lret (mkSha256 (s256_h ctx) (s256_count ctx) (u32 (s256_num ctx + this_step)) x)
      Else
        ctx <- l_compress le (mkSha256 (s256_h ctx) (s256_count ctx) 0 x) None ;;
        l_sha256_update_loop le fuel' ctx (skipn (Z.to_nat this_step) p)
  end.

(** sha256.c:123-151 [ts_SHA256_update]; [src] is the [input_count] input bytes. *)
Definition l_ts_SHA256_update (le : bool) (ctx : sha256_ctx) (src : list Z)
  : leaky sha256_ctx :=
  let count := u64 (s256_count ctx + u64 (8 * zlen src)) in
  l_sha256_update_loop le (S (S (length src)))
    (mkSha256 (s256_h ctx) count (s256_num ctx) (s256_x ctx)) src.

(** sha256.c:160-181 [ts_SHA256_final_trunc]: returns the bytes written to [digest]
    and the final context. *)
Definition l_ts_SHA256_final_trunc (le : bool) (ctx : sha256_ctx) (n : Z)
  : leaky (list Z * sha256_ctx) :=
  finalcount <- l_ts_ull_to_bytes (s256_count ctx) 8 ;;
  ctx <- l_ts_SHA256_update le ctx [128] ;;
  ctx <- (If 56 <? s256_num ctx
          Then l_ts_SHA256_update le ctx [0;0;0;0;0;0;0;0]
          Else lret ctx) ;;
  x <- l_memset (s256_x ctx) (s256_num ctx) 0 (u32 (56 - s256_num ctx)) ;;
  ctx <- l_ts_SHA256_update le (mkSha256 (s256_h ctx) (s256_count ctx) 56 x) finalcount ;;
  digest <- l_for (Z.to_nat (n / 4)) 0 (fun i d =>
              w <- l_rd (s256_h ctx) i ;; b <- l_ts_ull_to_bytes w 4 ;; lret (d ++ b)) [] ;;
  lret (digest, ctx).

(** sha256.c:156-158 [ts_SHA256_final] *)
Definition l_ts_SHA256_final (le : bool) (ctx : sha256_ctx)
  : leaky (list Z * sha256_ctx) :=
  l_ts_SHA256_final_trunc le ctx 32.

(** sha256.c:183-187 [ts_SHA256_save_state]: the eight words written to [s]. *)
Definition l_ts_SHA256_save_state (ctx : sha256_ctx) : leaky (list Z) :=
  l_for 8 0 (fun i s => w <- l_rd (s256_h ctx) i ;; lret (s ++ [w])) [].

(** sha256.c:189-195 [ts_SHA256_restore_state_after_64] *)
Definition l_ts_SHA256_restore_state_after_64 (ctx : sha256_ctx) (s : list Z)
  : leaky sha256_ctx :=
  h <- l_for 8 0 (fun i h => w <- l_rd s i ;; l_wr h i w) (s256_h ctx) ;;
  lret (mkSha256 h (8 * 64) 0 (s256_x ctx)).

(** ** sha512.c *)

(** sha512.c:70 [ROR64c]: both shift counts are checked (the count of the left shift
    is 64 when the rotation is 0 mod 64). *)
Definition l_ROR64c (x y : Z) : leaky Z :=
  l <- l_shift_count 64 (64 - Z.land y 63) ;;
  lret (Z.lor (Z.shiftr (u64 x) (Z.land y 63)) (u64 (Z.shiftl (u64 x) l))).

(** sha512.c:71-78 *)
Definition l_Sigma0_64 (x : Z) : leaky Z :=
  a <- l_ROR64c x 28 ;; b <- l_ROR64c x 34 ;; c <- l_ROR64c x 39 ;; lret (Z.lxor (Z.lxor a b) c).
(** sha512.c:71-78 *)
Definition l_Sigma1_64 (x : Z) : leaky Z :=
  a <- l_ROR64c x 14 ;; b <- l_ROR64c x 18 ;; c <- l_ROR64c x 41 ;; lret (Z.lxor (Z.lxor a b) c).
(** sha512.c:71-78 *)
Definition l_Gamma0_64 (x : Z) : leaky Z :=
  a <- l_ROR64c x 1 ;; b <- l_ROR64c x 8 ;; lret (Z.lxor (Z.lxor a b) (R64 x 7)).
(** sha512.c:71-78 *)
Definition l_Gamma1_64 (x : Z) : leaky Z :=
  a <- l_ROR64c x 19 ;; b <- l_ROR64c x 61 ;; lret (Z.lxor (Z.lxor a b) (R64 x 6)).

(** sha512.c:95-99: load the block as 16 big-endian words into W.  [buf = None]
    means that [buf] is [ctx->x.data] itself, which overlaps W: each word is then
    read from the current contents of the union. *)
Definition l_sha512_load_W (le : bool) (buf : option (list Z)) (x : list Z)
  : leaky (list Z) :=
  l_for 16 0 (fun i x =>
    p <- l_rd_range (match buf with Some b => b | None => x end) (8 * i) 8 ;;
    v <- l_ts_bytes_to_ull p 8 ;;
    l_wr_word le 8 x 0 i (u64 v)) x.

(** sha512.c:103-119: one round, on W and the registers. *)
Definition l_sha512_round (le : bool) (i : Z) (st : list Z * regs64)
  : leaky (list Z * regs64) :=
  let '(x, r) := st in
  x <- (If 16 <=? i Then
          w2 <- l_rd_word le 8 x 0 (Z.land (i - 2) 15) ;;
          w7 <- l_rd_word le 8 x 0 (Z.land (i - 7) 15) ;;
          w15 <- l_rd_word le 8 x 0 (Z.land (i - 15) 15) ;;
          w16 <- l_rd_word le 8 x 0 (Z.land i 15) ;;
          g1 <- l_Gamma1_64 w2 ;;
          g0 <- l_Gamma0_64 w15 ;;
          l_wr_word le 8 x 0 (Z.land i 15) (u64 (g1 + w7 + g0 + w16))
        Else lret x) ;;
  s1 <- l_Sigma1_64 (T4 r) ;;
  k <- l_rd K512 i ;;
  w <- l_rd_word le 8 x 0 (Z.land i 15) ;;
  s0 <- l_Sigma0_64 (T0 r) ;;
  let t0 := u64 (T7 r + s1 + Ch64 (T4 r) (T5 r) (T6 r) + k + w) in
  let t1 := u64 (s0 + Maj64 (T0 r) (T1 r) (T2 r)) in
  lret (x, mkRegs64 (u64 (t0 + t1)) (T0 r) (T1 r) (T2 r) (u64 (T3 r + t0)) (T4 r) (T5 r) (T6 r)).

(** sha512.c:80-125 [sha512_compress] *)
Definition l_sha512_compress (le : bool) (ctx : sha512_ctx) (buf : option (list Z))
  : leaky sha512_ctx :=
  tick (Block 128) (
  let h := s512_h ctx in
  h0 <- l_rd h 0 ;; h1 <- l_rd h 1 ;; h2 <- l_rd h 2 ;; h3 <- l_rd h 3 ;;
  h4 <- l_rd h 4 ;; h5 <- l_rd h 5 ;; h6 <- l_rd h 6 ;; h7 <- l_rd h 7 ;;
  x <- l_sha512_load_W le buf (s512_x ctx) ;;
  '(x, r) <- l_for 80 0 (l_sha512_round le) (x, mkRegs64 h0 h1 h2 h3 h4 h5 h6 h7) ;;
  lret (mkSha512
        [u64 (h0 + T0 r); u64 (h1 + T1 r); u64 (h2 + T2 r); u64 (h3 + T3 r);
         u64 (h4 + T4 r); u64 (h5 + T5 r); u64 (h6 + T6 r); u64 (h7 + T7 r)]
        (s512_count ctx) (s512_num ctx) x)).

(** sha512.c:146-169: the loop of [ts_SHA512_update]; [p] is the rest of the input,
    [input_count] its length. *)
Fixpoint l_sha512_update_loop (le : bool) (fuel : nat) (ctx : sha512_ctx) (p : list Z)
  : leaky sha512_ctx :=
  match fuel with
  | O => lub NonTermination
  | S fuel' =>
    let input_count := zlen p in
    If input_count =? 0 Then lret ctx Else
    let step0 := u32 (128 - s512_num ctx) in
    this_step <- (If input_count <? step0 Then lret (u32 input_count) Else lret step0) ;;
    If this_step =? 128 Then
      (* the entire block comes directly from the data stream *)
      blk <- l_rd_range p 0 128 ;;
      ctx <- l_sha512_compress le (mkSha512 (s512_h ctx) (s512_count ctx) 0 (s512_x ctx))
                      (Some blk) ;;
      l_sha512_update_loop le fuel' ctx (skipn (Z.to_nat this_step) p)
    Else
      src <- l_rd_range p 0 this_step ;;
      x <- l_wr_range (s512_x ctx) (s512_num ctx) src ;;
      If u32 (this_step + s512_num ctx) <? 128 Then
        lret (mkSha512 (s512_h ctx) (s512_count ctx) (u32 (s512_num ctx + this_step)) x)
      Else
        ctx <- l_sha512_compress le (mkSha512 (s512_h ctx) (s512_count ctx) 0 x) None ;;
        l_sha512_update_loop le fuel' ctx (skipn (Z.to_nat this_step) p)
  end.

(** sha512.c:142-170 [ts_SHA512_update]; [src] is the [input_count] input bytes. *)
Definition l_ts_SHA512_update (le : bool) (ctx : sha512_ctx) (src : list Z)
  : leaky sha512_ctx :=
  let count := u64 (s512_count ctx + u64 (8 * zlen src)) in
  l_sha512_update_loop le (S (S (length src)))
    (mkSha512 (s512_h ctx) count (s512_num ctx) (s512_x ctx)) src.

(** sha512.c:179-200 [ts_SHA512_final_trunc]: returns the bytes written to [digest]
    and the final context. *)
Definition l_ts_SHA512_final_trunc (le : bool) (ctx : sha512_ctx) (n : Z)
  : leaky (list Z * sha512_ctx) :=
  finalcount <- l_ts_ull_to_bytes (s512_count ctx) 16 ;;
  ctx <- l_ts_SHA512_update le ctx [128] ;;
  ctx <- (If 112 <? s512_num ctx
          Then l_ts_SHA512_update le ctx [0;0;0;0;0;0;0;0;0;0;0;0;0;0;0;0]
          Else lret ctx) ;;
  x <- l_memset (s512_x ctx) (s512_num ctx) 0 (u32 (112 - s512_num ctx)) ;;
  ctx <- l_ts_SHA512_update le (mkSha512 (s512_h ctx) (s512_count ctx) 112 x) finalcount ;;
  digest <- l_for (Z.to_nat (n / 8)) 0 (fun i d =>
              w <- l_rd (s512_h ctx) i ;; b <- l_ts_ull_to_bytes w 8 ;; lret (d ++ b)) [] ;;
  lret (digest, ctx).

(** sha512.c:175-177 [ts_SHA512_final] *)
Definition l_ts_SHA512_final (le : bool) (ctx : sha512_ctx)
  : leaky (list Z * sha512_ctx) :=
  l_ts_SHA512_final_trunc le ctx 64.

(** sha512.c:202-206 [ts_SHA512_save_state]: the eight words written to [s]. *)
Definition l_ts_SHA512_save_state (ctx : sha512_ctx) : leaky (list Z) :=
  l_for 8 0 (fun i s => w <- l_rd (s512_h ctx) i ;; lret (s ++ [w])) [].

(** sha512.c:208-214 [ts_SHA512_restore_state_after_128] *)
Definition l_ts_SHA512_restore_state_after_128 (ctx : sha512_ctx) (s : list Z)
  : leaky sha512_ctx :=
  h <- l_for 8 0 (fun i h => w <- l_rd s i ;; l_wr h i w) (s512_h ctx) ;;
  lret (mkSha512 h (8 * 128) 0 (s512_x ctx)).
