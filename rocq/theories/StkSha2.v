(** * The model of endian.c, sha256.c and sha512.c, with the storage each call takes

    ModelEndian, ModelSha256 and ModelSha512 once more, statement by statement, with the
    operations of CStack.  Each function of the C source is a [call]: the number is the sum
    of the sizes of its parameters and of all variables it declares, in the order of the
    comment beside it (those of inner blocks count as if they lived until the function
    returns, which can only make the sum larger; [static const] tables do not count, nor do
    registers, return addresses and padding).  [P] is the size of a pointer, of [size_t] and
    of [unsigned long]; [int], [unsigned] and enumerations have 4 bytes, [uint64_t] and
    [unsigned long long] 8.  The outcomes are those of the model (PfStkErase).  Each
    definition models the lines of /repo that its namesake (without k_) cites. *)
From Verif Require Import CSem CStack ModelEndian ModelSha256 ModelSha512.
Open Scope stack_scope.

Section Stack.
(** The size of a pointer *)
Variable P : Z.

(** endian.c:7-13 [ts_bytes_to_ull] *)
Definition k_ts_bytes_to_ull (p : list Z) (n : Z) : stacked Z :=
  call (P + 4 + (8 + 4))   (* p, n; res, i *)
  (k_for (Z.to_nat n) 0
    (fun i res => b <- k_rd p i ;; kret (u64 (256 * res + b))) 0).
(** endian.c:19-24 [ts_ull_to_bytes]: n passes, one byte each *)
Definition k_ts_ull_to_bytes (val : Z) (n : Z) : stacked (list Z) :=
  call (P + 8 + 4 + 4)   (* p, val, n; i *)
  ((kret (ts_ull_to_bytes val n))).

(** ** sha256.c *)

(** sha256.c:40-45 [RORc] *)
Definition k_RORc (x rot0 : Z) : stacked Z :=
  call (4 + 4 + (P + P))   (* x, rot; right, left (unsigned long) *)
  (let rot := Z.land rot0 31 in
  If rot =? 0 Then kret x Else
  (kret (RORc x rot0))).
(** sha256.c:46-53 *)
Definition k_Sigma0_32 (x : Z) : stacked Z :=
  a <- k_RORc x 2 ;; b <- k_RORc x 13 ;; c <- k_RORc x 22 ;; kret (Z.lxor (Z.lxor a b) c).
(** sha256.c:46-53 *)
Definition k_Sigma1_32 (x : Z) : stacked Z :=
  a <- k_RORc x 6 ;; b <- k_RORc x 11 ;; c <- k_RORc x 25 ;; kret (Z.lxor (Z.lxor a b) c).
(** sha256.c:46-53 *)
Definition k_Gamma0_32 (x : Z) : stacked Z :=
  a <- k_RORc x 7 ;; b <- k_RORc x 18 ;; kret (Z.lxor (Z.lxor a b) (R32 x 3)).
(** sha256.c:46-53 *)
Definition k_Gamma1_32 (x : Z) : stacked Z :=
  a <- k_RORc x 17 ;; b <- k_RORc x 19 ;; kret (Z.lxor (Z.lxor a b) (R32 x 10)).

(** sha256.c:75-79: load the block as 16 big-endian words into W.  [buf = None]
    means that [buf] is [ctx->x.data] itself, which overlaps W: each word is then
    read from the current contents of the union. *)
Definition k_sha256_load_W (le : bool) (buf : option (list Z)) (x : list Z)
  : stacked (list Z) :=
  k_for 16 0 (fun i x =>
    p <- k_rd_range (match buf with Some b => b | None => x end) (4 * i) 4 ;;
    v <- k_ts_bytes_to_ull p 4 ;;
    k_wr_word le 4 x 0 i (u32 v)) x.

(** sha256.c:88-96: one round (the RND macro inlined), on W and the registers. *)
Definition k_sha256_round (le : bool) (i : Z) (st : list Z * regs)
  : stacked (list Z * regs) :=
  let '(x, r) := st in
  x <- (If 16 <=? i Then
          w2 <- k_rd_word le 4 x 0 (Z.land (i - 2) 15) ;;
          w7 <- k_rd_word le 4 x 0 (Z.land (i - 7) 15) ;;
          w15 <- k_rd_word le 4 x 0 (Z.land (i - 15) 15) ;;
          w16 <- k_rd_word le 4 x 0 (Z.land (i - 16) 15) ;;
          g1 <- k_Gamma1_32 w2 ;;
          g0 <- k_Gamma0_32 w15 ;;
          k_wr_word le 4 x 0 (Z.land i 15)
            (u32 (g1 + w7 + g0 + w16))
        Else kret x) ;;
  k <- k_rd K256 i ;;
  w <- k_rd_word le 4 x 0 (Z.land i 15) ;;
  s1 <- k_Sigma1_32 (S4 r) ;;
  s0 <- k_Sigma0_32 (S0 r) ;;
  let t0 := u32 (S7 r + s1 + Ch32 (S4 r) (S5 r) (S6 r) + k + w) in
  let t1 := u32 (s0 + Maj32 (S0 r) (S1 r) (S2 r)) in
  let s3 := u32 (S3 r + t0) in
  let s7 := u32 (t0 + t1) in
  kret (x, mkRegs s7 (S0 r) (S1 r) (S2 r) s3 (S4 r) (S5 r) (S6 r)).

(** sha256.c:55-108 [compress] *)
Definition k_compress (le : bool) (ctx : sha256_ctx) (buf : option (list Z))
  : stacked sha256_ctx :=
  call (P + P + (11 * 4 + 4 + P))   (* ctx, buf; S0 to S7, t0, t1, t, i, p *)
  ((
  let h := s256_h ctx in
  h0 <- k_rd h 0 ;; h1 <- k_rd h 1 ;; h2 <- k_rd h 2 ;; h3 <- k_rd h 3 ;;
  h4 <- k_rd h 4 ;; h5 <- k_rd h 5 ;; h6 <- k_rd h 6 ;; h7 <- k_rd h 7 ;;
  x <- k_sha256_load_W le buf (s256_x ctx) ;;
  '(x, r) <- k_for 64 0 (k_sha256_round le) (x, mkRegs h0 h1 h2 h3 h4 h5 h6 h7) ;;
  kret (mkSha256
        [u32 (h0 + S0 r); u32 (h1 + S1 r); u32 (h2 + S2 r); u32 (h3 + S3 r);
         u32 (h4 + S4 r); u32 (h5 + S5 r); u32 (h6 + S6 r); u32 (h7 + S7 r)]
        (s256_count ctx) (s256_num ctx) x))).

(** sha256.c:127-150: the loop of [ts_SHA256_update]; [p] is the rest of the input,
    [input_count] its length. *)
Fixpoint k_sha256_update_loop (le : bool) (fuel : nat) (ctx : sha256_ctx) (p : list Z)
  : stacked sha256_ctx :=
  match fuel with
  | O => kub NonTermination
  | S fuel' =>
    let input_count := zlen p in
    If input_count =? 0 Then kret ctx Else
    let step0 := u32 (64 - s256_num ctx) in
    this_step <- (If input_count <? step0 Then kret (u32 input_count) Else kret step0) ;;
    If this_step =? 64 Then
      (* the entire block comes directly from the data stream *)
      blk <- k_rd_range p 0 64 ;;
      ctx <- k_compress le (mkSha256 (s256_h ctx) (s256_count ctx) 0 (s256_x ctx))
                      (Some blk) ;;
      k_sha256_update_loop le fuel' ctx (skipn (Z.to_nat this_step) p)
    Else
      src <- k_rd_range p 0 this_step ;;
      x <- k_wr_range (s256_x ctx) (s256_num ctx) src ;;
      If u32 (this_step + s256_num ctx) <? 64 Then
        kret (mkSha256 (s256_h ctx) (s256_count ctx) (u32 (s256_num ctx + this_step)) x)
      Else
        ctx <- k_compress le (mkSha256 (s256_h ctx) (s256_count ctx) 0 x) None ;;
        k_sha256_update_loop le fuel' ctx (skipn (Z.to_nat this_step) p)
  end.

(** sha256.c:123-151 [ts_SHA256_update]; [src] is the [input_count] input bytes. *)
Definition k_ts_SHA256_update (le : bool) (ctx : sha256_ctx) (src : list Z)
  : stacked sha256_ctx :=
  call (P + P + 8 + (P + 4 + P))   (* ctx, src, input_count; p, this_step, this_block *)
  (let count := u64 (s256_count ctx + u64 (8 * zlen src)) in
  k_sha256_update_loop le (S (S (length src)))
    (mkSha256 (s256_h ctx) count (s256_num ctx) (s256_x ctx)) src).

(** sha256.c:160-181 [ts_SHA256_final_trunc]: returns the bytes written to [digest]
    and the final context. *)
Definition k_ts_SHA256_final_trunc (le : bool) (ctx : sha256_ctx) (n : Z)
  : stacked (list Z * sha256_ctx) :=
  call (P + P + 4 + (8 + 4))   (* digest, ctx, n; finalcount, i *)
  (finalcount <- k_ts_ull_to_bytes (s256_count ctx) 8 ;;
  ctx <- k_ts_SHA256_update le ctx [128] ;;
  ctx <- (If 56 <? s256_num ctx
          Then k_ts_SHA256_update le ctx [0;0;0;0;0;0;0;0]
          Else kret ctx) ;;
  x <- k_memset (s256_x ctx) (s256_num ctx) 0 (u32 (56 - s256_num ctx)) ;;
  ctx <- k_ts_SHA256_update le (mkSha256 (s256_h ctx) (s256_count ctx) 56 x) finalcount ;;
  digest <- k_for (Z.to_nat (n / 4)) 0 (fun i d =>
              w <- k_rd (s256_h ctx) i ;; b <- k_ts_ull_to_bytes w 4 ;; kret (d ++ b)) [] ;;
  kret (digest, ctx)).

(** sha256.c:156-158 [ts_SHA256_final] *)
Definition k_ts_SHA256_final (le : bool) (ctx : sha256_ctx)
  : stacked (list Z * sha256_ctx) :=
  call (P + P)   (* digest, ctx *)
  (k_ts_SHA256_final_trunc le ctx 32).

(** sha256.c:183-187 [ts_SHA256_save_state]: the eight words written to [s]. *)
Definition k_ts_SHA256_save_state (ctx : sha256_ctx) : stacked (list Z) :=
  call (P + P + 4)   (* s, ctx; i *)
  (k_for 8 0 (fun i s => w <- k_rd (s256_h ctx) i ;; kret (s ++ [w])) []).

(** sha256.c:189-195 [ts_SHA256_restore_state_after_64] *)
Definition k_ts_SHA256_restore_state_after_64 (ctx : sha256_ctx) (s : list Z)
  : stacked sha256_ctx :=
  call (P + P + 4)   (* ctx, s; i *)
  (h <- k_for 8 0 (fun i h => w <- k_rd s i ;; k_wr h i w) (s256_h ctx) ;;
  kret (mkSha256 h (8 * 64) 0 (s256_x ctx))).

(** ** sha512.c *)

(** sha512.c:70 [ROR64c]: both shift counts are checked (the count of the left shift
    is 64 when the rotation is 0 mod 64). *)
Definition k_ROR64c (x y : Z) : stacked Z :=
  l <- k_shift_count 64 (64 - Z.land y 63) ;;
  kret (Z.lor (Z.shiftr (u64 x) (Z.land y 63)) (u64 (Z.shiftl (u64 x) l))).

(** sha512.c:71-78 *)
Definition k_Sigma0_64 (x : Z) : stacked Z :=
  a <- k_ROR64c x 28 ;; b <- k_ROR64c x 34 ;; c <- k_ROR64c x 39 ;; kret (Z.lxor (Z.lxor a b) c).
(** sha512.c:71-78 *)
Definition k_Sigma1_64 (x : Z) : stacked Z :=
  a <- k_ROR64c x 14 ;; b <- k_ROR64c x 18 ;; c <- k_ROR64c x 41 ;; kret (Z.lxor (Z.lxor a b) c).
(** sha512.c:71-78 *)
Definition k_Gamma0_64 (x : Z) : stacked Z :=
  a <- k_ROR64c x 1 ;; b <- k_ROR64c x 8 ;; kret (Z.lxor (Z.lxor a b) (R64 x 7)).
(** sha512.c:71-78 *)
Definition k_Gamma1_64 (x : Z) : stacked Z :=
  a <- k_ROR64c x 19 ;; b <- k_ROR64c x 61 ;; kret (Z.lxor (Z.lxor a b) (R64 x 6)).

(** sha512.c:95-99: load the block as 16 big-endian words into W.  [buf = None]
    means that [buf] is [ctx->x.data] itself, which overlaps W: each word is then
    read from the current contents of the union. *)
Definition k_sha512_load_W (le : bool) (buf : option (list Z)) (x : list Z)
  : stacked (list Z) :=
  k_for 16 0 (fun i x =>
    p <- k_rd_range (match buf with Some b => b | None => x end) (8 * i) 8 ;;
    v <- k_ts_bytes_to_ull p 8 ;;
    k_wr_word le 8 x 0 i (u64 v)) x.

(** sha512.c:103-119: one round, on W and the registers. *)
Definition k_sha512_round (le : bool) (i : Z) (st : list Z * regs64)
  : stacked (list Z * regs64) :=
  let '(x, r) := st in
  x <- (If 16 <=? i Then
          w2 <- k_rd_word le 8 x 0 (Z.land (i - 2) 15) ;;
          w7 <- k_rd_word le 8 x 0 (Z.land (i - 7) 15) ;;
          w15 <- k_rd_word le 8 x 0 (Z.land (i - 15) 15) ;;
          w16 <- k_rd_word le 8 x 0 (Z.land i 15) ;;
          g1 <- k_Gamma1_64 w2 ;;
          g0 <- k_Gamma0_64 w15 ;;
          k_wr_word le 8 x 0 (Z.land i 15) (u64 (g1 + w7 + g0 + w16))
        Else kret x) ;;
  s1 <- k_Sigma1_64 (T4 r) ;;
  k <- k_rd K512 i ;;
  w <- k_rd_word le 8 x 0 (Z.land i 15) ;;
  s0 <- k_Sigma0_64 (T0 r) ;;
  let t0 := u64 (T7 r + s1 + Ch64 (T4 r) (T5 r) (T6 r) + k + w) in
  let t1 := u64 (s0 + Maj64 (T0 r) (T1 r) (T2 r)) in
  kret (x, mkRegs64 (u64 (t0 + t1)) (T0 r) (T1 r) (T2 r) (u64 (T3 r + t0)) (T4 r) (T5 r) (T6 r)).

(** sha512.c:80-125 [sha512_compress] *)
Definition k_sha512_compress (le : bool) (ctx : sha512_ctx) (buf : option (list Z))
  : stacked sha512_ctx :=
  call (P + P + (8 * 8 + 8 + 8 + 4 + P))   (* ctx, buf; S, t0, t1, i, p *)
  ((
  let h := s512_h ctx in
  h0 <- k_rd h 0 ;; h1 <- k_rd h 1 ;; h2 <- k_rd h 2 ;; h3 <- k_rd h 3 ;;
  h4 <- k_rd h 4 ;; h5 <- k_rd h 5 ;; h6 <- k_rd h 6 ;; h7 <- k_rd h 7 ;;
  x <- k_sha512_load_W le buf (s512_x ctx) ;;
  '(x, r) <- k_for 80 0 (k_sha512_round le) (x, mkRegs64 h0 h1 h2 h3 h4 h5 h6 h7) ;;
  kret (mkSha512
        [u64 (h0 + T0 r); u64 (h1 + T1 r); u64 (h2 + T2 r); u64 (h3 + T3 r);
         u64 (h4 + T4 r); u64 (h5 + T5 r); u64 (h6 + T6 r); u64 (h7 + T7 r)]
        (s512_count ctx) (s512_num ctx) x))).

(** sha512.c:146-169: the loop of [ts_SHA512_update]; [p] is the rest of the input,
    [input_count] its length. *)
Fixpoint k_sha512_update_loop (le : bool) (fuel : nat) (ctx : sha512_ctx) (p : list Z)
  : stacked sha512_ctx :=
  match fuel with
  | O => kub NonTermination
  | S fuel' =>
    let input_count := zlen p in
    If input_count =? 0 Then kret ctx Else
    let step0 := u32 (128 - s512_num ctx) in
    this_step <- (If input_count <? step0 Then kret (u32 input_count) Else kret step0) ;;
    If this_step =? 128 Then
      (* the entire block comes directly from the data stream *)
      blk <- k_rd_range p 0 128 ;;
      ctx <- k_sha512_compress le (mkSha512 (s512_h ctx) (s512_count ctx) 0 (s512_x ctx))
                      (Some blk) ;;
      k_sha512_update_loop le fuel' ctx (skipn (Z.to_nat this_step) p)
    Else
      src <- k_rd_range p 0 this_step ;;
      x <- k_wr_range (s512_x ctx) (s512_num ctx) src ;;
      If u32 (this_step + s512_num ctx) <? 128 Then
        kret (mkSha512 (s512_h ctx) (s512_count ctx) (u32 (s512_num ctx + this_step)) x)
      Else
        ctx <- k_sha512_compress le (mkSha512 (s512_h ctx) (s512_count ctx) 0 x) None ;;
        k_sha512_update_loop le fuel' ctx (skipn (Z.to_nat this_step) p)
  end.

(** sha512.c:142-170 [ts_SHA512_update]; [src] is the [input_count] input bytes. *)
Definition k_ts_SHA512_update (le : bool) (ctx : sha512_ctx) (src : list Z)
  : stacked sha512_ctx :=
  call (P + P + 8 + (P + 4 + P))   (* ctx, src, input_count; p, this_step, this_block *)
  (let count := u64 (s512_count ctx + u64 (8 * zlen src)) in
  k_sha512_update_loop le (S (S (length src)))
    (mkSha512 (s512_h ctx) count (s512_num ctx) (s512_x ctx)) src).

(** sha512.c:179-200 [ts_SHA512_final_trunc]: returns the bytes written to [digest]
    and the final context. *)
Definition k_ts_SHA512_final_trunc (le : bool) (ctx : sha512_ctx) (n : Z)
  : stacked (list Z * sha512_ctx) :=
  call (P + P + 4 + (16 + 4))   (* digest, ctx, n; finalcount, i *)
  (finalcount <- k_ts_ull_to_bytes (s512_count ctx) 16 ;;
  ctx <- k_ts_SHA512_update le ctx [128] ;;
  ctx <- (If 112 <? s512_num ctx
          Then k_ts_SHA512_update le ctx [0;0;0;0;0;0;0;0;0;0;0;0;0;0;0;0]
          Else kret ctx) ;;
  x <- k_memset (s512_x ctx) (s512_num ctx) 0 (u32 (112 - s512_num ctx)) ;;
  ctx <- k_ts_SHA512_update le (mkSha512 (s512_h ctx) (s512_count ctx) 112 x) finalcount ;;
  digest <- k_for (Z.to_nat (n / 8)) 0 (fun i d =>
              w <- k_rd (s512_h ctx) i ;; b <- k_ts_ull_to_bytes w 8 ;; kret (d ++ b)) [] ;;
  kret (digest, ctx)).

(** sha512.c:175-177 [ts_SHA512_final] *)
Definition k_ts_SHA512_final (le : bool) (ctx : sha512_ctx)
  : stacked (list Z * sha512_ctx) :=
  call (P + P)   (* digest, ctx *)
  (k_ts_SHA512_final_trunc le ctx 64).

(** sha512.c:202-206 [ts_SHA512_save_state]: the eight words written to [s]. *)
Definition k_ts_SHA512_save_state (ctx : sha512_ctx) : stacked (list Z) :=
  call (P + P + 4)   (* s, ctx; i *)
  (k_for 8 0 (fun i s => w <- k_rd (s512_h ctx) i ;; kret (s ++ [w])) []).

(** sha512.c:208-214 [ts_SHA512_restore_state_after_128] *)
Definition k_ts_SHA512_restore_state_after_128 (ctx : sha512_ctx) (s : list Z)
  : stacked sha512_ctx :=
  call (P + P + 4)   (* ctx, s; i *)
  (h <- k_for 8 0 (fun i h => w <- k_rd s i ;; k_wr h i w) (s512_h ctx) ;;
  kret (mkSha512 h (8 * 128) 0 (s512_x ctx))).

(** sha256.c:113-121 [ts_SHA256_init] *)
Definition k_ts_SHA256_init (ctx : sha256_ctx) : stacked sha256_ctx :=
  call P   (* ctx *)
  (kret (ts_SHA256_init ctx)).
(** sha512.c:127-140 [ts_SHA512_init] *)
Definition k_ts_SHA512_init (ctx : sha512_ctx) : stacked sha512_ctx :=
  call P   (* ctx *)
  (kret (ts_SHA512_init ctx)).
End Stack.
