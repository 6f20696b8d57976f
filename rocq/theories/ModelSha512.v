(** * Model of sha512.c (and the SHA-512 part of sha2.h) *)
From Verif Require Import CSem ModelEndian.

(** sha2.h:48-62 [SHA512_CTX].  The union [x] (128 bytes of [data] / 16 words [W])
    is kept as its 128 bytes; [W] is accessed in host byte order. *)
Record sha512_ctx := mkSha512 {
  s512_h : list Z;      (* uint64_t state[8] *)
  s512_count : Z;       (* uint64_t count *)
  s512_num : Z;         (* unsigned in_buffer *)
  s512_x : list Z       (* union { unsigned char data[128]; uint64_t W[16]; } x *)
}.

(** sha512.c:26-67 *)
Definition K512 : list Z := [
    0x428a2f98d728ae22; 0x7137449123ef65cd; 0xb5c0fbcfec4d3b2f; 0xe9b5dba58189dbbc;
    0x3956c25bf348b538; 0x59f111f1b605d019; 0x923f82a4af194f9b; 0xab1c5ed5da6d8118;
    0xd807aa98a3030242; 0x12835b0145706fbe; 0x243185be4ee4b28c; 0x550c7dc3d5ffb4e2;
    0x72be5d74f27b896f; 0x80deb1fe3b1696b1; 0x9bdc06a725c71235; 0xc19bf174cf692694;
    0xe49b69c19ef14ad2; 0xefbe4786384f25e3; 0x0fc19dc68b8cd5b5; 0x240ca1cc77ac9c65;
    0x2de92c6f592b0275; 0x4a7484aa6ea6e483; 0x5cb0a9dcbd41fbd4; 0x76f988da831153b5;
    0x983e5152ee66dfab; 0xa831c66d2db43210; 0xb00327c898fb213f; 0xbf597fc7beef0ee4;
    0xc6e00bf33da88fc2; 0xd5a79147930aa725; 0x06ca6351e003826f; 0x142929670a0e6e70;
    0x27b70a8546d22ffc; 0x2e1b21385c26c926; 0x4d2c6dfc5ac42aed; 0x53380d139d95b3df;
    0x650a73548baf63de; 0x766a0abb3c77b2a8; 0x81c2c92e47edaee6; 0x92722c851482353b;
    0xa2bfe8a14cf10364; 0xa81a664bbc423001; 0xc24b8b70d0f89791; 0xc76c51a30654be30;
    0xd192e819d6ef5218; 0xd69906245565a910; 0xf40e35855771202a; 0x106aa07032bbd1b8;
    0x19a4c116b8d2d0c8; 0x1e376c085141ab53; 0x2748774cdf8eeb99; 0x34b0bcb5e19b48a8;
    0x391c0cb3c5c95a63; 0x4ed8aa4ae3418acb; 0x5b9cca4f7763e373; 0x682e6ff3d6b2b8a3;
    0x748f82ee5defb2fc; 0x78a5636f43172f60; 0x84c87814a1f0ab72; 0x8cc702081a6439ec;
    0x90befffa23631e28; 0xa4506cebde82bde9; 0xbef9a3f7b2c67915; 0xc67178f2e372532b;
    0xca273eceea26619c; 0xd186b8c721c0c207; 0xeada7dd6cde0eb1e; 0xf57d4f7fee6ed178;
    0x06f067aa72176fba; 0x0a637dc5a2c898a6; 0x113f9804bef90dae; 0x1b710b35131c471b;
    0x28db77f523047d84; 0x32caab7b40c72493; 0x3c9ebe0a15c9bebc; 0x431d67c49c100d4c;
    0x4cc5d4becb3e42b6; 0x597f299cfc657e2a; 0x5fcb6fab3ad6faec; 0x6c44198c4a475817 ].

(** sha512.c:70 [ROR64c]: both shift counts are checked (the count of the left shift
    is 64 when the rotation is 0 mod 64). *)
Definition ROR64c (x y : Z) : outcome Z :=
  l <- shift_count 64 (64 - Z.land y 63) ;;
  Ok (Z.lor (Z.shiftr (u64 x) (Z.land y 63)) (u64 (Z.shiftl (u64 x) l))).

(** sha512.c:71-78 *)
Definition Ch64 (x y z : Z) : Z := Z.lxor z (Z.land x (Z.lxor y z)).
(** sha512.c:71-78 *)
Definition Maj64 (x y z : Z) : Z := Z.lxor z (Z.land (Z.lxor x z) (Z.lxor y z)).
(** sha512.c:71-78 *)
Definition R64 (x n : Z) : Z := Z.shiftr x n.
(** sha512.c:71-78 *)
Definition Sigma0_64 (x : Z) : outcome Z :=
  a <- ROR64c x 28 ;; b <- ROR64c x 34 ;; c <- ROR64c x 39 ;; Ok (Z.lxor (Z.lxor a b) c).
(** sha512.c:71-78 *)
Definition Sigma1_64 (x : Z) : outcome Z :=
  a <- ROR64c x 14 ;; b <- ROR64c x 18 ;; c <- ROR64c x 41 ;; Ok (Z.lxor (Z.lxor a b) c).
(** sha512.c:71-78 *)
Definition Gamma0_64 (x : Z) : outcome Z :=
  a <- ROR64c x 1 ;; b <- ROR64c x 8 ;; Ok (Z.lxor (Z.lxor a b) (R64 x 7)).
(** sha512.c:71-78 *)
Definition Gamma1_64 (x : Z) : outcome Z :=
  a <- ROR64c x 19 ;; b <- ROR64c x 61 ;; Ok (Z.lxor (Z.lxor a b) (R64 x 6)).

(** sha512.c:81: the eight words S[0..7] of [sha512_compress] (indexed by literals
    only, hence a record). *)
Record regs64 := mkRegs64 { T0 : Z; T1 : Z; T2 : Z; T3 : Z; T4 : Z; T5 : Z; T6 : Z; T7 : Z }.

(** sha512.c:95-99: load the block as 16 big-endian words into W.  [buf = None]
    means that [buf] is [ctx->x.data] itself, which overlaps W: each word is then
    read from the current contents of the union. *)
Definition sha512_load_W (le : bool) (buf : option (list Z)) (x : list Z)
  : outcome (list Z) :=
  for_loop 16 0 (fun i x =>
    p <- rd_range (match buf with Some b => b | None => x end) (8 * i) 8 ;;
    v <- ts_bytes_to_ull p 8 ;;
    wr_word le 8 x 0 i (u64 v)) x.

(** sha512.c:103-119: one round, on W and the registers. *)
Definition sha512_round (le : bool) (i : Z) (st : list Z * regs64)
  : outcome (list Z * regs64) :=
  let '(x, r) := st in
  x <- (if 16 <=? i then
          w2 <- rd_word le 8 x 0 (Z.land (i - 2) 15) ;;
          w7 <- rd_word le 8 x 0 (Z.land (i - 7) 15) ;;
          w15 <- rd_word le 8 x 0 (Z.land (i - 15) 15) ;;
          w16 <- rd_word le 8 x 0 (Z.land i 15) ;;
          g1 <- Gamma1_64 w2 ;;
          g0 <- Gamma0_64 w15 ;;
          wr_word le 8 x 0 (Z.land i 15) (u64 (g1 + w7 + g0 + w16))
        else Ok x) ;;
  s1 <- Sigma1_64 (T4 r) ;;
  k <- rd K512 i ;;
  w <- rd_word le 8 x 0 (Z.land i 15) ;;
  s0 <- Sigma0_64 (T0 r) ;;
  let t0 := u64 (T7 r + s1 + Ch64 (T4 r) (T5 r) (T6 r) + k + w) in
  let t1 := u64 (s0 + Maj64 (T0 r) (T1 r) (T2 r)) in
  Ok (x, mkRegs64 (u64 (t0 + t1)) (T0 r) (T1 r) (T2 r) (u64 (T3 r + t0)) (T4 r) (T5 r) (T6 r)).

(** sha512.c:80-125 [sha512_compress] *)
Definition sha512_compress (le : bool) (ctx : sha512_ctx) (buf : option (list Z))
  : outcome sha512_ctx :=
  let h := s512_h ctx in
  h0 <- rd h 0 ;; h1 <- rd h 1 ;; h2 <- rd h 2 ;; h3 <- rd h 3 ;;
  h4 <- rd h 4 ;; h5 <- rd h 5 ;; h6 <- rd h 6 ;; h7 <- rd h 7 ;;
  x <- sha512_load_W le buf (s512_x ctx) ;;
  '(x, r) <- for_loop 80 0 (sha512_round le) (x, mkRegs64 h0 h1 h2 h3 h4 h5 h6 h7) ;;
  Ok (mkSha512
        [u64 (h0 + T0 r); u64 (h1 + T1 r); u64 (h2 + T2 r); u64 (h3 + T3 r);
         u64 (h4 + T4 r); u64 (h5 + T5 r); u64 (h6 + T6 r); u64 (h7 + T7 r)]
        (s512_count ctx) (s512_num ctx) x).

(** sha512.c:129-136 *)
Definition sha512_init_h : list Z :=
  [0x6a09e667f3bcc908; 0xbb67ae8584caa73b; 0x3c6ef372fe94f82b; 0xa54ff53a5f1d36f1;
   0x510e527fade682d1; 0x9b05688c2b3e6c1f; 0x1f83d9abfb41bd6b; 0x5be0cd19137e2179].

(** sha512.c:127-140 [ts_SHA512_init]: the data buffer is left as it is. *)
Definition ts_SHA512_init (ctx : sha512_ctx) : sha512_ctx :=
  mkSha512 sha512_init_h 0 0 (s512_x ctx).

(** sha512.c:146-169: the loop of [ts_SHA512_update]; [p] is the rest of the input,
    [input_count] its length. *)
Fixpoint sha512_update_loop (le : bool) (fuel : nat) (ctx : sha512_ctx) (p : list Z)
  : outcome sha512_ctx :=
  match fuel with
  | O => UB NonTermination
  | S fuel' =>
    let input_count := zlen p in
    if input_count =? 0 then Ok ctx else
    let step0 := u32 (128 - s512_num ctx) in
    let this_step := if input_count <? step0 then u32 input_count else step0 in
    if this_step =? 128 then
      (* the entire block comes directly from the data stream *)
      blk <- rd_range p 0 128 ;;
      ctx <- sha512_compress le (mkSha512 (s512_h ctx) (s512_count ctx) 0 (s512_x ctx))
                      (Some blk) ;;
      sha512_update_loop le fuel' ctx (skipn (Z.to_nat this_step) p)
    else
      src <- rd_range p 0 this_step ;;
      x <- wr_range (s512_x ctx) (s512_num ctx) src ;;
      if u32 (this_step + s512_num ctx) <? 128 then
        Ok (mkSha512 (s512_h ctx) (s512_count ctx) (u32 (s512_num ctx + this_step)) x)
      else
        ctx <- sha512_compress le (mkSha512 (s512_h ctx) (s512_count ctx) 0 x) None ;;
        sha512_update_loop le fuel' ctx (skipn (Z.to_nat this_step) p)
  end.

(** sha512.c:142-170 [ts_SHA512_update]; [src] is the [input_count] input bytes. *)
Definition ts_SHA512_update (le : bool) (ctx : sha512_ctx) (src : list Z)
  : outcome sha512_ctx :=
  let count := u64 (s512_count ctx + u64 (8 * zlen src)) in
  sha512_update_loop le (S (S (length src)))
    (mkSha512 (s512_h ctx) count (s512_num ctx) (s512_x ctx)) src.

(** sha512.c:179-200 [ts_SHA512_final_trunc]: returns the bytes written to [digest]
    and the final context. *)
Definition ts_SHA512_final_trunc (le : bool) (ctx : sha512_ctx) (n : Z)
  : outcome (list Z * sha512_ctx) :=
  let finalcount := ts_ull_to_bytes (s512_count ctx) 16 in
  ctx <- ts_SHA512_update le ctx [128] ;;
  ctx <- (if 112 <? s512_num ctx
          then ts_SHA512_update le ctx [0;0;0;0;0;0;0;0;0;0;0;0;0;0;0;0]
          else Ok ctx) ;;
  x <- memset (s512_x ctx) (s512_num ctx) 0 (u32 (112 - s512_num ctx)) ;;
  ctx <- ts_SHA512_update le (mkSha512 (s512_h ctx) (s512_count ctx) 112 x) finalcount ;;
  digest <- for_loop (Z.to_nat (n / 8)) 0 (fun i d =>
              w <- rd (s512_h ctx) i ;; Ok (d ++ ts_ull_to_bytes w 8)) [] ;;
  Ok (digest, ctx).

(** sha512.c:175-177 [ts_SHA512_final] *)
Definition ts_SHA512_final (le : bool) (ctx : sha512_ctx)
  : outcome (list Z * sha512_ctx) :=
  ts_SHA512_final_trunc le ctx 64.

(** sha512.c:202-206 [ts_SHA512_save_state]: the eight words written to [s]. *)
Definition ts_SHA512_save_state (ctx : sha512_ctx) : outcome (list Z) :=
  for_loop 8 0 (fun i s => w <- rd (s512_h ctx) i ;; Ok (s ++ [w])) [].

(** sha512.c:208-214 [ts_SHA512_restore_state_after_128] *)
Definition ts_SHA512_restore_state_after_128 (ctx : sha512_ctx) (s : list Z)
  : outcome sha512_ctx :=
  h <- for_loop 8 0 (fun i h => w <- rd s i ;; wr h i w) (s512_h ctx) ;;
  Ok (mkSha512 h (8 * 128) 0 (s512_x ctx)).
