(** * The model of fips202.c, with the storage each call takes

    ModelFips202 once more with the operations of CStack (see StkSha2). *)
From Verif Require Import CSem CStack ModelFips202.
Open Scope stack_scope.

Section Stack.
(** The size of a pointer *)
Variable P : Z.

(** fips202.c:35-37 [ROL] (static function on uint64_t): both shift counts checked. *)
Definition k_ROL (a offset : Z) : stacked Z :=
  call (8 + 4)   (* a, offset *)
  (k <- k_shift_count 64 offset ;;
  k' <- k_shift_count 64 (64 - offset) ;;
  kret (Z.lxor (u64 (Z.shiftl a k)) (Z.shiftr a k'))).

(** Evaluation of an expression in iteration [round]. *)
(** fips202.c:145-333 *)
Fixpoint k_keval (round : Z) (env : kenv) (e : kexpr) : stacked Z :=
  match e with
  | EVar (Mat i) => k_rd (k_mat env) i
  | EVar (Loc i) =>
      o <- k_rd (k_loc env) i ;;
      match o with Some v => kret v | None => kub Uninitialised end
  | EXor a b => x <- k_keval round env a ;; y <- k_keval round env b ;; kret (Z.lxor x y)
  | EAnd a b => x <- k_keval round env a ;; y <- k_keval round env b ;; kret (Z.land x y)
  | ENot a => x <- k_keval round env a ;; kret (not64 x)
  | ERol v k =>
      x <- match v with
           | Mat i => k_rd (k_mat env) i
           | Loc i => o <- k_rd (k_loc env) i ;;
                      match o with Some v => kret v | None => kub Uninitialised end
           end ;; k_ROL x k
  | ERC k => k_rd KeccakF_RoundConstants (round + k)
  end.

(** Execution of one assignment. *)
(** fips202.c:145-333 *)
Definition k_kexec (round : Z) (env : kenv) (s : kstmt) : stacked kenv :=
  let '(Assign v e) := s in
  x <- k_keval round env e ;;
  match v with
  | Mat i => m <- k_wr (k_mat env) i x ;; kret (mkKenv m (k_loc env))
  | Loc i => l <- k_wr (k_loc env) i (Some x) ;; kret (mkKenv (k_mat env) l)
  end.

(** Execution of a statement list. *)
(** fips202.c:145-333 *)
Fixpoint k_kexecs (round : Z) (env : kenv) (l : list kstmt) : stacked kenv :=
  match l with
  | [] => kret env
  | s :: l' => env' <- k_kexec round env s ;; k_kexecs round env' l'
  end.

(** fips202.c:144-334: [for (round = 0; round < NROUNDS; round += 2)].  The local
    variables keep their values from one iteration to the next. *)
Definition k_keccak_rounds_01 (env : kenv) : stacked kenv :=
  k_for (Z.to_nat ((NROUNDS + 1) / 2)) 0 (fun i env => k_kexecs (2 * i) env KeccakText.body) env.

(** fips202.c:67-364 with TS_SHAKE256_OPT 0: copy in, rounds, copy out. *)
Definition k_KeccakF1600_opt0 (state : list Z) : stacked (list Z) :=
  call (P + (4 + 60 * 8))   (* state; round, BCa to BCu, Da to Du, Eba to Esu, Aba to Asu *)
  (a <- k_rd_range state 0 25 ;;
  env <- k_keccak_rounds_01 (mkKenv a no_locals) ;;
  k_wr_range state 0 (k_mat env)).

(** fips202.c:67-364 with TS_SHAKE256_OPT 1: the lanes are the state itself. *)
Definition k_KeccakF1600_opt1 (state : list Z) : stacked (list Z) :=
  call (P + (4 + 35 * 8))   (* state; round, BCa to BCu, Da to Du, Eba to Esu *)
  (env <- k_keccak_rounds_01 (mkKenv state no_locals) ;;
  kret (k_mat env)).

(** ** TS_SHAKE256_OPT 2 *)

(** [bc[i]], for the local array [bc] (None: never assigned). *)
(** fips202.c:392-421 *)
Definition k_rd_bc (bc : list (option Z)) (i : Z) : stacked Z :=
  o <- k_rd bc i ;;
  match o with Some v => kret v | None => kub Uninitialised end.

(** fips202.c:397-405 Theta: [bc] then the five columns. *)
Definition k_opt2_theta (s : list Z * list (option Z)) : stacked (list Z * list (option Z)) :=
  let '(st, bc) := s in
  bc <- k_for 5 0 (fun i bc =>
    a <- k_rd st i ;; b <- k_rd st (i + 5) ;; c <- k_rd st (i + 10) ;;
    d <- k_rd st (i + 15) ;; e <- k_rd st (i + 20) ;;
    k_wr bc i (Some (Z.lxor (Z.lxor (Z.lxor (Z.lxor a b) c) d) e))) bc ;;
  st <- k_for 5 0 (fun i st =>
    x <- k_rd_bc bc ((i + 4) mod 5) ;;
    y <- k_rd_bc bc ((i + 1) mod 5) ;;
    y' <- k_ROL y 1 ;;
    let t := Z.lxor x y' in
    k_for 5 0 (fun j5 st =>
      let j := 5 * j5 in
      v <- k_rd st (j + i) ;; k_wr st (j + i) (Z.lxor v t)) st) st ;;
  kret (st, bc).

(** fips202.c:407-414 Rho Pi *)
Definition k_opt2_rhopi (s : list Z * list (option Z)) : stacked (list Z * list (option Z)) :=
  let '(st, bc) := s in
  t <- k_rd st 1 ;;
  '(st, bc, t) <- k_for 24 0 (fun i '(st, bc, t) =>
    j <- k_rd keccakf_piln i ;;
    v <- k_rd st j ;;
    bc <- k_wr bc 0 (Some v) ;;
    r <- k_rd keccakf_rotc i ;;
    x <- k_ROL t r ;;
    st <- k_wr st j x ;;
    t <- k_rd_bc bc 0 ;;
    kret (st, bc, t)) (st, bc, t) ;;
  kret (st, bc).

(** fips202.c:416-422 Chi *)
Definition k_opt2_chi (s : list Z * list (option Z)) : stacked (list Z * list (option Z)) :=
  k_for 5 0 (fun j5 '(st, bc) =>
    let j := 5 * j5 in
    bc <- k_for 5 0 (fun i bc => v <- k_rd st (j + i) ;; k_wr bc i (Some v)) bc ;;
    st <- k_for 5 0 (fun i st =>
      b1 <- k_rd_bc bc ((i + 1) mod 5) ;;
      b2 <- k_rd_bc bc ((i + 2) mod 5) ;;
      v <- k_rd st (j + i) ;;
      k_wr st (j + i) (Z.lxor v (Z.land (not64 b1) b2))) st ;;
    kret (st, bc)) s.

(** fips202.c:395-426: one iteration of the round loop. *)
Definition k_opt2_round (r : Z) (s : list Z * list (option Z)) : stacked (list Z * list (option Z)) :=
  s <- k_opt2_theta s ;;
  s <- k_opt2_rhopi s ;;
  '(st, bc) <- k_opt2_chi s ;;
  (* Iota *)
  c <- k_rd keccakf_rndc r ;;
  v <- k_rd st 0 ;;
  st <- k_wr st 0 (Z.lxor v c) ;;
  kret (st, bc).

(** fips202.c:369-427 [KeccakF1600_StatePermute] with TS_SHAKE256_OPT 2.  The local
    array [bc] is uninitialised. *)
Definition k_KeccakF1600_opt2 (state : list Z) : stacked (list Z) :=
  call (P + (3 * 4 + 8 + 5 * 8))   (* st; i, j, r, t, bc *)
  ('(st, bc) <- k_for (Z.to_nat NROUNDS) 0 k_opt2_round (state, repeat None 5) ;;
  kret st).

(** The permutation selected by TS_SHAKE256_OPT (tune.h:62; the #if structure of
    fips202.c treats every value other than 1 and 2 as 0). *)
Definition k_KeccakF1600_StatePermute (opt : Z) (state : list Z) : stacked (list Z) :=
  (
  if opt =? 2 then k_KeccakF1600_opt2 state
  else if opt =? 1 then k_KeccakF1600_opt1 state
  else k_KeccakF1600_opt0 state).

(** ** The incremental sponge.  The context [SHAKE256_CTX] (fips202.h:35-37) is its 26
    words [s]. *)

(** fips202.c:441-448 [keccak_inc_init] *)
Definition k_keccak_inc_init (s : list Z) : stacked (list Z) :=
  call (P + P)   (* s_inc; i *)
  (s <- k_for 25 0 (fun i s => k_wr s i 0) s ;;
  k_wr s 25 0).

(** fips202.c:471-475 and 483-485: xor the [count] bytes m[0..count-1] into the state
    at byte position s_inc[25] (which the loop does not change: it writes the words
    below 25 whenever s_inc[25] + count <= 136). *)
Definition k_absorb_bytes (s : list Z) (m : list Z) (count : Z) : stacked (list Z) :=
  k_for (Z.to_nat count) 0 (fun i s =>
    s25 <- k_rd s 25 ;;
    b <- k_rd m i ;;
    let pos := u64 (s25 + i) in
    w <- k_rd s (Z.shiftr pos 3) ;;
    sh <- k_shift_count 64 (8 * Z.land pos 7) ;;
    k_wr s (Z.shiftr pos 3) (Z.lxor w (u64 (Z.shiftl b sh)))) s.

(** fips202.c:464-487 [keccak_inc_absorb]; [m] is the rest of the input. *)
Fixpoint k_absorb_loop (opt : Z) (fuel : nat) (r : Z) (s : list Z) (m : list Z)
  : stacked (list Z) :=
  match fuel with
  | O => kub NonTermination
  | S fuel' =>
    s25 <- k_rd s 25 ;;
    If r <=? u64 (zlen m + s25) Then
      let count := u64 (r - s25) in
      s <- k_absorb_bytes s m count ;;
      s <- k_wr s 25 0 ;;
      s <- k_KeccakF1600_StatePermute opt s ;;
      k_absorb_loop opt fuel' r s (skipn (Z.to_nat count) m)
    Else
      s <- k_absorb_bytes s m (zlen m) ;;
      s25 <- k_rd s 25 ;;
      k_wr s 25 (u64 (s25 + zlen m))
  end.
(** fips202.c:464-487 *)
Definition k_keccak_inc_absorb (opt : Z) (s : list Z) (r : Z) (m : list Z)
  : stacked (list Z) :=
  call (P + 4 + P + P + (P + P))   (* ctx, r, m, mlen; s_inc, i *)
  (k_absorb_loop opt (S (S (length m))) r s m).

(** fips202.c:502-509 [keccak_inc_finalize] *)
Definition k_keccak_inc_finalize (s : list Z) (r p : Z) : stacked (list Z) :=
  call (P + 4 + 1 + P)   (* ctx, r, p; s_inc *)
  (s25 <- k_rd s 25 ;;
  w <- k_rd s (Z.shiftr s25 3) ;;
  sh <- k_shift_count 64 (8 * Z.land s25 7) ;;
  s <- k_wr s (Z.shiftr s25 3) (Z.lxor w (u64 (Z.shiftl p sh))) ;;
  w <- k_rd s (Z.shiftr (r - 1) 3) ;;
  sh <- k_shift_count 64 (8 * Z.land (r - 1) 7) ;;
  s <- k_wr s (Z.shiftr (r - 1) 3) (Z.lxor w (u64 (Z.shiftl 128 sh))) ;;
  k_wr s 25 0).

(** [(uint8_t)(s_inc[pos >> 3] >> (8 * (pos & 0x07)))] *)
(** fips202.c:533,544 *)
Definition k_state_byte (s : list Z) (pos : Z) : stacked Z :=
  w <- k_rd s (Z.shiftr pos 3) ;;
  sh <- k_shift_count 64 (8 * Z.land pos 7) ;;
  kret (u8 (Z.shiftr w sh)).

(** fips202.c:540-549: the block squeezing loop; returns the bytes written to [h]. *)
Fixpoint k_squeeze_loop (opt : Z) (fuel : nat) (r : Z) (s : list Z) (outlen : Z)
  : stacked (list Z * list Z) :=
  match fuel with
  | O => kub NonTermination
  | S fuel' =>
    If outlen <=? 0 Then kret ([], s) Else
    s <- k_KeccakF1600_StatePermute opt s ;;
    let count := Z.min outlen r in
    out <- k_for (Z.to_nat count) 0 (fun i h =>
             b <- k_state_byte s i ;; kret (h ++ [b])) [] ;;
    s <- k_wr s 25 (u64 (r - count)) ;;
    '(rest, s) <- k_squeeze_loop opt fuel' r s (outlen - count) ;;
    kret (out ++ rest, s)
  end.

(** fips202.c:524-550 [keccak_inc_squeeze]: the bytes written to [h] and the state. *)
Definition k_keccak_inc_squeeze (opt : Z) (outlen : Z) (s : list Z) (r : Z)
  : stacked (list Z * list Z) :=
  call (P + P + P + 4 + (P + P))   (* h, outlen, ctx, r; s_inc, i *)
  (s25 <- k_rd s 25 ;;
  let count := Z.min outlen s25 in
  out <- k_for (Z.to_nat count) 0 (fun i h =>
           b <- k_state_byte s (u64 (r - s25 + i)) ;; kret (h ++ [b])) [] ;;
  s <- k_wr s 25 (u64 (s25 - count)) ;;
  '(rest, s) <- k_squeeze_loop opt (S (Z.to_nat outlen)) r s (outlen - count) ;;
  kret (out ++ rest, s)).

(** fips202.c:555-557: the API. *)
Definition k_ts_shake256_inc_init (s : list Z) : stacked (list Z) :=
  call (P)   (* ctx *)
  (k_keccak_inc_init s).
(** fips202.c:559-561 *)
Definition k_ts_shake256_inc_absorb (opt : Z) (s : list Z) (input : list Z)
  : stacked (list Z) :=
  call (P + P + P)   (* ctx, input, inlen *)
  (k_keccak_inc_absorb opt s SHAKE256_RATE input).
(** fips202.c:563-565 *)
Definition k_ts_shake256_inc_finalize (s : list Z) : stacked (list Z) :=
  call (P)   (* ctx *)
  (k_keccak_inc_finalize s SHAKE256_RATE 0x1F).
(** fips202.c:567-569 *)
Definition k_ts_shake256_inc_squeeze (opt : Z) (outlen : Z) (s : list Z)
  : stacked (list Z * list Z) :=
  call (P + P + P)   (* output, outlen, ctx *)
  (k_keccak_inc_squeeze opt outlen s SHAKE256_RATE).
End Stack.
