(** * The model of fips202.c, watched

    ModelFips202 once more with the operations of CLeak (see LeakSha2). *)
From Verif Require Import CSem CLeak ModelFips202.
Open Scope leak_scope.

(** fips202.c:35-37 [ROL] (static function on uint64_t): both shift counts checked. *)
Definition l_ROL (a offset : Z) : leaky Z :=
  k <- l_shift_count 64 offset ;;
  k' <- l_shift_count 64 (64 - offset) ;;
  lret (Z.lxor (u64 (Z.shiftl a k)) (Z.shiftr a k')).

(** Evaluation of an expression in iteration [round]. *)
(** fips202.c:145-333 *)
Fixpoint l_keval (round : Z) (env : kenv) (e : kexpr) : leaky Z :=
  match e with
  | EVar (Mat i) => l_rd (k_mat env) i
  | EVar (Loc i) =>
      o <- l_rd (k_loc env) i ;;
      match o with Some v => lret v | None => lub Uninitialised end
  | EXor a b => x <- l_keval round env a ;; y <- l_keval round env b ;; lret (Z.lxor x y)
  | EAnd a b => x <- l_keval round env a ;; y <- l_keval round env b ;; lret (Z.land x y)
  | ENot a => x <- l_keval round env a ;; lret (not64 x)
  | ERol v k =>
      x <- match v with
           | Mat i => l_rd (k_mat env) i
           | Loc i => o <- l_rd (k_loc env) i ;;
                      match o with Some v => lret v | None => lub Uninitialised end
           end ;; l_ROL x k
  | ERC k => l_rd KeccakF_RoundConstants (round + k)
  end.

(** Execution of one assignment. *)
(** fips202.c:145-333 *)
Definition l_kexec (round : Z) (env : kenv) (s : kstmt) : leaky kenv :=
  let '(Assign v e) := s in
  x <- l_keval round env e ;;
  match v with
  | Mat i => m <- l_wr (k_mat env) i x ;; lret (mkKenv m (k_loc env))
  | Loc i => l <- l_wr (k_loc env) i (Some x) ;; lret (mkKenv (k_mat env) l)
  end.

(** Execution of a statement list. *)
(** fips202.c:145-333 *)
Fixpoint l_kexecs (round : Z) (env : kenv) (l : list kstmt) : leaky kenv :=
  match l with
  | [] => lret env
  | s :: l' => env' <- l_kexec round env s ;; l_kexecs round env' l'
  end.

(** fips202.c:144-334: [for (round = 0; round < NROUNDS; round += 2)].  The local
    variables keep their values from one iteration to the next. *)
Definition l_keccak_rounds_01 (env : kenv) : leaky kenv :=
  l_for (Z.to_nat ((NROUNDS + 1) / 2)) 0 (fun i env => l_kexecs (2 * i) env KeccakText.body) env.

(** fips202.c:67-364 with TS_SHAKE256_OPT 0: copy in, rounds, copy out. *)
Definition l_KeccakF1600_opt0 (state : list Z) : leaky (list Z) :=
  a <- l_rd_range state 0 25 ;;
  env <- l_keccak_rounds_01 (mkKenv a no_locals) ;;
  l_wr_range state 0 (k_mat env).

(** fips202.c:67-364 with TS_SHAKE256_OPT 1: the lanes are the state itself. *)
Definition l_KeccakF1600_opt1 (state : list Z) : leaky (list Z) :=
  env <- l_keccak_rounds_01 (mkKenv state no_locals) ;;
  lret (k_mat env).

(** ** TS_SHAKE256_OPT 2 *)

(** [bc[i]], for the local array [bc] (None: never assigned). *)
(** fips202.c:392-421 *)
Definition l_rd_bc (bc : list (option Z)) (i : Z) : leaky Z :=
  o <- l_rd bc i ;;
  match o with Some v => lret v | None => lub Uninitialised end.

(** fips202.c:397-405 Theta: [bc] then the five columns. *)
Definition l_opt2_theta (s : list Z * list (option Z)) : leaky (list Z * list (option Z)) :=
  let '(st, bc) := s in
  bc <- l_for 5 0 (fun i bc =>
    a <- l_rd st i ;; b <- l_rd st (i + 5) ;; c <- l_rd st (i + 10) ;;
    d <- l_rd st (i + 15) ;; e <- l_rd st (i + 20) ;;
    l_wr bc i (Some (Z.lxor (Z.lxor (Z.lxor (Z.lxor a b) c) d) e))) bc ;;
  st <- l_for 5 0 (fun i st =>
    x <- l_rd_bc bc ((i + 4) mod 5) ;;
    y <- l_rd_bc bc ((i + 1) mod 5) ;;
    y' <- l_ROL y 1 ;;
    let t := Z.lxor x y' in
    l_for 5 0 (fun j5 st =>
      let j := 5 * j5 in
      v <- l_rd st (j + i) ;; l_wr st (j + i) (Z.lxor v t)) st) st ;;
  lret (st, bc).

(** fips202.c:407-414 Rho Pi *)
Definition l_opt2_rhopi (s : list Z * list (option Z)) : leaky (list Z * list (option Z)) :=
  let '(st, bc) := s in
  t <- l_rd st 1 ;;
  '(st, bc, t) <- l_for 24 0 (fun i '(st, bc, t) =>
    j <- l_rd keccakf_piln i ;;
    v <- l_rd st j ;;
    bc <- l_wr bc 0 (Some v) ;;
    r <- l_rd keccakf_rotc i ;;
    x <- l_ROL t r ;;
    st <- l_wr st j x ;;
    t <- l_rd_bc bc 0 ;;
    lret (st, bc, t)) (st, bc, t) ;;
  lret (st, bc).

(** fips202.c:416-422 Chi *)
Definition l_opt2_chi (s : list Z * list (option Z)) : leaky (list Z * list (option Z)) :=
  l_for 5 0 (fun j5 '(st, bc) =>
    let j := 5 * j5 in
    bc <- l_for 5 0 (fun i bc => v <- l_rd st (j + i) ;; l_wr bc i (Some v)) bc ;;
    st <- l_for 5 0 (fun i st =>
      b1 <- l_rd_bc bc ((i + 1) mod 5) ;;
      b2 <- l_rd_bc bc ((i + 2) mod 5) ;;
      v <- l_rd st (j + i) ;;
      l_wr st (j + i) (Z.lxor v (Z.land (not64 b1) b2))) st ;;
    lret (st, bc)) s.

(** fips202.c:395-426: one iteration of the round loop. *)
Definition l_opt2_round (r : Z) (s : list Z * list (option Z)) : leaky (list Z * list (option Z)) :=
  s <- l_opt2_theta s ;;
  s <- l_opt2_rhopi s ;;
  '(st, bc) <- l_opt2_chi s ;;
  (* Iota *)
  c <- l_rd keccakf_rndc r ;;
  v <- l_rd st 0 ;;
  st <- l_wr st 0 (Z.lxor v c) ;;
  lret (st, bc).

(** fips202.c:369-427 [KeccakF1600_StatePermute] with TS_SHAKE256_OPT 2.  The local
    array [bc] is uninitialised. *)
Definition l_KeccakF1600_opt2 (state : list Z) : leaky (list Z) :=
  '(st, bc) <- l_for (Z.to_nat NROUNDS) 0 l_opt2_round (state, repeat None 5) ;;
  lret st.

(** The permutation selected by TS_SHAKE256_OPT (tune.h:62; the #if structure of
    fips202.c treats every value other than 1 and 2 as 0). *)
Definition l_KeccakF1600_StatePermute (opt : Z) (state : list Z) : leaky (list Z) :=
  tick (Block 136) (
  if opt =? 2 then l_KeccakF1600_opt2 state
  else if opt =? 1 then l_KeccakF1600_opt1 state
  else l_KeccakF1600_opt0 state).

(** ** The incremental sponge.  The context [SHAKE256_CTX] (fips202.h:35-37) is its 26
    words [s]. *)

(** fips202.c:441-448 [keccak_inc_init] *)
Definition l_keccak_inc_init (s : list Z) : leaky (list Z) :=
  s <- l_for 25 0 (fun i s => l_wr s i 0) s ;;
  l_wr s 25 0.

(** fips202.c:471-475 and 483-485: xor the [count] bytes m[0..count-1] into the state
    at byte position s_inc[25] (which the loop does not change: it writes the words
    below 25 whenever s_inc[25] + count <= 136). *)
Definition l_absorb_bytes (s : list Z) (m : list Z) (count : Z) : leaky (list Z) :=
  l_for (Z.to_nat count) 0 (fun i s =>
    s25 <- l_rd s 25 ;;
    b <- l_rd m i ;;
    let pos := u64 (s25 + i) in
    w <- l_rd s (Z.shiftr pos 3) ;;
    sh <- l_shift_count 64 (8 * Z.land pos 7) ;;
    l_wr s (Z.shiftr pos 3) (Z.lxor w (u64 (Z.shiftl b sh)))) s.

(** fips202.c:464-487 [keccak_inc_absorb]; [m] is the rest of the input. *)
Fixpoint l_absorb_loop (opt : Z) (fuel : nat) (r : Z) (s : list Z) (m : list Z)
  : leaky (list Z) :=
  match fuel with
  | O => lub NonTermination
  | S fuel' =>
    s25 <- l_rd s 25 ;;
    If r <=? u64 (zlen m + s25) Then
      let count := u64 (r - s25) in
      s <- l_absorb_bytes s m count ;;
      s <- l_wr s 25 0 ;;
      s <- l_KeccakF1600_StatePermute opt s ;;
      l_absorb_loop opt fuel' r s (skipn (Z.to_nat count) m)
    Else
      s <- l_absorb_bytes s m (zlen m) ;;
      s25 <- l_rd s 25 ;;
      l_wr s 25 (u64 (s25 + zlen m))
  end.
(** fips202.c:464-487 *)
Definition l_keccak_inc_absorb (opt : Z) (s : list Z) (r : Z) (m : list Z)
  : leaky (list Z) :=
  l_absorb_loop opt (S (S (length m))) r s m.

(** fips202.c:502-509 [keccak_inc_finalize] *)
Definition l_keccak_inc_finalize (s : list Z) (r p : Z) : leaky (list Z) :=
  s25 <- l_rd s 25 ;;
  w <- l_rd s (Z.shiftr s25 3) ;;
  sh <- l_shift_count 64 (8 * Z.land s25 7) ;;
  s <- l_wr s (Z.shiftr s25 3) (Z.lxor w (u64 (Z.shiftl p sh))) ;;
  w <- l_rd s (Z.shiftr (r - 1) 3) ;;
  sh <- l_shift_count 64 (8 * Z.land (r - 1) 7) ;;
  s <- l_wr s (Z.shiftr (r - 1) 3) (Z.lxor w (u64 (Z.shiftl 128 sh))) ;;
  l_wr s 25 0.

(** [(uint8_t)(s_inc[pos >> 3] >> (8 * (pos & 0x07)))] *)
(** fips202.c:533,544 *)
Definition l_state_byte (s : list Z) (pos : Z) : leaky Z :=
  w <- l_rd s (Z.shiftr pos 3) ;;
  sh <- l_shift_count 64 (8 * Z.land pos 7) ;;
  lret (u8 (Z.shiftr w sh)).

(** fips202.c:540-549: the block squeezing loop; returns the bytes written to [h]. *)
Fixpoint l_squeeze_loop (opt : Z) (fuel : nat) (r : Z) (s : list Z) (outlen : Z)
  : leaky (list Z * list Z) :=
  match fuel with
  | O => lub NonTermination
  | S fuel' =>
    If outlen <=? 0 Then lret ([], s) Else
    s <- l_KeccakF1600_StatePermute opt s ;;
    let count := Z.min outlen r in
    out <- l_for (Z.to_nat count) 0 (fun i h =>
             b <- l_state_byte s i ;; lret (h ++ [b])) [] ;;
    s <- l_wr s 25 (u64 (r - count)) ;;
    '(rest, s) <- l_squeeze_loop opt fuel' r s (outlen - count) ;;
    lret (out ++ rest, s)
  end.

(** fips202.c:524-550 [keccak_inc_squeeze]: the bytes written to [h] and the state. *)
Definition l_keccak_inc_squeeze (opt : Z) (outlen : Z) (s : list Z) (r : Z)
  : leaky (list Z * list Z) :=
  s25 <- l_rd s 25 ;;
  let count := Z.min outlen s25 in
  out <- l_for (Z.to_nat count) 0 (fun i h =>
           b <- l_state_byte s (u64 (r - s25 + i)) ;; lret (h ++ [b])) [] ;;
  s <- l_wr s 25 (u64 (s25 - count)) ;;
  '(rest, s) <- l_squeeze_loop opt (S (Z.to_nat outlen)) r s (outlen - count) ;;
  lret (out ++ rest, s).

(** fips202.c:555-557: the API. *)
Definition l_ts_shake256_inc_init (s : list Z) : leaky (list Z) := l_keccak_inc_init s.
(** fips202.c:559-561 *)
Definition l_ts_shake256_inc_absorb (opt : Z) (s : list Z) (input : list Z)
  : leaky (list Z) := l_keccak_inc_absorb opt s SHAKE256_RATE input.
(** fips202.c:563-565 *)
Definition l_ts_shake256_inc_finalize (s : list Z) : leaky (list Z) :=
  l_keccak_inc_finalize s SHAKE256_RATE 0x1F.
(** fips202.c:567-569 *)
Definition l_ts_shake256_inc_squeeze (opt : Z) (outlen : Z) (s : list Z)
  : leaky (list Z * list Z) := l_keccak_inc_squeeze opt outlen s SHAKE256_RATE.
