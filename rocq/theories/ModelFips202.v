(** * Model of fips202.c (SHAKE256) *)
From Verif Require Import CSem.

(** fips202.c:34 *)
Definition NROUNDS : Z := 24.

(** fips202.c:35-37 [ROL] (static function on uint64_t): both shift counts checked. *)
Definition ROL (a offset : Z) : outcome Z :=
  k <- shift_count 64 offset ;;
  k' <- shift_count 64 (64 - offset) ;;
  Ok (Z.lxor (u64 (Z.shiftl a k)) (Z.shiftr a k')).

(** fips202.c:39 *)
Definition SHAKE256_RATE : Z := 136.

(** fips202.c:43-56 *)
Definition KeccakF_RoundConstants : list Z := [
    0x0000000000000001; 0x0000000000008082; 0x800000000000808a; 0x8000000080008000;
    0x000000000000808b; 0x0000000080000001; 0x8000000080008081; 0x8000000000008009;
    0x000000000000008a; 0x0000000000000088; 0x0000000080008009; 0x000000008000000a;
    0x000000008000808b; 0x800000000000008b; 0x8000000000008089; 0x8000000000008003;
    0x8000000000008002; 0x8000000000000080; 0x000000000000800a; 0x800000008000000a;
    0x8000000080008081; 0x8000000000008080; 0x0000000080000001; 0x8000000080008008 ].

(** [~x] on uint64_t. *)
(** fips202.c:169 and the other uses of ~, fips202.c:421 *)
Definition not64 (x : Z) : Z := u64 (Z.lnot x).

(** ** TS_SHAKE256_OPT 0 and 1

    The body of the round loop (fips202.c:145-333) is straight-line code over the
    lanes Aba..Asu, which are local variables when TS_SHAKE256_OPT is 0 and macros
    for state[0..24] when it is 1.  It is transcribed once, as a list of assignments
    ([tools/mkkeccak.py] produced the text), and executed over a "lane matrix" which
    is either a copy (0) or the state array itself (1). *)
Inductive kvar : Set :=
| Mat (i : Z)      (* Aba .. Asu: lane i of the state or of the copy *)
| Loc (i : Z).     (* BCa.., Da.., Eba..: local variable i *)

(** right hand sides of fips202.c:145-333 *)
Inductive kexpr : Set :=
| EVar (v : kvar)
| EXor (a b : kexpr)
| EAnd (a b : kexpr)
| ENot (a : kexpr)
| ERol (a : kvar) (offset : Z)
| ERC (k : Z).     (* KeccakF_RoundConstants[round + k] *)
Coercion EVar : kvar >-> kexpr.

(** the assignments fips202.c:145-333 *)
Inductive kstmt : Set := Assign (v : kvar) (e : kexpr).

(** The 25 lanes (in the copy or the state), the 35 local variables (None: not yet
    assigned). *)
(** the variables of fips202.c:67-143 *)
Record kenv := mkKenv { k_mat : list Z; k_loc : list (option Z) }.

(** Evaluation of an expression in iteration [round]. *)
(** fips202.c:145-333 *)
Fixpoint keval (round : Z) (env : kenv) (e : kexpr) : outcome Z :=
  match e with
  | EVar (Mat i) => rd (k_mat env) i
  | EVar (Loc i) =>
      o <- rd (k_loc env) i ;;
      match o with Some v => Ok v | None => UB Uninitialised end
  | EXor a b => x <- keval round env a ;; y <- keval round env b ;; Ok (Z.lxor x y)
  | EAnd a b => x <- keval round env a ;; y <- keval round env b ;; Ok (Z.land x y)
  | ENot a => x <- keval round env a ;; Ok (not64 x)
  | ERol v k =>
      x <- match v with
           | Mat i => rd (k_mat env) i
           | Loc i => o <- rd (k_loc env) i ;;
                      match o with Some v => Ok v | None => UB Uninitialised end
           end ;; ROL x k
  | ERC k => rd KeccakF_RoundConstants (round + k)
  end.

(** Execution of one assignment. *)
(** fips202.c:145-333 *)
Definition kexec (round : Z) (env : kenv) (s : kstmt) : outcome kenv :=
  let '(Assign v e) := s in
  x <- keval round env e ;;
  match v with
  | Mat i => m <- wr (k_mat env) i x ;; Ok (mkKenv m (k_loc env))
  | Loc i => l <- wr (k_loc env) i (Some x) ;; Ok (mkKenv (k_mat env) l)
  end.

(** Execution of a statement list. *)
(** fips202.c:145-333 *)
Fixpoint kexecs (round : Z) (env : kenv) (l : list kstmt) : outcome kenv :=
  match l with
  | [] => Ok env
  | s :: l' => env' <- kexec round env s ;; kexecs round env' l'
  end.

Declare Scope kec_scope.
Delimit Scope kec_scope with kec.
Infix "^^" := EXor (at level 50, left associativity) : kec_scope.
Infix "&&&" := EAnd (at level 40, left associativity) : kec_scope.
Notation "~~ a" := (ENot a) (at level 35, right associativity) : kec_scope.
Notation "v ::= e" := (Assign v e) (at level 80) : kec_scope.
Notation "v ^^= e" := (Assign v (EXor (EVar v) e)) (at level 80) : kec_scope.

Module KeccakText.
(** fips202.c:81-105 (TS_SHAKE256_OPT 1: macros for state[i]) and 110-141 (0: locals
    copied from state[i]). *)
Definition Aba := Mat 0. Definition Abe := Mat 1. Definition Abi := Mat 2. Definition Abo := Mat 3. Definition Abu := Mat 4.
(** fips202.c:81-105 *)
Definition Aga := Mat 5. Definition Age := Mat 6. Definition Agi := Mat 7. Definition Ago := Mat 8. Definition Agu := Mat 9.
(** fips202.c:81-105 *)
Definition Aka := Mat 10. Definition Ake := Mat 11. Definition Aki := Mat 12. Definition Ako := Mat 13. Definition Aku := Mat 14.
(** fips202.c:81-105 *)
Definition Ama := Mat 15. Definition Ame := Mat 16. Definition Ami := Mat 17. Definition Amo := Mat 18. Definition Amu := Mat 19.
(** fips202.c:81-105 *)
Definition Asa := Mat 20. Definition Ase := Mat 21. Definition Asi := Mat 22. Definition Aso := Mat 23. Definition Asu := Mat 24.
(** fips202.c:70-76: local variables *)
Definition BCa := Loc 0. Definition BCe := Loc 1. Definition BCi := Loc 2. Definition BCo := Loc 3. Definition BCu := Loc 4.
(** fips202.c:70-76 *)
Definition Da := Loc 5. Definition De := Loc 6. Definition Di := Loc 7. Definition Do := Loc 8. Definition Du := Loc 9.
(** fips202.c:70-76 *)
Definition Eba := Loc 10. Definition Ebe := Loc 11. Definition Ebi := Loc 12. Definition Ebo := Loc 13. Definition Ebu := Loc 14.
(** fips202.c:70-76 *)
Definition Ega := Loc 15. Definition Ege := Loc 16. Definition Egi := Loc 17. Definition Ego := Loc 18. Definition Egu := Loc 19.
(** fips202.c:70-76 *)
Definition Eka := Loc 20. Definition Eke := Loc 21. Definition Eki := Loc 22. Definition Eko := Loc 23. Definition Eku := Loc 24.
(** fips202.c:70-76 *)
Definition Ema := Loc 25. Definition Eme := Loc 26. Definition Emi := Loc 27. Definition Emo := Loc 28. Definition Emu := Loc 29.
(** fips202.c:70-76 *)
Definition Esa := Loc 30. Definition Ese := Loc 31. Definition Esi := Loc 32. Definition Eso := Loc 33. Definition Esu := Loc 34.

(** fips202.c:145-333: the body of the loop. *)
Definition body : list kstmt := ([
   BCa ::= Aba ^^ Aga ^^ Aka ^^ Ama ^^ Asa ;
   BCe ::= Abe ^^ Age ^^ Ake ^^ Ame ^^ Ase ;
   BCi ::= Abi ^^ Agi ^^ Aki ^^ Ami ^^ Asi ;
   BCo ::= Abo ^^ Ago ^^ Ako ^^ Amo ^^ Aso ;
   BCu ::= Abu ^^ Agu ^^ Aku ^^ Amu ^^ Asu ;
   Da ::= BCu ^^ ERol BCe 1 ;
   De ::= BCa ^^ ERol BCi 1 ;
   Di ::= BCe ^^ ERol BCo 1 ;
   Do ::= BCi ^^ ERol BCu 1 ;
   Du ::= BCo ^^ ERol BCa 1 ;
   Aba ^^= Da ;
   BCa ::= Aba ;
   Age ^^= De ;
   BCe ::= ERol Age 44 ;
   Aki ^^= Di ;
   BCi ::= ERol Aki 43 ;
   Amo ^^= Do ;
   BCo ::= ERol Amo 21 ;
   Asu ^^= Du ;
   BCu ::= ERol Asu 14 ;
   Eba ::= BCa ^^ ((~~ BCe) &&& BCi) ;
   Eba ^^= ERC 0 ;
   Ebe ::= BCe ^^ ((~~ BCi) &&& BCo) ;
   Ebi ::= BCi ^^ ((~~ BCo) &&& BCu) ;
   Ebo ::= BCo ^^ ((~~ BCu) &&& BCa) ;
   Ebu ::= BCu ^^ ((~~ BCa) &&& BCe) ;
   Abo ^^= Do ;
   BCa ::= ERol Abo 28 ;
   Agu ^^= Du ;
   BCe ::= ERol Agu 20 ;
   Aka ^^= Da ;
   BCi ::= ERol Aka 3 ;
   Ame ^^= De ;
   BCo ::= ERol Ame 45 ;
   Asi ^^= Di ;
   BCu ::= ERol Asi 61 ;
   Ega ::= BCa ^^ ((~~ BCe) &&& BCi) ;
   Ege ::= BCe ^^ ((~~ BCi) &&& BCo) ;
   Egi ::= BCi ^^ ((~~ BCo) &&& BCu) ;
   Ego ::= BCo ^^ ((~~ BCu) &&& BCa) ;
   Egu ::= BCu ^^ ((~~ BCa) &&& BCe) ;
   Abe ^^= De ;
   BCa ::= ERol Abe 1 ;
   Agi ^^= Di ;
   BCe ::= ERol Agi 6 ;
   Ako ^^= Do ;
   BCi ::= ERol Ako 25 ;
   Amu ^^= Du ;
   BCo ::= ERol Amu 8 ;
   Asa ^^= Da ;
   BCu ::= ERol Asa 18 ;
   Eka ::= BCa ^^ ((~~ BCe) &&& BCi) ;
   Eke ::= BCe ^^ ((~~ BCi) &&& BCo) ;
   Eki ::= BCi ^^ ((~~ BCo) &&& BCu) ;
   Eko ::= BCo ^^ ((~~ BCu) &&& BCa) ;
   Eku ::= BCu ^^ ((~~ BCa) &&& BCe) ;
   Abu ^^= Du ;
   BCa ::= ERol Abu 27 ;
   Aga ^^= Da ;
   BCe ::= ERol Aga 36 ;
   Ake ^^= De ;
   BCi ::= ERol Ake 10 ;
   Ami ^^= Di ;
   BCo ::= ERol Ami 15 ;
   Aso ^^= Do ;
   BCu ::= ERol Aso 56 ;
   Ema ::= BCa ^^ ((~~ BCe) &&& BCi) ;
   Eme ::= BCe ^^ ((~~ BCi) &&& BCo) ;
   Emi ::= BCi ^^ ((~~ BCo) &&& BCu) ;
   Emo ::= BCo ^^ ((~~ BCu) &&& BCa) ;
   Emu ::= BCu ^^ ((~~ BCa) &&& BCe) ;
   Abi ^^= Di ;
   BCa ::= ERol Abi 62 ;
   Ago ^^= Do ;
   BCe ::= ERol Ago 55 ;
   Aku ^^= Du ;
   BCi ::= ERol Aku 39 ;
   Ama ^^= Da ;
   BCo ::= ERol Ama 41 ;
   Ase ^^= De ;
   BCu ::= ERol Ase 2 ;
   Esa ::= BCa ^^ ((~~ BCe) &&& BCi) ;
   Ese ::= BCe ^^ ((~~ BCi) &&& BCo) ;
   Esi ::= BCi ^^ ((~~ BCo) &&& BCu) ;
   Eso ::= BCo ^^ ((~~ BCu) &&& BCa) ;
   Esu ::= BCu ^^ ((~~ BCa) &&& BCe) ;
   BCa ::= Eba ^^ Ega ^^ Eka ^^ Ema ^^ Esa ;
   BCe ::= Ebe ^^ Ege ^^ Eke ^^ Eme ^^ Ese ;
   BCi ::= Ebi ^^ Egi ^^ Eki ^^ Emi ^^ Esi ;
   BCo ::= Ebo ^^ Ego ^^ Eko ^^ Emo ^^ Eso ;
   BCu ::= Ebu ^^ Egu ^^ Eku ^^ Emu ^^ Esu ;
   Da ::= BCu ^^ ERol BCe 1 ;
   De ::= BCa ^^ ERol BCi 1 ;
   Di ::= BCe ^^ ERol BCo 1 ;
   Do ::= BCi ^^ ERol BCu 1 ;
   Du ::= BCo ^^ ERol BCa 1 ;
   Eba ^^= Da ;
   BCa ::= Eba ;
   Ege ^^= De ;
   BCe ::= ERol Ege 44 ;
   Eki ^^= Di ;
   BCi ::= ERol Eki 43 ;
   Emo ^^= Do ;
   BCo ::= ERol Emo 21 ;
   Esu ^^= Du ;
   BCu ::= ERol Esu 14 ;
   Aba ::= BCa ^^ ((~~ BCe) &&& BCi) ;
   Aba ^^= ERC 1 ;
   Abe ::= BCe ^^ ((~~ BCi) &&& BCo) ;
   Abi ::= BCi ^^ ((~~ BCo) &&& BCu) ;
   Abo ::= BCo ^^ ((~~ BCu) &&& BCa) ;
   Abu ::= BCu ^^ ((~~ BCa) &&& BCe) ;
   Ebo ^^= Do ;
   BCa ::= ERol Ebo 28 ;
   Egu ^^= Du ;
   BCe ::= ERol Egu 20 ;
   Eka ^^= Da ;
   BCi ::= ERol Eka 3 ;
   Eme ^^= De ;
   BCo ::= ERol Eme 45 ;
   Esi ^^= Di ;
   BCu ::= ERol Esi 61 ;
   Aga ::= BCa ^^ ((~~ BCe) &&& BCi) ;
   Age ::= BCe ^^ ((~~ BCi) &&& BCo) ;
   Agi ::= BCi ^^ ((~~ BCo) &&& BCu) ;
   Ago ::= BCo ^^ ((~~ BCu) &&& BCa) ;
   Agu ::= BCu ^^ ((~~ BCa) &&& BCe) ;
   Ebe ^^= De ;
   BCa ::= ERol Ebe 1 ;
   Egi ^^= Di ;
   BCe ::= ERol Egi 6 ;
   Eko ^^= Do ;
   BCi ::= ERol Eko 25 ;
   Emu ^^= Du ;
   BCo ::= ERol Emu 8 ;
   Esa ^^= Da ;
   BCu ::= ERol Esa 18 ;
   Aka ::= BCa ^^ ((~~ BCe) &&& BCi) ;
   Ake ::= BCe ^^ ((~~ BCi) &&& BCo) ;
   Aki ::= BCi ^^ ((~~ BCo) &&& BCu) ;
   Ako ::= BCo ^^ ((~~ BCu) &&& BCa) ;
   Aku ::= BCu ^^ ((~~ BCa) &&& BCe) ;
   Ebu ^^= Du ;
   BCa ::= ERol Ebu 27 ;
   Ega ^^= Da ;
   BCe ::= ERol Ega 36 ;
   Eke ^^= De ;
   BCi ::= ERol Eke 10 ;
   Emi ^^= Di ;
   BCo ::= ERol Emi 15 ;
   Eso ^^= Do ;
   BCu ::= ERol Eso 56 ;
   Ama ::= BCa ^^ ((~~ BCe) &&& BCi) ;
   Ame ::= BCe ^^ ((~~ BCi) &&& BCo) ;
   Ami ::= BCi ^^ ((~~ BCo) &&& BCu) ;
   Amo ::= BCo ^^ ((~~ BCu) &&& BCa) ;
   Amu ::= BCu ^^ ((~~ BCa) &&& BCe) ;
   Ebi ^^= Di ;
   BCa ::= ERol Ebi 62 ;
   Ego ^^= Do ;
   BCe ::= ERol Ego 55 ;
   Eku ^^= Du ;
   BCi ::= ERol Eku 39 ;
   Ema ^^= Da ;
   BCo ::= ERol Ema 41 ;
   Ese ^^= De ;
   BCu ::= ERol Ese 2 ;
   Asa ::= BCa ^^ ((~~ BCe) &&& BCi) ;
   Ase ::= BCe ^^ ((~~ BCi) &&& BCo) ;
   Asi ::= BCi ^^ ((~~ BCo) &&& BCu) ;
   Aso ::= BCo ^^ ((~~ BCu) &&& BCa) ;
   Asu ::= BCu ^^ ((~~ BCa) &&& BCe)
])%kec.
End KeccakText.

(** fips202.c:145-333 *)
Definition no_locals : list (option Z) := repeat None 35.

(** fips202.c:144-334: [for (round = 0; round < NROUNDS; round += 2)].  The local
    variables keep their values from one iteration to the next. *)
Definition keccak_rounds_01 (env : kenv) : outcome kenv :=
  for_loop (Z.to_nat ((NROUNDS + 1) / 2)) 0 (fun i env => kexecs (2 * i) env KeccakText.body) env.

(** fips202.c:67-364 with TS_SHAKE256_OPT 0: copy in, rounds, copy out. *)
Definition KeccakF1600_opt0 (state : list Z) : outcome (list Z) :=
  a <- rd_range state 0 25 ;;
  env <- keccak_rounds_01 (mkKenv a no_locals) ;;
  wr_range state 0 (k_mat env).

(** fips202.c:67-364 with TS_SHAKE256_OPT 1: the lanes are the state itself. *)
Definition KeccakF1600_opt1 (state : list Z) : outcome (list Z) :=
  env <- keccak_rounds_01 (mkKenv state no_locals) ;;
  Ok (k_mat env).

(** ** TS_SHAKE256_OPT 2 *)

(** fips202.c:371-380 *)
Definition keccakf_rndc : list Z := [
    0x0000000000000001; 0x0000000000008082; 0x800000000000808a; 0x8000000080008000;
    0x000000000000808b; 0x0000000080000001; 0x8000000080008081; 0x8000000000008009;
    0x000000000000008a; 0x0000000000000088; 0x0000000080008009; 0x000000008000000a;
    0x000000008000808b; 0x800000000000008b; 0x8000000000008089; 0x8000000000008003;
    0x8000000000008002; 0x8000000000000080; 0x000000000000800a; 0x800000008000000a;
    0x8000000080008081; 0x8000000000008080; 0x0000000080000001; 0x8000000080008008 ].
(** fips202.c:381-384 *)
Definition keccakf_rotc : list Z :=
  [1;  3;  6;  10; 15; 21; 28; 36; 45; 55; 2;  14;
   27; 41; 56; 8;  25; 43; 62; 18; 39; 61; 20; 44].
(** fips202.c:385-388 *)
Definition keccakf_piln : list Z :=
  [10; 7;  11; 17; 18; 3; 5;  16; 8;  21; 24; 4;
   15; 23; 19; 13; 12; 2; 20; 14; 22; 9;  6;  1].

(** [bc[i]], for the local array [bc] (None: never assigned). *)
(** fips202.c:392-421 *)
Definition rd_bc (bc : list (option Z)) (i : Z) : outcome Z :=
  o <- rd bc i ;;
  match o with Some v => Ok v | None => UB Uninitialised end.

(** fips202.c:397-405 Theta: [bc] then the five columns. *)
Definition opt2_theta (s : list Z * list (option Z)) : outcome (list Z * list (option Z)) :=
  let '(st, bc) := s in
  bc <- for_loop 5 0 (fun i bc =>
    a <- rd st i ;; b <- rd st (i + 5) ;; c <- rd st (i + 10) ;;
    d <- rd st (i + 15) ;; e <- rd st (i + 20) ;;
    wr bc i (Some (Z.lxor (Z.lxor (Z.lxor (Z.lxor a b) c) d) e))) bc ;;
  st <- for_loop 5 0 (fun i st =>
    x <- rd_bc bc ((i + 4) mod 5) ;;
    y <- rd_bc bc ((i + 1) mod 5) ;;
    y' <- ROL y 1 ;;
    let t := Z.lxor x y' in
    for_loop 5 0 (fun j5 st =>
      let j := 5 * j5 in
      v <- rd st (j + i) ;; wr st (j + i) (Z.lxor v t)) st) st ;;
  Ok (st, bc).

(** fips202.c:407-414 Rho Pi *)
Definition opt2_rhopi (s : list Z * list (option Z)) : outcome (list Z * list (option Z)) :=
  let '(st, bc) := s in
  t <- rd st 1 ;;
  '(st, bc, t) <- for_loop 24 0 (fun i '(st, bc, t) =>
    j <- rd keccakf_piln i ;;
    v <- rd st j ;;
    bc <- wr bc 0 (Some v) ;;
    r <- rd keccakf_rotc i ;;
    x <- ROL t r ;;
    st <- wr st j x ;;
    t <- rd_bc bc 0 ;;
    Ok (st, bc, t)) (st, bc, t) ;;
  Ok (st, bc).

(** fips202.c:416-422 Chi *)
Definition opt2_chi (s : list Z * list (option Z)) : outcome (list Z * list (option Z)) :=
  for_loop 5 0 (fun j5 '(st, bc) =>
    let j := 5 * j5 in
    bc <- for_loop 5 0 (fun i bc => v <- rd st (j + i) ;; wr bc i (Some v)) bc ;;
    st <- for_loop 5 0 (fun i st =>
      b1 <- rd_bc bc ((i + 1) mod 5) ;;
      b2 <- rd_bc bc ((i + 2) mod 5) ;;
      v <- rd st (j + i) ;;
      wr st (j + i) (Z.lxor v (Z.land (not64 b1) b2))) st ;;
    Ok (st, bc)) s.

(** fips202.c:395-426: one iteration of the round loop. *)
Definition opt2_round (r : Z) (s : list Z * list (option Z)) : outcome (list Z * list (option Z)) :=
  s <- opt2_theta s ;;
  s <- opt2_rhopi s ;;
  '(st, bc) <- opt2_chi s ;;
  (* Iota *)
  c <- rd keccakf_rndc r ;;
  v <- rd st 0 ;;
  st <- wr st 0 (Z.lxor v c) ;;
  Ok (st, bc).

(** fips202.c:369-427 [KeccakF1600_StatePermute] with TS_SHAKE256_OPT 2.  The local
    array [bc] is uninitialised. *)
Definition KeccakF1600_opt2 (state : list Z) : outcome (list Z) :=
  '(st, bc) <- for_loop (Z.to_nat NROUNDS) 0 opt2_round (state, repeat None 5) ;;
  Ok st.

(** The permutation selected by TS_SHAKE256_OPT (tune.h:62; the #if structure of
    fips202.c treats every value other than 1 and 2 as 0). *)
Definition KeccakF1600_StatePermute (opt : Z) (state : list Z) : outcome (list Z) :=
  if opt =? 2 then KeccakF1600_opt2 state
  else if opt =? 1 then KeccakF1600_opt1 state
  else KeccakF1600_opt0 state.

(** ** The incremental sponge.  The context [SHAKE256_CTX] (fips202.h:35-37) is its 26
    words [s]. *)

(** fips202.c:441-448 [keccak_inc_init] *)
Definition keccak_inc_init (s : list Z) : outcome (list Z) :=
  s <- for_loop 25 0 (fun i s => wr s i 0) s ;;
  wr s 25 0.

(** fips202.c:471-475 and 483-485: xor the [count] bytes m[0..count-1] into the state
    at byte position s_inc[25] (which the loop does not change: it writes the words
    below 25 whenever s_inc[25] + count <= 136). *)
Definition absorb_bytes (s : list Z) (m : list Z) (count : Z) : outcome (list Z) :=
  for_loop (Z.to_nat count) 0 (fun i s =>
    s25 <- rd s 25 ;;
    b <- rd m i ;;
    let pos := u64 (s25 + i) in
    w <- rd s (Z.shiftr pos 3) ;;
    sh <- shift_count 64 (8 * Z.land pos 7) ;;
    wr s (Z.shiftr pos 3) (Z.lxor w (u64 (Z.shiftl b sh)))) s.

(** fips202.c:464-487 [keccak_inc_absorb]; [m] is the rest of the input. *)
Fixpoint absorb_loop (opt : Z) (fuel : nat) (r : Z) (s : list Z) (m : list Z)
  : outcome (list Z) :=
  match fuel with
  | O => UB NonTermination
  | S fuel' =>
    s25 <- rd s 25 ;;
    if r <=? u64 (zlen m + s25) then
      let count := u64 (r - s25) in
      s <- absorb_bytes s m count ;;
      s <- wr s 25 0 ;;
      s <- KeccakF1600_StatePermute opt s ;;
      absorb_loop opt fuel' r s (skipn (Z.to_nat count) m)
    else
      s <- absorb_bytes s m (zlen m) ;;
      s25 <- rd s 25 ;;
      wr s 25 (u64 (s25 + zlen m))
  end.
(** fips202.c:464-487 *)
Definition keccak_inc_absorb (opt : Z) (s : list Z) (r : Z) (m : list Z)
  : outcome (list Z) :=
  absorb_loop opt (S (S (length m))) r s m.

(** fips202.c:502-509 [keccak_inc_finalize] *)
Definition keccak_inc_finalize (s : list Z) (r p : Z) : outcome (list Z) :=
  s25 <- rd s 25 ;;
  w <- rd s (Z.shiftr s25 3) ;;
  sh <- shift_count 64 (8 * Z.land s25 7) ;;
  s <- wr s (Z.shiftr s25 3) (Z.lxor w (u64 (Z.shiftl p sh))) ;;
  w <- rd s (Z.shiftr (r - 1) 3) ;;
  sh <- shift_count 64 (8 * Z.land (r - 1) 7) ;;
  s <- wr s (Z.shiftr (r - 1) 3) (Z.lxor w (u64 (Z.shiftl 128 sh))) ;;
  wr s 25 0.

(** [(uint8_t)(s_inc[pos >> 3] >> (8 * (pos & 0x07)))] *)
(** fips202.c:533,544 *)
Definition state_byte (s : list Z) (pos : Z) : outcome Z :=
  w <- rd s (Z.shiftr pos 3) ;;
  sh <- shift_count 64 (8 * Z.land pos 7) ;;
  Ok (u8 (Z.shiftr w sh)).

(** fips202.c:540-549: the block squeezing loop; returns the bytes written to [h]. *)
Fixpoint squeeze_loop (opt : Z) (fuel : nat) (r : Z) (s : list Z) (outlen : Z)
  : outcome (list Z * list Z) :=
  match fuel with
  | O => UB NonTermination
  | S fuel' =>
    if outlen <=? 0 then Ok ([], s) else
    s <- KeccakF1600_StatePermute opt s ;;
    let count := Z.min outlen r in
    out <- for_loop (Z.to_nat count) 0 (fun i h =>
             b <- state_byte s i ;; Ok (h ++ [b])) [] ;;
    s <- wr s 25 (u64 (r - count)) ;;
    '(rest, s) <- squeeze_loop opt fuel' r s (outlen - count) ;;
    Ok (out ++ rest, s)
  end.

(** fips202.c:524-550 [keccak_inc_squeeze]: the bytes written to [h] and the state. *)
Definition keccak_inc_squeeze (opt : Z) (outlen : Z) (s : list Z) (r : Z)
  : outcome (list Z * list Z) :=
  s25 <- rd s 25 ;;
  let count := Z.min outlen s25 in
  out <- for_loop (Z.to_nat count) 0 (fun i h =>
           b <- state_byte s (u64 (r - s25 + i)) ;; Ok (h ++ [b])) [] ;;
  s <- wr s 25 (u64 (s25 - count)) ;;
  '(rest, s) <- squeeze_loop opt (S (Z.to_nat outlen)) r s (outlen - count) ;;
  Ok (out ++ rest, s).

(** fips202.c:555-557: the API. *)
Definition ts_shake256_inc_init (s : list Z) : outcome (list Z) := keccak_inc_init s.
(** fips202.c:559-561 *)
Definition ts_shake256_inc_absorb (opt : Z) (s : list Z) (input : list Z)
  : outcome (list Z) := keccak_inc_absorb opt s SHAKE256_RATE input.
(** fips202.c:563-565 *)
Definition ts_shake256_inc_finalize (s : list Z) : outcome (list Z) :=
  keccak_inc_finalize s SHAKE256_RATE 0x1F.
(** fips202.c:567-569 *)
Definition ts_shake256_inc_squeeze (opt : Z) (outlen : Z) (s : list Z)
  : outcome (list Z * list Z) := keccak_inc_squeeze opt outlen s SHAKE256_RATE.
