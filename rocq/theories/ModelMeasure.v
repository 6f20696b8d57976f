(** * Model of the measurement programs of /repo: stack.c, the measuring halves of
      get_space.c, ramspace.c and the builds that ramspace.py makes

    stack.c relies on undefined behaviour and says so (stack.c:3): that the arrays of
    [init_stack] and [measure_stack], and the storage that the routine measured takes,
    lie in the same place.  Here that place is an explicit list of bytes, lowest address
    first, and a routine that is measured changes it in any way that the processor and
    compiler may decide ([p_...] below).  The formatting of what is printed is left out:
    a line of ramspace.out is a list of fields. *)
From Verif Require Import CSem ModelParams ModelCtx ModelSphincs ModelVerify ModelKeygen ModelTest.

(** stack.c:20: #define N 10000 *)
Definition STACK_N : Z := 10000.
(** stack.c:27, 35: 'x' *)
Definition PATTERN : Z := 120.

(** stack.c:23-28 [init_stack] *)
Definition init_stack (place : list Z) : outcome (list Z) :=
  for_loop (Z.to_nat STACK_N) 0 (fun i array => wr array i PATTERN) place.

(** stack.c:35: the loop of [measure_stack] from i on; the value of i after it *)
Fixpoint scan (fuel : nat) (i : Z) (array : list Z) : outcome Z :=
  match fuel with
  | O => Ok i                                           (* i<N is false *)
  | S fuel => b <- rd array i ;; if negb (b =? PATTERN) then Ok i else scan fuel (i + 1) array
  end.
(** stack.c:30-38 [measure_stack] *)
Definition measure_stack (place : list Z) : outcome Z :=
  i <- scan (Z.to_nat STACK_N) 0 place ;; Ok (u32 (STACK_N - i)).

(** What the processor and compiler decide: what was in the place on the stack before each
    of the three measurements, and what the routine measured leaves in it *)
Record processor := Processor {
  p_before_keygen : list Z; p_keygen : list Z -> list Z;
  p_before_sig : list Z;    p_sig : list Z -> list Z;
  p_before_ver : list Z;    p_ver : list Z -> list Z
}.

Section Measure.
Variable cfg : config.

(** get_space.c:37-41 [get_keygen_space] *)
Definition measured_keygen_space (pr : processor) (sk : Z) (ps : parameter_set) : outcome Z :=
  place <- init_stack (p_before_keygen pr) ;;
  _ <- run_keygen cfg sk ps ;;
  measure_stack (p_keygen pr place).

(** get_space.c:46-55 [get_sig_space]; ts_gen_key runs before the place is filled *)
Definition measured_sig_space (pr : processor) (fuel : nat) (e : surroundings) (ps : parameter_set) (ctx : ts_context) (c : Z) : outcome Z :=
  '(_, priv, _) <- ts_gen_key cfg (Some (e_sk e, e_private_key e)) None (Some ps) (Some fake_rand1) ;;
  let priv := match priv with Some priv => priv | None => e_private_key e end in
  place <- init_stack (p_before_sig pr) ;;
  _ <- run_sign cfg fuel (e_view e priv []) ctx (e_message e) c ps (e_sk e) ;;
  measure_stack (p_sig pr place).

(** get_space.c:60-79 [get_ver_space] *)
Definition measured_ver_space (pr : processor) (e : surroundings) (ps : parameter_set) (ctx : ts_context) : outcome Z :=
  '(sig, pub) <- get_sig_and_public_key cfg e ps (e_message e) 3 ;;
  match sig with
  | None => Ok 0
  | Some sig =>
    let sig_len := ts_size_signature ps in
    place <- init_stack (p_before_ver pr) ;;
    success <- run_verify cfg (e_view e [] pub) ctx ps (e_pk e) (e_message e) 3 sig sig_len ;;
    space <- measure_stack (p_ver pr place) ;;
    if success =? 0 then Ok 0 else Ok space
  end.

(** ramspace.c:25-47: what is printed: XSTR(PARM_SET), a number, *FAILED*, a newline *)
Inductive field := Name (p : ps_name) | Number (v : Z) | Failed | Newline.

(** ramspace.c:14-51 [main]: the exit status and what was appended to the file.
    [argv]: the arguments, a null pointer at the end; [fopen]: whether a file can be opened
    for appending.  EXIT_SUCCESS is 0, EXIT_FAILURE 1. *)
Definition ramspace (argc : Z) (argv : list (option (list Z))) (fopen : list Z -> bool) (pr : processor) (fuel : nat)
    (e_sig e_ver : surroundings) (sk : Z) (ctx_sig ctx_ver : ts_context) (c : Z) (p : ps_name) : outcome (Z * list field) :=
  if argc <? 1 then Ok (1, []) else
  arg <- rd argv 1 ;;
  match arg with
  | None => UB BadPointer                                (* fopen( NULL, "a" ) *)
  | Some file =>
    if negb (fopen file) then Ok (1, []) else
    let ps := the_ps cfg p in
    keygen_space <- measured_keygen_space pr sk ps ;;
    sig_space <- measured_sig_space pr fuel e_sig ps ctx_sig c ;;
    ver_space <- measured_ver_space pr e_ver ps ctx_ver ;;
    Ok (0, [Name p; Number (SIZEOF_TS_CONTEXT cfg); Number keygen_space; Number sig_space;
            if ver_space =? 0 then Failed else Number ver_space; Newline])
  end.
End Measure.

(** ramspace.py:22-24: the three lists *)
Inductive hash_name := sha2 | shake.
Inductive speed_name := fast | small.
(** ramspace.py:61: PARM_SET; sizes is [128, 192, 256] *)
Definition parm_set (h : hash_name) (size : Z) (s : speed_name) : ps_name :=
  match h, s with
  | sha2, fast => if size =? 256 then SHA2_256f else if size =? 192 then SHA2_192f else SHA2_128f
  | sha2, small => if size =? 256 then SHA2_256s else if size =? 192 then SHA2_192s else SHA2_128s
  | shake, fast => if size =? 256 then SHAKE_256f else if size =? 192 then SHAKE_192f else SHAKE_128f
  | shake, small => if size =? 256 then SHAKE_256s else if size =? 192 then SHAKE_192s else SHAKE_128s
  end.
(** ramspace.py:41-58: DFLAGS; -DTUNE_H_ takes away what tune.h defines *)
Definition dflags (h : hash_name) (size : Z) (s : speed_name) (le ptr64 al64 : bool) : config :=
  let l5 := if size =? 256 then true else false in
  let l3 := if size =? 256 then true else if size =? 192 then true else false in
  let sha := match h with sha2 => true | shake => false end in
  mkConfig (negb sha) sha l5 l3 (match s with small => true | fast => false end) false 2 le ptr64 al64.
(** ramspace.py:34-36: the three nested loops *)
Definition ramspace_builds (le ptr64 al64 : bool) : list (config * ps_name) :=
  flat_map (fun h => flat_map (fun size => map (fun s => (dflags h size s le ptr64 al64, parm_set h size s)) [fast; small]) [128; 192; 256]) [sha2; shake].
