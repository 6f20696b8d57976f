(** * Model of the test program of /repo: test_sphincs.c (what it prints is left out; so is
      the noise level, which only changes that) *)
From Coq Require Import String.
From Verif Require Import CSem ModelParams ModelCtx ModelSha512 ModelTest ModelKat.

Local Open Scope string_scope.
Local Open Scope list_scope.
Local Open Scope Z_scope.

(** test_sphincs.c:34,53,108,113: stdlib.h; values of POSIX *)
Definition EXIT_SUCCESS : Z := 0.
Definition EXIT_FAILURE : Z := 1.

(** test_sphincs.c:13-26 [test_list]: the keywords; no entry has test_enabled *)
Definition keywords : list string := ["sha512"; "shake256"; "testvector"; "verify"].

(** test_sphincs.c:85-91: the number of the first entry with this keyword; [j] is that of the
    first of [ks] *)
Fixpoint find_test (test : string) (j : Z) (ks : list string) : option Z :=
  match ks with
  | [] => None
  | k :: ks => if String.eqb test k then Some j else find_test test (j + 1) ks
  end.

(** test_sphincs.c:77-110: the arguments (after the program's name); None: unrecognised *)
Fixpoint arguments (args : list string) (tests_to_run : Z) (force_tests fast_flag : bool) : option (Z * bool * bool) :=
  match args with
  | [] => Some (tests_to_run, force_tests, fast_flag)
  | test :: args =>
    match find_test test 0 keywords with
    | Some j => arguments args (Z.lor tests_to_run (Z.shiftl 1 j)) force_tests fast_flag
    | None =>
      if String.eqb test "all" then arguments args (u32 (Z.lnot 0)) force_tests fast_flag else
      if String.eqb test "-f" then arguments args tests_to_run true fast_flag else
      if String.eqb test "-full" then arguments args tests_to_run force_tests false else
      if String.eqb test "-q" then arguments args tests_to_run force_tests fast_flag else
      if String.eqb test "-v" then arguments args tests_to_run force_tests fast_flag else
      None
    end
  end.

(** test_sphincs.c:32-58 [run_tests], from entry [i] on; [routines] are the test routines of
    these entries, as functions of fast_flag.  The second result lists the entries that are run
    (lines 38-43 print them). *)
Fixpoint run_tests (routines : list (bool -> outcome Z)) (i : Z) (tests : Z) (force_tests fast_flag : bool) (success_flag : Z) : outcome (Z * list Z) :=
  match routines with
  | [] => Ok (success_flag, [])
  | test_routine :: routines =>
    if 0 =? Z.land tests (Z.shiftl 1 i) then run_tests routines (i + 1) tests force_tests fast_flag success_flag else
    test_passed <- test_routine fast_flag ;;
    if negb (test_passed =? 0) then
      '(r, l) <- run_tests routines (i + 1) tests force_tests fast_flag success_flag ;;
      Ok (r, i :: l)
    else
      if negb force_tests then Ok (EXIT_FAILURE, [i]) else
      '(r, l) <- run_tests routines (i + 1) tests force_tests fast_flag EXIT_FAILURE ;;
      Ok (r, i :: l)
  end.

(** test_sphincs.c:75-117 [main]: the exit status, and the entries that are run *)
Definition main (routines : list (bool -> outcome Z)) (args : list string) : outcome (Z * list Z) :=
  match arguments args 0 false true with
  | None => Ok (EXIT_FAILURE, [])
  | Some (tests_to_run, force_tests, fast_flag) =>
    if tests_to_run =? 0 then Ok (EXIT_FAILURE, []) else
    run_tests routines 0 tests_to_run force_tests fast_flag EXIT_SUCCESS
  end.

(** test_sphincs.c:21-24, test_sha512.c:24,46,73, test_shake.c:30, test_testvector.c:113-160,
    test_verify.c:51-76: what is not initialised in the four test routines, and the
    addresses *)
Record environment := Environment {
  n_sha512 : nat -> sha512_ctx; n_filled512 : Z -> sha512_ctx;
  n_shake : nat -> list Z;
  n_testvector : nat -> surroundings; n_locals : nat -> locals;
  n_verify : ps_name -> surroundings
}.
(** test_sphincs.c:21-24: the test routines of the table *)
Definition routines (cfg : config) (n : environment) : list (bool -> outcome Z) :=
  [(fun _ => run_512 (cfg_le cfg) (n_sha512 n) (n_filled512 n) vectors_512);
   (fun _ => run_shake (cfg_shake_opt cfg) (n_shake n) vectors_shake);
   (fun _ => test_testvector cfg (n_testvector n) (n_locals n) testvectors);
   (fun fast_flag => test_verify cfg (n_verify n) fast_flag)].
(** test_sphincs.c:75-117: the program *)
Definition program (cfg : config) (n : environment) (args : list string) : outcome (Z * list Z) := main (routines cfg n) args.
