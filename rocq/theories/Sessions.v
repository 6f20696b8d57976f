(** * API call sequences (sessions) used by the property statements

    A session is what a C caller writes: initialise, any number of calls, finish.
    Undefined behaviour in any call makes the whole session undefined. *)
From Verif Require Import CSem ModelSha256 ModelSha512 ModelFips202.

(** [for each chunk: s = f(s, chunk)] *)
Definition feed {S C} (f : S -> C -> outcome S) (s : S) (chunks : list C) : outcome S :=
  fold_left (fun o p => s <- o ;; f s p) chunks (Ok s).

(** ts_SHA256_init( ctx ); ts_SHA256_update( ctx, chunk ) for each chunk;
    ts_SHA256_final_trunc( digest, ctx, n ) *)
Definition sha256_session (le : bool) (c0 : sha256_ctx) (chunks : list (list Z)) (n : Z) :=
  c <- feed (ts_SHA256_update le) (ts_SHA256_init c0) chunks ;;
  ts_SHA256_final_trunc le c n.
Definition sha512_session (le : bool) (c0 : sha512_ctx) (chunks : list (list Z)) (n : Z) :=
  c <- feed (ts_SHA512_update le) (ts_SHA512_init c0) chunks ;;
  ts_SHA512_final_trunc le c n.

(** A sequence of squeeze calls: the bytes written by each, and the final state. *)
Fixpoint squeezes (opt : Z) (sizes : list Z) (s : list Z) : outcome (list (list Z) * list Z) :=
  match sizes with
  | [] => Ok ([], s)
  | n :: rest =>
    '(out, s) <- ts_shake256_inc_squeeze opt n s ;;
    '(outs, s) <- squeezes opt rest s ;;
    Ok (out :: outs, s)
  end.
(** init; absorb each chunk; finalize; squeeze each size *)
Definition shake256_session (opt : Z) (s0 : list Z) (chunks : list (list Z)) (sizes : list Z) :=
  s <- ts_shake256_inc_init s0 ;;
  s <- feed (ts_shake256_inc_absorb opt) s chunks ;;
  s <- ts_shake256_inc_finalize s ;;
  squeezes opt sizes s.
