(** * Model of endian.c *)
From Verif Require Import CSem.

(** endian.c:7-13 [ts_bytes_to_ull]: [p] is the byte array pointed to (from the
    pointer to the end of its object); [unsigned long long] is 64 bits. *)
Definition ts_bytes_to_ull (p : list Z) (n : Z) : outcome Z :=
  for_loop (Z.to_nat n) 0
    (fun i res => b <- rd p i ;; Ok (u64 (256 * res + b))) 0.

(** endian.c:19-24 [ts_ull_to_bytes]: the [n] bytes written at [p]; the loop runs
    from the last byte to the first.  The caller of the model writes the result
    (bounds checked) to its destination. *)
Fixpoint ull_to_bytes (val : Z) (n : nat) : list Z :=
  match n with
  | O => []
  | S n' => ull_to_bytes (Z.shiftr val 8) n' ++ [Z.land val 255]
  end.

(** The parameter of [ts_ull_to_bytes] is an [unsigned long long]: the argument is
    converted to 64 bits. *)
(** endian.c:19-24 *)
Definition ts_ull_to_bytes (val : Z) (n : Z) : list Z :=
  ull_to_bytes (u64 val) (Z.to_nat n).
