(** * What a measured amount of stack means

    The stack grows downwards: a routine that uses [u] bytes of a place of known bytes uses
    the [u] bytes at its upper end.  Lowest address first.  Independent of the model. *)
From Coq Require Import ZArith List.
Import ListNotations.
Local Open Scope Z_scope.

(** A place of [size] bytes, all of which are [b] *)
Definition filled_with (b size : Z) : list Z := repeat b (Z.to_nat size).

(** Of the place [before] a routine that left it as [after] changed no byte but the [u]
    uppermost *)
Definition only_top (u : Z) (before after : list Z) : Prop :=
  length after = length before /\
  forall i, Z.of_nat i < Z.of_nat (length before) - u -> nth_error after i = nth_error before i.
(** The lowest of the [u] uppermost bytes of [before] is different in [after] *)
Definition reached (u : Z) (before after : list Z) : Prop :=
  0 < u <= Z.of_nat (length before) /\
  nth_error after (Z.to_nat (Z.of_nat (length before) - u)) <> nth_error before (Z.to_nat (Z.of_nat (length before) - u)).
(** The depth to which the place was changed: 0 if it was not *)
Definition depth (before after : list Z) (u : Z) : Prop :=
  0 <= u <= Z.of_nat (length before) /\ only_top u before after /\ (u = 0 \/ reached u before after).
