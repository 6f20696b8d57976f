(** * Byte strings and integers, as used by the standards (no model code here) *)
From Coq Require Export List ZArith Bool.
Export ListNotations.
Open Scope Z_scope.

(** A byte string is a list of integers 0..255. *)
Definition is_byte (b : Z) : Prop := 0 <= b < 256.
Definition is_bytes (l : list Z) : Prop := Forall is_byte l.
Definition len (l : list Z) : Z := Z.of_nat (length l).

(** The bytes l[from], ..., l[from+n-1]. *)
Definition slice (l : list Z) (from n : Z) : list Z :=
  firstn (Z.to_nat n) (skipn (Z.to_nat from) l).

(** FIPS 205 Algorithm 2, toInt(X, n): the big-endian integer of a byte string. *)
Definition toInt (l : list Z) : Z := fold_left (fun total b => 256 * total + b) l 0.

(** FIPS 205 Algorithm 3, toByte(x, n): the n low-order bytes of x, most significant
    first. *)
Fixpoint toByte (x : Z) (n : nat) : list Z :=
  match n with
  | O => []
  | S n' => toByte (x / 256) n' ++ [x mod 256]
  end.

(** Cut a string into consecutive pieces of [n] elements (a shorter rest is dropped). *)
Definition blocks {A} (n : nat) (l : list A) : list (list A) :=
  map (fun i => firstn n (skipn (i * n) l)) (seq 0 (length l / n)).
