(** * What the test program test_verify.c tries

    It signs "abc" with a key made from fixed bytes, and verifies the signature, parts of
    it, and altered copies. *)
From Verif Require Import SpecSLH SpecForge SpecBinding.

(** Bit [bit] of byte [offset] of [S] turned over *)
Definition flipped (S : list Z) (offset bit : Z) : list Z :=
  firstn (Z.to_nat offset) S ++ Z.lxor (nth (Z.to_nat offset) S 0) (2 ^ bit) :: skipn (Z.to_nat offset + 1) S.

(** The altered cases: "abc" with a flipped bit in the signature [S] (in the fast mode, bit
    0 of every fifth byte), and "def" with the signature *)
Definition altered (fast : bool) (S M' S' : list Z) : Prop :=
  (M' = [97; 98; 99] /\ exists offset bit, 0 <= offset < len S /\ 0 <= bit < 8 /\
     (fast = true -> offset mod 5 = 0 /\ bit = 0) /\ S' = flipped S offset bit) \/
  (M' = [100; 101; 102] /\ S' = S).

(** A failure of the hash functions (or, for a changed randomiser or message, digests that
    select the same leaves) that shows in [M'], [S'], when [S] is a signature of [M] *)
Definition excused (P : params) (PK M S M' S' : list Z) : Prop :=
  (collision P PK M' S' M S \/ chains_inverted P PK M' S' M S) \/
  (selects P (message_digest P M' S' PK) = selects P (message_digest P M S PK) \/
   coincidence P PK M' S' M S \/ chain_returns P PK S').
