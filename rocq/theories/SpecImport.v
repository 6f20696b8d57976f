(** * Private keys from elsewhere (C60)

    A private key is SK.seed, SK.prf, PK.seed, PK.root, n bytes each (FIPS 205, figure 15);
    its last two parts are the public key. *)
From Verif Require Import SpecSLH.

(** The public key that a private key contains *)
Definition public_part (P : params) (SK : list Z) : list Z := slice SK (2 * p_n P) (2 * p_n P).
(** PK.root is what Algorithm 18 computes from SK.seed and PK.seed *)
Definition consistent (P : params) (SK : list Z) : Prop :=
  slice SK (3 * p_n P) (p_n P) = slh_root P (slice SK (2 * p_n P) (p_n P)) (slice SK 0 (p_n P)).
(** [SK'] is [SK] except that bytes number i to i + l - 1 may be others *)
Definition differs_at_most (i l : Z) (SK SK' : list Z) : Prop :=
  len SK' = len SK /\ forall j : nat, ~ (i <= Z.of_nat j < i + l) -> nth_error SK' j = nth_error SK j.
