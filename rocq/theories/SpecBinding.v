(** * To what the rest of a signature is bound

    A signature is a randomiser of n bytes, and the rest.  The randomiser and the message
    give the digest, the digest selects a hypertree leaf and one leaf in each of the k FORS
    trees.  That is all that the message is used for. *)
From Verif Require Import SpecSLH SpecUses SpecForge.

(** The leaves that a digest selects: tree and leaf of the hypertree, and the FORS leaves *)
Definition selects (P : params) (digest : list Z) : Z * Z * list Z :=
  (idx_tree_of P digest, idx_leaf_of P digest, base_2b (md_of P digest) (p_a P) (p_k P)).

(** Two calls of the hash functions, one made to verify [S1] for [M1], the other made to
    verify [S2] for [M2], that differ in what they are for or in the string hashed, and
    have the same result.  (Uses that differ have different addresses: C28.) *)
Definition coincidence (P : params) (PK M1 S1 M2 S2 : list Z) : Prop :=
  exists u X v Y, In (u, X) (verify_inputs P M1 S1 PK) /\ In (v, Y) (verify_inputs P M2 S2 PK) /\
    (u, X) <> (v, Y) /\ hash_at P (slice PK 0 (p_n P)) u X = hash_at P (slice PK 0 (p_n P)) v Y.

(** The n bytes that a signature has for some chain are reached again if one goes on in the
    chain, by one step at least: F leads from this string to itself *)
Definition chain_returns (P : params) (PK SIG : list Z) : Prop :=
  exists layer tree leaf c from to, 0 <= layer < p_d P /\ 0 <= c < wlen P /\ 0 <= from < to /\ to <= w P - 1 /\
    chain P (slice PK 0 (p_n P)) (wots_part P SIG layer c) from (Z.to_nat (to - from)) (mkADRS layer tree WOTS_HASH leaf c 0)
    = wots_part P SIG layer c.
