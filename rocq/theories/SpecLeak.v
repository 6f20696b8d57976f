(** * What an observer of branches and addresses may learn from signing

    Someone who sees which way the branches of the library go and which memory locations
    it touches, but not the values there, sees how a signature is made, block by block.
    This file says what that may depend on: for each n-byte block of the signature a
    number that everybody can compute from the public key, the message and the
    signature.  (Everything else has to be the same for all keys, messages and random
    bytes.) *)
From Verif Require Import SpecSLH SpecApi SpecReuse SpecForge.

(** The n-byte blocks of a signature *)
Inductive block :=
| TheRandomiser
| FewTimeSecret (i : Z)          (* FORS tree i: the secret value *)
| FewTimePath (i j : Z)          (* ... node j of its authentication path *)
| Chain (l q : Z)                (* layer l: chain q of the one-time signature *)
| TreePath (l j : Z).            (* ... node j of the authentication path of the one-time key *)
(** in the order of Algorithm 19 *)
Definition blocks_of (P : params) : list block :=
  TheRandomiser ::
  flat_map (fun i => FewTimeSecret i :: map (FewTimePath i) (upto (p_a P))) (upto (p_k P)) ++
  flat_map (fun l => map (Chain l) (upto (wlen P)) ++ map (TreePath l) (upto (p_h' P))) (upto (p_d P)).

(** Bit [j] of [x] *)
Definition bit (x j : Z) : Z := (x / 2 ^ j) mod 2.
(** What making a block may show, in terms of public values: nothing for the randomiser
    and for FORS secrets; whether the sibling is to the left or to the right for a node
    of an authentication path; how many steps from its start a chain is revealed. *)
Definition shows (P : params) (PK M SIG : list Z) (b : block) : Z :=
  let D := digest_of P PK M SIG in
  match b with
  | TheRandomiser => 0
  | FewTimeSecret _ => 0
  | FewTimePath i j => bit (fts_leaf P D i) j
  | Chain l q => position P (layer_message P M SIG PK l) q
  | TreePath l j => bit (ots_index P D l) j
  end.
Definition view (P : params) (PK M SIG : list Z) : list Z := map (shows P PK M SIG) (blocks_of P).

(** Two signatures look the same in the making of the blocks that start at byte [t] or later, and before byte [u] *)
Definition same_view (P : params) (t u : Z) (PK1 M1 S1 PK2 M2 S2 : list Z) : Prop :=
  forall b : nat, t <= p_n P * Z.of_nat b < u ->
    nth b (view P PK1 M1 S1) 0 = nth b (view P PK2 M2 S2) 0.

(** Two random functions that differ only in the bytes they deliver: both are NULL, or
    both report success when asked for [m] bytes, or both report failure *)
Definition answer_alike (f g : random_fn) (m : Z) : Prop :=
  match f, g with
  | None, None => True
  | Some f, Some g => fst (f m) = 0 <-> fst (g m) = 0
  | _, _ => False
  end.
