(** * The uses of the hash functions within a key pair, and their addresses (FIPS 205, 4.2)

    A [use] says what a call of PRF, F, H or T_l is for. *)
From Verif Require Import SpecSLH.

Inductive use : Set :=
| WotsSecret (layer tree leaf chain : Z)      (* the start of a chain: PRF *)
| WotsStep (layer tree leaf chain hash : Z)   (* one step of a chain: F *)
| WotsKey (layer tree leaf : Z)               (* the compressed WOTS+ key: T_len *)
| TreeNode (layer tree height index : Z)      (* an inner node of a hypertree tree: H *)
| ForsSecret (tree leaf index : Z)            (* a FORS secret: PRF *)
| ForsNode (tree leaf height index : Z)       (* a FORS leaf (height 0): F, or inner node: H *)
| ForsKey (tree leaf : Z).                    (* the compressed FORS key: T_k *)

Definition use_address (u : use) : ADRS :=
  match u with
  | WotsSecret layer tree leaf chain => mkADRS layer tree WOTS_PRF leaf chain 0
  | WotsStep layer tree leaf chain hash => mkADRS layer tree WOTS_HASH leaf chain hash
  | WotsKey layer tree leaf => mkADRS layer tree WOTS_PK leaf 0 0
  | TreeNode layer tree height index => mkADRS layer tree TREE 0 height index
  | ForsSecret tree leaf index => mkADRS 0 tree FORS_PRF leaf 0 index
  | ForsNode tree leaf height index => mkADRS 0 tree FORS_TREE leaf height index
  | ForsKey tree leaf => mkADRS 0 tree FORS_ROOTS leaf 0 0
  end.

(** The uses that occur with parameters [P]: there are d layers; layer j has
    2^(h - h'(j+1)) trees of height h'; a chain has w - 1 steps; the k FORS trees of a
    key lie side by side *)
Section InRange.
Variable P : params.
Let d := p_d P.
Let h := p_h P.
Let h' := p_h' P.
Definition tree_in (layer tree : Z) : Prop := 0 <= layer < d /\ 0 <= tree < 2 ^ (h - h' * (layer + 1)).
Definition use_in (u : use) : Prop :=
  match u with
  | WotsSecret layer tree leaf chain => tree_in layer tree /\ 0 <= leaf < 2 ^ h' /\ 0 <= chain < wlen P
  | WotsStep layer tree leaf chain hash => tree_in layer tree /\ 0 <= leaf < 2 ^ h' /\ 0 <= chain < wlen P /\ 0 <= hash < w P - 1
  | WotsKey layer tree leaf => tree_in layer tree /\ 0 <= leaf < 2 ^ h'
  | TreeNode layer tree height index => tree_in layer tree /\ 1 <= height <= h' /\ 0 <= index < 2 ^ (h' - height)
  | ForsSecret tree leaf index => tree_in 0 tree /\ 0 <= leaf < 2 ^ h' /\ 0 <= index < p_k P * 2 ^ p_a P
  | ForsNode tree leaf height index => tree_in 0 tree /\ 0 <= leaf < 2 ^ h' /\ 0 <= height <= p_a P /\ 0 <= index < p_k P * 2 ^ (p_a P - height)
  | ForsKey tree leaf => tree_in 0 tree /\ 0 <= leaf < 2 ^ h'
  end.
End InRange.

(** Parameters with other hash functions *)
Definition with_hash (P : params) (hs : hashes) : params :=
  mkParams (p_n P) (p_h P) (p_d P) (p_h' P) (p_a P) (p_k P) (p_lgw P) (p_m P) hs.

(** Two families of hash functions that cannot be told apart by the uses that occur *)
Definition agree_on_uses (P : params) (PKseed : list Z) (hs hs' : hashes) : Prop :=
  (forall R root M, H_msg hs R PKseed root M = H_msg hs' R PKseed root M) /\
  (forall SKprf r M, PRF_msg hs SKprf r M = PRF_msg hs' SKprf r M) /\
  forall u, use_in P u ->
    match u with
    | WotsSecret _ _ _ _ | ForsSecret _ _ _ => forall sk, PRF hs PKseed sk (use_address u) = PRF hs' PKseed sk (use_address u)
    | WotsStep _ _ _ _ _ => forall X, hF hs PKseed (use_address u) X = hF hs' PKseed (use_address u) X
    | WotsKey _ _ _ | ForsKey _ _ => forall X, hT hs PKseed (use_address u) X = hT hs' PKseed (use_address u) X
    | TreeNode _ _ _ _ => forall X, hH hs PKseed (use_address u) X = hH hs' PKseed (use_address u) X
    | ForsNode _ _ height _ => forall X,
        if height =? 0 then hF hs PKseed (use_address u) X = hF hs' PKseed (use_address u) X
        else hH hs PKseed (use_address u) X = hH hs' PKseed (use_address u) X
    end.
