(** * What is hashed when a signature is verified

    A list of all calls of the tweakable hash functions in Algorithm 20: what the call is
    for (SpecUses.v) and the string that is hashed.  With it, what it means that two
    signatures together break the hash functions. *)
From Verif Require Import SpecSLH SpecUses.

Section Inputs.
Variable P : params.
Let n := p_n P.
Let h' := p_h' P.
Let d := p_d P.
Let a := p_a P.
Let k := p_k P.
Variable PKseed : list Z.

(** The function that a use asks: PRF, F, H or T_l *)
Definition hash_at (u : use) (X : list Z) : list Z :=
  let A := use_address u in
  match u with
  | WotsSecret _ _ _ _ | ForsSecret _ _ _ => PRF (p_hash P) PKseed X A
  | WotsStep _ _ _ _ _ => hF (p_hash P) PKseed A X
  | WotsKey _ _ _ | ForsKey _ _ => hT (p_hash P) PKseed A X
  | TreeNode _ _ _ _ => hH (p_hash P) PKseed A X
  | ForsNode _ _ height _ => if height =? 0 then hF (p_hash P) PKseed A X else hH (p_hash P) PKseed A X
  end.

(** [s] steps of a chain, from position [i] on *)
Fixpoint chain_inputs (layer tree leaf c : Z) (X : list Z) (i : Z) (s : nat) : list (use * list Z) :=
  match s with
  | O => []
  | S s' => let u := WotsStep layer tree leaf c i in
            (u, X) :: chain_inputs layer tree leaf c (hash_at u X) (i + 1) s'
  end.

(** The way up a tree: at step [j] the node is combined with [auth j], which is on the
    right if [left j], and hashed for [u j] *)
Fixpoint path_inputs (u : Z -> use) (left : Z -> bool) (auth : Z -> list Z) (node : list Z) (js : list Z) : list (use * list Z) :=
  match js with
  | [] => []
  | j :: js' => let X := if left j then node ++ auth j else auth j ++ node in
                (u j, X) :: path_inputs u left auth (hash_at (u j) X) js'
  end.

(** Algorithm 8 *)
Definition chain_end (layer tree leaf : Z) (sig M : list Z) (i : Z) : list Z :=
  let m_i := nth (Z.to_nat i) (wots_msg P M) 0 in
  chain P PKseed (slice sig (i * n) n) m_i (Z.to_nat (w P - 1 - m_i)) (mkADRS layer tree WOTS_HASH leaf i 0).
Definition wots_inputs (layer tree leaf : Z) (sig M : list Z) : list (use * list Z) :=
  flat_map (fun i => let m_i := nth (Z.to_nat i) (wots_msg P M) 0 in
              chain_inputs layer tree leaf i (slice sig (i * n) n) m_i (Z.to_nat (w P - 1 - m_i))) (upto (wlen P))
  ++ [(WotsKey layer tree leaf, flat_map (chain_end layer tree leaf sig M) (upto (wlen P)))].

(** Algorithm 11 *)
Definition xmss_inputs (layer tree idx : Z) (SIG_XMSS M : list Z) : list (use * list Z) :=
  let sig := slice SIG_XMSS 0 (wlen P * n) in
  let pk := hash_at (WotsKey layer tree idx) (flat_map (chain_end layer tree idx sig M) (upto (wlen P))) in
  wots_inputs layer tree idx sig M ++
  path_inputs (fun j => TreeNode layer tree (j + 1) (idx / 2 ^ (j + 1))) (fun j => (idx / 2 ^ j) mod 2 =? 0)
    (fun j => slice SIG_XMSS ((wlen P + j) * n) n) pk (upto h').

(** Algorithm 13 *)
Fixpoint ht_inputs (layers : nat) (j : Z) (M SIG_HT : list Z) (idx_tree idx_leaf : Z) : list (use * list Z) :=
  match layers with
  | O => []
  | S l =>
    let A := setTreeAddress idx_tree (setLayerAddress j zero_ADRS) in
    let SIG_tmp := slice SIG_HT (j * ((h' + wlen P) * n)) ((h' + wlen P) * n) in
    xmss_inputs j idx_tree idx_leaf SIG_tmp M ++
    ht_inputs l (j + 1) (xmss_pkFromSig P PKseed idx_leaf SIG_tmp M A) SIG_HT (idx_tree / 2 ^ h') (idx_tree mod 2 ^ h')
  end.

(** What the one-time signature [m] layers further up signs *)
Fixpoint ht_message (m : nat) (j : Z) (M SIG_HT : list Z) (idx_tree idx_leaf : Z) : list Z :=
  match m with
  | O => M
  | S m' =>
    let A := setTreeAddress idx_tree (setLayerAddress j zero_ADRS) in
    let SIG_tmp := slice SIG_HT (j * ((h' + wlen P) * n)) ((h' + wlen P) * n) in
    ht_message m' (j + 1) (xmss_pkFromSig P PKseed idx_leaf SIG_tmp M A) SIG_HT (idx_tree / 2 ^ h') (idx_tree mod 2 ^ h')
  end.

(** Algorithm 17 *)
Definition fors_inputs (tree leaf : Z) (SIG_FORS md : list Z) : list (use * list Z) :=
  let idx i := nth (Z.to_nat i) (base_2b md a k) 0 in
  flat_map (fun i =>
      let sk := slice SIG_FORS (i * (a + 1) * n) n in
      let u0 := ForsNode tree leaf 0 (i * 2 ^ a + idx i) in
      (u0, sk) ::
      path_inputs (fun j => ForsNode tree leaf (j + 1) ((i * 2 ^ a + idx i) / 2 ^ (j + 1))) (fun j => (idx i / 2 ^ j) mod 2 =? 0)
        (fun j => slice SIG_FORS ((i * (a + 1) + 1 + j) * n) n) (hash_at u0 sk) (upto a)) (upto k)
  ++ [(ForsKey tree leaf,
       flat_map (fun i => fors_root_from P PKseed SIG_FORS i (idx i) (mkADRS 0 tree FORS_TREE leaf 0 0)) (upto k))].
End Inputs.

(** Algorithm 20 *)
Definition message_digest (P : params) (M SIG PK : list Z) : list Z :=
  H_msg (p_hash P) (slice SIG 0 (p_n P)) (slice PK 0 (p_n P)) (slice PK (p_n P) (p_n P)) M.
Definition verify_inputs (P : params) (M SIG PK : list Z) : list (use * list Z) :=
  let n := p_n P in
  let PKseed := slice PK 0 n in
  let SIG_FORS := slice SIG n (p_k P * (1 + p_a P) * n) in
  let SIG_HT := slice SIG ((1 + p_k P * (1 + p_a P)) * n) ((p_h P + p_d P * wlen P) * n) in
  let digest := message_digest P M SIG PK in
  let tree := idx_tree_of P digest in
  let leaf := idx_leaf_of P digest in
  let PK_FORS := fors_pkFromSig P PKseed SIG_FORS (md_of P digest) (fors_ADRS P digest) in
  fors_inputs P PKseed tree leaf SIG_FORS (md_of P digest) ++
  ht_inputs P PKseed (Z.to_nat (p_d P)) 0 PK_FORS SIG_HT tree leaf.

(** The value that Algorithm 20 takes for signed by the one-time signature of a layer: on
    layer 0 a FORS key, above it the root of the tree below *)
Definition layer_message (P : params) (M SIG PK : list Z) (layer : Z) : list Z :=
  let n := p_n P in
  let PKseed := slice PK 0 n in
  let SIG_FORS := slice SIG n (p_k P * (1 + p_a P) * n) in
  let SIG_HT := slice SIG ((1 + p_k P * (1 + p_a P)) * n) ((p_h P + p_d P * wlen P) * n) in
  let digest := message_digest P M SIG PK in
  let PK_FORS := fors_pkFromSig P PKseed SIG_FORS (md_of P digest) (fors_ADRS P digest) in
  ht_message P PKseed (Z.to_nat layer) 0 PK_FORS SIG_HT (idx_tree_of P digest) (idx_leaf_of P digest).
(** The position in chain [c], 0 to w - 1, of what a one-time signature of [X] reveals *)
Definition position (P : params) (X : list Z) (c : Z) : Z := nth (Z.to_nat c) (wots_msg P X) 0.

(** ** Breaks that two signatures exhibit *)
(** A collision: verifying the one hashes X, verifying the other hashes Y for the same use,
    with the same result *)
Definition collision (P : params) (PK M1 S1 M2 S2 : list Z) : Prop :=
  exists u X Y, In (u, X) (verify_inputs P M1 S1 PK) /\ In (u, Y) (verify_inputs P M2 S2 PK) /\ X <> Y /\
    hash_at P (slice PK 0 (p_n P)) u X = hash_at P (slice PK 0 (p_n P)) u Y.

(** The n bytes of a signature that belong to chain [c] of layer [layer] *)
Definition wots_part (P : params) (SIG : list Z) (layer c : Z) : list Z :=
  slice SIG ((1 + p_k P * (1 + p_a P) + layer * (p_h' P + wlen P) + c) * p_n P) (p_n P).

(** In chain [c] of layer [layer] the one ([S1], of [M1]) reveals a value before the one
    that the other reveals: going forward from the former leads to the latter.  So the one
    has inverted the chain, as seen from the other.  The positions are those that belong
    to the values signed. *)
Definition earlier_in_chain (P : params) (PK M1 S1 M2 S2 : list Z) (layer tree leaf c : Z) : Prop :=
  let from := position P (layer_message P M1 S1 PK layer) c in
  let to := position P (layer_message P M2 S2 PK layer) c in
  0 <= from < to /\ to <= w P - 1 /\
  chain P (slice PK 0 (p_n P)) (wots_part P S1 layer c) from (Z.to_nat (to - from)) (mkADRS layer tree WOTS_HASH leaf c 0)
  = wots_part P S2 layer c.

(** The key pair that a signature with this digest uses at a layer (Algorithm 13) *)
Definition tree_at (P : params) (digest : list Z) (layer : Z) : Z := idx_tree_of P digest / 2 ^ (p_h' P * layer).
Definition leaf_at (P : params) (digest : list Z) (layer : Z) : Z :=
  if layer =? 0 then idx_leaf_of P digest else tree_at P digest (layer - 1) mod 2 ^ p_h' P.

(** The same WOTS+ key used for two messages: in one chain the first signature is ahead
    of the second, in another one the second ahead of the first *)
Definition chains_inverted (P : params) (PK M1 S1 M2 S2 : list Z) : Prop :=
  exists layer c c', 0 <= layer < p_d P /\ 0 <= c < wlen P /\ 0 <= c' < wlen P /\
    let digest := message_digest P M1 S1 PK in
    let tree := tree_at P digest layer in
    let leaf := leaf_at P digest layer in
    earlier_in_chain P PK M1 S1 M2 S2 layer tree leaf c /\ earlier_in_chain P PK M2 S2 M1 S1 layer tree leaf c'.

(** The length of what is hashed for a use *)
Definition input_length (P : params) (u : use) : Z :=
  match u with
  | WotsSecret _ _ _ _ | ForsSecret _ _ _ | WotsStep _ _ _ _ _ => p_n P
  | WotsKey _ _ _ => wlen P * p_n P
  | TreeNode _ _ _ _ => 2 * p_n P
  | ForsNode _ _ height _ => if height =? 0 then p_n P else 2 * p_n P
  | ForsKey _ _ => p_k P * p_n P
  end.
