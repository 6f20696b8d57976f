(** * What signatures under one private key have in common

    The hypertree has, on layer j (0: bottom), 2^(h - h' j) one-time (WOTS+) key pairs;
    below each key pair of layer 0 there is one few-time (FORS) key pair of k trees.
    Plain definitions used in the statements of PropReuse.v. *)
From Verif Require Import SpecSLH.

Section Reuse.
Variable P : params.
Local Notation n := (p_n P). Local Notation h' := (p_h' P).
Local Notation a := (p_a P). Local Notation k := (p_k P).

(** The few-time key pair that a digest selects, numbered from the left *)
Definition fts_index (digest : list Z) : Z := idx_tree_of P digest * 2 ^ h' + idx_leaf_of P digest.
(** The leaf that it selects in FORS tree [i] *)
Definition fts_leaf (digest : list Z) (i : Z) : Z := nth (Z.to_nat i) (base_2b (md_of P digest) a k) 0.
(** The one-time key pair of layer [j] above that, numbered from the left *)
Definition ots_index (digest : list Z) (j : Z) : Z := fts_index digest / 2 ^ (h' * j).

(** ** The parts of a signature *)
Definition part_R (S : list Z) : list Z := slice S 0 n.
(** FORS tree [i]: a secret value and its authentication path *)
Definition part_fors (S : list Z) (i : Z) : list Z := slice S ((1 + i * (a + 1)) * n) ((a + 1) * n).
(** Layer [j]: a one-time signature and the authentication path of its key *)
Definition part_layer (S : list Z) (j : Z) : list Z :=
  slice S ((1 + k * (a + 1) + j * (h' + wlen P)) * n) ((h' + wlen P) * n).

(** The digest of message [M] that goes with a signature [S] (everything here is public) *)
Definition digest_of (PK M S : list Z) : list Z :=
  H_msg (p_hash P) (part_R S) (slice PK 0 n) (slice PK n n) M.

(** The signature of [M] that the holder of [SK] makes with randomiser [R]: Algorithm 19
    without the line that computes R *)
Definition own_signature (SK M R : list Z) : list Z :=
  let SKseed := slice SK 0 n in
  let PKseed := slice SK (2 * n) n in
  let PKroot := slice SK (3 * n) n in
  let digest := H_msg (p_hash P) R PKseed PKroot M in
  let A := fors_ADRS P digest in
  let SIG_FORS := fors_sign P PKseed (md_of P digest) SKseed A in
  let PK_FORS := fors_pkFromSig P PKseed SIG_FORS (md_of P digest) A in
  R ++ SIG_FORS ++ ht_sign P PKseed PK_FORS SKseed (idx_tree_of P digest) (idx_leaf_of P digest).

(** The secret value of leaf [x] of tree [i] of few-time key pair number [q], and the place
    in a signature for a secret value of tree [i] *)
Definition fts_secret (PKseed SKseed : list Z) (q i x : Z) : list Z :=
  fors_skGen P PKseed SKseed (mkADRS 0 (q / 2 ^ h') FORS_TREE (q mod 2 ^ h') 0 0) (i * 2 ^ a + x).
Definition part_secret (S : list Z) (i : Z) : list Z := slice S ((1 + i * (a + 1)) * n) n.

(** ** The value that one-time key pair number [q] of layer [j] signs: on layer 0 the
    public key of the FORS key pair below it, on layer j > 0 the root of the tree below
    it, which is tree number [q] of layer j - 1.  No message and no digest in here. *)
Definition ots_message (PKseed SKseed : list Z) (j q : Z) : list Z :=
  if j =? 0 then
    let A := mkADRS 0 (q / 2 ^ h') FORS_TREE (q mod 2 ^ h') 0 0 in
    hT (p_hash P) PKseed (mkADRS 0 (q / 2 ^ h') FORS_ROOTS (q mod 2 ^ h') 0 0)
      (flat_map (fun i => fors_node P PKseed SKseed i (Z.to_nat a) A) (upto k))
  else xmss_node P PKseed SKseed 0 (Z.to_nat h') (mkADRS (j - 1) q 0 0 0 0).

(** Chain [c] of that key pair: the value [steps] steps from its secret start *)
Definition chain_value (PKseed SKseed : list Z) (j q c steps : Z) : list Z :=
  let secret := PRF (p_hash P) PKseed SKseed (mkADRS j (q / 2 ^ h') WOTS_PRF (q mod 2 ^ h') c 0) in
  chain P PKseed secret 0 (Z.to_nat steps) (mkADRS j (q / 2 ^ h') WOTS_HASH (q mod 2 ^ h') c 0).
End Reuse.
