(** * FIPS 205: the Stateless Hash-Based Digital Signature Standard (SLH-DSA)

    The internal functions slh_keygen_internal, slh_sign_internal and
    slh_verify_internal (Algorithms 1-20), with the three families of hash functions
    of section 11.  Written from the standard; the model is not used here.

    Conventions: byte strings are lists of integers 0..255; an ADRS is a record of its
    six fields, from which the 32 byte string is made. *)
From Verif Require Export SpecBytes.
From Verif Require Import SpecSha2 SpecKeccak.

(** 0, 1, ..., n-1 *)
Definition upto (n : Z) : list Z := map Z.of_nat (seq 0 (Z.to_nat n)).
(** ceil(a / b) *)
Definition ceil_div (a b : Z) : Z := (a + b - 1) / b.

(** ** 4.2, 4.3: addresses *)
Record ADRS := mkADRS {
  a_layer : Z;   (* bytes 0..3 *)
  a_tree : Z;    (* bytes 4..15 *)
  a_type : Z;    (* bytes 16..19 *)
  a_word1 : Z;   (* bytes 20..23: key pair address, or zero *)
  a_word2 : Z;   (* bytes 24..27: chain address, or tree height *)
  a_word3 : Z    (* bytes 28..31: hash address, or tree index *)
}.
Definition adrs_bytes (A : ADRS) : list Z :=
  toByte (a_layer A) 4 ++ toByte (a_tree A) 12 ++ toByte (a_type A) 4
  ++ toByte (a_word1 A) 4 ++ toByte (a_word2 A) 4 ++ toByte (a_word3 A) 4.
Definition zero_ADRS : ADRS := mkADRS 0 0 0 0 0 0.

Definition WOTS_HASH : Z := 0.
Definition WOTS_PK : Z := 1.
Definition TREE : Z := 2.
Definition FORS_TREE : Z := 3.
Definition FORS_ROOTS : Z := 4.
Definition WOTS_PRF : Z := 5.
Definition FORS_PRF : Z := 6.

(** Table 1: member functions *)
Definition setLayerAddress (l : Z) (A : ADRS) :=
  mkADRS l (a_tree A) (a_type A) (a_word1 A) (a_word2 A) (a_word3 A).
Definition setTreeAddress (t : Z) (A : ADRS) :=
  mkADRS (a_layer A) t (a_type A) (a_word1 A) (a_word2 A) (a_word3 A).
Definition setTypeAndClear (Y : Z) (A : ADRS) :=
  mkADRS (a_layer A) (a_tree A) Y 0 0 0.
Definition setKeyPairAddress (i : Z) (A : ADRS) :=
  mkADRS (a_layer A) (a_tree A) (a_type A) i (a_word2 A) (a_word3 A).
Definition setChainAddress (i : Z) (A : ADRS) :=
  mkADRS (a_layer A) (a_tree A) (a_type A) (a_word1 A) i (a_word3 A).
Definition setTreeHeight (i : Z) (A : ADRS) :=
  mkADRS (a_layer A) (a_tree A) (a_type A) (a_word1 A) i (a_word3 A).
Definition setHashAddress (i : Z) (A : ADRS) :=
  mkADRS (a_layer A) (a_tree A) (a_type A) (a_word1 A) (a_word2 A) i.
Definition setTreeIndex (i : Z) (A : ADRS) :=
  mkADRS (a_layer A) (a_tree A) (a_type A) (a_word1 A) (a_word2 A) i.
Definition getKeyPairAddress (A : ADRS) : Z := a_word1 A.

(** 11.2: the compressed address ADRSc = ADRS[3] || ADRS[8:16] || ADRS[19] || ADRS[20:32] *)
Definition adrs_compressed (A : ADRS) : list Z :=
  let s := adrs_bytes A in
  slice s 3 1 ++ slice s 8 8 ++ slice s 19 1 ++ slice s 20 12.

(** ** 4.1 The hash functions used by the scheme *)
Record hashes := mkHashes {
  H_msg : list Z -> list Z -> list Z -> list Z -> list Z;   (* R PK.seed PK.root M *)
  PRF : list Z -> list Z -> ADRS -> list Z;                 (* PK.seed SK.seed ADRS *)
  PRF_msg : list Z -> list Z -> list Z -> list Z;           (* SK.prf opt_rand M *)
  hF : list Z -> ADRS -> list Z -> list Z;                  (* PK.seed ADRS M1 *)
  hH : list Z -> ADRS -> list Z -> list Z;                  (* PK.seed ADRS M2 *)
  hT : list Z -> ADRS -> list Z -> list Z                   (* PK.seed ADRS Ml *)
}.

(** Parameters (Table 2): n h d h' a k lg_w m *)
Record params := mkParams {
  p_n : Z; p_h : Z; p_d : Z; p_h' : Z; p_a : Z; p_k : Z; p_lgw : Z; p_m : Z;
  p_hash : hashes
}.

(** ** 11.1: SHAKE *)
Definition shake_hashes (n m : Z) : hashes := mkHashes
  (fun R PKseed PKroot M => shake256 (R ++ PKseed ++ PKroot ++ M) m)
  (fun PKseed SKseed A => shake256 (PKseed ++ adrs_bytes A ++ SKseed) n)
  (fun SKprf opt_rand M => shake256 (SKprf ++ opt_rand ++ M) n)
  (fun PKseed A M => shake256 (PKseed ++ adrs_bytes A ++ M) n)
  (fun PKseed A M => shake256 (PKseed ++ adrs_bytes A ++ M) n)
  (fun PKseed A M => shake256 (PKseed ++ adrs_bytes A ++ M) n).

Definition Trunc (n : Z) (x : list Z) : list Z := firstn (Z.to_nat n) x.
(** toByte(0, 64 - n) and toByte(0, 128 - n) *)
Definition zero_bytes (n : Z) : list Z := toByte 0 (Z.to_nat n).

(** ** 11.2.1: SHA-2, security category 1 *)
Definition sha2_cat1_hashes (n m : Z) : hashes := mkHashes
  (fun R PKseed PKroot M =>
     MGF1 SHA256 (R ++ PKseed ++ sha2 SHA256 (R ++ PKseed ++ PKroot ++ M)) m)
  (fun PKseed SKseed A =>
     Trunc n (sha2 SHA256 (PKseed ++ zero_bytes (64 - n) ++ adrs_compressed A ++ SKseed)))
  (fun SKprf opt_rand M => Trunc n (HMAC SHA256 SKprf (opt_rand ++ M)))
  (fun PKseed A M =>
     Trunc n (sha2 SHA256 (PKseed ++ zero_bytes (64 - n) ++ adrs_compressed A ++ M)))
  (fun PKseed A M =>
     Trunc n (sha2 SHA256 (PKseed ++ zero_bytes (64 - n) ++ adrs_compressed A ++ M)))
  (fun PKseed A M =>
     Trunc n (sha2 SHA256 (PKseed ++ zero_bytes (64 - n) ++ adrs_compressed A ++ M))).

(** ** 11.2.2: SHA-2, security categories 3 and 5 *)
Definition sha2_cat35_hashes (n m : Z) : hashes := mkHashes
  (fun R PKseed PKroot M =>
     MGF1 SHA512 (R ++ PKseed ++ sha2 SHA512 (R ++ PKseed ++ PKroot ++ M)) m)
  (fun PKseed SKseed A =>
     Trunc n (sha2 SHA256 (PKseed ++ zero_bytes (64 - n) ++ adrs_compressed A ++ SKseed)))
  (fun SKprf opt_rand M => Trunc n (HMAC SHA512 SKprf (opt_rand ++ M)))
  (fun PKseed A M =>
     Trunc n (sha2 SHA256 (PKseed ++ zero_bytes (64 - n) ++ adrs_compressed A ++ M)))
  (fun PKseed A M =>
     Trunc n (sha2 SHA512 (PKseed ++ zero_bytes (128 - n) ++ adrs_compressed A ++ M)))
  (fun PKseed A M =>
     Trunc n (sha2 SHA512 (PKseed ++ zero_bytes (128 - n) ++ adrs_compressed A ++ M))).

(** ** Table 2: the twelve parameter sets *)
Definition SLH_DSA_SHA2_128s := mkParams 16 63 7 9 12 14 4 30 (sha2_cat1_hashes 16 30).
Definition SLH_DSA_SHAKE_128s := mkParams 16 63 7 9 12 14 4 30 (shake_hashes 16 30).
Definition SLH_DSA_SHA2_128f := mkParams 16 66 22 3 6 33 4 34 (sha2_cat1_hashes 16 34).
Definition SLH_DSA_SHAKE_128f := mkParams 16 66 22 3 6 33 4 34 (shake_hashes 16 34).
Definition SLH_DSA_SHA2_192s := mkParams 24 63 7 9 14 17 4 39 (sha2_cat35_hashes 24 39).
Definition SLH_DSA_SHAKE_192s := mkParams 24 63 7 9 14 17 4 39 (shake_hashes 24 39).
Definition SLH_DSA_SHA2_192f := mkParams 24 66 22 3 8 33 4 42 (sha2_cat35_hashes 24 42).
Definition SLH_DSA_SHAKE_192f := mkParams 24 66 22 3 8 33 4 42 (shake_hashes 24 42).
Definition SLH_DSA_SHA2_256s := mkParams 32 64 8 8 14 22 4 47 (sha2_cat35_hashes 32 47).
Definition SLH_DSA_SHAKE_256s := mkParams 32 64 8 8 14 22 4 47 (shake_hashes 32 47).
Definition SLH_DSA_SHA2_256f := mkParams 32 68 17 4 9 35 4 49 (sha2_cat35_hashes 32 49).
Definition SLH_DSA_SHAKE_256f := mkParams 32 68 17 4 9 35 4 49 (shake_hashes 32 49).

(** ** Algorithm 4: base_2b(X, b, out_len) *)
Fixpoint fill_bits (fuel : nat) (b : Z) (X : list Z) (bits total : Z) : list Z * Z * Z :=
  (* while bits < b: total <- (total << 8) + X[in]; in <- in + 1; bits <- bits + 8 *)
  match fuel with
  | O => (X, bits, total)
  | S fuel' =>
    if bits <? b then
      match X with
      | [] => (X, bits, total)
      | x :: X' => fill_bits fuel' b X' (bits + 8) (256 * total + x)
      end
    else (X, bits, total)
  end.
Fixpoint base_2b_from (b : Z) (out_len : nat) (X : list Z) (bits total : Z) : list Z :=
  match out_len with
  | O => []
  | S k =>
    let '(X, bits, total) := fill_bits (S (length X)) b X bits total in
    let bits := bits - b in
    (total / 2 ^ bits) mod 2 ^ b :: base_2b_from b k X bits total
  end.
Definition base_2b (X : list Z) (b out_len : Z) : list Z :=
  base_2b_from b (Z.to_nat out_len) X 0 0.

Section Scheme.
Variable P : params.
Let n := p_n P.
Let h := p_h P.
Let d := p_d P.
Let h' := p_h' P.
Let a := p_a P.
Let k := p_k P.
Let lg_w := p_lgw P.
Let Hs := p_hash P.

(** 5: w, len1, len2, len *)
Definition w : Z := 2 ^ lg_w.
Definition len1 : Z := ceil_div (8 * n) lg_w.
Definition len2 : Z := Z.log2 (len1 * (w - 1)) / lg_w + 1.
Definition wlen : Z := len1 + len2.

Variable PKseed : list Z.

(** Algorithm 5: chain(X, i, s, PK.seed, ADRS) *)
Fixpoint chain (X : list Z) (i : Z) (s : nat) (A : ADRS) : list Z :=
  match s with
  | O => X
  | S s' => chain (hF Hs PKseed (setHashAddress i A) X) (i + 1) s' A
  end.

(** The value of chain position [i] of key pair ADRS: the secret of Algorithms 6 and 7 *)
Definition wots_sk (SKseed : list Z) (A : ADRS) (i : Z) : list Z :=
  let skADRS := setTypeAndClear WOTS_PRF A in
  let skADRS := setKeyPairAddress (getKeyPairAddress A) skADRS in
  let skADRS := setChainAddress i skADRS in
  PRF Hs PKseed SKseed skADRS.

(** The compression at the end of Algorithms 6 and 8 *)
Definition wots_pk_compress (A : ADRS) (tmp : list Z) : list Z :=
  let wotspkADRS := setTypeAndClear WOTS_PK A in
  let wotspkADRS := setKeyPairAddress (getKeyPairAddress A) wotspkADRS in
  hT Hs PKseed wotspkADRS tmp.

(** Algorithm 6: wots_pkGen *)
Definition wots_pkGen (SKseed : list Z) (A : ADRS) : list Z :=
  wots_pk_compress A
    (flat_map (fun i => chain (wots_sk SKseed A i) 0 (Z.to_nat (w - 1)) (setChainAddress i A))
       (upto wlen)).

(** Algorithms 7 and 8, steps 1-7: the message and its checksum in base w *)
Definition wots_msg (M : list Z) : list Z :=
  let msg := base_2b M lg_w len1 in
  let csum := fold_left (fun csum x => csum + (w - 1) - x) msg 0 in
  let csum := csum * 2 ^ ((8 - (len2 * lg_w) mod 8) mod 8) in
  msg ++ base_2b (toByte csum (Z.to_nat (ceil_div (len2 * lg_w) 8))) lg_w len2.

(** Algorithm 7: wots_sign *)
Definition wots_sign (M SKseed : list Z) (A : ADRS) : list Z :=
  let msg := wots_msg M in
  flat_map (fun i =>
      chain (wots_sk SKseed A i) 0 (Z.to_nat (nth (Z.to_nat i) msg 0)) (setChainAddress i A))
    (upto wlen).

(** Algorithm 8: wots_pkFromSig *)
Definition wots_pkFromSig (sig M : list Z) (A : ADRS) : list Z :=
  let msg := wots_msg M in
  wots_pk_compress A
    (flat_map (fun i =>
        let m_i := nth (Z.to_nat i) msg 0 in
        chain (slice sig (i * n) n) m_i (Z.to_nat (w - 1 - m_i)) (setChainAddress i A))
      (upto wlen)).

(** Algorithm 9: xmss_node(SK.seed, i, z, PK.seed, ADRS) *)
Fixpoint xmss_node (SKseed : list Z) (i : Z) (z : nat) (A : ADRS) : list Z :=
  match z with
  | O => wots_pkGen SKseed (setKeyPairAddress i (setTypeAndClear WOTS_HASH A))
  | S z' =>
    let lnode := xmss_node SKseed (2 * i) z' A in
    let rnode := xmss_node SKseed (2 * i + 1) z' A in
    hH Hs PKseed (setTreeIndex i (setTreeHeight (Z.of_nat z) (setTypeAndClear TREE A)))
      (lnode ++ rnode)
  end.

(** Algorithm 10: xmss_sign *)
Definition xmss_sign (M SKseed : list Z) (idx : Z) (A : ADRS) : list Z :=
  let AUTH := flat_map (fun j => xmss_node SKseed (Z.lxor (idx / 2 ^ j) 1) (Z.to_nat j) A) (upto h') in
  let A' := setKeyPairAddress idx (setTypeAndClear WOTS_HASH A) in
  wots_sign M SKseed A' ++ AUTH.

(** Algorithm 11: xmss_pkFromSig *)
Definition xmss_pkFromSig (idx : Z) (SIG_XMSS M : list Z) (A : ADRS) : list Z :=
  let sig := slice SIG_XMSS 0 (wlen * n) in
  let AUTH j := slice SIG_XMSS ((wlen + j) * n) n in
  let node0 := wots_pkFromSig sig M (setKeyPairAddress idx (setTypeAndClear WOTS_HASH A)) in
  fold_left (fun node j =>
      let A' := setTreeIndex (idx / 2 ^ (j + 1)) (setTreeHeight (j + 1) (setTypeAndClear TREE A)) in
      if (idx / 2 ^ j) mod 2 =? 0
      then hH Hs PKseed A' (node ++ AUTH j)
      else hH Hs PKseed A' (AUTH j ++ node))
    (upto h') node0.

(** Algorithm 12: ht_sign.  [layers] trees from layer [j] on *)
Fixpoint ht_sign_from (layers : nat) (j : Z) (M SKseed : list Z) (idx_tree idx_leaf : Z) : list Z :=
  match layers with
  | O => []
  | S l =>
    let A := setTreeAddress idx_tree (setLayerAddress j zero_ADRS) in
    let SIG_tmp := xmss_sign M SKseed idx_leaf A in
    let root := xmss_pkFromSig idx_leaf SIG_tmp M A in
    SIG_tmp ++ ht_sign_from l (j + 1) root SKseed (idx_tree / 2 ^ h') (idx_tree mod 2 ^ h')
  end.
Definition ht_sign (M SKseed : list Z) (idx_tree idx_leaf : Z) : list Z :=
  ht_sign_from (Z.to_nat d) 0 M SKseed idx_tree idx_leaf.

(** Algorithm 13: ht_verify: the root that is compared with PK.root.
    [SIG_HT.getXMSSSignature(j)] is the j-th part of (h' + len) n bytes. *)
Fixpoint ht_root_from (layers : nat) (j : Z) (M SIG_HT : list Z) (idx_tree idx_leaf : Z) : list Z :=
  match layers with
  | O => M
  | S l =>
    let A := setTreeAddress idx_tree (setLayerAddress j zero_ADRS) in
    let SIG_tmp := slice SIG_HT (j * ((h' + wlen) * n)) ((h' + wlen) * n) in
    let node := xmss_pkFromSig idx_leaf SIG_tmp M A in
    ht_root_from l (j + 1) node SIG_HT (idx_tree / 2 ^ h') (idx_tree mod 2 ^ h')
  end.
Definition ht_root (M SIG_HT : list Z) (idx_tree idx_leaf : Z) : list Z :=
  ht_root_from (Z.to_nat d) 0 M SIG_HT idx_tree idx_leaf.

(** Algorithm 14: fors_skGen *)
Definition fors_skGen (SKseed : list Z) (A : ADRS) (idx : Z) : list Z :=
  let skADRS := setTypeAndClear FORS_PRF A in
  let skADRS := setKeyPairAddress (getKeyPairAddress A) skADRS in
  let skADRS := setTreeIndex idx skADRS in
  PRF Hs PKseed SKseed skADRS.

(** Algorithm 15: fors_node *)
Fixpoint fors_node (SKseed : list Z) (i : Z) (z : nat) (A : ADRS) : list Z :=
  match z with
  | O =>
    hF Hs PKseed (setTreeIndex i (setTreeHeight 0 A)) (fors_skGen SKseed A i)
  | S z' =>
    let lnode := fors_node SKseed (2 * i) z' A in
    let rnode := fors_node SKseed (2 * i + 1) z' A in
    hH Hs PKseed (setTreeIndex i (setTreeHeight (Z.of_nat z) A)) (lnode ++ rnode)
  end.

(** Algorithm 16: fors_sign *)
Definition fors_sign (md SKseed : list Z) (A : ADRS) : list Z :=
  let indices := base_2b md a k in
  flat_map (fun i =>
      let idx := nth (Z.to_nat i) indices 0 in
      let AUTH := flat_map (fun j =>
          let s := Z.lxor (idx / 2 ^ j) 1 in
          fors_node SKseed (i * 2 ^ (a - j) + s) (Z.to_nat j) A) (upto a) in
      fors_skGen SKseed A (i * 2 ^ a + idx) ++ AUTH)
    (upto k).

(** Algorithm 17: fors_pkFromSig *)
Definition fors_root_from (SIG_FORS : list Z) (i idx : Z) (A : ADRS) : list Z :=
  let sk := slice SIG_FORS (i * (a + 1) * n) n in
  let auth j := slice SIG_FORS ((i * (a + 1) + 1 + j) * n) n in
  let node0 := hF Hs PKseed (setTreeIndex (i * 2 ^ a + idx) (setTreeHeight 0 A)) sk in
  fold_left (fun node j =>
      let A' := setTreeIndex ((i * 2 ^ a + idx) / 2 ^ (j + 1)) (setTreeHeight (j + 1) A) in
      if (idx / 2 ^ j) mod 2 =? 0
      then hH Hs PKseed A' (node ++ auth j)
      else hH Hs PKseed A' (auth j ++ node))
    (upto a) node0.
Definition fors_pkFromSig (SIG_FORS md : list Z) (A : ADRS) : list Z :=
  let indices := base_2b md a k in
  let roots := flat_map (fun i => fors_root_from SIG_FORS i (nth (Z.to_nat i) indices 0) A) (upto k) in
  let forspkADRS := setTypeAndClear FORS_ROOTS A in
  let forspkADRS := setKeyPairAddress (getKeyPairAddress A) forspkADRS in
  hT Hs PKseed forspkADRS roots.

(** Algorithm 18, steps 1-3: PK.root *)
Definition slh_root (SKseed : list Z) : list Z :=
  xmss_node SKseed 0 (Z.to_nat h') (setLayerAddress (d - 1) zero_ADRS).

(** Algorithms 19 and 20: splitting the digest *)
Definition md_of (digest : list Z) : list Z := slice digest 0 (ceil_div (k * a) 8).
Definition idx_tree_of (digest : list Z) : Z :=
  toInt (slice digest (ceil_div (k * a) 8) (ceil_div (h - h / d) 8)) mod 2 ^ (h - h / d).
Definition idx_leaf_of (digest : list Z) : Z :=
  toInt (slice digest (ceil_div (k * a) 8 + ceil_div (h - h / d) 8) (ceil_div h (8 * d)))
    mod 2 ^ (h / d).
Definition fors_ADRS (digest : list Z) : ADRS :=
  setKeyPairAddress (idx_leaf_of digest)
    (setTypeAndClear FORS_TREE (setTreeAddress (idx_tree_of digest) zero_ADRS)).
End Scheme.

(** ** Algorithm 18: slh_keygen_internal(SK.seed, SK.prf, PK.seed): the private key
    SK.seed || SK.prf || PK.seed || PK.root and the public key PK.seed || PK.root *)
Definition slh_keygen_internal (P : params) (SKseed SKprf PKseed : list Z) : list Z * list Z :=
  let PKroot := slh_root P PKseed SKseed in
  (SKseed ++ SKprf ++ PKseed ++ PKroot, PKseed ++ PKroot).

(** ** Algorithm 19: slh_sign_internal(M, SK, addrnd) *)
Definition slh_sign_internal (P : params) (M SK addrnd : list Z) : list Z :=
  let n := p_n P in
  let SKseed := slice SK 0 n in
  let SKprf := slice SK n n in
  let PKseed := slice SK (2 * n) n in
  let PKroot := slice SK (3 * n) n in
  let R := PRF_msg (p_hash P) SKprf addrnd M in
  let digest := H_msg (p_hash P) R PKseed PKroot M in
  let A := fors_ADRS P digest in
  let md := md_of P digest in
  let SIG_FORS := fors_sign P PKseed md SKseed A in
  let PK_FORS := fors_pkFromSig P PKseed SIG_FORS md A in
  let SIG_HT := ht_sign P PKseed PK_FORS SKseed (idx_tree_of P digest) (idx_leaf_of P digest) in
  R ++ SIG_FORS ++ SIG_HT.

(** The length of a signature: (1 + k(1 + a) + h + d len) n *)
Definition slh_sig_length (P : params) : Z :=
  (1 + p_k P * (1 + p_a P) + p_h P + p_d P * wlen P) * p_n P.

Fixpoint bytes_eqb (x y : list Z) : bool :=
  match x, y with
  | [], [] => true
  | u :: x', v :: y' => (u =? v) && bytes_eqb x' y'
  | _, _ => false
  end.

(** ** Algorithm 20: slh_verify_internal(M, SIG, PK) *)
Definition slh_verify_internal (P : params) (M SIG PK : list Z) : bool :=
  if negb (len SIG =? slh_sig_length P) then false else
  let n := p_n P in
  let PKseed := slice PK 0 n in
  let PKroot := slice PK n n in
  let R := slice SIG 0 n in
  let SIG_FORS := slice SIG n (p_k P * (1 + p_a P) * n) in
  let SIG_HT := slice SIG ((1 + p_k P * (1 + p_a P)) * n) ((p_h P + p_d P * wlen P) * n) in
  let digest := H_msg (p_hash P) R PKseed PKroot M in
  let PK_FORS := fors_pkFromSig P PKseed SIG_FORS (md_of P digest) (fors_ADRS P digest) in
  bytes_eqb (ht_root P PKseed PK_FORS SIG_HT (idx_tree_of P digest) (idx_leaf_of P digest)) PKroot.
