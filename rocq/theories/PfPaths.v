(** * FORS and Merkle authentication paths *)
From Verif Require Import Arr SpecSha2 SpecKeccak SpecSLH ModelEndian ModelSha256 ModelSha512 ModelFips202
  ModelParams ModelCtx ModelHash ModelSphincs SpecMap PfEndian PfIter PfEnv PfAdr PfGlueSha PfGlue PfCtx PfTree.

Section Paths.
Variable E : env.
Local Notation cfg := (e_cfg E).
Local Notation mem := (e_mem E).
Local Notation n := (e_n E).
Local Notation P := (e_P E).
Local Notation hs := (e_hs E).
Local Notation seed := (e_seed E).

Lemma str_bytes x : str_ok E x -> is_bytes x. Proof. intros [_ H]; exact H. Qed.
Lemma fors_node_ok sk A z : sk_at E sk -> forall i, str_ok E (fors_node P seed sk i z A).
Proof.
  intros Hsk. induction z; intros i; cbn [fors_node].
  - apply hF_ok. apply str_bytes, fors_skGen_ok, Hsk.
  - apply hH_ok. apply bytes_app; apply str_bytes, IHz.
Qed.
Lemma wots_pkGen_ok sk A : sk_at E sk -> str_ok E (wots_pkGen P seed sk A).
Proof.
  intros Hsk. rewrite wots_pkGen_eq. apply hT_ok. apply (flat_strs E). intros i. apply wots_end_ok, Hsk.
Qed.
Lemma xmss_node_ok sk A z : sk_at E sk -> forall i, str_ok E (xmss_node P seed sk i z A).
Proof.
  intros Hsk. induction z; intros i; cbn [xmss_node].
  - apply wots_pkGen_ok, Hsk.
  - apply hH_ok. apply bytes_app; apply str_bytes, IHz.
Qed.

Lemma stack_fors : 0 <= fst (fors_stack cfg) /\ (p_a P - 1) * n <= snd (fors_stack cfg) /\
  fst (fors_stack cfg) + snd (fors_stack cfg) <= SIZEOF_X cfg.
Proof.
  pose proof (x_ge_fors E). pose proof (n_max E). pose proof (n_bounds E). pose proof (t_bounds E).
  unfold fors_stack. cbn [fst snd]. unfold FORS_STACK_SIZE, FORS_STACK_OFFSET in *. unfold TS_MAX_FORS in *. split; [lia|]. split; [nia|lia].
Qed.
Lemma stack_merkle : 0 <= fst (merkle_stack cfg) /\ (p_h' P - 1) * n <= snd (merkle_stack cfg) /\
  fst (merkle_stack cfg) + snd (merkle_stack cfg) <= SIZEOF_X cfg.
Proof.
  pose proof (x_ge_merkle E). pose proof (n_max E). pose proof (n_bounds E). pose proof (mh_bounds E).
  unfold merkle_stack. cbn [fst snd]. unfold MERKLE_STACK_SIZE, MERKLE_STACK_OFFSET in *. split; [lia|]. split; [nia|lia].
Qed.

(** ** One step of a FORS authentication path *)
Definition fr_fors := same_x true (fors_stack cfg).
Lemma fors_path_ok sk c h idx : good E c -> sk_at E sk -> c_hypertree_level c = 0 ->
  c_fors_tree c < 256 ->
  c_merkle_level c = h -> 0 <= h < p_a P -> c_auth_path_node c = idx -> 0 <= idx < 2 ^ p_a P ->
  buf_is BufAuth (fors_node P seed sk ((c_fors_tree c * 2 ^ p_a P + idx) / 2 ^ h) (Z.to_nat h) (fors_A c)) c ->
  exists c', ts_merkle_path cfg mem (fors_leaf cfg mem) ADR_TYPE_FORSTREE (fors_stack cfg) c = Ok c' /\ good E c' /\
    core c' = core (set_buffer_offset 0 (set_merkle_level (h + 1) c)) /\ same_x true (fors_stack cfg) c c' /\
    buf_is BufBuffer (fors_node P seed sk (c_fors_tree c * 2 ^ (p_a P - h) + Z.lxor (idx / 2 ^ h) 1) (Z.to_nat h) (fors_A c)) c' /\
    buf_is BufAuth (fors_node P seed sk ((c_fors_tree c * 2 ^ p_a P + idx) / 2 ^ (h + 1)) (Z.to_nat (h + 1)) (fors_A c)) c'.
Proof.
  intros G Hsk HL HF Hml Hh Hidx Hi HA. pose proof (t_bounds E) as Ht.
  assert (HF0 : 0 <= c_fors_tree c < 256) by (apply (wf_fors_tree _ _ (g_wf E c G))).
  assert (P14 : 2 ^ p_a P <= 2 ^ 14) by (apply Z.pow_le_mono_r; lia).
  destruct (path_ok E true (fors_stack cfg) (p_a P) 0 (c_tree_address c) FORS_TREE (c_fors_keypair_addr c) (c_fors_tree c)
    (fun z i => fors_node P seed sk i z (fors_A c)) (fors_leaf cfg mem)) with (c := c) (h := h) (idx := idx)
    as (c' & E' & G' & C' & X' & B' & A'); auto; try lia.
  - apply stack_fors.
  - apply Z.divide_factor_r.
  - intros z i. apply fors_node_ok, Hsk.
  - intros d i Gd (D1 & D2 & D3 & D4) Hi'.
    destruct (fors_leaf_ok E sk BufBuffer i d Gd Hsk) as (a & s & Hs & Ed); [lia|].
    assert (Ef : fors_A d = fors_A c) by (unfold fors_A; rewrite D2, D3; reflexivity).
    unfold fidx in Ed. rewrite Ef, D4 in Ed.
    eexists. split; [exact Ed|]. split; [apply good_buf_set; [apply fors_node_ok, Hsk|apply good_scr; assumption]|].
    split; [repeat split|apply buf_is_set].
  - split; [exact HL|]. repeat split; reflexivity.
  - exists c'. split; [exact E'|]. split; [exact G'|]. split; [exact C'|]. split; [exact X'|]. split; [|exact A'].
    replace (c_fors_tree c * 2 ^ (p_a P - h)) with (c_fors_tree c * 2 ^ p_a P / 2 ^ h); [exact B'|].
    rewrite (pow2_split (p_a P) h), Z.mul_assoc, (Z.mul_comm _ (2 ^ h)), <- Z.mul_assoc, Z.mul_comm, Z.div_mul
      by (try (pose proof (pow2_pos h)); lia).
    reflexivity.
Qed.

(** ** One step of a Merkle authentication path *)
Definition tree_A (c : ts_context) : ADRS := mkADRS (c_hypertree_level c) (c_tree_address c) 0 0 0 0.
Lemma merkle_path_left sk c h idx : good E c -> sk_at E sk -> c_fors_keypair_addr c = 0 -> c_fors_tree c = 0 ->
  c_merkle_level c = h -> 0 <= h < p_h' P -> c_auth_path_node c = idx -> 0 <= idx < 2 ^ p_h' P ->
  buf_is BufAuth (xmss_node P seed sk (idx / 2 ^ h) (Z.to_nat h) (tree_A c)) c ->
  exists c', ts_merkle_path cfg mem (ts_wots_leaf cfg mem) ADR_TYPE_HASHTREE (merkle_stack cfg) c = Ok c' /\ good E c' /\
    core c' = core (set_buffer_offset 0 (set_merkle_level (h + 1) c)) /\
    buf_is BufBuffer (xmss_node P seed sk (Z.lxor (idx / 2 ^ h) 1) (Z.to_nat h) (tree_A c)) c' /\
    buf_is BufAuth (xmss_node P seed sk (idx / 2 ^ (h + 1)) (Z.to_nat (h + 1)) (tree_A c)) c' /\
    (let q := idx / 2 ^ (h + 1) in
     spent E (c_small_iter c') (mkADRS (c_hypertree_level c) (c_tree_address c) TREE 0 (h + 1) q)
       (xmss_node P seed sk (2 * q) (Z.to_nat h) (tree_A c) ++ xmss_node P seed sk (2 * q + 1) (Z.to_nat h) (tree_A c))) /\
    (let leaf := 2 ^ h * Z.lxor (idx / 2 ^ h) 1 + 2 ^ h - 1 in
     let A := setKeyPairAddress leaf (setTypeAndClear WOTS_HASH (tree_A c)) in
     0 <= leaf < 2 ^ p_h' P /\
     spent E (c_big_iter c') (setKeyPairAddress leaf (setTypeAndClear WOTS_PK (tree_A c))) (flat_map (wots_end E sk A) (upto (wlen P))) /\
     buf_is BufMerkle (wots_end E sk A (wlen P - 1)) c').
Proof.
  intros G Hsk HK HF Hml Hh Hidx Hi HA. pose proof (mh_bounds E) as Ht.
  destruct (path_left E false (merkle_stack cfg) (p_h' P) (c_hypertree_level c) (c_tree_address c) TREE 0 0
    (fun z i => xmss_node P seed sk i z (tree_A c)) (ts_wots_leaf cfg mem)) with (c := c) (h := h) (idx := idx)
    as (c' & E' & G' & C' & X' & B' & A' & V' & L'); auto; try lia.
  - apply stack_merkle.
  - apply Z.divide_0_r.
  - intros z i. apply xmss_node_ok, Hsk.
  - intros d i Gd (D1 & D2 & D3 & D4) Hi'.
    destruct (ts_wots_leaf_ok E sk BufBuffer i d Gd Hsk) as (a & s & g & v & Hs & Hg & Hv & Ed).
    assert (Ef : wots_A d i = setKeyPairAddress i (setTypeAndClear WOTS_HASH (tree_A c))) by (unfold wots_A, lvl; rewrite D1, D2; reflexivity).
    rewrite Ef in Ed.
    eexists. split; [exact Ed|]. split.
    { apply good_buf_set; [apply wots_pkGen_ok, Hsk|]. apply good_big; [exact Hg|]. apply good_buf_set; [exact Hv|]. apply good_scr; assumption. }
    split; [|cbn [Z.add Z.mul]; apply buf_is_set].
    split; [reflexivity|]. split; [reflexivity|]. split; [discriminate|].
    change (skipn (Z.to_nat (fst (merkle_stack cfg))) (v ++ skipn (length v) (c_x d)) = skipn (Z.to_nat (fst (merkle_stack cfg))) (c_x d)).
    pose proof (n_max E). pose proof (n_bounds E). rewrite (str_length E v Hv).
    change (fst (merkle_stack cfg)) with (TS_MAX_HASH cfg).
    rewrite skipn_app, (str_length E v Hv), skipn_all2 by (rewrite (str_length E v Hv); lia).
    rewrite skipn_skipn'. cbn [app]. f_equal. lia.
  - split; [reflexivity|]. repeat split; try reflexivity; assumption.
  - rewrite Z.mul_0_l in *. rewrite Z.div_0_l, !Z.add_0_l in * by (pose proof (pow2_pos h); lia).
    exists c'. split; [exact E'|]. split; [exact G'|]. split; [exact C'|]. split; [exact B'|]. split; [exact A'|]. split; [exact V'|].
    cbv zeta. set (leaf := 2 ^ h * Z.lxor (idx / 2 ^ h) 1 + 2 ^ h - 1) in *. clearbody leaf.
    destruct L' as (d & d1 & Gd & (D1 & D2 & D3 & D4) & Hl & Ed & [S1 S2]). split; [exact Hl|].
    destruct (ts_wots_leaf_left E sk BufBuffer leaf d Gd Hsk) as (a & s & g & v & Hs & Hg & Hv & Sp & Ev & Ed').
    rewrite Ed in Ed'. assert (Edd : d1 = buf_set BufBuffer (wots_pkGen P seed sk (wots_A d leaf)) (wscr a s g v d)) by congruence.
    clear Ed Ed'. subst d1.
    assert (Ew : wots_A d leaf = setKeyPairAddress leaf (setTypeAndClear WOTS_HASH (tree_A c))) by (unfold wots_A, lvl; rewrite D1, D2; reflexivity).
    assert (Ek : wpk_A d leaf = setKeyPairAddress leaf (setTypeAndClear WOTS_PK (tree_A c))) by (unfold wpk_A, lvl; rewrite D1, D2; reflexivity).
    rewrite Ew in Sp, Ev. rewrite Ek in Sp. split; [rewrite S1; exact Sp|]. rewrite <- Ev.
    change (firstn (Z.to_nat (TS_MAX_HASH cfg)) (c_x c') = firstn (Z.to_nat (TS_MAX_HASH cfg)) (v ++ skipn (length v) (c_x d))) in S2.
    pose proof (n_max E) as Nm. pose proof (n_bounds E) as Nb. pose proof (str_length E v Hv) as Lv.
    exists (skipn (Z.to_nat n) (c_x c')). change (buf_of BufMerkle c') with (c_x c').
    rewrite <- (firstn_skipn (Z.to_nat n) (c_x c')) at 1. f_equal.
    transitivity (firstn (Z.to_nat n) (firstn (Z.to_nat (TS_MAX_HASH cfg)) (c_x c'))).
    { rewrite firstn_firstn. f_equal. lia. }
    rewrite S2, firstn_firstn, Nat.min_l by lia. apply firstn_app_exact. first [exact Lv|symmetry; exact Lv].
Qed.
Lemma merkle_path_ok sk c h idx : good E c -> sk_at E sk -> c_fors_keypair_addr c = 0 -> c_fors_tree c = 0 ->
  c_merkle_level c = h -> 0 <= h < p_h' P -> c_auth_path_node c = idx -> 0 <= idx < 2 ^ p_h' P ->
  buf_is BufAuth (xmss_node P seed sk (idx / 2 ^ h) (Z.to_nat h) (tree_A c)) c ->
  exists c', ts_merkle_path cfg mem (ts_wots_leaf cfg mem) ADR_TYPE_HASHTREE (merkle_stack cfg) c = Ok c' /\ good E c' /\
    core c' = core (set_buffer_offset 0 (set_merkle_level (h + 1) c)) /\
    buf_is BufBuffer (xmss_node P seed sk (Z.lxor (idx / 2 ^ h) 1) (Z.to_nat h) (tree_A c)) c' /\
    buf_is BufAuth (xmss_node P seed sk (idx / 2 ^ (h + 1)) (Z.to_nat (h + 1)) (tree_A c)) c'.
Proof.
  intros G Hsk HK HF Hml Hh Hidx Hi HA.
  destruct (merkle_path_left sk c h idx G Hsk HK HF Hml Hh Hidx Hi HA) as (c' & A1 & A2 & A3 & A4 & A5 & _). exists c'. auto 10.
Qed.
End Paths.
