(** * Addresses are injective, and the algorithms use only the listed ones *)
From Verif Require Import Arr SpecSLH SpecMap SpecUses ModelParams PropParams SpecApi SpecParts PfIter PfAdr PfTree PfBits PfSpec.
Ltac Zify.zify_post_hook ::= idtac.

(** ** Injectivity *)
Lemma toByte_inj n x y : 0 <= x < 256 ^ Z.of_nat n -> 0 <= y < 256 ^ Z.of_nat n -> toByte x n = toByte y n -> x = y.
Proof. intros Hx Hy E. rewrite <- (toInt_toByte n x Hx), <- (toInt_toByte n y Hy), E. reflexivity. Qed.
Lemma app_inj (a b c d : list Z) : length a = length c -> a ++ b = c ++ d -> a = c /\ b = d.
Proof.
  revert c. induction a as [|x a IH]; intros [|y c] L E; try discriminate; [auto|].
  injection E as -> E. destruct (IH c) as [-> ->]; auto.
Qed.
Lemma compressed_fields A : adrs_compressed A = toByte (a_layer A) 1 ++ toByte (a_tree A) 8 ++ toByte (a_type A) 1
  ++ toByte (a_word1 A) 4 ++ toByte (a_word2 A) 4 ++ toByte (a_word3 A) 4.
Proof. reflexivity. Qed.
Definition adrs_small (A : ADRS) : Prop :=
  0 <= a_layer A < 2 ^ 8 /\ 0 <= a_tree A < 2 ^ 64 /\ 0 <= a_type A < 2 ^ 8 /\
  0 <= a_word1 A < 2 ^ 32 /\ 0 <= a_word2 A < 2 ^ 32 /\ 0 <= a_word3 A < 2 ^ 32.
Lemma fields_inj w0 w1 w2 A B : (0 < w0)%nat -> (8 <= w1)%nat -> (0 < w2)%nat -> adrs_small A -> adrs_small B ->
  toByte (a_layer A) w0 ++ toByte (a_tree A) w1 ++ toByte (a_type A) w2
    ++ toByte (a_word1 A) 4 ++ toByte (a_word2 A) 4 ++ toByte (a_word3 A) 4 =
  toByte (a_layer B) w0 ++ toByte (a_tree B) w1 ++ toByte (a_type B) w2
    ++ toByte (a_word1 B) 4 ++ toByte (a_word2 B) 4 ++ toByte (a_word3 B) 4 -> A = B.
Proof.
  intros H0 H1 H2 (A1 & A2 & A3 & A4 & A5 & A6) (B1 & B2 & B3 & B4 & B5 & B6) E.
  apply app_inj in E; [|rewrite !toByte_length; reflexivity]. destruct E as [E1 E].
  apply app_inj in E; [|rewrite !toByte_length; reflexivity]. destruct E as [E2 E].
  apply app_inj in E; [|rewrite !toByte_length; reflexivity]. destruct E as [E3 E].
  apply app_inj in E; [|rewrite !toByte_length; reflexivity]. destruct E as [E4 E].
  apply app_inj in E; [|rewrite !toByte_length; reflexivity]. destruct E as [E5 E6].
  assert (P0 : 2 ^ 8 <= 256 ^ Z.of_nat w0) by (change (2 ^ 8) with (256 ^ 1); apply Z.pow_le_mono_r; lia).
  assert (P1 : 2 ^ 64 <= 256 ^ Z.of_nat w1) by (change (2 ^ 64) with (256 ^ 8); apply Z.pow_le_mono_r; lia).
  assert (P2 : 2 ^ 8 <= 256 ^ Z.of_nat w2) by (change (2 ^ 8) with (256 ^ 1); apply Z.pow_le_mono_r; lia).
  change (2 ^ 32) with (256 ^ Z.of_nat 4) in *.
  apply toByte_inj in E1; [|lia|lia]. apply toByte_inj in E2; [|lia|lia]. apply toByte_inj in E3; [|lia|lia].
  apply toByte_inj in E4; [|lia|lia]. apply toByte_inj in E5; [|lia|lia]. apply toByte_inj in E6; [|lia|lia].
  destruct A, B; cbn in *; congruence.
Qed.
Lemma compressed_inj A B : adrs_small A -> adrs_small B -> adrs_compressed A = adrs_compressed B -> A = B.
Proof. rewrite !compressed_fields. apply fields_inj; lia. Qed.
Lemma bytes_inj A B : adrs_small A -> adrs_small B -> adrs_bytes A = adrs_bytes B -> A = B.
Proof. unfold adrs_bytes. apply fields_inj; lia. Qed.

(** ** What is needed about the parameters *)
Record par_ok (P : params) : Prop := mkPar {
  o_lgw : p_lgw P = 4;
  o_h : p_h P = p_d P * p_h' P;
  o_hd : p_h P / p_d P = p_h' P;
  o_d : 0 < p_d P < 256;
  o_h' : 0 < p_h' P < 16;
  o_ht : 0 <= p_h P - p_h' P <= 64;
  o_a : 0 < p_a P < 16;
  o_k : 0 < p_k P < 256;
  o_w : w P = 16;
  o_wlen : 0 < wlen P < 2 ^ 16
}.
Lemma par_slh p : par_ok (slh_of p).
Proof. destruct p; (apply mkPar; [reflexivity|reflexivity|reflexivity| | | | | |reflexivity|]); cbv; intuition discriminate. Qed.

Section Par.
Variable P : params.
Hypothesis OK : par_ok P.

Lemma use_small u : use_in P u -> adrs_small (use_address u).
Proof.
  destruct OK as [o1 o2 o3 o4 o5 o6 o7 o8 o9 o10].
  assert (Q : 2 ^ p_h' P <= 2 ^ 16) by (apply Z.pow_le_mono_r; lia).
  assert (QA : 2 ^ p_a P <= 2 ^ 16) by (apply Z.pow_le_mono_r; lia).
  assert (QA0 : 0 < 2 ^ p_a P) by (apply Z.pow_pos_nonneg; lia).
  assert (T : forall l t, tree_in P l t -> 0 <= l < 2 ^ 8 /\ 0 <= t < 2 ^ 64).
  { intros l t [Hl Ht]. split; [lia|]. assert (2 ^ (p_h P - p_h' P * (l + 1)) <= 2 ^ 64) by (apply Z.pow_le_mono_r; [lia|nia]). lia. }
  assert (K : p_k P * 2 ^ p_a P < 2 ^ 32).
  { apply Z.le_lt_trans with (256 * 2 ^ 16); [|reflexivity]. apply Z.mul_le_mono_nonneg; lia. }
  unfold adrs_small, WOTS_PRF, WOTS_HASH, WOTS_PK, TREE, FORS_PRF, FORS_TREE, FORS_ROOTS; destruct u; cbn [use_in use_address a_layer a_tree a_type a_word1 a_word2 a_word3];
    unfold WOTS_PRF, WOTS_HASH, WOTS_PK, TREE, FORS_PRF, FORS_TREE, FORS_ROOTS.
  - intros (Ht & H1 & H2). apply T in Ht. lia.
  - intros (Ht & H1 & H2 & H3). apply T in Ht. lia.
  - intros (Ht & H1). apply T in Ht. lia.
  - intros (Ht & H1 & H2). apply T in Ht. assert (2 ^ (p_h' P - height) <= 2 ^ 16) by (apply Z.pow_le_mono_r; lia). lia.
  - intros (Ht & H1 & H2). apply T in Ht. lia.
  - intros (Ht & H1 & H2 & H3). apply T in Ht.
    assert (p_k P * 2 ^ (p_a P - height) <= p_k P * 2 ^ p_a P) by (apply Z.mul_le_mono_nonneg_l; [lia|apply Z.pow_le_mono_r; lia]). lia.
  - intros (Ht & H1). apply T in Ht. lia.
Qed.
Lemma use_address_inj u v : use_address u = use_address v -> u = v.
Proof.
  destruct u, v; cbn [use_address]; unfold WOTS_PRF, WOTS_HASH, WOTS_PK, TREE, FORS_PRF, FORS_TREE, FORS_ROOTS; intros E; try discriminate E; injection E; congruence.
Qed.

(** ** The algorithms *)
Variables (seed : list Z) (hs hs' : hashes).
Hypothesis AG : agree_on_uses P seed hs hs'.
Local Notation P1 := (with_hash P hs).
Local Notation P2 := (with_hash P hs').

Lemma in_upto k i : In i (upto k) -> 0 <= i < k.
Proof. rewrite upto_zrange. apply zrange_in. Qed.
Lemma fold_left_ext_in {A B} (f g : A -> B -> A) l : (forall a x, In x l -> f a x = g a x) -> forall a, fold_left f l a = fold_left g l a.
Proof. induction l as [|x l IH]; intros H a; cbn; [reflexivity|]. rewrite H by (left; reflexivity). apply IH. intros; apply H; right; assumption. Qed.
Lemma ag_use u : use_in P u -> match u with
    | WotsSecret _ _ _ _ | ForsSecret _ _ _ => forall sk, PRF hs seed sk (use_address u) = PRF hs' seed sk (use_address u)
    | WotsStep _ _ _ _ _ => forall X, hF hs seed (use_address u) X = hF hs' seed (use_address u) X
    | WotsKey _ _ _ | ForsKey _ _ => forall X, hT hs seed (use_address u) X = hT hs' seed (use_address u) X
    | TreeNode _ _ _ _ => forall X, hH hs seed (use_address u) X = hH hs' seed (use_address u) X
    | ForsNode _ _ height _ => forall X,
        if height =? 0 then hF hs seed (use_address u) X = hF hs' seed (use_address u) X
        else hH hs seed (use_address u) X = hH hs' seed (use_address u) X
    end.
Proof. apply AG. Qed.

Section Wots.
Variables l t leaf : Z.
Hypothesis Ht : tree_in P l t.
Hypothesis Hl : 0 <= leaf < 2 ^ p_h' P.
Local Notation A := (mkADRS l t WOTS_HASH leaf 0 0).
Lemma ag_chain i s : 0 <= i < wlen P -> forall X j, 0 <= j -> j + Z.of_nat s <= w P - 1 ->
  chain P1 seed X j s (setChainAddress i A) = chain P2 seed X j s (setChainAddress i A).
Proof.
  intros Hi. induction s as [|s IH]; intros X j Hj Hs; [reflexivity|]. cbn [chain].
  rewrite <- IH by lia. f_equal.
  apply (ag_use (WotsStep l t leaf i j)). cbn. split; [exact Ht|]. split; [exact Hl|]. lia.
Qed.
Lemma ag_wots_sk sk i : 0 <= i < wlen P -> wots_sk P1 seed sk A i = wots_sk P2 seed sk A i.
Proof. intros Hi. apply (ag_use (WotsSecret l t leaf i)). cbn. auto. Qed.
Lemma ag_compress X : wots_pk_compress P1 seed A X = wots_pk_compress P2 seed A X.
Proof. apply (ag_use (WotsKey l t leaf)). cbn. auto. Qed.
Lemma digit_range M i : 0 <= nth i (wots_msg P M) 0 <= w P - 1.
Proof.
  rewrite (o_w _ OK). unfold wots_msg. rewrite (o_lgw _ OK).
  set (m := base_2b M 4 (len1 P)). destruct (Nat.lt_ge_cases i (length m)) as [L|L].
  - rewrite app_nth1 by exact L. pose proof (base_2b_nth_range M 4 (len1 P) i ltac:(lia)) as R. change (2 ^ 4) with 16 in R. unfold m. lia.
  - rewrite app_nth2 by exact L. match goal with |- 0 <= nth ?j (base_2b ?x 4 ?k) 0 <= _ => pose proof (base_2b_nth_range x 4 k j ltac:(lia)) as R end.
    change (2 ^ 4) with 16 in R. lia.
Qed.
Lemma ag_wots_sign M sk : wots_sign P1 seed M sk A = wots_sign P2 seed M sk A.
Proof.
  unfold wots_sign. change (wlen P1) with (wlen P). change (wlen P2) with (wlen P). change (wots_msg P1 M) with (wots_msg P M). change (wots_msg P2 M) with (wots_msg P M).
  apply flat_map_ext_in. intros i Hi. apply in_upto in Hi. rewrite ag_wots_sk by exact Hi.
  pose proof (digit_range M (Z.to_nat i)) as R. apply ag_chain; [exact Hi|lia|lia].
Qed.
Lemma ag_pkFromSig sig M : wots_pkFromSig P1 seed sig M A = wots_pkFromSig P2 seed sig M A.
Proof.
  unfold wots_pkFromSig. rewrite <- ag_compress. f_equal.
  change (wlen P1) with (wlen P). change (wlen P2) with (wlen P). change (wots_msg P1 M) with (wots_msg P M). change (wots_msg P2 M) with (wots_msg P M).
  apply flat_map_ext_in. intros i Hi. apply in_upto in Hi. change (p_n P1) with (p_n P). change (p_n P2) with (p_n P).
  change (SpecSLH.w P1) with (SpecSLH.w P). change (SpecSLH.w P2) with (SpecSLH.w P).
  pose proof (digit_range M (Z.to_nat i)) as R. cbv zeta. apply ag_chain; [exact Hi|lia|lia].
Qed.
Lemma ag_pkGen sk : wots_pkGen P1 seed sk A = wots_pkGen P2 seed sk A.
Proof.
  unfold wots_pkGen. rewrite <- ag_compress. f_equal.
  change (wlen P1) with (wlen P). change (wlen P2) with (wlen P).
  apply flat_map_ext_in. intros i Hi. apply in_upto in Hi. rewrite ag_wots_sk by exact Hi.
  pose proof (o_w _ OK). change (SpecSLH.w P1) with (SpecSLH.w P). change (SpecSLH.w P2) with (SpecSLH.w P). apply ag_chain; [exact Hi|lia|lia].
Qed.
End Wots.

Lemma lxor1_bound x m : 0 <= x < 2 ^ m -> 0 < m -> 0 <= Z.lxor x 1 < 2 ^ m.
Proof.
  intros Hx Hm. rewrite lxor1_eq by lia.
  assert (2 ^ m = 2 * 2 ^ (m - 1)) by (rewrite <- Z.pow_succ_r by lia; f_equal; lia).
  destruct (Z.eqb_spec (x mod 2) 0); dlia.
Qed.
Lemma shift_bound x m j : 0 <= x < 2 ^ m -> 0 <= j <= m -> 0 <= x / 2 ^ j < 2 ^ (m - j).
Proof.
  intros Hx Hj. pose proof (pow2_pos j ltac:(lia)). split; [apply Z.div_pos; lia|].
  apply Z.div_lt_upper_bound; [lia|]. rewrite <- pow2_split by lia. lia.
Qed.

Section Xmss.
Variables l t : Z.
Hypothesis Ht : tree_in P l t.
Local Notation A := (mkADRS l t 0 0 0 0).
Lemma ag_xmss_node sk z : forall i, Z.of_nat z <= p_h' P -> 0 <= i < 2 ^ (p_h' P - Z.of_nat z) ->
  xmss_node P1 seed sk i z A = xmss_node P2 seed sk i z A.
Proof.
  induction z as [|z IH]; intros i Hz Hi.
  - cbn [xmss_node]. apply (ag_pkGen l t i Ht). replace (p_h' P - Z.of_nat 0) with (p_h' P) in Hi by lia. exact Hi.
  - cbn [xmss_node].
    assert (E2 : 2 ^ (p_h' P - Z.of_nat z) = 2 * 2 ^ (p_h' P - Z.of_nat (S z))).
    { rewrite <- Z.pow_succ_r by lia. f_equal. lia. }
    rewrite <- !IH by lia.
    apply (ag_use (TreeNode l t (Z.of_nat (S z)) i)). cbn [use_in]. split; [exact Ht|]. lia.
Qed.
Lemma ag_xmss_sign M sk idx : 0 <= idx < 2 ^ p_h' P -> xmss_sign P1 seed M sk idx A = xmss_sign P2 seed M sk idx A.
Proof.
  intros Hi. unfold xmss_sign. f_equal; [apply (ag_wots_sign l t idx Ht Hi)|].
  change (p_h' P1) with (p_h' P). change (p_h' P2) with (p_h' P).
  apply flat_map_ext_in. intros j Hj. apply in_upto in Hj.
  apply ag_xmss_node; [lia|]. rewrite Z2Nat.id by lia. apply lxor1_bound; [|lia]. apply shift_bound; lia.
Qed.
Lemma ag_xmss_pk idx sig M : 0 <= idx < 2 ^ p_h' P -> xmss_pkFromSig P1 seed idx sig M A = xmss_pkFromSig P2 seed idx sig M A.
Proof.
  intros Hi. unfold xmss_pkFromSig.
  change (setKeyPairAddress idx (setTypeAndClear WOTS_HASH A)) with (mkADRS l t WOTS_HASH idx 0 0).
  rewrite (ag_pkFromSig l t idx Ht Hi).
  apply fold_left_ext_in. intros node j Hj. apply in_upto in Hj. change (0 <= j < p_h' P) in Hj. cbv zeta.
  assert (U : use_in P (TreeNode l t (j + 1) (idx / 2 ^ (j + 1)))).
  { cbn [use_in]. split; [exact Ht|]. split; [lia|]. apply shift_bound; lia. }
  destruct (_ =? 0); apply (ag_use _ U).
Qed.
End Xmss.

Lemma next_tree l t : tree_in P l t -> l + 1 < p_d P -> tree_in P (l + 1) (t / 2 ^ p_h' P).
Proof.
  intros [Hl Ht] H. destruct OK as [o1 o2 o3 o4 o5 o6 o7 o8 o9 o10]. split; [lia|].
  replace (p_h P - p_h' P * (l + 1 + 1)) with ((p_h P - p_h' P * (l + 1)) - p_h' P) by ring.
  apply shift_bound; [exact Ht|]. split; [lia|]. nia.
Qed.
Lemma mod_leaf t : 0 <= t mod 2 ^ p_h' P < 2 ^ p_h' P.
Proof. apply Z.mod_pos_bound, pow2_pos. pose proof (o_h' _ OK). lia. Qed.
Lemma ag_ht_sign layers : forall j M sk t leaf, Z.of_nat layers + j <= p_d P -> (layers <> O -> tree_in P j t) ->
  0 <= leaf < 2 ^ p_h' P ->
  ht_sign_from P1 seed layers j M sk t leaf = ht_sign_from P2 seed layers j M sk t leaf.
Proof.
  induction layers as [|n IH]; intros j M sk t leaf Hl Ht Hf; [reflexivity|]. cbn [ht_sign_from].
  specialize (Ht ltac:(discriminate)).
  change (setTreeAddress t (setLayerAddress j zero_ADRS)) with (mkADRS j t 0 0 0 0).
  rewrite (ag_xmss_sign j t Ht) by exact Hf. rewrite (ag_xmss_pk j t Ht) by exact Hf.
  change (p_h' P1) with (p_h' P). change (p_h' P2) with (p_h' P). f_equal.
  apply IH; [lia|intros Hn; apply next_tree; [exact Ht|destruct n; [congruence|lia]]|apply mod_leaf].
Qed.
Lemma ag_ht_root layers : forall j M sig t leaf, Z.of_nat layers + j <= p_d P -> (layers <> O -> tree_in P j t) ->
  0 <= leaf < 2 ^ p_h' P ->
  ht_root_from P1 seed layers j M sig t leaf = ht_root_from P2 seed layers j M sig t leaf.
Proof.
  induction layers as [|n IH]; intros j M sig t leaf Hl Ht Hf; [reflexivity|]. cbn [ht_root_from].
  specialize (Ht ltac:(discriminate)).
  change (setTreeAddress t (setLayerAddress j zero_ADRS)) with (mkADRS j t 0 0 0 0).
  change (p_n P1) with (p_n P). change (p_n P2) with (p_n P). change (wlen P1) with (wlen P). change (wlen P2) with (wlen P).
  change (p_h' P1) with (p_h' P). change (p_h' P2) with (p_h' P).
  rewrite (ag_xmss_pk j t Ht) by exact Hf.
  apply IH; [lia|intros Hn; apply next_tree; [exact Ht|destruct n; [congruence|lia]]|apply mod_leaf].
Qed.

Section Fors.
Variables t leaf : Z.
Hypothesis Ht : tree_in P 0 t.
Hypothesis Hl : 0 <= leaf < 2 ^ p_h' P.
Local Notation A := (mkADRS 0 t FORS_TREE leaf 0 0).
Lemma ag_fors_sk sk i : 0 <= i < p_k P * 2 ^ p_a P -> fors_skGen P1 seed sk A i = fors_skGen P2 seed sk A i.
Proof. intros Hi. apply (ag_use (ForsSecret t leaf i)). cbn [use_in]. auto. Qed.
Lemma ag_fors_node sk z : forall i, Z.of_nat z <= p_a P -> 0 <= i < p_k P * 2 ^ (p_a P - Z.of_nat z) ->
  fors_node P1 seed sk i z A = fors_node P2 seed sk i z A.
Proof.
  induction z as [|z IH]; intros i Hz Hi.
  - cbn [fors_node]. rewrite ag_fors_sk by (rewrite Z.sub_0_r in Hi; exact Hi).
    apply (ag_use (ForsNode t leaf 0 i)). cbn [use_in]. split; [exact Ht|]. split; [exact Hl|]. split; [lia|exact Hi].
  - cbn [fors_node].
    assert (E2 : p_k P * 2 ^ (p_a P - Z.of_nat z) = 2 * (p_k P * 2 ^ (p_a P - Z.of_nat (S z)))).
    { rewrite (Z.mul_comm 2), <- Z.mul_assoc. f_equal. rewrite (Z.mul_comm _ 2), <- Z.pow_succ_r by lia. f_equal. lia. }
    rewrite <- !IH by lia.
    pose proof (ag_use (ForsNode t leaf (Z.of_nat (S z)) i)) as U. cbn [use_in] in U.
    assert (Nz : (Z.of_nat (S z) =? 0) = false) by (apply Z.eqb_neq; lia). rewrite Nz in U.
    apply U. split; [exact Ht|]. split; [exact Hl|]. lia.
Qed.
Lemma fors_idx_in i idx : 0 <= i < p_k P -> 0 <= idx < 2 ^ p_a P -> 0 <= i * 2 ^ p_a P + idx < p_k P * 2 ^ p_a P.
Proof.
  intros Hi Hx. split; [apply Z.add_nonneg_nonneg; [apply Z.mul_nonneg_nonneg; lia|lia]|].
  apply Z.lt_le_trans with ((i + 1) * 2 ^ p_a P); [lia|]. apply Z.mul_le_mono_nonneg_r; lia.
Qed.
Lemma idx_range md i : 0 <= nth i (base_2b md (p_a P) (p_k P)) 0 < 2 ^ p_a P.
Proof. apply base_2b_nth_range. pose proof (o_a _ OK). lia. Qed.
Lemma ag_fors_sign md sk : fors_sign P1 seed md sk A = fors_sign P2 seed md sk A.
Proof.
  unfold fors_sign. change (p_a P1) with (p_a P). change (p_a P2) with (p_a P). change (p_k P1) with (p_k P). change (p_k P2) with (p_k P).
  apply flat_map_ext_in. intros i Hi. apply in_upto in Hi.
  pose proof (idx_range md (Z.to_nat i)) as R. set (idx := nth (Z.to_nat i) (base_2b md (p_a P) (p_k P)) 0) in *.
  cbv zeta. f_equal; [apply ag_fors_sk, fors_idx_in; assumption|].
  apply flat_map_ext_in. intros j Hj. apply in_upto in Hj.
  apply ag_fors_node; [lia|]. rewrite Z2Nat.id by lia.
  assert (S : 0 <= Z.lxor (idx / 2 ^ j) 1 < 2 ^ (p_a P - j)) by (apply lxor1_bound; [apply shift_bound; lia|lia]).
  split; [apply Z.add_nonneg_nonneg; [apply Z.mul_nonneg_nonneg; lia|lia]|].
  apply Z.lt_le_trans with ((i + 1) * 2 ^ (p_a P - j)); [lia|]. apply Z.mul_le_mono_nonneg_r; lia.
Qed.
Lemma ag_fors_root sig i idx : 0 <= i < p_k P -> 0 <= idx < 2 ^ p_a P ->
  fors_root_from P1 seed sig i idx A = fors_root_from P2 seed sig i idx A.
Proof.
  intros Hi Hx. unfold fors_root_from. change (p_a P1) with (p_a P). change (p_a P2) with (p_a P). change (p_n P1) with (p_n P). change (p_n P2) with (p_n P).
  pose proof (fors_idx_in i idx Hi Hx) as Hg. set (g := i * 2 ^ p_a P + idx) in *. cbv zeta.
  pose proof (o_a _ OK) as Oa.
  change (setTreeIndex g (setTreeHeight 0 A)) with (use_address (ForsNode t leaf 0 g)).
  assert (U0 : forall X, hF hs seed (use_address (ForsNode t leaf 0 g)) X = hF hs' seed (use_address (ForsNode t leaf 0 g)) X).
  { apply (ag_use (ForsNode t leaf 0 g)). cbn [use_in]. rewrite Z.sub_0_r. split; [exact Ht|]. split; [exact Hl|]. split; [lia|exact Hg]. }
  change (p_hash P1) with hs. change (p_hash P2) with hs'. rewrite U0.
  apply fold_left_ext_in. intros node j Hj. apply in_upto in Hj.
  assert (U : forall X, hH hs seed (use_address (ForsNode t leaf (j + 1) (g / 2 ^ (j + 1)))) X = hH hs' seed (use_address (ForsNode t leaf (j + 1) (g / 2 ^ (j + 1)))) X).
  { pose proof (ag_use (ForsNode t leaf (j + 1) (g / 2 ^ (j + 1)))) as U. cbv beta iota in U.
    assert (Nz : (j + 1 =? 0) = false) by (apply Z.eqb_neq; lia). rewrite Nz in U. apply U.
    cbn [use_in]. split; [exact Ht|]. split; [exact Hl|]. split; [lia|].
    pose proof (pow2_pos (j + 1) ltac:(lia)). split; [apply Z.div_pos; lia|].
    apply Z.div_lt_upper_bound; [lia|]. rewrite Z.mul_assoc, (Z.mul_comm _ (p_k P)), <- Z.mul_assoc, <- pow2_split by lia. lia. }
  destruct (_ =? 0); apply U.
Qed.
Lemma ag_fors_pk sig md : fors_pkFromSig P1 seed sig md A = fors_pkFromSig P2 seed sig md A.
Proof.
  unfold fors_pkFromSig. change (p_a P1) with (p_a P). change (p_a P2) with (p_a P). change (p_k P1) with (p_k P). change (p_k P2) with (p_k P).
  assert (ER : flat_map (fun i => fors_root_from P1 seed sig i (nth (Z.to_nat i) (base_2b md (p_a P) (p_k P)) 0) A) (upto (p_k P)) =
    flat_map (fun i => fors_root_from P2 seed sig i (nth (Z.to_nat i) (base_2b md (p_a P) (p_k P)) 0) A) (upto (p_k P))).
  { apply flat_map_ext_in. intros i Hi. apply in_upto in Hi. apply ag_fors_root; [exact Hi|apply idx_range]. }
  rewrite ER. apply (ag_use (ForsKey t leaf)). cbn [use_in]. auto.
Qed.
End Fors.

Lemma digest_tree D : tree_in P 0 (idx_tree_of P D).
Proof.
  destruct OK as [o1 o2 o3 o4 o5 o6 o7 o8 o9 o10]. split; [lia|]. unfold idx_tree_of. rewrite o3, Z.mul_1_r. apply Z.mod_pos_bound, pow2_pos. lia.
Qed.
Lemma digest_leaf D : 0 <= idx_leaf_of P D < 2 ^ p_h' P.
Proof. pose proof (o_h' _ OK). unfold idx_leaf_of. rewrite (o_hd _ OK). apply Z.mod_pos_bound, pow2_pos. lia. Qed.

Lemma ag_keygen SKseed SKprf : slh_keygen_internal P1 SKseed SKprf seed = slh_keygen_internal P2 SKseed SKprf seed.
Proof.
  unfold slh_keygen_internal, slh_root. change (p_h' P1) with (p_h' P). change (p_h' P2) with (p_h' P). change (p_d P1) with (p_d P). change (p_d P2) with (p_d P).
  destruct OK as [o1 o2 o3 o4 o5 o6 o7 o8 o9 o10].
  change (setLayerAddress (p_d P - 1) zero_ADRS) with (mkADRS (p_d P - 1) 0 0 0 0 0).
  rewrite (ag_xmss_node (p_d P - 1) 0); [reflexivity| |lia|].
  - split; [lia|]. replace (p_h P - p_h' P * (p_d P - 1 + 1)) with 0 by (rewrite o2; ring). cbn. lia.
  - rewrite Z2Nat.id, Z.sub_diag by lia. cbn. lia.
Qed.
Lemma ag_sign M SK addrnd : slice SK (2 * p_n P) (p_n P) = seed ->
  slh_sign_internal P1 M SK addrnd = slh_sign_internal P2 M SK addrnd.
Proof.
  intros ES. unfold slh_sign_internal. change (p_n P1) with (p_n P). change (p_n P2) with (p_n P). change (p_hash P1) with hs. change (p_hash P2) with hs'.
  rewrite ES. destruct AG as (A1 & A2 & _). rewrite A2. cbv zeta. set (R := PRF_msg hs' _ _ _). rewrite A1. set (D := H_msg hs' _ _ _ _).
  change (fors_ADRS P1 D) with (mkADRS 0 (idx_tree_of P D) FORS_TREE (idx_leaf_of P D) 0 0).
  change (fors_ADRS P2 D) with (mkADRS 0 (idx_tree_of P D) FORS_TREE (idx_leaf_of P D) 0 0).
  change (md_of P1 D) with (md_of P D). change (md_of P2 D) with (md_of P D).
  rewrite (ag_fors_sign _ _ (digest_tree D) (digest_leaf D)). rewrite (ag_fors_pk _ _ (digest_tree D) (digest_leaf D)).
  change (idx_tree_of P1 D) with (idx_tree_of P D). change (idx_tree_of P2 D) with (idx_tree_of P D).
  change (idx_leaf_of P1 D) with (idx_leaf_of P D). change (idx_leaf_of P2 D) with (idx_leaf_of P D).
  unfold ht_sign. change (p_d P1) with (p_d P). change (p_d P2) with (p_d P). pose proof (o_d _ OK).
  rewrite ag_ht_sign; [reflexivity|lia|intros _; apply digest_tree|apply digest_leaf].
Qed.
Lemma ag_verify M SIG PK : slice PK 0 (p_n P) = seed ->
  slh_verify_internal P1 M SIG PK = slh_verify_internal P2 M SIG PK.
Proof.
  intros ES. unfold slh_verify_internal. change (p_n P1) with (p_n P). change (p_n P2) with (p_n P). change (p_hash P1) with hs. change (p_hash P2) with hs'.
  change (slh_sig_length P1) with (slh_sig_length P). change (slh_sig_length P2) with (slh_sig_length P).
  destruct (negb _); [reflexivity|].
  rewrite ES. destruct AG as (A1 & A2 & _). cbv zeta. set (R := slice SIG 0 (p_n P)). rewrite A1. set (D := H_msg hs' _ _ _ _).
  change (fors_ADRS P1 D) with (mkADRS 0 (idx_tree_of P D) FORS_TREE (idx_leaf_of P D) 0 0).
  change (fors_ADRS P2 D) with (mkADRS 0 (idx_tree_of P D) FORS_TREE (idx_leaf_of P D) 0 0).
  change (md_of P1 D) with (md_of P D). change (md_of P2 D) with (md_of P D).
  rewrite (ag_fors_pk _ _ (digest_tree D) (digest_leaf D)).
  change (idx_tree_of P1 D) with (idx_tree_of P D). change (idx_tree_of P2 D) with (idx_tree_of P D).
  change (idx_leaf_of P1 D) with (idx_leaf_of P D). change (idx_leaf_of P2 D) with (idx_leaf_of P D).
  unfold ht_root. change (p_d P1) with (p_d P). change (p_d P2) with (p_d P). pose proof (o_d _ OK).
  change (p_h P1) with (p_h P). change (p_h P2) with (p_h P). change (p_k P1) with (p_k P). change (p_k P2) with (p_k P).
  change (p_a P1) with (p_a P). change (p_a P2) with (p_a P). change (wlen P1) with (wlen P). change (wlen P2) with (wlen P).
  rewrite ag_ht_root; [reflexivity|lia|intros _; apply digest_tree|apply digest_leaf].
Qed.
End Par.
