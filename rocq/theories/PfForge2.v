(** * The list of hashed strings is complete; the holder of the key can make two
    signatures with the same digest *)
From Verif Require Import Arr SpecSLH SpecMap SpecUses SpecForge SpecApi ModelParams PfIter PfEnv PfGlue PfCtx PfTree PfPaths PfBits PfWots PfSpec PfApi PfKeygen PfComplete PfUses PfForge.
Ltac Zify.zify_post_hook ::= idtac.

Section Complete.
Variable P : params.
Variable hs' : hashes.
Variable seed : list Z.
Local Notation P2 := (with_hash P hs').
Local Notation trace := (list (use * list Z)).
Definition agrees (T : trace) : Prop := forall u X, In (u, X) T -> hash_at P2 seed u X = hash_at P seed u X.
Lemma agrees_app T1 T2 : agrees (T1 ++ T2) -> agrees T1 /\ agrees T2.
Proof. intros H. split; intros u X HX; apply H, in_or_app; auto. Qed.
Lemma agrees_flat {A} (f : A -> trace) l : agrees (flat_map f l) -> forall i, In i l -> agrees (f i).
Proof. intros H i Hi u X HX. apply H, in_flat_map. exists i. auto. Qed.
Lemma chain_agrees l t leaf c s : forall X i, agrees (chain_inputs P seed l t leaf c X i s) ->
  chain P2 seed X i s (mkADRS l t WOTS_HASH leaf c 0) = chain P seed X i s (mkADRS l t WOTS_HASH leaf c 0).
Proof.
  induction s as [|s IH]; intros X i H; [reflexivity|]. cbn [chain].
  pose proof (H (WotsStep l t leaf c i) X (or_introl eq_refl)) as E. cbn [hash_at use_address] in E.
  change (setHashAddress i (mkADRS l t WOTS_HASH leaf c 0)) with (mkADRS l t WOTS_HASH leaf c i). rewrite E.
  apply IH. intros u Y HY. apply H. right. exact HY.
Qed.
Lemma climb_agrees u left auth js : forall node, agrees (path_inputs P seed u left auth node js) ->
  climb P2 seed u left auth js node = climb P seed u left auth js node.
Proof.
  induction js as [|j js IH]; intros node H; [reflexivity|]. cbn [path_inputs] in H. cbv zeta in H.
  unfold climb. cbn [fold_left]. rewrite (H (u j) (joined left auth j node) (or_introl eq_refl)).
  apply IH. intros v Y HY. apply H. right. exact HY.
Qed.
Lemma wots_agrees l t leaf sig M : agrees (wots_inputs P seed l t leaf sig M) ->
  wots_pkFromSig P2 seed sig M (mkADRS l t WOTS_HASH leaf 0 0) = wots_pkFromSig P seed sig M (mkADRS l t WOTS_HASH leaf 0 0).
Proof.
  intros H. apply agrees_app in H. destruct H as [H1 H2]. rewrite !pk_eq.
  assert (E : flat_map (chain_end P2 seed l t leaf sig M) (upto (wlen P2)) = flat_map (chain_end P seed l t leaf sig M) (upto (wlen P))).
  { change (wlen P2) with (wlen P). apply flat_map_ext_in. intros i Hi. apply (chain_agrees l t leaf i). exact (agrees_flat _ _ H1 i Hi). }
  rewrite E. apply H2. left. reflexivity.
Qed.
Lemma xmss_agrees l t idx S M : agrees (xmss_inputs P seed l t idx S M) ->
  xmss_pkFromSig P2 seed idx S M (mkADRS l t 0 0 0 0) = xmss_pkFromSig P seed idx S M (mkADRS l t 0 0 0 0).
Proof.
  intros H. apply agrees_app in H. destruct H as [H1 H2]. rewrite !xmss_eq.
  change (p_n P2) with (p_n P). change (wlen P2) with (wlen P). change (p_h' P2) with (p_h' P). rewrite (wots_agrees _ _ _ _ _ H1).
  apply climb_agrees, H2.
Qed.
Lemma ht_agrees SIG layers : forall j M t leaf, agrees (ht_inputs P seed layers j M SIG t leaf) ->
  ht_root_from P2 seed layers j M SIG t leaf = ht_root_from P seed layers j M SIG t leaf.
Proof.
  induction layers as [|ls IH]; intros j M t leaf H; [reflexivity|]. cbn [ht_inputs] in H. cbv zeta in H.
  apply agrees_app in H. destruct H as [H1 H2]. cbn [ht_root_from].
  change (p_n P2) with (p_n P). change (wlen P2) with (wlen P). change (p_h' P2) with (p_h' P).
  change (setTreeAddress t (setLayerAddress j zero_ADRS)) with (mkADRS j t 0 0 0 0) in *.
  cbv zeta. rewrite (xmss_agrees _ _ _ _ _ H1). apply IH, H2.
Qed.
Lemma fors_agrees t leaf F md : agrees (fors_inputs P seed t leaf F md) ->
  fors_pkFromSig P2 seed F md (mkADRS 0 t FORS_TREE leaf 0 0) = fors_pkFromSig P seed F md (mkADRS 0 t FORS_TREE leaf 0 0).
Proof.
  rewrite fors_inputs_eq. intros H. apply agrees_app in H. destruct H as [H1 H2].
  change (hash_at P2 seed (ForsKey t leaf) (flat_map (fun i => fors_root_from P2 seed F i (nth (Z.to_nat i) (base_2b md (p_a P2) (p_k P2)) 0) (mkADRS 0 t FORS_TREE leaf 0 0)) (upto (p_k P2)))
    = hash_at P seed (ForsKey t leaf) (flat_map (fun i => fors_root_from P seed F i (nth (Z.to_nat i) (base_2b md (p_a P) (p_k P)) 0) (mkADRS 0 t FORS_TREE leaf 0 0)) (upto (p_k P)))).
  rewrite <- H2 by (left; reflexivity). f_equal. change (p_k P2) with (p_k P). apply flat_map_ext_in. intros i Hi.
  pose proof (agrees_flat _ _ H1 i Hi) as HT. rewrite (fors_root_eq P). etransitivity; [exact (fors_root_eq P2 seed t leaf md F i)|].
  unfold fnode0. change (p_a P2) with (p_a P). change (p_k P2) with (p_k P). change (fors_part P2 F) with (fors_part P F).
  rewrite (HT _ _ (or_introl eq_refl)). apply climb_agrees. intros u X HX. apply HT. right. exact HX.
Qed.
End Complete.
Theorem inputs_complete P hs' M S PK :
  (forall R root M, H_msg hs' R (slice PK 0 (p_n P)) root M = H_msg (p_hash P) R (slice PK 0 (p_n P)) root M) ->
  agrees P hs' (slice PK 0 (p_n P)) (verify_inputs P M S PK) ->
  slh_verify_internal (with_hash P hs') M S PK = slh_verify_internal P M S PK.
Proof.
  intros HM H. unfold slh_verify_internal. change (slh_sig_length (with_hash P hs')) with (slh_sig_length P). destruct (negb _); [reflexivity|].
  change (p_n (with_hash P hs')) with (p_n P). change (p_hash (with_hash P hs')) with hs'. rewrite HM. cbv zeta.
  unfold verify_inputs in H. cbv zeta in H. apply agrees_app in H. destruct H as [H1 H2]. unfold message_digest in *.
  set (D := H_msg (p_hash P) _ _ _ _) in *.
  change (fors_ADRS (with_hash P hs') D) with (mkADRS 0 (idx_tree_of P D) FORS_TREE (idx_leaf_of P D) 0 0).
  change (fors_ADRS P D) with (mkADRS 0 (idx_tree_of P D) FORS_TREE (idx_leaf_of P D) 0 0) in *.
  change (md_of (with_hash P hs') D) with (md_of P D).
  change (p_k (with_hash P hs')) with (p_k P). change (p_a (with_hash P hs')) with (p_a P). rewrite (fors_agrees _ _ _ _ _ _ _ H1).
  f_equal. apply ht_agrees. exact H2.
Qed.

(** ** Two signatures from the holder of the key *)
Section Two.
Variable p : ps_name.
Local Notation P := (slh_of p). Local Notation n := (p_n (slh_of p)).
Variable SK : list Z.
Hypothesis BK : is_bytes SK.
Hypothesis LK : len SK = 4 * n.
Hypothesis root_ok : slice SK (3 * n) n = slh_root P (slice SK (2 * n) n) (slice SK 0 n).
Local Notation FO := (p_k P * (1 + p_a P)).
Local Notation HO := (p_h P + p_d P * wlen P).
Local Notation PK := (skipn (Z.to_nat (2 * n)) SK).
Variables (M R F : list Z).
Hypothesis LR : zlen R = n.
Hypothesis BR : is_bytes R.
Hypothesis LF : zlen F = FO * n.
Hypothesis BF : is_bytes F.
Definition made : list Z :=
  let D := H_msg (p_hash P) R (slice SK (2 * n) n) (slice SK (3 * n) n) M in
  R ++ F ++ ht_sign P (slice SK (2 * n) n) (fors_pkFromSig P (slice SK (2 * n) n) F (md_of P D) (fors_ADRS P D)) (slice SK 0 n) (idx_tree_of P D) (idx_leaf_of P D).
Lemma made_ok : is_bytes made /\ slh_verify_internal P M made PK = true.
Proof.
  destruct (an_env p SK BK LK) as (E & HE & Hsk). pose proof HE as (Ec & Ep & Epk & Es). destruct (KE_facts _ _ _ _ _ HE) as (En & EP & Nb).
  unfold made. cbv zeta. set (D := H_msg _ _ _ _ _). set (PKF := fors_pkFromSig _ _ _ _ _). set (HS := ht_sign _ _ _ _ _ _).
  assert (HL : 0 <= idx_leaf_of P D < 2 ^ p_h' P) by apply digest_leaf, par_slh.
  assert (HT : 0 <= idx_tree_of P D < 2 ^ (p_h P - p_h' P)).
  { pose proof (digest_tree P (par_slh p) D) as [_ X]. rewrite Z.mul_1_r in X. exact X. }
  assert (EHS : HS = flat_map (hpiece E (slice SK 0 n) PKF (idx_tree_of P D) (idx_leaf_of P D)) (zrange 0 (p_d P))).
  { pose proof (ht_sign_eq E _ Hsk PKF (idx_tree_of P D) (idx_leaf_of P D)) as X. rewrite EP, Es in X. apply X; [exact HL|apply HT]. }
  pose proof (d_bounds E) as Db. rewrite EP in Db. destruct (par_pos p) as (Pk & Pa & Pd & Ph & Pw & EH).
  assert (LH : zlen HS = HO * n).
  { rewrite EHS, (flat_zlen _ ((p_h' P + wlen P) * n)).
    - rewrite zrange_length by lia. rewrite EH. ring.
    - intros i Hi. pose proof (hpiece_zlen E (slice SK 0 n) Hsk PKF (idx_tree_of P D) (idx_leaf_of P D) i) as X. rewrite EP, En in X. exact X. }
  split.
  { apply bytes_app; [exact BR|]. apply bytes_app; [exact BF|]. rewrite EHS.
    apply Forall_flat_map, Forall_forall. intros i _. unfold hpiece. apply bytes_app; apply Forall_flat_map, Forall_forall; intros j _; [apply hwots_ok|apply hauth_ok]; exact Hsk. }
  unfold slh_verify_internal.
  assert (LS : len (R ++ F ++ HS) = slh_sig_length P).
  { change (@zlen Z) with len in *. rewrite !len_app, LR, LF, LH. unfold slh_sig_length. ring. }
  rewrite LS, Z.eqb_refl. cbn [negb]. cbv zeta.
  assert (K1 : slice PK 0 n = slice SK (2 * n) n) by reflexivity.
  assert (K2 : slice PK n n = slice SK (3 * n) n) by (unfold slice; rewrite skipn_skipn'; do 2 f_equal; lia).
  rewrite K1, K2.
  assert (ER : slice (R ++ F ++ HS) 0 n = R) by (rewrite (slice_app_l R _ 0 n) by lia; apply slice_all, LR).
  assert (EF : slice (R ++ F ++ HS) n (FO * n) = F).
  { rewrite slice_app_r by lia. rewrite LR, Z.sub_diag. rewrite slice_app_l by nia. apply slice_all, LF. }
  assert (EHT : slice (R ++ F ++ HS) ((1 + FO) * n) (HO * n) = HS).
  { rewrite slice_app_r by nia. rewrite slice_app_r by nia.
    replace ((1 + FO) * n - zlen R - zlen F) with 0 by (rewrite LR, LF; ring). apply slice_all, LH. }
  rewrite ER, EF, EHT. fold D. fold PKF. rewrite root_ok, EHS.
  replace (slice SK (2 * n) n) with (e_seed E) by exact Es.
  pose proof (ht_root_from_complete E _ Hsk PKF (idx_tree_of P D) (idx_leaf_of P D) (Z.to_nat (p_d P))) as X.
  rewrite EP in X. specialize (X HL ltac:(lia) 0 ltac:(lia) ltac:(lia)). rewrite upto_zrange in X.
  assert (T0 : tr E (idx_tree_of P D) 0 = idx_tree_of P D) by (unfold tr; rewrite Z.mul_0_r, Z.pow_0_r, Z.div_1_r; reflexivity).
  rewrite T0 in X. change (hmsg E (slice SK 0 n) PKF (idx_tree_of P D) 0) with PKF in X.
  change (lf E (idx_tree_of P D) (idx_leaf_of P D) 0) with (idx_leaf_of P D) in X.
  match goal with |- bytes_eqb ?x ?y = true => replace x with y; [apply bytes_eqb_refl|] end.
  symmetry. etransitivity; [exact X|].
  unfold hmsg. destruct (Z.eqb_spec (p_d P) 0); [lia|]. unfold slh_root. rewrite EP. f_equal.
  unfold treeA, tr. rewrite EP. rewrite Z.div_small; [reflexivity|].
  replace (p_h' P * (p_d P - 1)) with (p_h P - p_h' P) by lia. exact HT.
Qed.
End Two.

(** ** What is hashed has the right form *)
Section Wf.
Variable P : params.
Hypothesis OK : par_ok P.
Variable PKseed : list Z.
Local Notation n := (p_n P).
Local Notation nb := (fun X : list Z => zlen X = n /\ is_bytes X).
Hypothesis Hn : 0 < n.
Hypothesis Hok : forall u X, hash_use u -> is_bytes X -> nb (hash_at P PKseed u X).
Hypothesis Hdig : forall M i, 0 <= nth i (wots_msg P M) 0 <= w P - 1.
Definition wf_input (q : use * list Z) : Prop := use_in P (fst q) /\ is_bytes (snd q) /\ zlen (snd q) = input_length P (fst q).
Local Notation wfT := (Forall wf_input).
Lemma wf_chain l t leaf c s : tree_in P l t -> 0 <= leaf < 2 ^ p_h' P -> 0 <= c < wlen P ->
  forall X i, nb X -> 0 <= i -> i + Z.of_nat s <= w P - 1 -> wfT (chain_inputs P PKseed l t leaf c X i s).
Proof.
  intros Ht Hl Hc. induction s as [|s IH]; intros X i HX Hi Hs; [constructor|]. cbn [chain_inputs]. constructor.
  - split; [|split; [apply HX|apply HX]]. split; [exact Ht|]. split; [exact Hl|]. split; [exact Hc|]. lia.
  - apply IH; [apply Hok; [exact I|apply HX]|lia|lia].
Qed.
Lemma wf_path u left auth js : (forall j, hash_use (u j)) -> (forall j, In j js -> use_in P (u j) /\ input_length P (u j) = 2 * n /\ nb (auth j)) ->
  forall node, nb node -> wfT (path_inputs P PKseed u left auth node js).
Proof.
  intros HU. induction js as [|j js IH]; intros HA node HN; [constructor|]. cbn [path_inputs]. cbv zeta.
  destruct (HA j (or_introl eq_refl)) as (H1 & H2 & H3).
  assert (HB : is_bytes (if left j then node ++ auth j else auth j ++ node)) by (destruct (left j); apply bytes_app; first [apply HN|apply H3]).
  constructor.
  - split; [exact H1|]. split; [exact HB|]. cbn [fst snd]. rewrite H2. destruct HN as [L1 _], H3 as [L2 _]. destruct (left j); rewrite zlen_app; lia.
  - apply IH; [intros; apply HA; right; assumption|]. apply Hok; [apply HU|exact HB].
Qed.
Lemma wf_flat {A} (f : A -> list (use * list Z)) l : (forall i, In i l -> wfT (f i)) -> wfT (flat_map f l).
Proof. intros H. apply Forall_flat_map, Forall_forall. exact H. Qed.
Lemma flat_len (f : Z -> list Z) m : 0 <= m -> (forall i, 0 <= i < m -> nb (f i)) -> is_bytes (flat_map f (upto m)) /\ zlen (flat_map f (upto m)) = m * n.
Proof.
  intros Hm H. split.
  - apply Forall_flat_map, Forall_forall. intros i Hi. apply in_upto in Hi. apply H, Hi.
  - rewrite (flat_zlen f n) by (intros i Hi; apply in_upto in Hi; apply H, Hi). rewrite upto_zrange, zrange_length by lia. ring.
Qed.
Lemma wf_wots l t leaf sig M : tree_in P l t -> 0 <= leaf < 2 ^ p_h' P -> (forall i, 0 <= i < wlen P -> nb (slice sig (i * n) n)) ->
  wfT (wots_inputs P PKseed l t leaf sig M).
Proof.
  intros Ht Hl HS. pose proof (o_wlen _ OK) as Ow. apply Forall_app. split.
  - apply wf_flat. intros i Hi. apply in_upto in Hi. cbv zeta. pose proof (Hdig M (Z.to_nat i)). apply wf_chain; auto; lia.
  - constructor; [|constructor]. split; [split; assumption|]. cbn [fst snd input_length].
    apply flat_len; [lia|]. intros i Hi. unfold chain_end. cbv zeta. apply (ch_ok P PKseed Hok), HS, Hi.
Qed.
Lemma wf_xmss l t idx S M : tree_in P l t -> 0 <= idx < 2 ^ p_h' P -> xparts_ok P S -> wfT (xmss_inputs P PKseed l t idx S M).
Proof.
  intros Ht Hl HS. pose proof (o_h' _ OK) as Oh. pose proof (o_wlen _ OK) as Ow.
  assert (HP : forall i, 0 <= i < wlen P -> nb (slice (slice S 0 (wlen P * n)) (i * n) n)).
  { intros i Hi. rewrite slice_slice by nia. apply HS. lia. }
  apply Forall_app. split; [apply wf_wots; assumption|]. apply wf_path; [intros; exact I| |].
  - intros j Hj. apply in_upto in Hj. split; [|split; [reflexivity|apply HS; lia]].
    split; [exact Ht|]. split; [lia|]. apply shift_bound; lia.
  - apply Hok; [exact I|]. apply flat_len; [lia|]. intros i Hi. apply (ch_ok P PKseed Hok), HP, Hi.
Qed.
Lemma xmss_nb l t idx S M : xparts_ok P S -> nb (xmss_pkFromSig P PKseed idx S M (mkADRS l t 0 0 0 0)).
Proof.
  intros HS. pose proof (o_h' _ OK) as Oh. pose proof (o_wlen _ OK) as Ow. rewrite xmss_eq. apply (climb_ok P PKseed Hok); [intros; exact I| |].
  - intros j Hj. apply in_upto in Hj. apply HS. lia.
  - rewrite pk_eq. apply Hok; [exact I|]. apply flat_len; [lia|]. intros i Hi. apply (ch_ok P PKseed Hok).
    rewrite slice_slice by nia. apply HS. lia.
Qed.
Lemma wf_ht SIG layers : forall j M t leaf, 0 <= j -> j + Z.of_nat layers <= p_d P -> (layers <> O -> tree_in P j t) -> 0 <= leaf < 2 ^ p_h' P ->
  (forall m c, 0 <= m < Z.of_nat layers -> 0 <= c < wlen P + p_h' P -> nb (layer_part P SIG (j + m) c)) ->
  wfT (ht_inputs P PKseed layers j M SIG t leaf).
Proof.
  induction layers as [|ls IH]; intros j M t leaf Hj Hd Ht Hl HS; [constructor|]. cbn [ht_inputs]. cbv zeta.
  specialize (Ht ltac:(discriminate)). pose proof (o_h' _ OK) as Oh. pose proof (o_wlen _ OK) as Ow.
  assert (XP : xparts_ok P (slice SIG (j * ((p_h' P + wlen P) * n)) ((p_h' P + wlen P) * n))).
  { intros i Hi. specialize (HS 0 i ltac:(lia) Hi). rewrite Z.add_0_r in HS. unfold layer_part in HS.
    rewrite slice_slice; [|nia|nia|lia|nia]. replace (j * ((p_h' P + wlen P) * n) + i * n) with ((j * (p_h' P + wlen P) + i) * n) by ring. exact HS. }
  apply Forall_app. split; [apply wf_xmss; assumption|].
  apply IH; [lia|lia|intros Hne; apply next_tree; [exact OK|exact Ht|destruct ls; [congruence|lia]]|apply mod_leaf, OK|].
  intros m c Hm Hc. replace (j + 1 + m) with (j + (m + 1)) by lia. apply HS; lia.
Qed.
Lemma wf_fors t leaf F md : tree_in P 0 t -> 0 <= leaf < 2 ^ p_h' P -> (forall i j, 0 <= i < p_k P -> 0 <= j < p_a P + 1 -> nb (fors_part P F i j)) ->
  wfT (fors_inputs P PKseed t leaf F md).
Proof.
  intros Ht Hl HF. pose proof (o_a _ OK) as Oa. pose proof (o_k _ OK) as Ok. rewrite fors_inputs_eq. apply Forall_app. split.
  - apply wf_flat. intros i Hi. apply in_upto in Hi. unfold tree_inputs.
    pose proof (idx_range P OK md (Z.to_nat i)) as R. pose proof (fors_idx_in P i _ Hi R) as Hg.
    set (g := i * 2 ^ p_a P + nth (Z.to_nat i) (base_2b md (p_a P) (p_k P)) 0) in *. constructor.
    + destruct (HF i 0 Hi ltac:(lia)) as [L B]. split; [|split; [exact B|exact L]].
      split; [exact Ht|]. split; [exact Hl|]. split; [lia|]. rewrite Z.sub_0_r. exact Hg.
    + apply wf_path; [intros; exact I| |apply Hok; [exact I|apply HF; lia]].
      intros j Hj. apply in_upto in Hj. split; [|split; [|apply HF; lia]].
      * split; [exact Ht|]. split; [exact Hl|]. split; [lia|].
        pose proof (pow2_pos (j + 1) ltac:(lia)). split; [apply Z.div_pos; lia|].
        apply Z.div_lt_upper_bound; [lia|]. rewrite Z.mul_assoc, (Z.mul_comm _ (p_k P)), <- Z.mul_assoc, <- pow2_split by lia. lia.
      * cbn [input_length]. destruct (Z.eqb_spec (j + 1) 0); [lia|reflexivity].
  - constructor; [|constructor]. split; [split; assumption|]. cbn [fst snd input_length]. apply flat_len; [lia|].
    intros i Hi. rewrite fors_root_eq. apply (climb_ok P PKseed Hok); [intros; exact I| |].
    + intros j Hj. apply in_upto in Hj. apply HF; lia.
    + apply Hok; [exact I|apply HF; lia].
Qed.
End Wf.
Theorem inputs_wf p PK M S : is_bytes PK -> len PK = 2 * p_n (slh_of p) -> is_bytes S -> len S = slh_sig_length (slh_of p) ->
  Forall (wf_input (slh_of p)) (verify_inputs (slh_of p) M S PK).
Proof.
  intros BP LP BS LS. set (P := slh_of p) in *. pose proof (par_slh p) as OK. fold P in OK.
  assert (Nb : 16 <= p_n P <= 32) by (unfold P; destruct p; cbn; lia).
  assert (Ls : zlen (slice PK 0 (p_n P)) = p_n P) by (apply slice_zlen; [lia|lia|change (@zlen Z) with len; lia]).
  assert (Bs : is_bytes (slice PK 0 (p_n P))) by apply slice_bytes, BP.
  destruct (par_pos p) as (Pk & Pa & Pd & Ph & Pw & EH). fold P in Pk, Pa, Pd, Ph, Pw, EH.
  assert (L : zlen S = (1 + p_k P * (1 + p_a P) + (p_h P + p_d P * wlen P)) * p_n P).
  { change (@zlen Z) with len. rewrite LS. unfold slh_sig_length. ring. }
  assert (IO := inst_ok p _ Ls Bs). assert (ID := inst_dig p _ Ls Bs). fold P in IO, ID.
  unfold verify_inputs. cbv zeta. set (D := message_digest P M S PK). apply Forall_app. split.
  - apply wf_fors; [exact OK|lia|exact IO|exact ID|apply digest_tree, OK|apply digest_leaf, OK|].
    intros i j Hi Hj. destruct (fpart_eq p S i j L Hi Hj) as [Q R]. fold P in Q, R. rewrite Q. apply (nb_part p S); [exact BS|exact L|]. fold P. nia.
  - apply wf_ht; [exact OK|lia|exact IO|exact ID|lia|lia|intros _; apply digest_tree, OK|apply digest_leaf, OK|].
    intros l c Hl Hc. change (0 + l) with l. assert (Hl' : 0 <= l < p_d P) by lia.
    destruct (lpart_eq p S l c L Hl' Hc) as [Q R]. fold P in Q, R. rewrite Q. apply (nb_part p S); [exact BS|exact L|]. fold P. nia.
Qed.
