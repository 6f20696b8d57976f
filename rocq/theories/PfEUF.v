(** * What a forgery implies: proofs for PropEUF *)
From Verif Require Import Arr SpecSLH SpecMap SpecUses SpecForge SpecReuse SpecApi ModelParams PfIter PfEnv PfGlue PfTree PfBits PfWots PfSpec PfApi PfKeygen PfComplete PfUses PfForge PfForge2 PfReuse.
Ltac Zify.zify_post_hook ::= idtac.

Section Own.
Variable p : ps_name.
Local Notation P := (slh_of p). Local Notation n := (p_n (slh_of p)).
Variable SK : list Z.
Hypothesis BK : is_bytes SK.
Hypothesis LK : len SK = 4 * n.
Local Notation PK := (skipn (Z.to_nat (2 * n)) SK).
Local Notation sks := (slice SK 0 n). Local Notation pks := (slice SK (2 * n) n).

Lemma ots_split D j : 0 <= j < p_d P ->
  leaf_at P D j = ots_index P D j mod 2 ^ p_h' P /\ tree_at P D j = ots_index P D j / 2 ^ p_h' P.
Proof using.
  intros Hj. pose proof (par_slh p) as OK. pose proof (o_h' _ OK) as Oh.
  pose proof (digest_leaf P OK D) as HL. set (q := ots_index P D j).
  assert (Pp : 0 < 2 ^ p_h' P) by (apply pow2_pos; lia).
  assert (HJ : 0 < j -> 0 <= p_h' P * (j - 1)) by (intros; apply Z.mul_nonneg_nonneg; lia).
  assert (Q0 : 0 < j -> q = idx_tree_of P D / 2 ^ (p_h' P * (j - 1))).
  { intros Hj0. unfold q, ots_index, fts_index.
    replace (p_h' P * j) with (p_h' P + p_h' P * (j - 1)) by ring. rewrite Z.pow_add_r by (specialize (HJ ltac:(lia)); lia).
    rewrite <- Z.div_div by (try apply Z.pow_nonzero; try apply Z.pow_pos_nonneg; specialize (HJ ltac:(lia)); lia).
    rewrite Z.div_add_l by lia. rewrite (Z.div_small (idx_leaf_of P D)) by exact HL. rewrite Z.add_0_r. reflexivity. }
  unfold leaf_at, tree_at. destruct (Z.eqb_spec j 0) as [->|Nj].
  - unfold q, ots_index, fts_index. rewrite Z.mul_0_r, Z.pow_0_r, !Z.div_1_r. split.
    + rewrite Z.add_comm, Z.mod_add, Z.mod_small by lia. reflexivity.
    + rewrite Z.div_add_l, Z.div_small by lia. lia.
  - rewrite Q0 by lia. split; [reflexivity|].
    replace (p_h' P * j) with (p_h' P * (j - 1) + p_h' P) by ring. rewrite Z.pow_add_r by (specialize (HJ ltac:(lia)); lia).
    rewrite <- Z.div_div by (try apply Z.pow_nonzero; try apply Z.pow_pos_nonneg; specialize (HJ ltac:(lia)); lia). reflexivity.
Qed.

(** A layer that is a one-time signature of [X] has these chain values *)
Lemma layer_chain S X j q c : 0 <= j < p_d P -> 0 <= c < wlen P ->
  part_layer P S j = xmss_sign P pks X sks (q mod 2 ^ p_h' P) (mkADRS j (q / 2 ^ p_h' P) 0 0 0 0) ->
  wots_part P S j c = chain_value P pks sks j q c (position P X c).
Proof.
  intros Hj Hc HL. destruct (an_env p SK BK LK) as (E & HE & Hsk). pose proof HE as (Ec & Ep & Epk & Es). destruct (KE_facts _ _ _ _ _ HE) as (En & EP & Nb).
  destruct (par_pos p) as (Pk & Pa & Pd & Ph & Pw & _).
  assert (W : wots_part P S j c = slice (part_layer P S j) (c * n) n).
  { unfold part_layer. rewrite slice_slice; [|clear - Hj Hc Pk Pa Ph Pw Nb; nia|clear - Hc Nb; nia|lia|clear - Hc Nb Ph; nia].
    unfold wots_part. f_equal. ring. }
  rewrite W, HL. unfold xmss_sign. cbv zeta.
  change (setKeyPairAddress (q mod 2 ^ p_h' P) (setTypeAndClear WOTS_HASH (mkADRS j (q / 2 ^ p_h' P) 0 0 0 0)))
    with (mkADRS j (q / 2 ^ p_h' P) WOTS_HASH (q mod 2 ^ p_h' P) 0 0).
  set (A := mkADRS _ _ _ _ _ _).
  assert (Q : wots_sign P pks X sks A = flat_map (wots_piece E sks X A) (upto (wlen P))).
  { rewrite <- Es, <- EP. apply wots_sign_eq. }
  assert (PL : forall i, 0 <= i < wlen P -> zlen (wots_piece E sks X A i) = n).
  { intros i _. pose proof (wots_piece_ok E sks Hsk X A i) as [L _]. rewrite En in L. exact L. }
  rewrite slice_app_l; [|clear - Hc Nb; nia|lia|].
  2:{ rewrite Q, (flat_zlen _ n) by (intros i Hi; apply PL, in_upto, Hi). rewrite upto_zrange, zrange_length by lia. clear - Hc Nb; nia. }
  rewrite Q, (slice_flat _ (wlen P) n c PL Hc ltac:(lia)).
  unfold wots_piece. rewrite EP, Es. reflexivity.
Qed.

Lemma secret_len q i x : zlen (fts_secret P pks sks q i x) = n.
Proof.
  destruct (an_env p SK BK LK) as (E & HE & Hsk). pose proof HE as (Ec & Ep & Epk & Es). destruct (KE_facts _ _ _ _ _ HE) as (En & EP & Nb).
  unfold fts_secret, fors_skGen. cbv zeta. set (A := setTreeIndex _ _).
  pose proof (PRF_ok E A sks ltac:(apply slice_bytes, BK)) as [L _]. unfold e_hs in L. rewrite EP, Es, En in L. exact L.
Qed.

Variables (M R : list Z).
Hypothesis root_ok : slice SK (3 * n) n = slh_root P pks sks.
Hypothesis LR : zlen R = n.
Hypothesis BR : is_bytes R.
Lemma own_ok : is_bytes (own_signature P SK M R) /\ slh_verify_internal P M (own_signature P SK M R) PK = true.
Proof.
  apply (made_ok p SK BK LK root_ok M R); [exact LR|exact BR| |];
  destruct (an_env p SK BK LK) as (E & HE & Hsk); pose proof HE as (Ec & Ep & Epk & Es); destruct (KE_facts _ _ _ _ _ HE) as (En & EP & Nb);
  set (D := H_msg _ _ _ _ _); pose proof (fors_sign_eq E sks (md_of P D) (fors_ADRS P D)) as Q; rewrite EP, Es in Q; rewrite Q.
  - pose proof (k_bounds E) as Kb. rewrite EP in Kb. rewrite (flat_zlen _ ((p_a P + 1) * n)).
    + rewrite upto_zrange, zrange_length by lia. ring.
    + intros i _. pose proof (fpiece_zlen E sks Hsk (md_of P D) (fors_ADRS P D) i) as X. rewrite EP, En in X. exact X.
  - apply Forall_flat_map, Forall_forall. intros i _. unfold fpiece. apply bytes_app; [apply fsk_ok, Hsk|].
    apply Forall_flat_map, Forall_forall. intros j _. apply fauth_ok, Hsk.
Qed.
End Own.
Lemma root_shape p SKseed PKseed : is_bytes SKseed -> is_bytes PKseed -> len SKseed = p_n (slh_of p) -> len PKseed = p_n (slh_of p) ->
  len (slh_root (slh_of p) PKseed SKseed) = p_n (slh_of p) /\ is_bytes (slh_root (slh_of p) PKseed SKseed).
Proof.
  intros B1 B2 L1 L2. pose proof (nbnd p) as Nb. set (n := p_n (slh_of p)) in *.
  set (X := SKseed ++ SKseed ++ PKseed ++ PKseed).
  assert (BX : is_bytes X) by (repeat apply bytes_app; assumption).
  assert (LX : 4 * n <= len X) by (unfold X; rewrite !len_app; lia).
  destruct (gen_root_priv full_cfg p (full_on p) 0 X BX LX) as (_ & L & B). fold n in L, B.
  assert (E1 : slice X 0 n = SKseed) by (unfold X; rewrite slice_app_l by (change (@zlen Z) with len; lia); apply slice_all; exact L1).
  assert (E2 : slice X (2 * n) n = PKseed).
  { assert (L0 : zlen (SKseed ++ SKseed) = 2 * n) by (change (@zlen Z) with len; rewrite len_app; lia).
    unfold X. rewrite app_assoc. rewrite slice_app_r by lia. rewrite L0, Z.sub_diag.
    rewrite slice_app_l by (change (@zlen Z) with len; lia). apply slice_all; exact L2. }
  rewrite E1, E2 in L, B. split; assumption.
Qed.
