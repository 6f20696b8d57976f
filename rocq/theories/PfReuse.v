(** * Proofs for PropReuse: the parts of a signature and what they depend on *)
From Verif Require Import Arr SpecSLH SpecApi ModelParams ModelCtx SpecMap PfGlueSha PfIter PfEnv PfAdr PfGlue PfMsg PfCtx PfTree PfPaths PfBits PfWots PfSpec PfSign PfApi PfKeygen PfComplete SpecReuse SpecForge.
Ltac Zify.zify_post_hook ::= idtac.

(** What each layer of the holder's own hypertree signature signs *)
Section M.
Variable E : env.
Variable sk : list Z.
Hypothesis Hsk : sk_at E sk.
Variables (M0 : list Z) (T0 leaf0 : Z).
Local Notation hmsg := (hmsg E sk M0 T0). Local Notation hpiece := (hpiece E sk M0 T0 leaf0).
Local Notation tr := (tr E T0). Local Notation lf := (lf E T0 leaf0).
Lemma ht_message_own k : 0 <= leaf0 < 2 ^ p_h' (e_P E) -> 0 <= T0 -> forall l, 0 <= l -> l + Z.of_nat k <= p_d (e_P E) ->
  ht_message (e_P E) (e_seed E) k l (hmsg l) (flat_map hpiece (upto (p_d (e_P E)))) (tr l) (lf l) = hmsg (l + Z.of_nat k).
Proof.
  intros Hl0 HT. pose proof (n_bounds E) as Hn. pose proof (mh_bounds E) as Hm. pose proof (wlen_eq E) as Hw.
  induction k as [|k IH]; intros l Hl Hk; cbn [ht_message].
  - f_equal. lia.
  - cbv zeta. change (p_n (e_P E)) with (e_n E).
    rewrite (slice_flat hpiece (p_d (e_P E)) ((p_h' (e_P E) + wlen (e_P E)) * e_n E)); [|intros; apply hpiece_zlen, Hsk|lia|rewrite Hw; clear - Hn Hm; nia].
    change (setTreeAddress (tr l) (setLayerAddress l zero_ADRS)) with (treeA E T0 l).
    change (hpiece l) with (xmss_sign (e_P E) (e_seed E) (hmsg l) sk (lf l) (treeA E T0 l)).
    rewrite xmss_complete by (first [exact Hsk|apply lf_range, Hl0]).
    replace (l + Z.of_nat (S k)) with (l + 1 + Z.of_nat k) by lia.
    rewrite <- IH by lia.
    rewrite tr_S by assumption. f_equal.
    + unfold PfSpec.hmsg. destruct (Z.eqb_spec (l + 1) 0); [lia|]. replace (l + 1 - 1) with l by lia. reflexivity.
    + unfold PfSpec.lf. destruct (Z.eqb_spec (l + 1) 0); [lia|]. replace (l + 1 - 1) with l by lia. reflexivity.
Qed.
End M.

Lemma h_eq p : p_h (slh_of p) = p_d (slh_of p) * p_h' (slh_of p) /\ 0 < p_d (slh_of p).
Proof. destruct p; split; reflexivity. Qed.
Section R.
Variable p : ps_name.
Local Notation P := (slh_of p). Local Notation n := (p_n (slh_of p)).
Variable SK : list Z.
Hypothesis BK : is_bytes SK.
Hypothesis LK : len SK = 4 * n.
Variables (M R : list Z).
Hypothesis LR : zlen R = n.
Let S := own_signature P SK M R.
Let D := digest_of P (skipn (Z.to_nat (2 * n)) SK) M S.

Lemma own_parts :
  part_R P S = R /\
  D = H_msg (p_hash P) (part_R P S) (slice SK (2 * n) n) (slice SK (3 * n) n) M /\
  (forall i, 0 <= i < p_k P ->
     part_fors P S i =
       fors_skGen P (slice SK (2 * n) n) (slice SK 0 n) (fors_ADRS P D) (i * 2 ^ p_a P + fts_leaf P D i) ++
       flat_map (fun j => fors_node P (slice SK (2 * n) n) (slice SK 0 n)
                            (i * 2 ^ (p_a P - j) + Z.lxor (fts_leaf P D i / 2 ^ j) 1) (Z.to_nat j) (fors_ADRS P D))
         (upto (p_a P))) /\
  (forall j, 0 <= j < p_d P ->
     let q := ots_index P D j in
     part_layer P S j =
       xmss_sign P (slice SK (2 * n) n) (ots_message P (slice SK (2 * n) n) (slice SK 0 n) j q) (slice SK 0 n)
         (q mod 2 ^ p_h' P) (mkADRS j (q / 2 ^ p_h' P) 0 0 0 0) /\
     layer_message P M S (skipn (Z.to_nat (2 * n)) SK) j = ots_message P (slice SK (2 * n) n) (slice SK 0 n) j q).
Proof.
  destruct (an_env p SK BK LK) as (E & HE & Hsk). pose proof HE as (Ec & Ep & Epk & Es). destruct (KE_facts _ _ _ _ _ HE) as (En & EP & Nb).
  unfold D, S, own_signature, digest_of. cbv zeta. unfold layer_message, message_digest.
  set (PK := skipn (Z.to_nat (2 * n)) SK).
  assert (K1 : slice PK 0 n = slice SK (2 * n) n) by reflexivity.
  assert (K2 : slice PK n n = slice SK (3 * n) n) by (unfold slice, PK; rewrite skipn_skipn'; do 2 f_equal; lia).
  rewrite K1, K2.
  remember (slice SK 0 n) as sk0 eqn:Esk0. remember (slice SK (3 * n) n) as rt eqn:Ert. clear Esk0 Ert.
  rewrite <- Es in *. clear Es.
  set (D0 := H_msg (p_hash P) R (e_seed E) rt M).
  set (FS := fors_sign P _ _ _ _). set (HS := ht_sign P _ _ _ _ _).
  assert (PR : part_R P (R ++ FS ++ HS) = R).
  { unfold part_R. rewrite (slice_app_l R _ 0 n) by lia. apply (slice_all R n LR). }
  assert (PR1 : slice (R ++ FS ++ HS) 0 n = R) by exact PR.
  rewrite PR. fold D0. split; [reflexivity|]. split; [reflexivity|].
  assert (LF : zlen FS = p_k P * (p_a P + 1) * n).
  { unfold FS. rewrite <- EP. rewrite fors_sign_eq. pose proof (k_bounds E). rewrite (flat_zlen _ ((p_a (e_P E) + 1) * e_n E)) by (intros; apply fpiece_zlen, Hsk).
    rewrite upto_zrange, zrange_length by lia. rewrite En, EP. ring. }
  assert (HL : 0 <= idx_leaf_of P D0 < 2 ^ p_h' P).
  { pose proof (h_div E) as X. rewrite EP in X. unfold idx_leaf_of. rewrite X. apply Z.mod_pos_bound, pow2_pos. pose proof (mh_bounds E) as Y. rewrite EP in Y. lia. }
  assert (HT : 0 <= idx_tree_of P D0 < 2 ^ (p_h P - p_h' P)).
  { pose proof (h_div E) as X. rewrite EP in X. unfold idx_tree_of. rewrite X. apply Z.mod_pos_bound, pow2_pos. pose proof (h_sub E) as Y. rewrite EP in Y. lia. }
  pose proof (mh_bounds E) as Mb. pose proof (t_bounds E) as Tb. pose proof (k_bounds E) as Kb. pose proof (d_bounds E) as Db. pose proof (wlen_eq E) as Wb.
  split.
  - intros i Hi. unfold part_fors.
    replace ((1 + i * (p_a P + 1)) * n) with (n + i * ((p_a P + 1) * n)) by ring.
    rewrite EP in Tb, Kb.
    rewrite slice_app_r by nia. rewrite LR. replace (n + i * ((p_a P + 1) * n) - n) with (i * ((p_a P + 1) * n)) by ring.
    rewrite slice_app_l by (try rewrite LF; nia).
    unfold FS. rewrite <- EP. change (p_n (e_P E)) with (e_n E). rewrite fors_sign_eq.
    rewrite (slice_flat _ (p_k (e_P E)) ((p_a (e_P E) + 1) * e_n E)); [reflexivity|intros; apply fpiece_zlen, Hsk|rewrite EP; exact Hi|].
    rewrite EP, En. nia.
  - intros j Hj. set (q := ots_index P D0 j). unfold part_layer.
    rewrite EP in Tb, Kb, Wb, Mb, Db.
    (* the position *)
    assert (Pp : 0 < 2 ^ p_h' P) by (apply pow2_pos; lia).
    assert (HH : 0 <= p_h' P) by lia.
    assert (HJ : 0 < j -> 0 <= p_h' P * (j - 1)) by (intros; apply Z.mul_nonneg_nonneg; lia).
    assert (Q0 : 0 < j -> q = idx_tree_of P D0 / 2 ^ (p_h' P * (j - 1))).
    { intros Hj0. unfold q, ots_index, fts_index.
      replace (p_h' P * j) with (p_h' P + p_h' P * (j - 1)) by ring. rewrite Z.pow_add_r by (specialize (HJ ltac:(lia)); lia).
      rewrite <- Z.div_div by (try apply Z.pow_nonzero; try apply Z.pow_pos_nonneg; specialize (HJ ltac:(lia)); lia).
      rewrite Z.div_add_l by lia. rewrite (Z.div_small (idx_leaf_of P D0)) by exact HL. rewrite Z.add_0_r. reflexivity. }
    assert (Q1 : lf E (idx_tree_of P D0) (idx_leaf_of P D0) j = q mod 2 ^ p_h' P /\ tr E (idx_tree_of P D0) j = q / 2 ^ p_h' P).
    { unfold lf, tr. rewrite EP. destruct (Z.eqb_spec j 0) as [->|Nj].
      - unfold q, ots_index, fts_index. rewrite Z.mul_0_r, Z.pow_0_r, !Z.div_1_r. split.
        + rewrite Z.add_comm, Z.mod_add, Z.mod_small by lia. reflexivity.
        + rewrite Z.div_add_l, Z.div_small by lia. lia.
      - rewrite Q0 by lia. split; [reflexivity|].
        replace (p_h' P * j) with (p_h' P * (j - 1) + p_h' P) by ring. rewrite Z.pow_add_r by (specialize (HJ ltac:(lia)); lia).
        rewrite <- Z.div_div by (try apply Z.pow_nonzero; try apply Z.pow_pos_nonneg; specialize (HJ ltac:(lia)); lia). reflexivity. }
    destruct Q1 as [Q1 Q2].
    assert (EFK : fors_pkFromSig P (e_seed E) FS (md_of P D0) (fors_ADRS P D0) = fors_pk E sk0 (fors_ADRS P D0)).
    { unfold FS. rewrite <- EP. apply (fors_complete E sk0 Hsk). reflexivity. }
    set (PKF := fors_pk E sk0 (fors_ADRS P D0)) in *.
    assert (HM : hmsg E sk0 PKF (idx_tree_of P D0) j = ots_message P (e_seed E) sk0 j q).
    { unfold hmsg, ots_message. destruct (Z.eqb_spec j 0) as [E0|Nj].
      + rewrite E0 in *. unfold PKF, fors_pk, fors_roots. rewrite EP, <- upto_zrange.
        assert (A1 : idx_leaf_of P D0 = q mod 2 ^ p_h' P) by exact Q1.
        assert (A2 : idx_tree_of P D0 = q / 2 ^ p_h' P).
        { unfold tr in Q2. rewrite Z.mul_0_r, Z.pow_0_r, Z.div_1_r in Q2. exact Q2. }
        assert (AF : fors_ADRS P D0 = mkADRS 0 (q / 2 ^ p_h' P) FORS_TREE (q mod 2 ^ p_h' P) 0 0).
        { unfold fors_ADRS. rewrite A1, A2. reflexivity. }
        rewrite AF. unfold e_hs. rewrite EP. reflexivity.
      + unfold treeA, tr. rewrite EP, <- Q0 by lia. reflexivity. }
    assert (EHS : HS = flat_map (hpiece E sk0 PKF (idx_tree_of P D0) (idx_leaf_of P D0)) (upto (p_d P))).
    { unfold HS. rewrite EFK. pose proof (ht_sign_eq E sk0 Hsk PKF (idx_tree_of P D0) (idx_leaf_of P D0)) as HQ. rewrite EP in HQ. rewrite HQ by lia.
      rewrite <- (upto_zrange (p_d P)). reflexivity. }
    assert (PL : forall l, 0 <= l < p_d P -> zlen (hpiece E sk0 PKF (idx_tree_of P D0) (idx_leaf_of P D0) l) = (p_h' P + wlen P) * n).
    { intros l _. pose proof (hpiece_zlen E sk0 Hsk PKF (idx_tree_of P D0) (idx_leaf_of P D0) l) as X. rewrite EP, En in X. exact X. }
    assert (0 <= p_k P * (p_a P + 1) * n) by (clear - Kb Tb Nb; nia). assert (0 <= (p_h' P + wlen P) * n) by (rewrite Wb; clear - Mb Nb En; nia).
    assert (0 <= j * ((p_h' P + wlen P) * n)) by (apply Z.mul_nonneg_nonneg; [lia|assumption]).
    split.
    + assert (O : (1 + p_k P * (p_a P + 1) + j * (p_h' P + wlen P)) * n = n + (p_k P * (p_a P + 1) * n + j * ((p_h' P + wlen P) * n))) by ring.
      rewrite O.
      rewrite slice_app_r by (rewrite LR; lia). rewrite LR.
      rewrite slice_app_r by (rewrite LF; lia). rewrite LF.
      match goal with |- slice _ ?o _ = _ => replace o with (j * ((p_h' P + wlen P) * n)) by lia end.
      rewrite EHS. rewrite (slice_flat _ (p_d P) ((p_h' P + wlen P) * n)); [|exact PL|exact Hj|lia].
      change (hpiece E sk0 PKF (idx_tree_of P D0) (idx_leaf_of P D0) j)
        with (xmss_sign (e_P E) (e_seed E) (hmsg E sk0 PKF (idx_tree_of P D0) j) sk0 (lf E (idx_tree_of P D0) (idx_leaf_of P D0) j) (treeA E (idx_tree_of P D0) j)).
      rewrite Q1. unfold treeA. rewrite Q2, EP, HM. reflexivity.
    + rewrite ?K1, ?K2, ?PR1. fold D0.
      assert (LH : zlen HS = (p_h P + p_d P * wlen P) * n).
      { rewrite EHS, (flat_zlen _ ((p_h' P + wlen P) * n)) by (intros l Hl; apply PL; rewrite upto_zrange in Hl; apply zrange_in, Hl).
        rewrite upto_zrange, zrange_length by lia. destruct (h_eq p) as [HE' _]. rewrite HE'. ring. }
      assert (SF : slice (R ++ FS ++ HS) n (p_k P * (1 + p_a P) * n) = FS).
      { rewrite slice_app_r by lia. rewrite LR, Z.sub_diag. rewrite slice_app_l by (rewrite ?LF; nia). apply slice_all. rewrite LF. ring. }
      assert (SH : slice (R ++ FS ++ HS) ((1 + p_k P * (1 + p_a P)) * n) ((p_h P + p_d P * wlen P) * n) = HS).
      { rewrite slice_app_r by (rewrite LR; nia). rewrite slice_app_r by (rewrite LR, LF; nia).
        replace ((1 + p_k P * (1 + p_a P)) * n - zlen R - zlen FS) with 0 by (rewrite LR, LF; ring). apply slice_all, LH. }
      rewrite SF, SH, EFK, EHS, <- HM.
      pose proof (ht_message_own E sk0 Hsk PKF (idx_tree_of P D0) (idx_leaf_of P D0) (Z.to_nat j)) as X. rewrite EP in X.
      specialize (X HL ltac:(lia) 0 ltac:(lia) ltac:(lia)).
      assert (T0 : tr E (idx_tree_of P D0) 0 = idx_tree_of P D0) by (unfold tr; rewrite Z.mul_0_r, Z.pow_0_r, Z.div_1_r; reflexivity).
      rewrite T0 in X. change (hmsg E sk0 PKF (idx_tree_of P D0) 0) with PKF in X.
      change (lf E (idx_tree_of P D0) (idx_leaf_of P D0) 0) with (idx_leaf_of P D0) in X.
      etransitivity; [exact X|]. f_equal. lia.
Qed.
End R.

Lemma sign_is_own P M SK a : slh_sign_internal P M SK a = own_signature P SK M (PRF_msg (p_hash P) (slice SK (p_n P) (p_n P)) a M).
Proof. reflexivity. Qed.
Lemma R_ok p SK M a : is_bytes SK -> len SK = 4 * p_n (slh_of p) -> is_bytes M -> is_bytes a ->
  let R := PRF_msg (p_hash (slh_of p)) (slice SK (p_n (slh_of p)) (p_n (slh_of p))) a M in zlen R = p_n (slh_of p) /\ is_bytes R.
Proof.
  intros BK LK BM BA. destruct (an_env p SK BK LK) as (E & HE & Hsk). destruct (KE_facts _ _ _ _ _ HE) as (En & EP & Nb).
  pose proof (PRF_msg_ok E (slice SK (p_n (slh_of p)) (p_n (slh_of p))) a M ltac:(apply slice_bytes, BK) BA BM) as X.
  unfold str_ok, e_hs in X. rewrite EP, En in X. exact X.
Qed.
Lemma sig_parts p SK : let P := slh_of p in let n := p_n P in is_bytes SK -> len SK = 4 * n -> forall M addrnd, is_bytes M -> is_bytes addrnd ->
  let S := slh_sign_internal P M SK addrnd in
  let D := digest_of P (skipn (Z.to_nat (2 * n)) SK) M S in
  part_R P S = PRF_msg (p_hash P) (slice SK n n) addrnd M /\
  D = H_msg (p_hash P) (part_R P S) (slice SK (2 * n) n) (slice SK (3 * n) n) M /\
  (forall i, 0 <= i < p_k P ->
     part_fors P S i =
       fors_skGen P (slice SK (2 * n) n) (slice SK 0 n) (fors_ADRS P D) (i * 2 ^ p_a P + fts_leaf P D i) ++
       flat_map (fun j => fors_node P (slice SK (2 * n) n) (slice SK 0 n)
                            (i * 2 ^ (p_a P - j) + Z.lxor (fts_leaf P D i / 2 ^ j) 1) (Z.to_nat j) (fors_ADRS P D))
         (upto (p_a P))) /\
  (forall j, 0 <= j < p_d P ->
     let q := ots_index P D j in
     part_layer P S j =
       xmss_sign P (slice SK (2 * n) n) (ots_message P (slice SK (2 * n) n) (slice SK 0 n) j q) (slice SK 0 n)
         (q mod 2 ^ p_h' P) (mkADRS j (q / 2 ^ p_h' P) 0 0 0 0)).
Proof.
  intros P n BK LK M a BM BA S D. destruct (R_ok p SK M a BK LK BM BA) as [LR _].
  unfold D, S. rewrite (sign_is_own P). destruct (own_parts p SK BK LK M _ LR) as (H1 & H2 & H3 & H4).
  split; [exact H1|]. split; [exact H2|]. split; [exact H3|]. intros j Hj. exact (proj1 (H4 j Hj)).
Qed.

(** After the first n bytes, everything is a function of the seeds and the digest. *)
Lemma sig_tail p SK1 SK2 M1 M2 a1 a2 : let P := slh_of p in let n := p_n P in
  is_bytes SK1 -> len SK1 = 4 * n -> is_bytes M1 -> is_bytes a1 ->
  is_bytes SK2 -> len SK2 = 4 * n -> is_bytes M2 -> is_bytes a2 ->
  slice SK1 0 n = slice SK2 0 n -> slice SK1 (2 * n) n = slice SK2 (2 * n) n ->
  digest_of P (skipn (Z.to_nat (2 * n)) SK1) M1 (slh_sign_internal P M1 SK1 a1) =
  digest_of P (skipn (Z.to_nat (2 * n)) SK2) M2 (slh_sign_internal P M2 SK2 a2) ->
  skipn (Z.to_nat n) (slh_sign_internal P M1 SK1 a1) = skipn (Z.to_nat n) (slh_sign_internal P M2 SK2 a2).
Proof.
  intros P n BK1 LK1 BM1 BA1 BK2 LK2 BM2 BA2 Es Ep ED.
  assert (G : forall SK M a, is_bytes SK -> len SK = 4 * n -> is_bytes M -> is_bytes a ->
    let D := digest_of P (skipn (Z.to_nat (2 * n)) SK) M (slh_sign_internal P M SK a) in
    skipn (Z.to_nat n) (slh_sign_internal P M SK a) =
      let F := fors_sign P (slice SK (2 * n) n) (md_of P D) (slice SK 0 n) (fors_ADRS P D) in
      F ++ ht_sign P (slice SK (2 * n) n) (fors_pkFromSig P (slice SK (2 * n) n) F (md_of P D) (fors_ADRS P D)) (slice SK 0 n) (idx_tree_of P D) (idx_leaf_of P D)).
  { intros SK M a BK LK BM BA. cbv zeta.
    destruct (sig_parts p SK BK LK M a BM BA) as (HR & HD & _ & _). fold P in HR, HD. fold n in HR, HD.
    rewrite HD, HR. unfold slh_sign_internal. fold n.
    destruct (an_env p SK BK LK) as (E & HE & Hsk). pose proof HE as (Ec & _ & Epk & Es'). destruct (KE_facts _ _ _ _ _ HE) as (En & EP & Nb).
    pose proof (PRF_msg_ok E (slice SK n n) a M ltac:(apply slice_bytes, BK) BA BM) as [LR _].
    unfold e_hs in LR. rewrite EP, En in LR. fold P in LR. fold n in LR.
    set (R := PRF_msg (p_hash P) (slice SK n n) a M) in *.
    rewrite skipn_app. rewrite skipn_all2 by (unfold zlen in LR; lia).
    replace (Z.to_nat n - length R)%nat with 0%nat by (unfold zlen in LR; lia). reflexivity. }
  rewrite (G SK1 M1 a1 BK1 LK1 BM1 BA1), (G SK2 M2 a2 BK2 LK2 BM2 BA2). cbv zeta. rewrite ED, Es, Ep. reflexivity.
Qed.
