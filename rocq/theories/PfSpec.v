(** * Facts about the specification: completeness of WOTS+, XMSS, FORS and the hypertree *)
From Verif Require Import Arr SpecSLH ModelParams ModelCtx ModelHash ModelSphincs SpecMap PfIter PfEnv PfAdr PfGlue PfCtx PfTree PfPaths PfBits PfWots.
Ltac Zify.zify_post_hook ::= idtac.

(** ** Ranges of integers *)
Definition zrange (lo hi : Z) : list Z := map (fun i => lo + Z.of_nat i) (seq 0 (Z.to_nat (hi - lo))).
Lemma zrange_nil lo hi : hi <= lo -> zrange lo hi = [].
Proof. intros H. unfold zrange. replace (Z.to_nat (hi - lo)) with 0%nat by lia. reflexivity. Qed.
Lemma zrange_cons lo hi : lo < hi -> zrange lo hi = lo :: zrange (lo + 1) hi.
Proof.
  intros H. unfold zrange. replace (Z.to_nat (hi - lo)) with (S (Z.to_nat (hi - (lo + 1)))) by lia.
  cbn [seq map]. f_equal; [lia|]. rewrite <- seq_shift, map_map. apply map_ext. intros; lia.
Qed.
Lemma zrange_snoc lo hi : lo <= hi -> zrange lo (hi + 1) = zrange lo hi ++ [hi].
Proof.
  intros H. unfold zrange. replace (Z.to_nat (hi + 1 - lo)) with (S (Z.to_nat (hi - lo))) by lia.
  rewrite seq_S, map_app. cbn [map]. f_equal. f_equal. lia.
Qed.
Lemma upto_zrange k : upto k = zrange 0 k.
Proof. unfold upto, zrange. rewrite Z.sub_0_r. apply map_ext. intros; lia. Qed.
Lemma zrange_in lo hi i : In i (zrange lo hi) <-> lo <= i < hi.
Proof.
  unfold zrange. rewrite in_map_iff. split.
  - intros (x & <- & Hx). apply in_seq in Hx. lia.
  - intros H. exists (Z.to_nat (i - lo)). split; [lia|]. apply in_seq. lia.
Qed.
Lemma zrange_length lo hi : lo <= hi -> Z.of_nat (length (zrange lo hi)) = hi - lo.
Proof. intros. unfold zrange. rewrite map_length, seq_length. lia. Qed.
Lemma zrange_split lo mid hi : lo <= mid <= hi -> zrange lo hi = zrange lo mid ++ zrange mid hi.
Proof.
  intros H. unfold zrange. replace (Z.to_nat (hi - lo)) with (Z.to_nat (mid - lo) + Z.to_nat (hi - mid))%nat by lia.
  rewrite seq_app, map_app. f_equal. rewrite Nat.add_0_l.
  rewrite <- (Nat.add_0_r (Z.to_nat (mid - lo))) at 1. 
  replace (seq (Z.to_nat (mid - lo) + 0) (Z.to_nat (hi - mid))) with (map (fun i => (Z.to_nat (mid - lo) + i)%nat) (seq 0 (Z.to_nat (hi - mid)))).
  - rewrite map_map. apply map_ext. intros; lia.
  - generalize 0%nat as s. generalize (Z.to_nat (hi - mid)) as m. induction m; intros s; cbn [seq map]; [reflexivity|].
    f_equal. rewrite IHm. f_equal. lia.
Qed.
Lemma flat_map_ext_in {A B} (f g : A -> list B) l : (forall x, In x l -> f x = g x) -> flat_map f l = flat_map g l.
Proof. induction l; intros H; cbn; [reflexivity|]. rewrite H, IHl; auto with datatypes. Qed.
Lemma flat_zlen {B} (f : Z -> list B) (m : Z) l : (forall i, In i l -> zlen (f i) = m) -> zlen (flat_map f l) = m * Z.of_nat (length l).
Proof.
  induction l; intros H; cbn [flat_map length]; [rewrite Z.mul_0_r; reflexivity|].
  rewrite zlen_app, H, IHl by auto with datatypes. lia.
Qed.

(** ** Slices *)
Lemma slice_app_l a b o m : 0 <= o -> 0 <= m -> o + m <= zlen a -> slice (a ++ b) o m = slice a o m.
Proof.
  intros. unfold slice. rewrite skipn_app_le by (unfold zlen in *; lia).
  rewrite firstn_app_le; [reflexivity|]. rewrite skipn_length. unfold zlen in *; lia.
Qed.
Lemma slice_app_r a b o m : zlen a <= o -> slice (a ++ b) o m = slice b (o - zlen a) m.
Proof.
  intros. unfold slice. rewrite skipn_app_ge by (unfold zlen in *; lia). do 2 f_equal. unfold zlen in *. lia.
Qed.
Lemma slice_all a m : zlen a = m -> slice a 0 m = a.
Proof. intros. unfold slice. cbn [skipn Z.to_nat]. apply firstn_all2. unfold zlen in *; lia. Qed.
Lemma slice_slice l o m o' m' : 0 <= o -> 0 <= o' -> 0 <= m' -> o' + m' <= m -> slice (slice l o m) o' m' = slice l (o + o') m'.
Proof.
  intros. unfold slice. rewrite skipn_firstn_comm, firstn_firstn, skipn_skipn'. f_equal; [lia|]. f_equal. lia.
Qed.
Lemma slice_zlen l o m : 0 <= o -> 0 <= m -> o + m <= zlen l -> zlen (slice l o m) = m.
Proof. intros. unfold slice, zlen in *. rewrite firstn_length, skipn_length. lia. Qed.
Lemma slice_bytes l o m : is_bytes l -> is_bytes (slice l o m).
Proof. intros. apply Forall_firstn', Forall_skipn', H. Qed.
Lemma slice_flat2 (f : Z -> list Z) k W i o m : (forall i, 0 <= i < k -> zlen (f i) = W) -> 0 <= i < k ->
  0 <= o -> 0 <= m -> o + m <= W -> slice (flat_map f (upto k)) (i * W + o) m = slice (f i) o m.
Proof.
  intros HW Hi Ho Hm Hl. rewrite upto_zrange, (zrange_split 0 i k) by lia. rewrite (zrange_cons i k) by lia.
  rewrite flat_map_app. cbn [flat_map].
  assert (L : zlen (flat_map f (zrange 0 i)) = i * W).
  { rewrite (flat_zlen f W); [rewrite zrange_length by lia; lia|]. intros j Hj. apply zrange_in in Hj. apply HW. lia. }
  rewrite slice_app_r by lia. rewrite L. replace (i * W + o - i * W) with o by lia.
  apply slice_app_l; auto. rewrite HW by lia. lia.
Qed.
Lemma slice_flat (f : Z -> list Z) k W i : (forall i, 0 <= i < k -> zlen (f i) = W) -> 0 <= i < k -> 0 <= W ->
  slice (flat_map f (upto k)) (i * W) W = f i.
Proof.
  intros HW Hi Ho. rewrite <- (Z.add_0_r (i * W)), (slice_flat2 f k W) by (auto; lia). apply slice_all, HW, Hi.
Qed.

Section Spec.
Variable E : env.
Local Notation n := (e_n E).
Local Notation P := (e_P E).
Local Notation hs := (e_hs E).
Local Notation seed := (e_seed E).
Variable sk : list Z.
Hypothesis Hsk : sk_at E sk.

Lemma str_zlen x : str_ok E x -> zlen x = n. Proof. intros [H _]; exact H. Qed.

Lemma chain_app A s : forall X i t, chain P seed (chain P seed X i s A) (i + Z.of_nat s) t A = chain P seed X i (s + t) A.
Proof.
  induction s; intros X i t; cbn [chain Nat.add].
  - rewrite Z.add_0_r. reflexivity.
  - rewrite <- IHs. f_equal. lia.
Qed.

(** ** WOTS+ *)
Definition wots_piece (M : list Z) (A : ADRS) (i : Z) : list Z :=
  chain P seed (wots_sk P seed sk A i) 0 (Z.to_nat (nth (Z.to_nat i) (wots_msg P M) 0)) (setChainAddress i A).
Lemma wots_piece_ok M A i : str_ok E (wots_piece M A i).
Proof. apply chain_ok, wots_sk_ok, Hsk. Qed.
Lemma wots_sign_eq M A : wots_sign P seed M sk A = flat_map (wots_piece M A) (upto (wlen P)).
Proof. reflexivity. Qed.
Lemma wots_complete M A : wots_pkFromSig P seed (wots_sign P seed M sk A) M A = wots_pkGen P seed sk A.
Proof.
  unfold wots_pkFromSig, wots_pkGen. f_equal. apply flat_map_ext_in. intros i Hi. rewrite upto_zrange in Hi. apply zrange_in in Hi.
  rewrite wots_sign_eq. change (p_n P) with n.
  rewrite (slice_flat (wots_piece M A) (wlen P) n) by (try (pose proof (n_bounds E); lia); intros; apply str_zlen, wots_piece_ok).
  unfold wots_piece. pose proof (wots_msg_range E M (Z.to_nat i)) as R. rewrite (w_eq E).
  set (m := nth (Z.to_nat i) (wots_msg P M) 0) in *.
  replace m with (0 + Z.of_nat (Z.to_nat m)) at 2 by lia. rewrite chain_app. f_equal. lia.
Qed.

(** ** Authentication paths *)
Lemma path_fold (Nd : nat -> Z -> list Z) (Hn : Z -> Z -> list Z -> list Z) (auth : Z -> list Z) (idx base k : Z) :
  0 <= idx -> 0 <= k ->
  (forall z i, Nd (S z) i = Hn (Z.of_nat (S z)) i (Nd z (2 * i) ++ Nd z (2 * i + 1))) ->
  (forall j, 0 <= j < k -> (2 ^ (j + 1) | base)) ->
  (forall j, 0 <= j < k -> auth j = Nd (Z.to_nat j) (base / 2 ^ j + Z.lxor (idx / 2 ^ j) 1)) ->
  fold_left (fun node j =>
      if (idx / 2 ^ j) mod 2 =? 0
      then Hn (j + 1) ((base + idx) / 2 ^ (j + 1)) (node ++ auth j)
      else Hn (j + 1) ((base + idx) / 2 ^ (j + 1)) (auth j ++ node)) (zrange 0 k) (Nd 0%nat (base + idx))
  = Nd (Z.to_nat k) ((base + idx) / 2 ^ k).
Proof.
  intros Hidx Hk HN HB HA. 
  assert (X : forall m, (Z.of_nat m <= k) ->  fold_left (fun node j =>
      if (idx / 2 ^ j) mod 2 =? 0
      then Hn (j + 1) ((base + idx) / 2 ^ (j + 1)) (node ++ auth j)
      else Hn (j + 1) ((base + idx) / 2 ^ (j + 1)) (auth j ++ node)) (zrange 0 (Z.of_nat m)) (Nd 0%nat (base + idx))
    = Nd m ((base + idx) / 2 ^ Z.of_nat m)).
  { induction m; intros Hm.
    - rewrite zrange_nil by lia. cbn [fold_left]. rewrite Z.pow_0_r, Z.div_1_r. reflexivity.
    - set (j := Z.of_nat m) in *. replace (Z.of_nat (S m)) with (j + 1) in * by lia.
      rewrite zrange_snoc, fold_left_app by lia. rewrite IHm by lia. cbn [fold_left].
      rewrite HA by lia. replace (Z.to_nat j) with m by lia. rewrite HN. replace (Z.of_nat (S m)) with (j + 1) by lia.
      destruct (HB j ltac:(lia)) as (q & Eq). assert (Pj : 0 < 2 ^ j) by (apply pow2_pos; lia).
      assert (Eb : base = 2 * q * 2 ^ j) by (rewrite Eq, Z.pow_add_r by lia; ring).
      assert (D1 : base / 2 ^ j = 2 * q) by (rewrite Eb; apply Z.div_mul; lia).
      assert (D2 : (base + idx) / 2 ^ j = 2 * q + idx / 2 ^ j) by (rewrite Eb, Z.div_add_l by lia; reflexivity).
      assert (D3 : (base + idx) / 2 ^ (j + 1) = q + idx / 2 ^ j / 2).
      { rewrite div_pow_S by lia. rewrite D2. rewrite (Z.mul_comm 2 q), Z.div_add_l by lia. reflexivity. }
      rewrite D1, D2, D3. set (y := idx / 2 ^ j). assert (Hy : 0 <= y) by (apply Z.div_pos; lia).
      rewrite lxor1_eq by exact Hy. destruct (Z.eqb_spec (y mod 2) 0) as [Ey|Ny].
      + f_equal. f_equal; f_equal; clear - Ey; dlia.
      + f_equal. f_equal; f_equal; clear - Ny; dlia. }
  specialize (X (Z.to_nat k)). rewrite Z2Nat.id in X by lia. apply X. lia.
Qed.

(** ** XMSS *)
Definition xauth (idx : Z) (A : ADRS) (j : Z) : list Z := xmss_node P seed sk (Z.lxor (idx / 2 ^ j) 1) (Z.to_nat j) A.
Lemma xmss_complete M idx A : 0 <= idx < 2 ^ p_h' P ->
  xmss_pkFromSig P seed idx (xmss_sign P seed M sk idx A) M A = xmss_node P seed sk 0 (Z.to_nat (p_h' P)) A.
Proof.
  intros Hi. pose proof (n_bounds E) as Hn. pose proof (mh_bounds E) as Hm.
  unfold xmss_pkFromSig, xmss_sign. change (p_n P) with n.
  set (A' := setKeyPairAddress idx (setTypeAndClear WOTS_HASH A)).
  assert (Lw : zlen (wots_sign P seed M sk A') = wlen P * n).
  { rewrite wots_sign_eq, (flat_zlen _ n); [|intros; apply str_zlen, wots_piece_ok].
    rewrite upto_zrange, zrange_length by (rewrite (wlen_eq E); lia). lia. }
  change (flat_map (fun j => xmss_node P seed sk (Z.lxor (idx / 2 ^ j) 1) (Z.to_nat j) A) (upto (p_h' P)))
    with (flat_map (xauth idx A) (upto (p_h' P))).
  rewrite slice_app_l by (rewrite ?Lw, ?(wlen_eq E); nia). rewrite slice_all by exact Lw. rewrite wots_complete.
  set (SG := wots_sign P seed M sk A' ++ flat_map (xauth idx A) (upto (p_h' P))).
  pose proof (path_fold (fun z i => xmss_node P seed sk i z A)
    (fun z i => hH hs seed (setTreeIndex i (setTreeHeight z (setTypeAndClear TREE A))))
    (fun j => slice SG ((wlen P + j) * n) n) idx 0 (p_h' P)) as F.
  rewrite upto_zrange. rewrite Z.add_0_l in F. rewrite (Z.div_small idx) in F by exact Hi.
  etransitivity; [|apply F]; clear F; [reflexivity|lia|lia|intros; reflexivity| |].
  - intros j Hj. apply Z.divide_0_r.
  - intros j Hj. unfold SG. rewrite slice_app_r by (rewrite Lw; nia). rewrite Lw. replace ((wlen P + j) * n - wlen P * n) with (j * n) by ring.
    rewrite (slice_flat (xauth idx A) (p_h' P) n) by (try lia; intros; apply str_zlen, xmss_node_ok, Hsk).
    rewrite Z.div_0_l by (pose proof (pow2_pos j); lia). reflexivity.
Qed.

(** ** FORS *)
Definition fors_idx (md : list Z) (i : Z) : Z := nth (Z.to_nat i) (base_2b md (p_a P) (p_k P)) 0.
Definition fauth (md : list Z) (A : ADRS) (i j : Z) : list Z :=
  fors_node P seed sk (i * 2 ^ (p_a P - j) + Z.lxor (fors_idx md i / 2 ^ j) 1) (Z.to_nat j) A.
Definition fsk (md : list Z) (A : ADRS) (i : Z) : list Z := fors_skGen P seed sk A (i * 2 ^ p_a P + fors_idx md i).
Definition fpiece (md : list Z) (A : ADRS) (i : Z) : list Z := fsk md A i ++ flat_map (fauth md A i) (upto (p_a P)).
Lemma fors_sign_eq md A : fors_sign P seed md sk A = flat_map (fpiece md A) (upto (p_k P)).
Proof. reflexivity. Qed.
Lemma fauth_ok md A i j : str_ok E (fauth md A i j). Proof. apply fors_node_ok, Hsk. Qed.
Lemma fsk_ok md A i : str_ok E (fsk md A i). Proof. apply fors_skGen_ok, Hsk. Qed.
Lemma fauths_zlen md A i : zlen (flat_map (fauth md A i) (upto (p_a P))) = p_a P * n.
Proof.
  pose proof (t_bounds E). rewrite (flat_zlen _ n); [|intros; apply str_zlen, fauth_ok].
  rewrite upto_zrange, zrange_length by lia. lia.
Qed.
Lemma fpiece_zlen md A i : zlen (fpiece md A i) = (p_a P + 1) * n.
Proof. unfold fpiece. rewrite zlen_app, fauths_zlen, (str_zlen _ (fsk_ok md A i)). ring. Qed.
Lemma fors_idx_range md i : 0 <= fors_idx md i < 2 ^ p_a P.
Proof. apply base_2b_nth_range. pose proof (t_bounds E). lia. Qed.

Lemma fors_root_complete md A i : 0 <= i < p_k P ->
  a_word2 A = 0 ->
  fors_root_from P seed (fors_sign P seed md sk A) i (fors_idx md i) A = fors_node P seed sk i (Z.to_nat (p_a P)) A.
Proof.
  intros Hi HA. pose proof (n_bounds E) as Hn. pose proof (t_bounds E) as Ht. pose proof (fors_idx_range md i) as Hr.
  unfold fors_root_from. change (p_n P) with n. rewrite fors_sign_eq.
  set (idx := fors_idx md i) in *. set (a := p_a P) in *.
  assert (S1 : slice (flat_map (fpiece md A) (upto (p_k P))) (i * (a + 1) * n) n = fsk md A i).
  { replace (i * (a + 1) * n) with (i * ((a + 1) * n) + 0) by ring.
    rewrite (slice_flat2 _ _ ((a + 1) * n)); [|intros; apply fpiece_zlen|lia|lia|lia|nia].
    unfold fpiece. rewrite slice_app_l by (rewrite ?(str_zlen _ (fsk_ok md A i)); lia). apply slice_all, str_zlen, fsk_ok. }
  rewrite S1. set (SG := flat_map (fpiece md A) (upto (p_k P))). rewrite upto_zrange.
  pose proof (path_fold (fun z i => fors_node P seed sk i z A)
    (fun z i => hH hs seed (setTreeIndex i (setTreeHeight z A)))
    (fun j => slice SG ((i * (a + 1) + 1 + j) * n) n) idx (i * 2 ^ a) a) as F.
  replace ((i * 2 ^ a + idx) / 2 ^ a) with i in F.
  2:{ rewrite Z.div_add_l by (pose proof (pow2_pos a); lia). rewrite Z.div_small by exact Hr. lia. }
  etransitivity; [|apply F]; clear F; [reflexivity|lia|lia|intros; reflexivity| |].
  - intros j Hj. exists (i * 2 ^ (a - (j + 1))). rewrite (pow2_split a (j + 1)) by lia. ring.
  - intros j Hj. unfold SG.
    replace ((i * (a + 1) + 1 + j) * n) with (i * ((a + 1) * n) + (n + j * n)) by ring.
    rewrite (slice_flat2 _ _ ((a + 1) * n)); [|intros; apply fpiece_zlen|lia|nia|lia|nia].
    unfold fpiece. rewrite slice_app_r by (rewrite (str_zlen _ (fsk_ok md A i)); nia).
    rewrite (str_zlen _ (fsk_ok md A i)). replace (n + j * n - n) with (j * n) by ring.
    rewrite (slice_flat (fauth md A i) (p_a P) n); [|intros; apply str_zlen, fauth_ok|fold a; lia|lia].
    unfold fauth. fold idx a.
    replace (i * 2 ^ a) with (i * 2 ^ (a - j) * 2 ^ j) by (rewrite (pow2_split a j) by lia; ring).
    rewrite Z.div_mul by (pose proof (pow2_pos j); lia). reflexivity.
Qed.
Definition fors_roots (A : ADRS) (k : Z) : list Z :=
  flat_map (fun i => fors_node P seed sk i (Z.to_nat (p_a P)) A) (zrange 0 k).
Definition fors_pk (A : ADRS) : list Z :=
  hT hs seed (mkADRS (a_layer A) (a_tree A) FORS_ROOTS (a_word1 A) 0 0) (fors_roots A (p_k P)).
Lemma fors_complete md A : a_word2 A = 0 ->
  fors_pkFromSig P seed (fors_sign P seed md sk A) md A = fors_pk A.
Proof.
  intros HA. unfold fors_pkFromSig, fors_pk, fors_roots. rewrite upto_zrange. f_equal.
  apply flat_map_ext_in. intros i Hi. apply zrange_in in Hi. apply fors_root_complete; [lia|exact HA].
Qed.
Lemma fors_roots_ok A k : is_bytes (fors_roots A k).
Proof. apply (flat_strs E). intros i. apply fors_node_ok, Hsk. Qed.
Lemma fors_pk_ok A : str_ok E (fors_pk A).
Proof. apply hT_ok, fors_roots_ok. Qed.

(** ** The hypertree *)
Section HT.
Variables (M0 : list Z) (T0 leaf0 : Z).
Definition tr (l : Z) : Z := T0 / 2 ^ (p_h' P * l).
Definition lf (l : Z) : Z := if l =? 0 then leaf0 else tr (l - 1) mod 2 ^ p_h' P.
Definition treeA (l : Z) : ADRS := mkADRS l (tr l) 0 0 0 0.
Definition hmsg (l : Z) : list Z := if l =? 0 then M0 else xmss_node P seed sk 0 (Z.to_nat (p_h' P)) (treeA (l - 1)).
Definition wotsA (l : Z) : ADRS := mkADRS l (tr l) WOTS_HASH (lf l) 0 0.
Definition hwots (l q : Z) : list Z := wots_piece (hmsg l) (wotsA l) q.
Definition hauth (l j : Z) : list Z := xauth (lf l) (treeA l) j.
Definition hpiece (l : Z) : list Z := flat_map (hwots l) (upto (wlen P)) ++ flat_map (hauth l) (upto (p_h' P)).

Lemma tr_S l : 0 <= l -> 0 <= T0 -> tr (l + 1) = tr l / 2 ^ p_h' P.
Proof.
  intros. pose proof (mh_bounds E). unfold tr. rewrite Z.mul_add_distr_l, Z.mul_1_r, Z.pow_add_r by nia.
  rewrite Z.div_div by (try apply Z.pow_nonzero; try apply Z.pow_pos_nonneg; nia). reflexivity.
Qed.
Lemma lf_range l : 0 <= leaf0 < 2 ^ p_h' P -> 0 <= lf l < 2 ^ p_h' P.
Proof.
  intros. unfold lf. destruct (l =? 0); [assumption|]. apply Z.mod_pos_bound, pow2_pos. pose proof (mh_bounds E). lia.
Qed.
Lemma ht_from k : 0 <= leaf0 < 2 ^ p_h' P -> 0 <= T0 -> forall l, 0 <= l ->
  ht_sign_from P seed k l (hmsg l) sk (tr l) (lf l) = flat_map hpiece (zrange l (l + Z.of_nat k)).
Proof.
  intros Hl0 HT. induction k as [|k IH]; intros l Hl.
  - rewrite zrange_nil by lia. reflexivity.
  - rewrite zrange_cons by lia. cbn [ht_sign_from flat_map].
    change (setTreeAddress (tr l) (setLayerAddress l zero_ADRS)) with (treeA l).
    rewrite xmss_complete by (apply lf_range, Hl0). f_equal.
    replace (l + Z.of_nat (S k)) with (l + 1 + Z.of_nat k) by lia. rewrite <- IH by lia.
    rewrite tr_S by assumption. f_equal.
    + unfold hmsg. destruct (Z.eqb_spec (l + 1) 0); [lia|]. replace (l + 1 - 1) with l by lia. reflexivity.
    + unfold lf. destruct (Z.eqb_spec (l + 1) 0); [lia|]. replace (l + 1 - 1) with l by lia. reflexivity.
Qed.
Lemma ht_sign_eq : 0 <= leaf0 < 2 ^ p_h' P -> 0 <= T0 ->
  ht_sign P seed M0 sk T0 leaf0 = flat_map hpiece (zrange 0 (p_d P)).
Proof.
  intros H1 H2. pose proof (d_bounds E). unfold ht_sign. pose proof (ht_from (Z.to_nat (p_d P)) H1 H2 0 ltac:(lia)) as F.
  rewrite Z2Nat.id, Z.add_0_l in F by lia. rewrite <- F. unfold tr. rewrite Z.mul_0_r, Z.pow_0_r, Z.div_1_r. reflexivity.
Qed.
Lemma hmsg_ok l : str_ok E M0 -> str_ok E (hmsg l).
Proof. intros H. unfold hmsg. destruct (l =? 0); [exact H|apply xmss_node_ok, Hsk]. Qed.
Lemma hwots_ok l q : str_ok E (hwots l q). Proof. apply wots_piece_ok. Qed.
Lemma hauth_ok l j : str_ok E (hauth l j). Proof. apply xmss_node_ok, Hsk. Qed.
Lemma hpiece_zlen l : zlen (hpiece l) = (p_h' P + wlen P) * n.
Proof.
  pose proof (n_bounds E). pose proof (mh_bounds E). pose proof (wlen_eq E). unfold hpiece.
  rewrite zlen_app, !(flat_zlen _ n) by (intros; apply str_zlen; (apply hwots_ok || apply hauth_ok)).
  rewrite !upto_zrange, !zrange_length by lia. ring.
Qed.
(** ** Completeness of the hypertree signature *)
Lemma ht_root_from_complete k : 0 <= leaf0 < 2 ^ p_h' P -> 0 <= T0 -> forall l, 0 <= l -> l + Z.of_nat k = p_d P ->
  ht_root_from P seed k l (hmsg l) (flat_map hpiece (upto (p_d P))) (tr l) (lf l)
  = hmsg (p_d P).
Proof.
  intros Hl0 HT. pose proof (n_bounds E) as Hn. pose proof (mh_bounds E) as Hm. pose proof (wlen_eq E) as Hw.
  induction k as [|k IH]; intros l Hl Hk; cbn [ht_root_from].
  - f_equal. lia.
  - change (p_n P) with n. rewrite (slice_flat hpiece (p_d P) ((p_h' P + wlen P) * n)) by (try (intros; apply hpiece_zlen); nia).
    change (setTreeAddress (tr l) (setLayerAddress l zero_ADRS)) with (treeA l).
    change (hpiece l) with (xmss_sign P seed (hmsg l) sk (lf l) (treeA l)).
    rewrite xmss_complete by (apply lf_range, Hl0).
    rewrite <- IH with (l := l + 1) by lia.
    rewrite tr_S by assumption. f_equal.
    + unfold hmsg. destruct (Z.eqb_spec (l + 1) 0); [lia|]. replace (l + 1 - 1) with l by lia. reflexivity.
    + unfold lf. destruct (Z.eqb_spec (l + 1) 0); [lia|]. replace (l + 1 - 1) with l by lia. reflexivity.
Qed.
End HT.
End Spec.
