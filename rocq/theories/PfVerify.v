(** * Verification: the state machine of ts_update_verify computes slh_verify_internal *)
From Verif Require Import Arr SpecSLH ModelParams ModelCtx ModelHash ModelSphincs ModelVerify SpecMap PfIter PfEnv PfAdr PfGlue PfMsg PfCtx PfTree PfPaths PfBits PfWots PfSpec PfSign.
Ltac Zify.zify_post_hook ::= idtac.

Section Verify.
Variable E : env.
Local Notation cfg := (e_cfg E).
Local Notation mem := (e_mem E).
Local Notation n := (e_n E).
Local Notation P := (e_P E).
Local Notation hs := (e_hs E).
Local Notation seed := (e_seed E).

(** ** One node of an authentication path *)
Definition path_node (L T Y K F idx h : Z) (node auth : list Z) : list Z :=
  let A := mkADRS L T Y K (h + 1) ((F * 2 ^ p_a P + idx) / 2 ^ (h + 1)) in
  if (idx / 2 ^ h) mod 2 =? 0 then hH hs seed A (node ++ auth) else hH hs seed A (auth ++ node).
Lemma path_node_ok L T Y K F idx h node auth : is_bytes node -> is_bytes auth -> str_ok E (path_node L T Y K F idx h node auth).
Proof. intros. unfold path_node. destruct (_ =? 0); apply hH_ok, bytes_app; assumption. Qed.

Lemma next_auth_ok Y X N c h : good E c -> c_merkle_level c = h -> 0 <= h < 15 -> 
  buf_is BufBuffer X c -> str_ok E X -> buf_is BufAuth N c -> str_ok E N ->
  exists a s, scr_ok E a s /\ next_auth_path cfg mem Y c
    = Ok (buf_set BufAuth (path_node (c_hypertree_level c) (c_tree_address c) Y (c_fors_keypair_addr c) (c_fors_tree c) (c_auth_path_node c) h N X)
        (scr a s (set_merkle_level (h + 1) c))).
Proof.
  intros G Hl Hh HX SX HN SN. unfold next_auth_path. rewrite Hl. rewrite shift_count_ok by lia. cbn [bind].
  unfold u8. rewrite Z.mod_small by lia.
  set (c1 := set_merkle_level (h + 1) c). assert (G1 : good E c1) by (apply good_merkle_level; [lia|exact G]).
  pose proof (wf_auth_path_node _ _ (g_wf E c G)) as Ha.
  change (c_auth_path_node c1) with (c_auth_path_node c). set (idx := c_auth_path_node c) in *.
  destruct (ts_set_merkle_ok E idx h Y c1 G1) as (a & -> & HA); [lia|lia|]. cbn [bind].
  assert (G2 : good E (set_adr a c1)) by (apply good_adr; [exact (adr_rep_ok E _ _ HA)|exact G1]).
  change (c_hypertree_level c1) with (c_hypertree_level c) in HA. change (c_tree_address c1) with (c_tree_address c) in HA.
  change (c_fors_keypair_addr c1) with (c_fors_keypair_addr c) in HA. change (c_fors_tree c1) with (c_fors_tree c) in HA.
  pose proof (buf_is_read E BufBuffer X c (proj1 SX) HX) as RX. pose proof (buf_is_read E BufAuth N c (proj1 SN) HN) as RN.
  unfold path_node.
  set (c2 := set_adr a c1) in *.
  destruct (Z.eqb_spec ((idx / 2 ^ h) mod 2) 0) as [Eb|Eb].
  - destruct (two_hash E BufAuth _ N X (c_auth_path_buffer c) (c_buffer c) c2 G2 HA RN SN RX SX) as (s & s1 & s2 & s3 & E1 & E2 & E3 & E4 & I).
    exists a, s3. split; [split; [exact (adr_rep_ok E _ _ HA)|exact I]|].
    rewrite E1. cbn [bind]. change (c_auth_path_node (set_small_iter s c2)) with idx. rewrite land_bit by lia.
    rewrite Eb. change (0 =? 0) with true. cbn [negb].
    change (c_auth_path_buffer (set_small_iter s c2)) with (c_auth_path_buffer c). rewrite E2. cbn [bind].
    change (c_buffer (set_small_iter s1 c2)) with (c_buffer c). rewrite E3. cbn [bind]. exact E4.
  - destruct (two_hash E BufAuth _ X N (c_buffer c) (c_auth_path_buffer c) c2 G2 HA RX SX RN SN) as (s & s1 & s2 & s3 & E1 & E2 & E3 & E4 & I).
    exists a, s3. split; [split; [exact (adr_rep_ok E _ _ HA)|exact I]|].
    rewrite E1. cbn [bind]. change (c_auth_path_node (set_small_iter s c2)) with idx. rewrite land_bit by lia.
    destruct (Z.eqb_spec ((idx / 2 ^ h) mod 2) 0) as [Eb'|_]; [lia|]. cbn [negb].
    change (c_buffer (set_small_iter s c2)) with (c_buffer c). rewrite E2. cbn [bind].
    change (c_auth_path_buffer (set_small_iter s1 c2)) with (c_auth_path_buffer c). rewrite E3. cbn [bind]. exact E4.
Qed.

Lemma setup_verify_ok M leaf c : good E c -> buf_is BufAuth M c -> str_ok E M -> 0 <= leaf < 2 ^ 16 ->
  exists c', set_up_wots_verify_signature cfg mem leaf c = Ok c' /\ good E c' /\
    core c' = core (set_merkle_level 0 (set_fors_keypair_addr 0 (set_auth_path_node leaf (set_state ts_verify_wots c)))) /\
    get_digit (c_x c') = Ok 0 /\ digits_at E (c_x c') (wots_msg P M) /\
    big_is E c' (mkADRS (c_hypertree_level c) (c_tree_address c) WOTS_PK leaf 0 0) [].
Proof.
  intros G HM SM Hl. unfold set_up_wots_verify_signature.
  destruct (setup_wots_ok E M leaf c G HM SM Hl) as (x' & -> & Bx & Dx & Dg). cbn [bind].
  set (c1 := set_state ts_verify_wots _).
  assert (G1 : good E c1).
  { apply good_state; [unfold ts_verify_wots; lia|]. apply good_keypair; [lia|]. apply good_auth_path_node; [exact Hl|].
    apply good_x; [exact Bx|]. apply good_state; [unfold ts_wots; lia|exact G]. }
  destruct (ts_set_wots_header_ok E leaf c1 G1) as (a & -> & HA). cbn [bind].
  assert (G2 : good E (set_adr a c1)) by (apply good_adr; [exact (adr_rep_ok E _ _ HA)|exact G1]).
  destruct (big_init_ok E _ _ G2 HA) as (g & -> & I). cbn [bind].
  eexists. split; [reflexivity|]. split; [|split; [reflexivity|split; [exact Dx|split; [exact Dg|exact I]]]].
  apply good_merkle_level; [lia|]. apply good_big; [exact (irep_ok E _ _ _ I)|exact G2].
Qed.

(** ** What is computed from the signature bytes *)
Variables (SIG M root : list Z).
Hypothesis HM : msg_ok M.
Hypothesis Hroot : str_ok E root.
Hypothesis BSIG : is_bytes SIG.

Definition blk (i : Z) : list Z := slice SIG (i * n) n.
Definition vR := blk 0.
Definition vD := H_msg hs vR seed root M.
Definition vmd := md_of P vD.
Definition vT := idx_tree_of P vD.
Definition vleaf := idx_leaf_of P vD.
Local Notation A0 := (A0 vT vleaf).
Local Notation AR := (AR vT vleaf).
Local Notation idx i := (fors_idx E vmd i).

(** FORS: running node of tree i after j siblings; concatenated roots of the first i trees *)
Definition fpos (i : Z) : Z := 1 + i * (p_a P + 1).
Definition fstep (i : Z) (node : list Z) (j : Z) : list Z :=
  path_node 0 vT FORS_TREE vleaf i (idx i) j node (blk (fpos i + 1 + j)).
Definition fnode (i j : Z) : list Z :=
  fold_left (fstep i) (zrange 0 j) (hF hs seed (mkADRS 0 vT FORS_TREE vleaf 0 (i * 2 ^ p_a P + idx i)) (blk (fpos i))).
Definition froots (i : Z) : list Z := flat_map (fun i => fnode i (p_a P)) (zrange 0 i).
Definition vpk : list Z := hT hs seed AR (froots (p_k P)).

(** The hypertree: the value authenticated by layer l *)
Definition hpos (l : Z) : Z := 1 + p_k P * (p_a P + 1) + l * (p_h' P + wlen P).
Local Notation trl l := (tr E vT l).
Local Notation lfl l := (lf E vT vleaf l).
Definition SIGHT : list Z := slice SIG ((1 + p_k P * (1 + p_a P)) * n) ((p_h P + p_d P * wlen P) * n).
Definition sig_l (l : Z) : list Z := slice SIGHT (l * ((p_h' P + wlen P) * n)) ((p_h' P + wlen P) * n).
Fixpoint vmsg (l : nat) : list Z :=
  match l with
  | O => vpk
  | S l => xmss_pkFromSig P seed (lfl (Z.of_nat l)) (sig_l (Z.of_nat l)) (vmsg l) (treeA E vT (Z.of_nat l))
  end.
Definition msgz (l : Z) : list Z := vmsg (Z.to_nat l).
Definition wend (l q : Z) : list Z :=
  let m := nth (Z.to_nat q) (wots_msg P (msgz l)) 0 in
  chain P seed (blk (hpos l + q)) m (Z.to_nat (15 - m)) (setChainAddress q (wotsA E vT vleaf l)).
Definition wpkA (l : Z) : ADRS := mkADRS l (trl l) WOTS_PK (lfl l) 0 0.
Definition wpk (l : Z) : list Z := hT hs seed (wpkA l) (flat_map (wend l) (zrange 0 (wlen P))).
Definition mstep (l : Z) (node : list Z) (j : Z) : list Z :=
  path_node l (trl l) TREE 0 0 (lfl l) j node (blk (hpos l + wlen P + j)).
Definition mnode (l j : Z) : list Z := fold_left (mstep l) (zrange 0 j) (wpk l).

Lemma blk_in_slice o m i : 0 <= o -> 0 <= i -> (i + 1) * n <= m -> slice (slice SIG (o * n) m) (i * n) n = blk (o + i).
Proof.
  intros. pose proof (n_bounds E). rewrite slice_slice by nia. unfold blk. f_equal. ring.
Qed.

Lemma blk_fit i m : 0 <= n -> i + 1 <= m -> (i + 1) * n <= m * n.
Proof. intros. apply Z.mul_le_mono_nonneg_r; lia. Qed.
(** The pieces of the specification's verification *)
Lemma fnode_spec i : 0 <= i < p_k P ->
  fors_root_from P seed (slice SIG n (p_k P * (1 + p_a P) * n)) i (idx i) A0 = fnode i (p_a P).
Proof.
  intros Hi. pose proof (n_bounds E) as Nb. pose proof (t_bounds E) as Tb. unfold fors_root_from, fnode. change (p_n P) with n.
  replace (slice SIG n (p_k P * (1 + p_a P) * n)) with (slice SIG (1 * n) (p_k P * (1 + p_a P) * n)) by (f_equal; lia).
  rewrite (blk_in_slice 1 (p_k P * (1 + p_a P) * n) (i * (p_a P + 1))) by (first [apply blk_fit; [lia|nia] | nia]). fold (fpos i).
  rewrite upto_zrange.
  assert (X : forall m, Z.of_nat m <= p_a P -> forall nd,
    fold_left (fun node j => if (idx i / 2 ^ j) mod 2 =? 0
      then hH (p_hash P) seed (setTreeIndex ((i * 2 ^ p_a P + idx i) / 2 ^ (j + 1)) (setTreeHeight (j + 1) A0))
             (node ++ slice (slice SIG (1 * n) (p_k P * (1 + p_a P) * n)) ((i * (p_a P + 1) + 1 + j) * n) n)
      else hH (p_hash P) seed (setTreeIndex ((i * 2 ^ p_a P + idx i) / 2 ^ (j + 1)) (setTreeHeight (j + 1) A0))
             (slice (slice SIG (1 * n) (p_k P * (1 + p_a P) * n)) ((i * (p_a P + 1) + 1 + j) * n) n ++ node))
      (zrange 0 (Z.of_nat m)) nd = fold_left (fstep i) (zrange 0 (Z.of_nat m)) nd).
  { induction m; intros Hm nd; [reflexivity|]. replace (Z.of_nat (S m)) with (Z.of_nat m + 1) by lia.
    rewrite zrange_snoc, !fold_left_app, IHm by lia. cbn [fold_left].
    rewrite (blk_in_slice 1 (p_k P * (1 + p_a P) * n) (i * (p_a P + 1) + 1 + Z.of_nat m)) by (first [apply blk_fit; [lia|nia] | nia]).
    unfold fstep, path_node. replace (fpos i + 1 + Z.of_nat m) with (1 + (i * (p_a P + 1) + 1 + Z.of_nat m)) by (unfold fpos; ring).
    reflexivity. }
  specialize (X (Z.to_nat (p_a P))). rewrite Z2Nat.id in X by lia. rewrite <- X by lia. reflexivity.
Qed.
Lemma vpk_spec : fors_pkFromSig P seed (slice SIG n (p_k P * (1 + p_a P) * n)) vmd (fors_ADRS P vD) = vpk.
Proof.
  unfold fors_pkFromSig, vpk, froots. rewrite upto_zrange. change (p_hash P) with hs.
  change (fors_ADRS P vD) with A0. f_equal. apply flat_map_ext_in. intros i Hi. apply zrange_in in Hi. apply fnode_spec, Hi.
Qed.
Lemma sig_l_blk l i : 0 <= l < p_d P -> 0 <= i < p_h' P + wlen P -> slice (sig_l l) (i * n) n = blk (hpos l + i).
Proof.
  intros Hl Hi. pose proof (n_bounds E) as Nb. pose proof (k_bounds E). pose proof (t_bounds E). unfold sig_l, SIGHT.
  rewrite (h_eq E). pose proof (wlen_eq E). pose proof (mh_bounds E).
  set (z := p_h' P + wlen P) in *.
  replace ((p_d P * p_h' P + p_d P * wlen P) * n) with (p_d P * z * n) by (unfold z; ring).
  assert (l * z + i + 1 <= p_d P * z) by nia.
  assert ((l * z + i + 1) * n <= p_d P * z * n) by (apply Z.mul_le_mono_nonneg_r; lia).
  assert ((i + 1) * n <= z * n) by (apply Z.mul_le_mono_nonneg_r; lia).
  assert (0 <= l * z) by nia. assert (0 <= i * n) by nia.
  assert (0 <= l * (z * n)) by nia.
  assert ((l + 1) * (z * n) <= p_d P * (z * n)) by (apply Z.mul_le_mono_nonneg_r; lia).
  rewrite slice_slice by lia.
  replace (l * (z * n) + i * n) with ((l * z + i) * n) by ring.
  rewrite blk_in_slice by lia. unfold hpos. f_equal. unfold z. ring.
Qed.
Lemma wpk_spec l : 0 <= l < p_d P ->
  wots_pkFromSig P seed (slice (sig_l l) 0 (wlen P * n)) (msgz l) (wotsA E vT vleaf l) = wpk l.
Proof.
  intros Hl. pose proof (n_bounds E) as Nb. pose proof (wlen_eq E) as Wl. pose proof (mh_bounds E) as Mb.
  unfold wots_pkFromSig, wots_pk_compress, wpk. change (p_n P) with n. change (p_hash P) with hs. rewrite upto_zrange, (w_eq E).
  f_equal. apply flat_map_ext_in. intros q Hq. apply zrange_in in Hq. unfold wend.
  rewrite slice_slice by nia. rewrite Z.add_0_l, sig_l_blk by lia. reflexivity.
Qed.
Lemma mnode_spec l : 0 <= l < p_d P ->
  xmss_pkFromSig P seed (lfl l) (sig_l l) (msgz l) (treeA E vT l) = mnode l (p_h' P).
Proof.
  intros Hl. pose proof (n_bounds E) as Nb. pose proof (wlen_eq E) as Wl. pose proof (mh_bounds E) as Mb.
  unfold xmss_pkFromSig, mnode. change (p_n P) with n. 
  change (setKeyPairAddress (lfl l) (setTypeAndClear WOTS_HASH (treeA E vT l))) with (wotsA E vT vleaf l).
  rewrite wpk_spec, upto_zrange by exact Hl.
  assert (X : forall m, Z.of_nat m <= p_h' P -> forall nd,
    fold_left (fun node j => if (lfl l / 2 ^ j) mod 2 =? 0
      then hH (p_hash P) seed (setTreeIndex (lfl l / 2 ^ (j + 1)) (setTreeHeight (j + 1) (setTypeAndClear TREE (treeA E vT l))))
             (node ++ slice (sig_l l) ((wlen P + j) * n) n)
      else hH (p_hash P) seed (setTreeIndex (lfl l / 2 ^ (j + 1)) (setTreeHeight (j + 1) (setTypeAndClear TREE (treeA E vT l))))
             (slice (sig_l l) ((wlen P + j) * n) n ++ node))
      (zrange 0 (Z.of_nat m)) nd = fold_left (mstep l) (zrange 0 (Z.of_nat m)) nd).
  { induction m; intros Hm nd; [reflexivity|]. replace (Z.of_nat (S m)) with (Z.of_nat m + 1) by lia.
    rewrite zrange_snoc, !fold_left_app, IHm by lia. cbn [fold_left].
    rewrite sig_l_blk by lia. unfold mstep, path_node. rewrite Z.add_assoc, Z.mul_0_l, Z.add_0_l. reflexivity. }
  specialize (X (Z.to_nat (p_h' P))). rewrite Z2Nat.id in X by lia. rewrite <- X by lia. reflexivity.
Qed.
Lemma msgz_S l : 0 <= l < p_d P -> msgz (l + 1) = mnode l (p_h' P).
Proof.
  intros. rewrite <- mnode_spec by assumption. unfold msgz. replace (Z.to_nat (l + 1)) with (S (Z.to_nat l)) by lia.
  cbn [vmsg]. rewrite Z2Nat.id by lia. reflexivity.
Qed.
Lemma vT_pos : 0 <= vT < 2 ^ 64.
Proof.
  unfold vT, idx_tree_of. rewrite (h_div E). pose proof (h_sub E) as Hs.
  pose proof (Z.mod_pos_bound (toInt (slice vD (ceil_div (p_k P * p_a P) 8) (ceil_div (p_h P - p_h' P) 8))) (2 ^ (p_h P - p_h' P))) as X.
  assert (0 < 2 ^ (p_h P - p_h' P)) by (apply pow2_pos; lia).
  assert (2 ^ (p_h P - p_h' P) <= 2 ^ 64) by (apply Z.pow_le_mono_r; lia). lia.
Qed.
Lemma vleaf_range : 0 <= vleaf < 2 ^ p_h' P.
Proof. unfold vleaf, idx_leaf_of. rewrite (h_div E). apply Z.mod_pos_bound, pow2_pos. pose proof (mh_bounds E); lia. Qed.
Lemma ht_root_spec k : forall l, (l + k)%nat = Z.to_nat (p_d P) ->
  ht_root_from P seed k (Z.of_nat l) (vmsg l) SIGHT (trl (Z.of_nat l)) (lfl (Z.of_nat l)) = vmsg (l + k).
Proof.
  pose proof vT_pos as VT.
  induction k as [|k IH]; intros l Hl; cbn [ht_root_from].
  - rewrite Nat.add_0_r. reflexivity.
  - replace (l + S k)%nat with (S l + k)%nat by lia. rewrite <- IH by lia. cbn [vmsg].
    rewrite Nat2Z.inj_succ. unfold Z.succ. rewrite tr_S by lia. f_equal.
    unfold lf at 1. destruct (Z.eqb_spec (Z.of_nat l + 1) 0); [lia|]. replace (Z.of_nat l + 1 - 1) with (Z.of_nat l) by lia. reflexivity.
Qed.
(** The verdict of the specification *)
Definition valid : bool := bytes_eqb (msgz (p_d P)) root.
Lemma verify_spec PK : slice PK 0 n = seed -> slice PK n n = root ->
  slh_verify_internal P M SIG PK = (len SIG =? slh_sig_length P) && valid.
Proof.
  intros H1 H2. unfold slh_verify_internal. destruct (len SIG =? slh_sig_length P); [|reflexivity]. cbn [negb andb].
  change (p_n P) with n. rewrite H1, H2. change (p_hash P) with hs. 
  replace (slice SIG 0 n) with vR by (unfold vR, blk; f_equal).
  fold vD. change (md_of P vD) with vmd. rewrite vpk_spec. unfold ht_root, valid, msgz. fold SIGHT. fold vT. fold vleaf.
  pose proof (d_bounds E). pose proof (ht_root_spec (Z.to_nat (p_d P)) 0 eq_refl) as X.
  cbn [Z.of_nat Nat.add vmsg] in X. unfold tr in X. rewrite Z.mul_0_r, Z.pow_0_r, Z.div_1_r in X. rewrite <- X. reflexivity.
Qed.

(** ** The states of a verification run.  From here on SIG is at least as long as a signature. *)
Definition NB : Z := 1 + p_k P * (p_a P + 1) + p_d P * (p_h' P + wlen P).
Lemma NB_len : NB * n = slh_sig_length P.
Proof. unfold NB, slh_sig_length. rewrite (h_eq E). change (p_n P) with n. ring. Qed.
Hypothesis LSIG : slh_sig_length P <= zlen SIG.
Lemma blk_bytes i : is_bytes (blk i). Proof. apply slice_bytes, BSIG. Qed.
Lemma blk_ok i : 0 <= i < NB -> str_ok E (blk i).
Proof.
  intros Hi. pose proof (n_bounds E). split; [|apply blk_bytes]. apply slice_zlen; [nia|lia|].
  rewrite <- NB_len in LSIG. pose proof (blk_fit i NB). lia.
Qed.

Inductive vst := VI | VFL (i : Z) | VFA (i j : Z) | VWT (l q : Z) | VMK (l j : Z).
Definition vpos (s : vst) : Z :=
  match s with
  | VI => 0 | VFL i => fpos i | VFA i j => fpos i + 1 + j
  | VWT l q => hpos l + q | VMK l j => hpos l + wlen P + j
  end.
Definition vnxt (s : vst) : vst :=
  match s with
  | VI => VFL 0
  | VFL i => VFA i 0
  | VFA i j => if j + 1 =? p_a P then if i + 1 =? p_k P then VWT 0 0 else VFL (i + 1) else VFA i (j + 1)
  | VWT l q => if q + 1 =? wlen P then VMK l 0 else VWT l (q + 1)
  | VMK l j => if j + 1 =? p_h' P then VWT (l + 1) 0 else VMK l (j + 1)
  end.
Definition vlast : vst := VMK (p_d P - 1) (p_h' P - 1).
Definition vrng (s : vst) : Prop :=
  match s with
  | VI => True
  | VFL i => 0 <= i < p_k P
  | VFA i j => 0 <= i < p_k P /\ 0 <= j < p_a P
  | VWT l q => 0 <= l < p_d P /\ 0 <= q < wlen P
  | VMK l j => 0 <= l < p_d P /\ 0 <= j < p_h' P
  end.
Lemma vpos_last : vpos vlast + 1 = NB.
Proof. cbn [vpos vlast]. unfold hpos, NB. ring. Qed.
Lemma vpos_nxt s : vrng s -> s <> vlast -> vrng (vnxt s) /\ vpos (vnxt s) = vpos s + 1.
Proof.
  pose proof (k_bounds E). pose proof (t_bounds E). pose proof (wlen_eq E). pose proof (n_bounds E).
  pose proof (d_bounds E). pose proof (mh_bounds E). unfold vlast.
  destruct s as [|i|i j|l q|l j]; cbn [vnxt vrng vpos]; intros R Hne.
  - unfold fpos. lia.
  - unfold fpos. lia.
  - destruct (Z.eqb_spec (j + 1) (p_a P)) as [Ej|]; [destruct (Z.eqb_spec (i + 1) (p_k P)) as [Ei|]|]; cbn [vrng vpos]; (split; [lia|]); unfold fpos, hpos; nia.
  - destruct (Z.eqb_spec (q + 1) (wlen P)); cbn [vrng vpos]; (split; [lia|]); unfold hpos; nia.
  - destruct (Z.eqb_spec (j + 1) (p_h' P)) as [Ej|]; cbn [vrng vpos]; [|split; [lia|]; unfold hpos; nia].
    assert (l + 1 <> p_d P) by (intros El; apply Hne; f_equal; lia). split; [lia|]. unfold hpos; nia.
Qed.
Lemma vpos_range s : vrng s -> 0 <= vpos s < NB.
Proof.
  pose proof (k_bounds E). pose proof (t_bounds E). pose proof (wlen_eq E). pose proof (n_bounds E).
  pose proof (d_bounds E). pose proof (mh_bounds E). unfold NB.
  destruct s as [|i|i j|l q|l j]; cbn [vrng vpos]; unfold fpos, hpos; intros R.
  - nia.
  - assert ((i + 1) * (p_a P + 1) <= p_k P * (p_a P + 1)) by (apply Z.mul_le_mono_nonneg_r; lia). nia.
  - assert ((i + 1) * (p_a P + 1) <= p_k P * (p_a P + 1)) by (apply Z.mul_le_mono_nonneg_r; lia). nia.
  - assert ((l + 1) * (p_h' P + wlen P) <= p_d P * (p_h' P + wlen P)) by (apply Z.mul_le_mono_nonneg_r; lia). nia.
  - assert ((l + 1) * (p_h' P + wlen P) <= p_d P * (p_h' P + wlen P)) by (apply Z.mul_le_mono_nonneg_r; lia). nia.
Qed.

Variable maddr : Z.    (* where the message is *)
Definition at_vf (i : Z) (c : ts_context) : Prop :=
  c_hypertree_level c = 0 /\ c_fors_tree c = i /\ c_tree_address c = vT /\ c_fors_keypair_addr c = vleaf /\
  fors_idx_at E (c_x c) vmd /\ big_is E c AR (froots i).
Definition at_vt (l : Z) (c : ts_context) : Prop :=
  c_hypertree_level c = l /\ c_fors_tree c = 0 /\ c_tree_address c = trl l /\ c_fors_keypair_addr c = 0 /\
  c_auth_path_node c = lfl l.
Definition VInv (s : vst) (c : ts_context) : Prop :=
  good E c /\ vrng s /\
  match s with
  | VI => c_state c = ts_verify_init /\ get_verify_message cfg (c_x c) = Ok maddr /\ get_verify_len cfg (c_x c) = Ok (zlen M)
  | VFL i => c_state c = ts_verify_fors_leaf /\ at_vf i c
  | VFA i j => c_state c = ts_verify_fors /\ at_vf i c /\ c_merkle_level c = j /\ c_auth_path_node c = idx i /\
      buf_is BufAuth (fnode i j) c
  | VWT l q => c_state c = ts_verify_wots /\ at_vt l c /\ c_merkle_level c = 0 /\ get_digit (c_x c) = Ok q /\
      digits_at E (c_x c) (wots_msg P (msgz l)) /\ big_is E c (wpkA l) (flat_map (wend l) (zrange 0 q))
  | VMK l j => c_state c = ts_verify_merkle /\ at_vt l c /\ c_merkle_level c = j /\ buf_is BufAuth (mnode l j) c
  end.
(** What the step needs from caller memory: the message and the root in the first step only. *)
Definition vmem (s : vst) : Prop :=
  match s with VI => load mem maddr (zlen M) = Ok M /\ root_at E root | _ => True end.
Definition vstep_ok (s : vst) (c : ts_context) : Prop :=
  forall m, exists c', verify_switch cfg mem m c = Ok (inl c') /\ VInv (vnxt s) c' /\ c_buffer_offset c' = c_buffer_offset c.

Lemma fnode_ok i j : str_ok E (fnode i j) \/ j < 0.
Proof.
  destruct (Z.ltb_spec j 0); [auto|]. left. unfold fnode.
  assert (X : forall l nd, str_ok E nd -> str_ok E (fold_left (fstep i) l nd)).
  { induction l as [|y l IHl]; intros nd Hnd; [exact Hnd|]. cbn [fold_left]. apply IHl, path_node_ok; [apply Hnd|apply blk_bytes]. }
  apply X, hF_ok, blk_bytes.
Qed.
Lemma fnode_str i j : 0 <= j -> str_ok E (fnode i j).
Proof. intros. destruct (fnode_ok i j); [assumption|lia]. Qed.
Lemma fnode_S i j : 0 <= j -> fnode i (j + 1) = fstep i (fnode i j) j.
Proof. intros. unfold fnode. rewrite zrange_snoc, fold_left_app by lia. reflexivity. Qed.
Lemma froots_S i : 0 <= i -> froots (i + 1) = froots i ++ fnode i (p_a P).
Proof. intros. unfold froots. rewrite zrange_snoc, flat_map_app by lia. cbn [flat_map]. rewrite app_nil_r. reflexivity. Qed.
Lemma froots_zlen i : 0 <= i -> zlen (froots i) = i * n.
Proof.
  intros. pose proof (t_bounds E). unfold froots. rewrite (flat_zlen _ n).
  - rewrite zrange_length by lia. lia.
  - intros. apply (str_zlen E), fnode_str. lia.
Qed.
Lemma wend_ok l q : 0 <= l < p_d P -> 0 <= q < wlen P -> str_ok E (wend l q).
Proof. intros. apply chain_ok, blk_ok. apply (vpos_range (VWT l q)). cbn [vrng]. auto. Qed.
Lemma wends_ok l q : 0 <= l < p_d P -> 0 <= q <= wlen P -> zlen (flat_map (wend l) (zrange 0 q)) = q * n /\ is_bytes (flat_map (wend l) (zrange 0 q)).
Proof.
  intros Hl Hq. split.
  - rewrite (flat_zlen _ n).
    + rewrite zrange_length by lia. lia.
    + intros i Hi. apply zrange_in in Hi. apply (str_zlen E), wend_ok; lia.
  - apply Forall_forall. intros b Hb. apply in_flat_map in Hb. destruct Hb as (i & Hi & Hb). apply zrange_in in Hi.
    assert (X : str_ok E (wend l i)) by (apply wend_ok; lia). destruct X as [_ X]. unfold is_bytes in X. rewrite Forall_forall in X. apply X, Hb.
Qed.
Lemma mnode_ok l j : 0 <= l < p_d P -> str_ok E (mnode l j).
Proof.
  intros Hl. pose proof (wlen_eq E). pose proof (n_bounds E). unfold mnode.
  assert (X : forall L nd, str_ok E nd -> str_ok E (fold_left (mstep l) L nd)).
  { induction L as [|y L IHl]; intros nd Hnd; [exact Hnd|]. cbn [fold_left]. apply IHl, path_node_ok; [apply Hnd|apply blk_bytes]. }
  apply X, hT_ok. apply wends_ok; lia.
Qed.
Lemma mnode_S l j : 0 <= j -> mnode l (j + 1) = mstep l (mnode l j) j.
Proof. intros. unfold mnode. rewrite zrange_snoc, fold_left_app by lia. reflexivity. Qed.
Lemma vpk_ok : str_ok E vpk.
Proof.
  apply hT_ok. apply Forall_forall. intros b Hb. apply in_flat_map in Hb. destruct Hb as (i & Hi & Hb). 
  assert (X : str_ok E (fnode i (p_a P))) by (apply fnode_str; pose proof (t_bounds E); lia).
  destruct X as [_ X]. unfold is_bytes in X. rewrite Forall_forall in X. apply X, Hb.
Qed.
Lemma msgz_ok l : 0 <= l <= p_d P -> str_ok E (msgz l).
Proof.
  intros. destruct (Z.eq_dec l 0) as [->|]; [apply vpk_ok|]. replace l with (l - 1 + 1) by lia. rewrite msgz_S by lia. apply mnode_ok; lia.
Qed.
Lemma vlf16 l : 0 <= lfl l < 2 ^ 16.
Proof.
  pose proof (lf_range E vT vleaf l vleaf_range). pose proof (mh_bounds E).
  assert (2 ^ p_h' P <= 2 ^ 9) by (apply Z.pow_le_mono_r; lia). lia.
Qed.

Lemma vstep_FL i c : VInv (VFL i) c -> buf_is BufBuffer (blk (vpos (VFL i))) c -> vstep_ok (VFL i) c.
Proof.
  intros (G & R & HS & Hl & Hf & Ht & Hk & Hx & Hb) HB m. cbn [vrng] in R. unfold verify_switch.
  assert (SB : str_ok E (blk (fpos i))) by (apply blk_ok, (vpos_range (VFL i)), R). cbn [vpos] in HB.
  rewrite HS. change (ts_verify_fors_leaf =? ts_verify_init) with false. change (ts_verify_fors_leaf =? ts_verify_fors_leaf) with true. cbv iota.
  rewrite Hf, (Hx i R). cbn [bind]. pose proof (fors_idx_range E vmd i) as Hi. fold (fors_idx E vmd i).
  pose proof (t_bounds E) as Hb'. assert (P14 : 2 ^ p_a P <= 2 ^ 14) by (apply Z.pow_le_mono_r; lia).
  unfold u16. rewrite Z.mod_small by lia. set (id := idx i) in *.
  set (c1 := set_merkle_level 0 (set_auth_path_node id c)).
  assert (G1 : good E c1) by (apply good_merkle_level; [lia|]; apply good_auth_path_node; [lia|exact G]).
  change (c_auth_path_node c1) with id.
  destruct (ts_set_fors_leaf_ok E id c1 G1) as (a & -> & HA); [lia|]. cbn [bind].
  change (c_tree_address c1) with (c_tree_address c) in HA. change (c_fors_keypair_addr c1) with (c_fors_keypair_addr c) in HA.
  change (c_fors_tree c1) with (c_fors_tree c) in HA. rewrite Hf, Ht, Hk in HA.
  assert (G2 : good E (set_adr a c1)) by (apply good_adr; [exact (adr_rep_ok E _ _ HA)|exact G1]).
  destruct (do_f_ok E BufAuth BufBuffer _ _ (set_adr a c1) G2 HA HB SB) as (s & I & ->). cbn [bind].
  eexists. split; [reflexivity|]. split; [|reflexivity]. cbn [vnxt]. split; [|split].
  - apply good_state; [unfold ts_verify_fors; lia|]. apply good_buf_set; [apply hF_ok, SB|]. apply good_small; assumption.
  - cbn [vrng]. lia.
  - split; [reflexivity|]. split; [|split; [reflexivity|split; [reflexivity|eexists; reflexivity]]].
    split; [exact Hl|]. split; [exact Hf|]. split; [exact Ht|]. split; [exact Hk|]. split; [exact Hx|exact Hb].
Qed.

Lemma vstep_FA i j c : VInv (VFA i j) c -> buf_is BufBuffer (blk (vpos (VFA i j))) c -> vstep_ok (VFA i j) c.
Proof.
  intros (G & R & HS & (Hl & Hf & Ht & Hk & Hx & Hb) & Hj & Hi & HA) HB m. cbn [vrng] in R. unfold verify_switch.
  assert (SB : str_ok E (blk (fpos i + 1 + j))) by (apply blk_ok, (vpos_range (VFA i j)), R). cbn [vpos] in HB.
  rewrite HS. change (ts_verify_fors =? ts_verify_init) with false. change (ts_verify_fors =? ts_verify_fors_leaf) with false.
  change (ts_verify_fors =? ts_verify_fors) with true. cbv iota.
  pose proof (k_bounds E) as Kb. pose proof (t_bounds E) as Tb. pose proof (n_bounds E) as Nb.
  assert (SN : str_ok E (fnode i j)) by (apply fnode_str; lia).
  destruct (next_auth_ok ADR_TYPE_FORSTREE _ _ c j G Hj ltac:(lia) HB SB HA SN) as (a & s & O & ->). cbn [bind].
  rewrite Hl, Hf, Ht, Hk, Hi.
  change (path_node 0 vT ADR_TYPE_FORSTREE vleaf i (idx i) j (fnode i j) (blk (fpos i + 1 + j))) with (fstep i (fnode i j) j).
  rewrite <- fnode_S by lia. assert (SN1 : str_ok E (fnode i (j + 1))) by (apply fnode_str; lia).
  set (c1 := buf_set BufAuth (fnode i (j + 1)) _).
  assert (G1 : good E c1) by (apply good_buf_set; [exact SN1|]; apply good_scr; [exact O|]; apply good_merkle_level; [lia|exact G]).
  assert (A1 : buf_is BufAuth (fnode i (j + 1)) c1) by (apply buf_is_set).
  change (c_merkle_level c1) with (j + 1). rewrite (g_ps E c1 G1), (ps_t_eq E). cbn [vnxt].
  destruct (Z.eqb_spec (j + 1) (p_a P)) as [Ej|Ej].
  - rewrite Ej in *.
    destruct (big_next_ok E AR (froots i) (fnode i (p_a P)) (c_auth_path_buffer c1) c1 G1 Hb) as (g & -> & I2);
      [exact (buf_is_read E BufAuth _ c1 (proj1 SN1) A1)|exact SN1|]. cbn [bind].
    rewrite <- froots_S in I2 by lia.
    set (c2 := set_big_iter g c1). assert (G2 : good E c2) by (apply good_big; [exact (irep_ok E _ _ _ I2)|exact G1]).
    change (c_fors_tree (set_state ts_verify_fors_leaf c2)) with (c_fors_tree c). rewrite Hf.
    unfold u8. rewrite Z.mod_small by lia.
    set (c3 := set_fors_tree (i + 1) (set_state ts_verify_fors_leaf c2)).
    assert (G3 : good E c3) by (apply good_fors_tree; [lia|]; apply good_state; [unfold ts_verify_fors_leaf; lia|exact G2]).
    change (c_fors_tree c3) with (i + 1). rewrite (g_ps E c3 G3), (ps_k_eq E).
    destruct (Z.eqb_spec (i + 1) (p_k P)) as [Ei|Ei].
    + assert (I3 : big_is E c3 AR (froots (i + 1))) by exact I2.
      destruct (big_final_ok E BufAuth AR _ c3 G3 I3) as (g4 & I4 & ->); [rewrite froots_zlen by lia; nia|]. cbn [bind].
      assert (EM : hT hs seed AR (froots (i + 1)) = vpk) by (rewrite Ei; reflexivity). rewrite EM.
      set (c4 := set_fors_tree 0 _).
      assert (G4 : good E c4).
      { apply good_fors_tree; [lia|]. apply good_buf_set; [apply vpk_ok|]. apply good_big; assumption. }
      change (c_fors_keypair_addr c4) with (c_fors_keypair_addr c). rewrite Hk.
      assert (B4 : buf_is BufAuth vpk c4) by (eexists; reflexivity).
      pose proof (vlf16 0) as L0. change (lfl 0) with vleaf in L0.
      destruct (setup_verify_ok vpk vleaf c4 G4 B4 vpk_ok L0) as (c5 & -> & G5 & C5 & Dg & Ds & Bg). cbn [bind].
      apply core_inv in C5. destruct C5 as (K1 & K2 & K3 & K4 & K5 & K6 & K7 & K8).
      change (c_hypertree_level c4) with (c_hypertree_level c) in Bg. change (c_tree_address c4) with (c_tree_address c) in Bg.
      rewrite Hl, Ht in Bg.
      assert (ET : trl 0 = vT) by (unfold tr; rewrite Z.mul_0_r, Z.pow_0_r, Z.div_1_r; reflexivity).
      eexists. split; [reflexivity|]. split; [|exact K2].
      split; [exact G5|]. split; [cbn [vrng]; pose proof (d_bounds E); pose proof (wlen_eq E); lia|].
      split; [exact K1|]. split; [|split; [exact K5|split; [exact Dg|split; [exact Ds|]]]].
      * split; [rewrite K3; exact Hl|]. split; [exact K4|]. split; [rewrite K8, ET; exact Ht|]. split; [exact K7|exact K6].
      * unfold wpkA. rewrite ET, zrange_nil by lia. exact Bg.
    + eexists. split; [reflexivity|]. split; [|reflexivity].
      split; [exact G3|]. split; [cbn [vrng]; lia|]. split; [reflexivity|].
      split; [exact Hl|]. split; [reflexivity|]. split; [exact Ht|]. split; [exact Hk|]. split; [exact Hx|exact I2].
  - eexists. split; [reflexivity|]. split; [|reflexivity].
    split; [exact G1|]. split; [cbn [vrng]; lia|]. split; [exact HS|].
    split; [|split; [reflexivity|split; [exact Hi|exact A1]]].
    split; [exact Hl|]. split; [exact Hf|]. split; [exact Ht|]. split; [exact Hk|]. split; [exact Hx|exact Hb].
Qed.

Lemma vstep_WT l q c : VInv (VWT l q) c -> buf_is BufBuffer (blk (vpos (VWT l q))) c -> vstep_ok (VWT l q) c.
Proof.
  intros (G & R & HS & (Hl & Hf & Ht & Hk & Hn) & Hm & Hq & Hd & Hb) HB m. cbn [vrng] in R. unfold verify_switch.
  assert (SB : str_ok E (blk (hpos l + q))) by (apply blk_ok, (vpos_range (VWT l q)), R). cbn [vpos] in HB.
  rewrite HS. change (ts_verify_wots =? ts_verify_init) with false. change (ts_verify_wots =? ts_verify_fors_leaf) with false.
  change (ts_verify_wots =? ts_verify_fors) with false. change (ts_verify_wots =? ts_verify_wots) with true. cbv iota.
  pose proof (n_bounds E) as Nb. pose proof (wlen_eq E) as Wl.
  rewrite Hq. cbn [bind].
  destruct (set_digit_ok E (c_x c) (q + 1) (good_x_ok E c G)) as (x1 & -> & B1 & D1 & D2); [lia|]. cbn [bind].
  assert (G1 : good E (set_x x1 c)) by (apply good_x; assumption).
  change (c_x (set_x x1 c)) with x1. rewrite D2, (Hd q) by lia. cbn [bind].
  change (c_auth_path_node (set_x x1 c)) with (c_auth_path_node c). rewrite Hn.
  set (d := nth (Z.to_nat q) (wots_msg P (msgz l)) 0).
  destruct (chain_loop_ok E BufBuffer (lfl l) q d 15 _ (set_x x1 c) G1 HB SB) as (a3 & s3 & O3 & ->). cbn [bind].
  match goal with |- context [buf_set BufBuffer ?w (scr a3 s3 _)] => set (v3 := w) end.
  assert (Ev3 : v3 = wend l q).
  { unfold v3, wend. fold d. assert (Ew : wots_A (set_x x1 c) (lfl l) = wotsA E vT vleaf l).
    { unfold wots_A, wotsA, lvl. change (c_hypertree_level (set_x x1 c)) with (c_hypertree_level c).
      change (c_tree_address (set_x x1 c)) with (c_tree_address c). rewrite Hl, Ht; reflexivity. }
    rewrite Ew. reflexivity. }
  rewrite Ev3. assert (S3 : str_ok E (wend l q)) by (apply wend_ok; lia).
  set (c3 := buf_set BufBuffer (wend l q) _).
  assert (G3 : good E c3) by (apply good_buf_set; [exact S3|]; apply good_scr; assumption).
  assert (B3 : buf_is BufBuffer (wend l q) c3) by (apply buf_is_set).
  destruct (big_next_ok E (wpkA l) _ (wend l q) (c_buffer c3) c3 G3 Hb) as (g & -> & I4);
    [exact (buf_is_read E BufBuffer _ c3 (proj1 S3) B3)|exact S3|]. cbn [bind].
  assert (EF : flat_map (wend l) (zrange 0 q) ++ wend l q = flat_map (wend l) (zrange 0 (q + 1))).
  { rewrite zrange_snoc, flat_map_app by lia. cbn [flat_map]. rewrite app_nil_r. reflexivity. }
  rewrite EF in I4. set (c4 := set_big_iter g c3).
  assert (G4 : good E c4) by (apply good_big; [exact (irep_ok E _ _ _ I4)|exact G3]).
  change (c_x c4) with x1. rewrite D1. cbn [bind]. rewrite (ps_n_c E c4 G4), <- Wl.
  cbn [vnxt]. destruct (Z.eqb_spec (q + 1) (wlen P)) as [Eq|Eq]; cbn [negb].
  - rewrite Eq in I4. destruct (wends_ok l (wlen P)) as [LD BD]; [lia|lia|].
    destruct (big_final_ok E BufAuth (wpkA l) _ c4 G4 I4) as (g5 & I5 & ->); [rewrite LD; nia|]. cbn [bind].
    eexists. split; [reflexivity|]. split; [|reflexivity].
    split; [|split].
    + apply good_state; [unfold ts_verify_merkle; lia|]. apply good_buf_set; [apply hT_ok, BD|]. apply good_big; [exact I5|exact G4].
    + cbn [vrng]. pose proof (mh_bounds E). lia.
    + split; [reflexivity|]. split; [|split; [exact Hm|eexists; reflexivity]].
      split; [exact Hl|]. split; [exact Hf|]. split; [exact Ht|]. split; [exact Hk|exact Hn].
  - eexists. split; [reflexivity|]. split; [|reflexivity].
    split; [exact G4|]. split; [cbn [vrng]; lia|]. split; [exact HS|]. split; [|split; [exact Hm|split; [exact D1|split; [|exact I4]]]].
    + split; [exact Hl|]. split; [exact Hf|]. split; [exact Ht|]. split; [exact Hk|exact Hn].
    + intros i Hi. change (c_x c4) with x1. rewrite D2. apply Hd, Hi.
Qed.

(** The part common to all merkle steps *)
Lemma vmk_path l j c : VInv (VMK l j) c -> buf_is BufBuffer (blk (vpos (VMK l j))) c ->
  exists c1, next_auth_path cfg mem ADR_TYPE_HASHTREE c = Ok c1 /\ good E c1 /\ c_merkle_level c1 = j + 1 /\
    c_state c1 = ts_verify_merkle /\ c_buffer_offset c1 = c_buffer_offset c /\ at_vt l c1 /\ buf_is BufAuth (mnode l (j + 1)) c1.
Proof.
  intros (G & R & HS & (Hl & Hf & Ht & Hk & Hn) & Hj & HA) HB. cbn [vrng] in R.
  assert (SB : str_ok E (blk (hpos l + wlen P + j))) by (apply blk_ok, (vpos_range (VMK l j)), R). cbn [vpos] in HB.
  pose proof (mh_bounds E) as Mb.
  assert (SN : str_ok E (mnode l j)) by (apply mnode_ok; lia).
  destruct (next_auth_ok ADR_TYPE_HASHTREE _ _ c j G Hj ltac:(lia) HB SB HA SN) as (a & s & O & ->).
  rewrite Hl, Hf, Ht, Hk, Hn.
  change (path_node l (trl l) ADR_TYPE_HASHTREE 0 0 (lfl l) j (mnode l j) (blk (hpos l + wlen P + j))) with (mstep l (mnode l j) j).
  rewrite <- mnode_S by lia. assert (SN1 : str_ok E (mnode l (j + 1))) by (apply mnode_ok; lia).
  eexists. split; [reflexivity|]. split; [apply good_buf_set; [exact SN1|]; apply good_scr; [exact O|]; apply good_merkle_level; [lia|exact G]|].
  split; [reflexivity|]. split; [exact HS|]. split; [reflexivity|]. split; [|apply buf_is_set].
  split; [exact Hl|]. split; [exact Hf|]. split; [exact Ht|]. split; [exact Hk|exact Hn].
Qed.
Lemma vtr_range l : 0 <= l -> 0 <= trl l < 2 ^ 64.
Proof.
  intros. pose proof vT_pos. unfold tr. pose proof (mh_bounds E). assert (0 < 2 ^ (p_h' P * l)) by (apply pow2_pos; nia). split; [apply Z.div_pos; lia|].
  apply Z.div_lt_upper_bound; [lia|]. nia.
Qed.
Lemma vstep_MK l j c : VInv (VMK l j) c -> VMK l j <> vlast -> buf_is BufBuffer (blk (vpos (VMK l j))) c -> vstep_ok (VMK l j) c.
Proof.
  intros HI Hne HB m. destruct (vmk_path l j c HI HB) as (c1 & E1 & G1 & M1 & S1 & O1 & (Hl & Hf & Ht & Hk & Hn) & A1).
  destruct HI as (G & R & HS & _). cbn [vrng] in R. unfold verify_switch.
  rewrite HS. change (ts_verify_merkle =? ts_verify_init) with false. change (ts_verify_merkle =? ts_verify_fors_leaf) with false.
  change (ts_verify_merkle =? ts_verify_fors) with false. change (ts_verify_merkle =? ts_verify_wots) with false.
  change (ts_verify_merkle =? ts_verify_merkle) with true. cbv iota. rewrite E1. cbn [bind].
  pose proof (mh_bounds E) as Mb. pose proof (d_bounds E) as Db. pose proof (wlen_eq E) as Wl. pose proof (n_bounds E) as Nb.
  rewrite M1, (g_ps E c1 G1), (ps_mh_eq E). cbn [vnxt].
  destruct (Z.eqb_spec (j + 1) (p_h' P)) as [Ej|Ej]; cbn [negb].
  - rewrite Ej in A1. assert (El : l + 1 < p_d P).
    { destruct (Z.eq_dec (l + 1) (p_d P)); [|lia]. exfalso. apply Hne. unfold vlast. f_equal; lia. }
    rewrite Hl. unfold u8. rewrite Z.mod_small by lia.
    set (c2 := set_hypertree_level (l + 1) c1). assert (G2 : good E c2) by (apply good_level; [lia|exact G1]).
    change (c_hypertree_level c2) with (l + 1). rewrite (g_ps E c2 G2), (ps_d_eq E), (ps_mh_eq E).
    destruct (Z.ltb_spec (l + 1) (p_d P)); [|lia]. rewrite shift_count_ok by lia. cbn [bind].
    change (c_tree_address c2) with (c_tree_address c1). rewrite Ht.
    assert (Em : Z.shiftl 1 (p_h' P) - 1 = Z.ones (p_h' P)) by (rewrite Z.ones_equiv, Z.shiftl_1_l; lia).
    rewrite Em, Z.land_ones by lia.
    assert (El' : trl l mod 2 ^ p_h' P = lfl (l + 1)).
    { unfold lf. destruct (Z.eqb_spec (l + 1) 0); [lia|]. replace (l + 1 - 1) with l by lia. reflexivity. }
    rewrite El'. pose proof (vlf16 (l + 1)) as L16. unfold u32. rewrite (Z.mod_small (lfl (l + 1))) by lia.
    pose proof vT_pos as VT. rewrite Z.shiftr_div_pow2, <- (tr_S E vT l) by lia.
    set (c3 := set_tree_address (trl (l + 1)) c2).
    assert (G3 : good E c3) by (apply good_tree; [apply vtr_range; lia|exact G2]).
    rewrite <- msgz_S in A1 by lia.
    destruct (setup_verify_ok (msgz (l + 1)) (lfl (l + 1)) c3 G3 A1 (msgz_ok (l + 1) ltac:(lia)) L16) as (c5 & -> & G5 & C5 & Dg & Ds & Bg). cbn [bind].
    apply core_inv in C5. destruct C5 as (K1 & K2 & K3 & K4 & K5 & K6 & K7 & K8).
    eexists. split; [reflexivity|]. split; [|rewrite K2; exact O1].
    split; [exact G5|]. split; [cbn [vrng]; lia|].
    split; [exact K1|]. split; [|split; [exact K5|split; [exact Dg|split; [exact Ds|]]]].
    + split; [exact K3|]. split; [rewrite K4; exact Hf|]. split; [exact K8|]. split; [exact K7|exact K6].
    + rewrite zrange_nil by lia. exact Bg.
  - eexists. split; [reflexivity|]. split; [|exact O1].
    split; [exact G1|]. split; [cbn [vrng]; lia|]. split; [exact S1|].
    split; [|split; [exact M1|exact A1]].
    split; [exact Hl|]. split; [exact Hf|]. split; [exact Ht|]. split; [exact Hk|exact Hn].
Qed.

Lemma memcmp_ok x : forall y px py t, length px = length py -> length x = length y ->
  my_memcmp (px ++ x) (py ++ y ++ t) (length x) (zlen px) = Ok (if bytes_eqb y x then 0 else 1).
Proof.
  induction x as [|a x IH]; intros [|b y] px py t Hp Hl; try discriminate Hl; [reflexivity|].
  cbn [length my_memcmp bytes_eqb].
  rewrite (rd_ok (px ++ a :: x) (zlen px) 0) by (rewrite zlen_app, zlen_cons; unfold zlen; lia).
  rewrite (rd_ok (py ++ (b :: y) ++ t) (zlen px) 0) by (rewrite !zlen_app, zlen_cons; unfold zlen; lia). cbn [bind].
  unfold zlen. rewrite Nat2Z.id. rewrite !app_nth2 by lia. rewrite Hp, !Nat.sub_diag. cbn [nth app].
  rewrite (Z.eqb_sym b a). destruct (a =? b); cbn [negb andb]; [|reflexivity].
  replace (px ++ a :: x) with ((px ++ [a]) ++ x) by (rewrite <- app_assoc; reflexivity).
  replace (py ++ b :: y ++ t) with ((py ++ [b]) ++ y ++ t) by (rewrite <- app_assoc; reflexivity).
  replace (Z.of_nat (length py) + 1) with (zlen (px ++ [a])) by (unfold zlen; rewrite app_length; cbn [length]; lia).
  apply IH; [rewrite !app_length; cbn [length]; lia|]. cbn [length] in Hl. lia.
Qed.

(** The last step *)
Lemma vstep_last m c : VInv vlast c -> buf_is BufBuffer (blk (vpos vlast)) c -> (m = 0 -> root_at E root) ->
  exists c', verify_switch cfg mem m c = Ok (inr (if (m =? 0) && valid then (1, set_state ts_verify_success c') else (0, set_state ts_verify_fail c'))) /\
    good E c' /\ c_buffer_offset c' = c_buffer_offset c.
Proof.
  intros HI HB HR. unfold vlast in *. set (l := p_d P - 1) in *. set (j := p_h' P - 1) in *.
  destruct (vmk_path l j c HI HB) as (c1 & E1 & G1 & M1 & S1 & O1 & (Hl & Hf & Ht & Hk & Hn) & A1).
  destruct HI as (G & R & HS & _). cbn [vrng] in R. unfold verify_switch.
  rewrite HS. change (ts_verify_merkle =? ts_verify_init) with false. change (ts_verify_merkle =? ts_verify_fors_leaf) with false.
  change (ts_verify_merkle =? ts_verify_fors) with false. change (ts_verify_merkle =? ts_verify_wots) with false.
  change (ts_verify_merkle =? ts_verify_merkle) with true. cbv iota. rewrite E1. cbn [bind].
  pose proof (mh_bounds E) as Mb. pose proof (d_bounds E) as Db. pose proof (wlen_eq E) as Wl. pose proof (n_bounds E) as Nb.
  rewrite M1, (g_ps E c1 G1), (ps_mh_eq E).
  destruct (Z.eqb_spec (j + 1) (p_h' P)) as [Ej|Ej]; [|lia]. cbn [negb]. rewrite Ej in A1.
  rewrite Hl. unfold u8. rewrite Z.mod_small by lia.
  set (c2 := set_hypertree_level (l + 1) c1). assert (G2 : good E c2) by (apply good_level; [lia|exact G1]).
  change (c_hypertree_level c2) with (l + 1). rewrite (g_ps E c2 G2), (ps_d_eq E).
  destruct (Z.ltb_spec (l + 1) (p_d P)); [lia|].
  rewrite <- msgz_S in A1 by lia. replace (l + 1) with (p_d P) in A1 by lia.
  exists c2. destruct (Z.eqb_spec m 0) as [Em|Em]; cbn [andb].
  - destruct (HR Em) as [HL SR].
    change (c_public_key c2) with (c_public_key c1). rewrite (g_pk E c1 G1), (ps_n_c E c G).
    unfold CONVERT_PUBLIC_KEY_TO_ROOT. rewrite HL. cbn [bind].
    change (c_auth_path_buffer c2) with (c_auth_path_buffer c1). destruct A1 as (t & A1). cbn [buf_of] in A1. rewrite A1.
    pose proof (msgz_ok (p_d P) ltac:(lia)) as SM.
    pose proof (memcmp_ok root (msgz (p_d P)) [] [] t eq_refl) as X. cbn [app] in X. change (zlen (@nil Z)) with 0 in X.
    replace (Z.to_nat n) with (length root) by (apply (str_length E), SR).
    rewrite X by (rewrite (str_length E _ SR), (str_length E _ SM); reflexivity). cbn [bind].
    fold valid. destruct valid; (split; [reflexivity|]); split; assumption.
  - split; [reflexivity|]. split; assumption.
Qed.

(** ** The first step: R is complete *)
Lemma FORS_size_lt : FORS_STACK_SIZE cfg < 2 ^ 20.
Proof.
  unfold FORS_STACK_SIZE, TS_MAX_T, TS_MAX_HASH. destruct (cfg_S cfg), (cfg_L5 cfg), (cfg_L3 cfg); cbn; lia.
Qed.
Lemma vstep_VI c : VInv VI c -> vmem VI -> buf_is BufBuffer (blk (vpos VI)) c -> vstep_ok VI c.
Proof.
  intros (G & _ & HS & Ha & Hlen) [HL Hrt] HB m. cbn [vpos] in HB. fold vR in HB. unfold verify_switch.
  pose proof (n_bounds E) as Nb.
  assert (SR : str_ok E vR) by (apply blk_ok, (vpos_range VI); exact I).
  rewrite HS. change (ts_verify_init =? ts_verify_init) with true. cbv iota.
  rewrite Ha. cbn [bind]. rewrite Hlen. cbn [bind]. rewrite HL. cbn [bind].
  destruct (hash_msg_ok E vR (c_buffer c) root M c G Hrt) as (it4 & -> & I4);
    [exact (buf_is_read E BufBuffer vR c (proj1 SR) HB)|exact SR|exact HM|]. cbn [bind].
  destruct (H49_ok E vR root M) as [L49 B49]; [apply SR|apply Hrt|apply HM|].
  pose proof (H49_prefix E vR root M (proj2 SR) (proj2 (proj2 Hrt)) (proj1 HM)) as HD. fold vD in HD.
  set (H := H49 E vR root M) in *. clearbody H.
  set (c1 := set_small_iter it4 c). assert (G1 : good E c1) by (apply good_small; assumption).
  pose proof (x_ge_fors E) as Xf. pose proof (fors_stack_min E) as Fm. pose proof FORS_size_lt as Fl.
  destruct (good_x_ok E c1 G1) as [Lx Bx].
  unfold wr_stack at 1. unfold sub_wr. change (snd (fors_stack cfg)) with (FORS_STACK_SIZE cfg). change (fst (fors_stack cfg)) with FORS_STACK_OFFSET.
  set (o := FORS_STACK_OFFSET) in *. set (sz := FORS_STACK_SIZE cfg) in *.
  assert (Ho : 0 <= o) by (unfold o, FORS_STACK_OFFSET, TS_MAX_FORS; lia).
  destruct (Z.leb_spec (0 + zlen H) sz); [|lia]. cbn [Z.leb Z.compare andb]. rewrite Z.add_0_r.
  assert (W1 : exists x1, wr_range (c_x c1) o H = Ok x1) by (rewrite wr_range_ok by lia; eauto).
  destruct W1 as (x1 & W1). rewrite W1. cbn [bind].
  destruct (wr_then_rd _ _ _ _ W1) as [R1 L1]. rewrite L49 in R1.
  assert (B1 : is_bytes x1).
  { rewrite wr_range_ok in W1 by lia.
    assert (Ex : x1 = firstn (Z.to_nat o) (c_x c1) ++ H ++ skipn (Z.to_nat o + length H) (c_x c1)) by congruence. rewrite Ex.
    apply bytes_app; [apply Forall_firstn', Bx|]. apply bytes_app; [exact B49|apply Forall_skipn', Bx]. }
  set (c2 := set_x x1 c1). assert (G2 : good E c2) by (apply good_x; [split; [lia|exact B1]|exact G1]).
  unfold rd_stack, sub_rd. change (c_x c2) with x1.
  change (snd (fors_stack cfg)) with sz. change (fst (fors_stack cfg)) with o.
  destruct (Z.leb_spec (0 + sz) sz); [|lia]. cbn [Z.leb Z.compare andb]. rewrite Z.add_0_r.
  rewrite (rd_range_ok x1 o sz) by lia. cbn [bind].
  set (stk := firstn (Z.to_nat sz) (skipn (Z.to_nat o) x1)).
  assert (Lstk : zlen stk = sz) by (unfold stk, zlen in *; rewrite firstn_length, skipn_length; lia).
  assert (Bstk : is_bytes stk) by (apply Forall_firstn', Forall_skipn', B1).
  destruct (convert_ok E stk c2 G2 Bstk) as (mh & x' & -> & Bx' & Fx & _ & Lmh & Bmh); [lia|].
  assert (ED : firstn (Z.to_nat (p_m P)) stk = vD).
  { rewrite <- HD. rewrite rd_range_ok in R1 by lia. assert (R1' : H = firstn (Z.to_nat 49) (skipn (Z.to_nat o) x1)) by congruence. rewrite R1'. unfold stk.
    pose proof (m_bounds E). rewrite !firstn_firstn. rewrite !Nat.min_l by lia. reflexivity. }
  rewrite ED in *. cbn [bind].
  set (c3 := set_fors_keypair_addr _ _).
  assert (L16 : 0 <= vleaf < 2 ^ 16) by (pose proof (vlf16 0) as L0; exact L0).
  assert (G3 : good E c3) by (apply good_keypair; [exact L16|]; apply good_tree; [exact vT_pos|]; apply good_x; assumption).
  unfold wr_stack, sub_wr. change (c_x c3) with x'.
  change (snd (fors_stack cfg)) with sz. change (fst (fors_stack cfg)) with o.
  destruct (Z.leb_spec (0 + zlen mh) sz); [|lia]. cbn [Z.leb Z.compare andb]. rewrite Z.add_0_r.
  destruct Bx' as [Lx' Bx'].
  assert (W2 : exists x2, wr_range x' o mh = Ok x2) by (rewrite wr_range_ok by lia; eauto).
  destruct W2 as (x2 & W2). rewrite W2. cbn [bind].
  destruct (wr_then_rd _ _ _ _ W2) as [_ L2].
  assert (B2 : is_bytes x2).
  { rewrite wr_range_ok in W2 by lia.
    assert (Ex : x2 = firstn (Z.to_nat o) x' ++ mh ++ skipn (Z.to_nat o + length mh) x') by congruence. rewrite Ex.
    apply bytes_app; [apply Forall_firstn', Bx'|]. apply bytes_app; [exact Bmh|apply Forall_skipn', Bx']. }
  assert (F2 : fors_idx_at E x2 vmd).
  { intros i Hi. unfold vmd. rewrite <- (Fx i Hi). apply (get_fors_node_firstn E); [lia| |].
    - pose proof (k_bounds E). unfold TS_MAX_FORS. lia.
    - apply (wr_firstn _ _ _ _ _ 0 W2). fold o. lia. }
  set (c4 := set_hypertree_level 0 _).
  assert (G4 : good E c4).
  { apply good_level; [lia|]. apply good_merkle_level; [lia|]. apply good_fors_tree; [lia|]. apply good_state; [unfold ts_verify_fors_leaf; lia|].
    apply good_x; [split; [lia|exact B2]|exact G3]. }
  destruct (ts_set_fors_root_ok E c4 G4) as (a & -> & HA). cbn [bind].
  change (c_tree_address c4) with vT in HA. change (c_fors_keypair_addr c4) with vleaf in HA.
  assert (G5 : good E (set_adr a c4)) by (apply good_adr; [exact (adr_rep_ok E _ _ HA)|exact G4]).
  destruct (big_init_ok E _ (set_adr a c4) G5 HA) as (g & -> & I7). cbn [bind].
  eexists. split; [reflexivity|]. split; [|reflexivity].
  split; [apply good_big; [exact (irep_ok E _ _ _ I7)|exact G5]|]. split; [cbn [vrng vnxt]; pose proof (k_bounds E); lia|].
  split; [reflexivity|]. split; [reflexivity|]. split; [reflexivity|]. split; [reflexivity|]. split; [reflexivity|].
  split; [exact F2|]. unfold big_is, froots. rewrite zrange_nil by lia. exact I7.
Qed.
Lemma vswitch_ok s c : s <> vlast -> VInv s c -> vmem s -> buf_is BufBuffer (blk (vpos s)) c -> vstep_ok s c.
Proof.
  destruct s; intros Hne HI Hv HB; [apply vstep_VI|apply vstep_FL|apply vstep_FA|apply vstep_WT|apply vstep_MK]; assumption.
Qed.

(** ** The loop of ts_update_verify.  A run is in state [s] with [o] bytes of the block in the buffer. *)
Record at_vrun (s : vst) (o : Z) (c : ts_context) : Prop := mkVrun {
  v_inv : VInv s c;
  v_off : c_buffer_offset c = o;
  v_rng : 0 <= o < n;
  v_buf : exists t, c_buffer c = slice SIG (vpos s * n) o ++ t }.
(** The number of bytes consumed so far *)
Definition vtot (s : vst) (o : Z) : Z := vpos s * n + o.

Lemma vtot_range s o : vrng s -> 0 <= o < n -> 0 <= vtot s o < slh_sig_length P.
Proof.
  intros Hs Ho. pose proof (vpos_range s Hs) as R. unfold vtot. rewrite <- NB_len. pose proof (blk_fit (vpos s) NB). nia.
Qed.
Lemma VInv_buffer s c b : VInv s c -> bytes_of (TS_MAX_HASH cfg) b -> VInv s (set_buffer b c).
Proof.
  intros (G & R & H) Bb. split; [apply good_buffer; assumption|]. split; [exact R|]. destruct s; exact H.
Qed.
Lemma VInv_offset s c o : VInv s c -> 0 <= o < 256 -> VInv s (set_buffer_offset o c).
Proof.
  intros (G & R & H) Ho. split; [apply good_offset; assumption|]. split; [exact R|]. destruct s; exact H.
Qed.
Lemma slice_step o k m : 0 <= o -> 0 <= k -> 0 <= m -> slice SIG o (k + m) = slice SIG o k ++ slice SIG (o + k) m.
Proof.
  intros. unfold slice. rewrite !Z2Nat.inj_add by lia.
  rewrite <- (firstn_skipn (Z.to_nat k) (firstn _ _)) at 1.
  rewrite firstn_firstn, Nat.min_l by lia. f_equal. rewrite skipn_firstn_comm, skipn_skipn'. f_equal. lia.
Qed.

(** A call with [m] more bytes [sg] from position [pos] on, that is bytes t.. of SIG. *)
Lemma verify_loop_ok fuel : forall sg pos m s o c, at_vrun s o c -> (vtot s o < n -> n <= vtot s o + m -> vmem VI) -> (vtot s o + m = slh_sig_length P -> root_at E root) ->
  0 <= m < 2 ^ 32 -> 0 <= pos -> 
  (forall i k, 0 <= i -> 0 <= k -> i + k <= m -> vtot s o + i + k <= slh_sig_length P ->
     rd_range sg (pos + i) k = Ok (slice SIG (vtot s o + i) k)) ->
  m < Z.of_nat fuel ->
  exists c', good E c' /\
  (vtot s o + m < slh_sig_length P -> verify_loop cfg mem fuel sg pos m c = Ok (1, c') /\
     exists s' o', at_vrun s' o' c' /\ vtot s' o' = vtot s o + m) /\
  (vtot s o + m = slh_sig_length P -> verify_loop cfg mem fuel sg pos m c
     = Ok (if valid then (1, set_state ts_verify_success c') else (0, set_state ts_verify_fail c')) /\ c_buffer_offset c' = 0) /\
  (vtot s o + m > slh_sig_length P -> verify_loop cfg mem fuel sg pos m c = Ok (0, set_state ts_verify_fail c') /\ c_buffer_offset c' = 0).
Proof.
  induction fuel as [|fuel IH]; intros sg pos m s o c HR Hmem Hrt Hm Hpos Hsg Hfu; [lia|].
  pose proof HR as [HI Ho Hrg (t & Hbuf)]. pose proof (n_bounds E) as Nb. pose proof (n_max E) as Nm.
  assert (G : good E c) by apply HI. assert (Rg : vrng s) by apply HI. pose proof (vpos_range s Rg) as Rp.
  pose proof (blk_fit (vpos s) NB ltac:(lia) ltac:(lia)) as Bf. rewrite NB_len in Bf.
  cbn [verify_loop]. rewrite (ps_n_c E c G), Ho. unfold u32. rewrite (Z.mod_small (n - o)) by lia.
  set (r := if m <? n - o then m else n - o).
  assert (Hr : 0 <= r <= n - o /\ r <= m) by (unfold r; destruct (Z.ltb_spec m (n - o)); lia).
  assert (Hsrc : rd_range sg pos r = Ok (slice SIG (vtot s o) r)).
  { rewrite <- (Z.add_0_r pos), <- (Z.add_0_r (vtot s o)). apply Hsg; [lia|lia|lia|]. unfold vtot. lia. }
  rewrite Hsrc. cbn [bind].
  destruct (wf_buffer _ _ (g_wf E c G)) as [Lb Bb].
  assert (Bp : 0 <= vpos s * n) by nia.
  assert (Lsl : zlen (slice SIG (vpos s * n) o) = o) by (apply slice_zlen; lia).
  assert (Lsrc : zlen (slice SIG (vtot s o) r) = r) by (apply slice_zlen; unfold vtot; lia).
  rewrite wr_range_ok by lia. cbn [bind].
  set (b1 := firstn (Z.to_nat o) (c_buffer c) ++ slice SIG (vtot s o) r ++ skipn (Z.to_nat o + length (slice SIG (vtot s o) r)) (c_buffer c)).
  assert (Eb1 : b1 = slice SIG (vpos s * n) (o + r) ++ skipn (Z.to_nat o + length (slice SIG (vtot s o) r)) (c_buffer c)).
  { unfold b1. rewrite app_assoc. f_equal. rewrite slice_step by lia. f_equal. rewrite Hbuf. apply firstn_app_exact. unfold zlen in Lsl. lia. }
  assert (Ob1 : bytes_of (TS_MAX_HASH cfg) b1).
  { split.
    - rewrite Eb1, zlen_app. rewrite slice_zlen by lia. unfold zlen in *. rewrite skipn_length. lia.
    - rewrite Eb1. apply bytes_app; [apply slice_bytes, BSIG|apply Forall_skipn', Bb]. }
  set (c1 := set_buffer b1 c).
  assert (HI1 : VInv s c1) by (apply VInv_buffer; assumption).
  rewrite (Z.mod_small (o + r)) by lia. rewrite (Z.mod_small (m - r)) by lia.
  destruct (Z.ltb_spec (o + r) n) as [Hlt|Hge].
  - (* out of bytes *)
    assert (Er : r = m) by (unfold r in *; destruct (Z.ltb_spec m (n - o)); lia).
    assert (Hlt' : vtot s o + m < slh_sig_length P) by (unfold vtot; lia).
    unfold u8. rewrite Z.mod_small by lia. exists (set_buffer_offset (o + r) c1).
    assert (HI2 : VInv s (set_buffer_offset (o + r) c1)) by (apply VInv_offset; [exact HI1|lia]).
    split; [apply HI2|]. split; [|split; intros; lia]. intros _. split; [reflexivity|].
    exists s, (o + r). split; [|unfold vtot; lia].
    split; [exact HI2|reflexivity|lia|]. eexists. exact Eb1.
  - (* a block is complete *)
    assert (Eor : o + r = n) by lia. rewrite Eor in Eb1.
    set (c2 := set_buffer_offset 0 c1).
    assert (HI2 : VInv s c2) by (apply VInv_offset; [exact HI1|lia]).
    assert (HB2 : buf_is BufBuffer (blk (vpos s)) c2) by (eexists; exact Eb1).
    assert (Et : vtot s o + r = (vpos s + 1) * n) by (unfold vtot; lia).
    assert (Hmm : vmem s) by (destruct s; try exact I; apply Hmem; unfold vtot; cbn [vpos]; lia).
    assert (Dl : {s = vlast} + {s <> vlast}).
    { destruct s as [| | | |l j]; try (right; unfold vlast; discriminate). unfold vlast.
      destruct (Z.eq_dec l (p_d P - 1)) as [->|]; [destruct (Z.eq_dec j (p_h' P - 1)) as [->|]|]; [left; reflexivity|right; congruence|right; congruence]. }
    destruct Dl as [Es|Es].
    + assert (Ep : (vpos s + 1) * n = slh_sig_length P) by (rewrite <- NB_len, Es, vpos_last; reflexivity).
      rewrite Es in HI2, HB2.
      destruct (vstep_last (m - r) c2 HI2 HB2) as (c3 & -> & G3 & O3); [intros; apply Hrt; lia|]. cbn [bind].
      exists c3. split; [exact G3|]. split; [intros; lia|]. split.
      * intros Hq. destruct (Z.eqb_spec (m - r) 0); [|lia]. cbn [andb]. split; [reflexivity|exact O3].
      * intros Hq. destruct (Z.eqb_spec (m - r) 0); [lia|]. cbn [andb]. split; [reflexivity|exact O3].
    + destruct (vswitch_ok s c2 Es HI2 Hmm HB2 (m - r)) as (c3 & -> & HI3 & O3). cbn [bind].
      destruct (vpos_nxt s Rg Es) as [Rn En].
      assert (HR3 : at_vrun (vnxt s) 0 c3).
      { split; [exact HI3|exact O3|lia|]. exists (c_buffer c3). unfold slice. reflexivity. }
      assert (Et3 : vtot (vnxt s) 0 = vtot s o + r) by (unfold vtot; rewrite En; lia).
      destruct (IH sg (pos + r) (m - r) (vnxt s) 0 c3 HR3) as (c' & G' & C1 & C2 & C3); try lia.
      * rewrite Et3. intros. apply Hrt. lia.
      * intros i k Hi Hk Hik Hl. rewrite Et3 in Hl |- *. rewrite <- !Z.add_assoc. apply Hsg; lia.
      * rewrite Et3 in C1, C2, C3. exists c'. split; [exact G'|]. 
        replace (vtot s o + r + (m - r)) with (vtot s o + m) in C1, C2, C3 by lia. auto.
Qed.
End Verify.
