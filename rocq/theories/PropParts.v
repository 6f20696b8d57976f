(** * The functions the library is made of (C28 in part, C29, C30, C31, C33)

    [ready], [lies_at], [address_is], [output], [running], [t_session] and [path_steps]
    are defined in SpecParts.v; the functions they are compared with in SpecSLH.v. *)
From Verif Require Import Arr SpecSLH SpecMap CSem ModelParams ModelCtx ModelHash ModelSphincs ModelKeygen SpecApi PropParams SpecParts
  PfIter PfEnv PfAdr PfGlueSha PfGlue PfMsg PfCtx PfTree PfPaths PfBits PfWots PfSpec PfApi PfKeygen PfComplete PropSign PfParts.
Ltac Zify.zify_post_hook ::= idtac.

Section Functions.
Variables (cfg : config) (mem : memory) (p : ps_name) (pk : Z) (PKseed : list Z).
Hypothesis on : ps_enabled cfg p = true.
Hypothesis Hseed : lies_at mem pk (p_n (slh_of p)) PKseed.
Local Notation n := (p_n (slh_of p)).
Local Notation hs := (p_hash (slh_of p)).
Local Notation Ready := (ready cfg mem p pk).
Local Notation EE := (E0 cfg mem p pk PKseed on Hseed).

Local Lemma GR c : Ready c -> good EE c. Proof. apply ready_good. Qed.
Local Lemma RG c : good EE c -> Ready c. Proof. apply good_ready. Qed.
Local Lemma LA a n' X : lies_at mem a n' X -> load mem a n' = Ok X /\ bytes_of n' X.
Proof. intros H. split; [exact (lies_load _ _ _ _ H)|apply H]. Qed.
Local Lemma RS c it : Ready c -> iter_ok EE it -> Ready (set_small_iter it c).
Proof. intros R I. apply RG, good_small; [exact I|apply GR, R]. Qed.

(** ** C33: the hash functions of FIPS 205, section 11 *)
Theorem C33_PRF_msg : forall c SKprf addrnd rest M, Ready c ->
  lies_at mem (pk - n) n SKprf -> nbytes n addrnd -> is_bytes M -> len M < 2 ^ 60 ->
  exists c', call_prf_msg cfg mem (addrnd ++ rest) M c = Ok (PRF_msg hs SKprf addrnd M, c') /\ Ready c'.
Proof.
  intros c SKprf addrnd rest M R HK HA HM HL.
  destruct (prf_msg_ok EE SKprf (addrnd ++ rest) addrnd M c (GR c R)) as (it & E & I);
    [exact (LA _ _ _ HK)|apply rd_range_0, HA|exact HA|split; [exact HM|exact HL]|].
  eexists. split; [exact E|apply RS; assumption].
Qed.
(** The code asks for 49 bytes, the most any parameter set needs; the m bytes of
    FIPS 205 are the first ones of these. *)
Theorem C33_H_msg : forall c PKroot R rest M, Ready c ->
  lies_at mem (pk + n) n PKroot -> nbytes n R -> is_bytes M -> len M < 2 ^ 60 ->
  exists D c', call_hash_msg cfg mem MAX_MESSAGE_HASH (R ++ rest) M c = Ok (D, c') /\ Ready c' /\
    nbytes MAX_MESSAGE_HASH D /\ p_m (slh_of p) <= MAX_MESSAGE_HASH /\
    firstn (Z.to_nat (p_m (slh_of p))) D = H_msg hs R PKseed PKroot M.
Proof.
  intros c PKroot R rest M Rc HR HA HM HL.
  destruct (hash_msg_ok EE R (R ++ rest) PKroot M c (GR c Rc)) as (it & E & I);
    [exact (LA _ _ _ HR)|apply rd_range_0, HA|exact HA|split; [exact HM|exact HL]|].
  eexists _, _. split; [exact E|]. split; [apply RS; assumption|].
  split; [apply H49_ok; [apply HA|apply HR|exact HM]|]. split; [pose proof (m_bounds EE) as B; change MAX_MESSAGE_HASH with 49; exact (proj2 B)|].
  apply (H49_prefix EE); [apply HA|apply HR|exact HM].
Qed.
Theorem C33_PRF : forall c SKseed A, Ready c ->
  lies_at mem (pk - 2 * n) n SKseed -> address_is p c A ->
  exists c', call_prf cfg mem c = Ok (PRF hs PKseed SKseed A, c') /\ Ready c'.
Proof.
  intros c SKseed A R HK HA.
  destruct (prf_ok EE SKseed c A (GR c R)) as (it & E & I); [exact (LA _ _ _ HK)|apply address_rep; [apply R|exact HA]|].
  eexists. split; [exact E|apply RS; assumption].
Qed.
Theorem C33_F : forall c A M1 rest, Ready c -> address_is p c A -> nbytes n M1 ->
  exists c', call_f cfg mem (M1 ++ rest) c = Ok (hF hs PKseed A M1, c') /\ Ready c'.
Proof.
  intros c A M1 rest R HA HM.
  destruct (f_ok EE (M1 ++ rest) M1 c A (GR c R)) as (it & E & I); [apply address_rep; [apply R|exact HA]|apply rd_range_0, HM|exact HM|].
  eexists. split; [exact E|apply RS; assumption].
Qed.
(** T_l for every number l of blocks, on an iterator with any previous contents; H is
    T_2 of two blocks.  The address is read at the start only: the context [c] may be
    given another address during the session (next and final do not look at it). *)
Theorem C33_T : forall c A it blocks rests, Ready c -> address_is p c A ->
  nbytes (SIZEOF_T_ITERATOR cfg) it -> Forall (nbytes n) blocks -> length rests = length blocks ->
  n * zlen blocks < 2 ^ 60 ->
  exists it', t_session cfg mem it (map (fun q => fst q ++ snd q) (combine blocks rests)) c
    = Ok (hT hs PKseed A (concat blocks), it') /\ nbytes (SIZEOF_T_ITERATOR cfg) it'.
Proof.
  intros c A it blocks rests R HA Hit HB HR HL. unfold t_session.
  destruct (init_t_ok EE it A c (GR c R) Hit) as (it1 & E1 & I1); [apply address_rep; [apply R|exact HA]|].
  change (e_cfg EE) with cfg in E1. change (e_mem EE) with mem in E1. rewrite E1. cbn [bind].
  destruct (t_next cfg mem p pk PKseed on Hseed blocks it1 A [] c rests (GR c R) I1 HR HB) as (it2 & E2 & I2).
  rewrite E2. cbn [bind app] in *.
  assert (L : zlen (concat blocks) = n * zlen blocks).
  { clear - HB. induction HB as [|X l HX HF IH]; [cbn; unfold zlen; cbn; lia|].
    cbn [concat]. rewrite zlen_app, IH, (proj1 HX). unfold zlen. cbn [length]. lia. }
  destruct (final_t_ok EE it2 A (concat blocks) c (GR c R) I2) as (it3 & E3 & I3); [lia|].
  exists it3. split; [exact E3|exact I3].
Qed.
Theorem C33_H_is_T2 : forall A X Y, hH hs PKseed A (X ++ Y) = hT hs PKseed A (concat [X; Y]).
Proof. intros A X Y. cbn [concat]. rewrite app_nil_r. destruct p; reflexivity. Qed.

(** ** C28: every setter writes the whole address, whatever was there before *)
Definition sets (f : ts_context -> outcome ts_context) (c : ts_context) (A : ADRS) : Prop :=
  exists a, f c = Ok (set_adr a c) /\ Ready (set_adr a c) /\ address_is p (set_adr a c) A.
Theorem C28_setters : forall c, Ready c ->
  let layer := c_hypertree_level c in let tree := c_tree_address c in
  let keypair := c_fors_keypair_addr c in let fors i := c_fors_tree c * 2 ^ p_a (slh_of p) + i in
  (forall leaf, sets (ts_set_wots_header_adr cfg leaf) c (mkADRS layer tree WOTS_PK leaf 0 0)) /\
  (forall leaf chain, sets (set_wots_prf_adr cfg leaf chain) c (mkADRS layer tree WOTS_PRF leaf chain 0)) /\
  (forall leaf chain hash, sets (ts_set_wots_f_adr cfg leaf chain hash) c (mkADRS layer tree WOTS_HASH leaf chain hash)) /\
  sets (ts_set_fors_root_adr cfg) c (mkADRS 0 tree FORS_ROOTS keypair 0 0) /\
  (forall i, 0 <= i < 2 ^ 24 -> sets (set_fors_prf_adr cfg i) c (mkADRS 0 tree FORS_PRF keypair 0 (fors i))) /\
  (forall i, 0 <= i < 2 ^ 24 -> sets (ts_set_fors_leaf_adr cfg i) c (mkADRS 0 tree FORS_TREE keypair 0 (fors i))) /\
  (forall node level type, 0 <= node < 2 ^ 24 -> 0 <= level < 30 ->
     sets (ts_set_merkle_adr cfg node level type) c
       (mkADRS layer tree type keypair (level + 1) (fors node / 2 ^ (level + 1)))).
Proof.
  intros c R layer tree keypair fors. pose proof (GR c R) as G.
  assert (K : forall f A, (exists a, f c = Ok (set_adr a c) /\ adr_rep EE a A) -> sets f c A).
  { intros f A (a & Ea & HA). exists a. split; [exact Ea|]. split.
    - apply RG, good_adr; [apply HA|exact G].
    - apply (rep_address cfg mem p pk PKseed on Hseed (set_adr a c) A HA). }
  split; [intros; apply K, (ts_set_wots_header_ok EE), G|].
  split; [intros; apply K, (set_wots_prf_ok EE), G|].
  split; [intros; apply K, (ts_set_wots_f_ok EE), G|].
  split; [intros; apply K, (ts_set_fors_root_ok EE), G|].
  split; [intros; apply K, (set_fors_prf_ok EE); assumption|].
  split; [intros; apply K, (ts_set_fors_leaf_ok EE); assumption|].
  intros; apply K, (ts_set_merkle_ok EE); assumption.
Qed.

(** ** C29: splitting the digest *)
Theorem C29_digest_split : forall c D, Ready c -> nbytes MAX_MESSAGE_HASH D ->
  let P := slh_of p in
  let digest := firstn (Z.to_nat (p_m P)) D in      (* only these m bytes matter *)
  exists mh c', ts_convert_message_hash_to_hypertree_position cfg D c = Ok (mh, c') /\ Ready c' /\
    c_tree_address c' = idx_tree_of P digest /\ 0 <= c_tree_address c' < 2 ^ (p_h P - p_h' P) /\
    c_fors_keypair_addr c' = idx_leaf_of P digest /\ 0 <= c_fors_keypair_addr c' < 2 ^ p_h' P /\
    forall i, 0 <= i < p_k P ->
      let idx := nth (Z.to_nat i) (base_2b (md_of P digest) (p_a P) (p_k P)) 0 in
      get_fors_node cfg (c_x c') i = Ok idx /\ 0 <= idx < 2 ^ p_a P.
Proof.
  intros c D R [LD BD] P digest. change MAX_MESSAGE_HASH with 49 in LD. pose proof (GR c R) as G.
  destruct (convert_ok EE D c G BD ltac:(lia)) as (mh & x' & Ec & Bx & HI & _).
  eexists mh, _. split; [exact Ec|]. pose proof (h_div EE) as Hd. pose proof (mh_bounds EE) as Hm. pose proof (h_sub EE) as Hs. pose proof (t_bounds EE) as Ht.
  change (e_P EE) with P in *. fold digest.
  assert (R1 : 0 <= idx_tree_of P digest < 2 ^ (p_h P - p_h' P)).
  { unfold idx_tree_of. rewrite Hd. apply Z.mod_pos_bound, Z.pow_pos_nonneg; lia. }
  assert (R2 : 0 <= idx_leaf_of P digest < 2 ^ p_h' P).
  { unfold idx_leaf_of. rewrite Hd. apply Z.mod_pos_bound, Z.pow_pos_nonneg; lia. }
  assert (2 ^ (p_h P - p_h' P) <= 2 ^ 64) by (apply Z.pow_le_mono_r; lia).
  assert (2 ^ p_h' P <= 2 ^ 16) by (apply Z.pow_le_mono_r; lia).
  split. { apply RG, good_keypair; [change (e_P EE) with P; fold digest; lia|]. apply good_tree; [change (e_P EE) with P; fold digest; lia|]. apply good_x; assumption. }
  split; [reflexivity|]. split; [exact R1|]. split; [reflexivity|]. split; [exact R2|].
  intros i Hi idx. split; [exact (HI i Hi)|]. apply base_2b_nth_range. lia.
Qed.

(** ** C30: WOTS+ digits *)
Theorem C30_digits : forall x hash rest, nbytes (SIZEOF_X cfg) x -> nbytes n hash ->
  exists x', compute_wots_digits cfg x (hash ++ rest) n = Ok x' /\ nbytes (SIZEOF_X cfg) x' /\
    wlen (slh_of p) = 2 * n + 3 /\
    forall i, 0 <= i < 2 * n + 3 ->
      let digit := nth (Z.to_nat i) (wots_msg (slh_of p) hash) 0 in
      get_digits cfg x' i = Ok digit /\ 0 <= digit <= 15.
Proof.
  intros x hash rest Hx Hh.
  destruct (wots_digits_ok EE x (hash ++ rest) hash Hx) as (x' & E & Bx & HD & _); [apply rd_range_0, Hh|exact Hh|].
  exists x'. split; [exact E|]. split; [exact Bx|]. split; [exact (wlen_eq EE)|]. intros i Hi digit. split; [exact (HD i Hi)|].
  apply (wots_msg_range EE).
Qed.
Theorem C30_incomparable : forall M M', nbytes n M -> nbytes n M' -> M <> M' ->
  exists i j, 0 <= i < wlen (slh_of p) /\ 0 <= j < wlen (slh_of p) /\
    nth (Z.to_nat i) (wots_msg (slh_of p) M) 0 < nth (Z.to_nat i) (wots_msg (slh_of p) M') 0 /\
    nth (Z.to_nat j) (wots_msg (slh_of p) M') 0 < nth (Z.to_nat j) (wots_msg (slh_of p) M) 0.
Proof.
  intros M M' HM HM' Hne.
  assert (K : forall f : Z -> bool, forall k : nat, (forall i, 0 <= i < Z.of_nat k -> f i = true) \/ exists i, 0 <= i < Z.of_nat k /\ f i = false).
  { intros f k. induction k as [|k IH]; [left; intros; lia|]. destruct IH as [IH|(i & Hi & Hf)]; [|right; exists i; split; [lia|exact Hf]].
    destruct (f (Z.of_nat k)) eqn:Fk; [left|right; exists (Z.of_nat k); split; [lia|exact Fk]].
    intros i Hi. destruct (Z.eq_dec i (Z.of_nat k)) as [->|]; [exact Fk|apply IH; lia]. }
  assert (Q : forall M M', nbytes n M -> nbytes n M' -> M <> M' -> exists i, 0 <= i < wlen (slh_of p) /\
     nth (Z.to_nat i) (wots_msg (slh_of p) M') 0 < nth (Z.to_nat i) (wots_msg (slh_of p) M) 0).
  { clear M M' HM HM' Hne. intros M M' HM HM' Hne.
    pose proof (wlen_eq EE) as Hw. pose proof (n_bounds EE) as Hn. change (e_P EE) with (slh_of p) in Hw. change (e_n EE) with n in *.
    destruct (K (fun i => nth (Z.to_nat i) (wots_msg (slh_of p) M) 0 <=? nth (Z.to_nat i) (wots_msg (slh_of p) M') 0) (Z.to_nat (2 * n + 3))) as [A|(i & Hi & A)].
    - exfalso. apply Hne. apply (wots_incomparable EE); [exact HM|exact HM'|]. intros i Hi. apply Z.leb_le, A. change (e_n EE) with n in Hi. lia.
    - exists i. split; [lia|]. apply Z.leb_gt, A. }
  destruct (Q M M' HM HM' Hne) as (j & Hj & Lj). destruct (Q M' M HM' HM (not_eq_sym Hne)) as (i & Hi & Li).
  exists i, j. auto.
Qed.

(** ** C31: authentication paths *)
(** FORS tree number [c_fors_tree c] of the signature, leaf [idx]: the [a] steps write
    the authentication path, Algorithm 16, and end with the root of the tree. *)
Theorem C31_fors_path : forall c SKseed idx, Ready c -> lies_at mem (pk - 2 * n) n SKseed ->
  let P := slh_of p in let a := p_a P in
  let A := mkADRS 0 (c_tree_address c) FORS_TREE (c_fors_keypair_addr c) 0 0 in
  let i := c_fors_tree c in
  c_hypertree_level c = 0 -> c_merkle_level c = 0 -> c_auth_path_node c = idx -> 0 <= idx < 2 ^ a ->
  running p c = fors_node P PKseed SKseed (i * 2 ^ a + idx) 0 A ->
  exists c', path_steps cfg mem p (fors_leaf cfg mem) ADR_TYPE_FORSTREE (fors_stack cfg) (Z.to_nat a) c
    = Ok (map (fun j => fors_node P PKseed SKseed (i * 2 ^ (a - j) + Z.lxor (idx / 2 ^ j) 1) (Z.to_nat j) A) (upto a), c') /\
    Ready c' /\ running p c' = fors_node P PKseed SKseed i (Z.to_nat a) A.
Proof.
  intros c SKseed idx R HK P a A i HL HM Hidx Hi Hrun.
  pose proof (LA _ _ _ HK : sk_at EE SKseed) as SK. pose proof (t_bounds EE) as Ht. change (p_a (e_P EE)) with a in Ht.
  assert (K : forall k h d, (Z.of_nat k + h = a) -> 0 <= h -> good EE d -> core d = core (set_buffer_offset (c_buffer_offset d) (set_merkle_level h c)) ->
    buf_is BufAuth (fors_node P PKseed SKseed ((i * 2 ^ a + idx) / 2 ^ h) (Z.to_nat h) A) d ->
    exists c', path_steps cfg mem p (fors_leaf cfg mem) ADR_TYPE_FORSTREE (fors_stack cfg) k d
      = Ok (map (fun j => fors_node P PKseed SKseed (i * 2 ^ (a - j) + Z.lxor (idx / 2 ^ j) 1) (Z.to_nat j) A) (map (fun j => h + Z.of_nat j) (seq 0 k)), c') /\
      good EE c' /\ buf_is BufAuth (fors_node P PKseed SKseed ((i * 2 ^ a + idx) / 2 ^ a) (Z.to_nat a) A) c').
  { induction k as [|k IH]; intros h d Hk Hh G HC HB.
    - exists d. assert (h = a) by lia. rewrite H in HB. split; [reflexivity|]. split; [exact G|exact HB].
    - unfold core in HC. injection HC as C1 C2 C3 C4 C5 C6 C7.
      cbn [c_state c_hypertree_level c_fors_tree c_merkle_level c_auth_path_node c_fors_keypair_addr c_tree_address set_buffer_offset set_merkle_level] in *.
      assert (EA : fors_A d = A) by (unfold fors_A, A; rewrite C6, C7; reflexivity).
      destruct (fors_path_ok EE SKseed d h idx G SK) as (d' & Ed & Gd & Cd & _ & Bo & Ba);
        [congruence|apply (wf_fors_tree _ _ (g_wf _ _ G))|exact C4|change (p_a (e_P EE)) with a; lia|congruence|exact Hi|
         rewrite EA, C3; exact HB|].
      rewrite EA, C3 in Bo, Ba. change (p_a (e_P EE)) with a in Bo, Ba. change (e_P EE) with P in Bo, Ba. change (e_seed EE) with PKseed in Bo, Ba. fold i in Bo, Ba.
      change (e_cfg EE) with cfg in *. change (e_mem EE) with mem in *.
      cbn [path_steps]. rewrite Ed. cbn [bind].
      destruct (IH (h + 1) d') as (c' & Ec & Gc & Bc); [lia|lia|exact Gd| |exact Ba|].
      { rewrite Cd. unfold core in Cd. injection Cd as D0 D1 D2 D3 D4 D5 D6 D7. unfold core. rewrite D1. cbn. congruence. }
      rewrite Ec. cbn [bind]. exists c'. split; [|split; [exact Gc|exact Bc]].
      assert (Ho : output p d' = fors_node P PKseed SKseed (i * 2 ^ (a - h) + Z.lxor (idx / 2 ^ h) 1) (Z.to_nat h) A).
      { apply (buf_output cfg p); [exact Bo|]. apply (fors_node_ok EE SKseed A), SK. }
      rewrite Ho. do 2 f_equal. cbn [seq map]. rewrite Z.add_0_r. f_equal.
      rewrite <- seq_shift, !map_map. apply map_ext. intros j. replace (h + Z.of_nat (S j)) with (h + 1 + Z.of_nat j) by lia. reflexivity. }
  destruct (K (Z.to_nat a) 0 c) as (c' & Ec & Gc & Bc); [lia|lia|apply GR, R|destruct c; cbn in *; unfold core; cbn; congruence| |].
  { rewrite Z.pow_0_r, Z.div_1_r. eapply running_buf, Hrun. }
  exists c'. split; [|split; [apply RG, Gc|]].
  - rewrite Ec. do 2 f_equal.
  - assert (Z0 : (i * 2 ^ a + idx) / 2 ^ a = i).
    { rewrite Z.div_add_l by (pose proof (Z.pow_pos_nonneg 2 a); lia). rewrite Z.div_small by exact Hi. lia. }
    rewrite Z0 in Bc. apply (buf_running cfg p); [exact Bc|]. apply (fors_node_ok EE SKseed A), SK.
Qed.

(** A Merkle tree of the hypertree: layer and tree as in the context, leaf [idx] *)
Theorem C31_merkle_path : forall c SKseed idx, Ready c -> lies_at mem (pk - 2 * n) n SKseed ->
  let P := slh_of p in let h' := p_h' P in
  let A := mkADRS (c_hypertree_level c) (c_tree_address c) 0 0 0 0 in
  c_fors_keypair_addr c = 0 -> c_fors_tree c = 0 ->
  c_merkle_level c = 0 -> c_auth_path_node c = idx -> 0 <= idx < 2 ^ h' ->
  running p c = xmss_node P PKseed SKseed idx 0 A ->
  exists c', path_steps cfg mem p (ts_wots_leaf cfg mem) ADR_TYPE_HASHTREE (merkle_stack cfg) (Z.to_nat h') c
    = Ok (map (fun j => xmss_node P PKseed SKseed (Z.lxor (idx / 2 ^ j) 1) (Z.to_nat j) A) (upto h'), c') /\
    Ready c' /\ running p c' = xmss_node P PKseed SKseed 0 (Z.to_nat h') A.
Proof.
  intros c SKseed idx R HK P h' A HF1 HF2 HM Hidx Hi Hrun.
  pose proof (LA _ _ _ HK : sk_at EE SKseed) as SK. pose proof (mh_bounds EE) as Ht. change (p_h' (e_P EE)) with h' in Ht.
  assert (K : forall k h d, (Z.of_nat k + h = h') -> 0 <= h -> good EE d -> core d = core (set_buffer_offset (c_buffer_offset d) (set_merkle_level h c)) ->
    buf_is BufAuth (xmss_node P PKseed SKseed (idx / 2 ^ h) (Z.to_nat h) A) d ->
    exists c', path_steps cfg mem p (ts_wots_leaf cfg mem) ADR_TYPE_HASHTREE (merkle_stack cfg) k d
      = Ok (map (fun j => xmss_node P PKseed SKseed (Z.lxor (idx / 2 ^ j) 1) (Z.to_nat j) A) (map (fun j => h + Z.of_nat j) (seq 0 k)), c') /\
      good EE c' /\ buf_is BufAuth (xmss_node P PKseed SKseed (idx / 2 ^ h') (Z.to_nat h') A) c').
  { induction k as [|k IH]; intros h d Hk Hh G HC HB.
    - exists d. assert (h = h') by lia. rewrite H in HB. split; [reflexivity|]. split; [exact G|exact HB].
    - unfold core in HC. injection HC as C1 C2 C3 C4 C5 C6 C7.
      cbn [c_state c_hypertree_level c_fors_tree c_merkle_level c_auth_path_node c_fors_keypair_addr c_tree_address set_buffer_offset set_merkle_level] in *.
      assert (EA : tree_A d = A) by (unfold tree_A, A; rewrite C2, C7; reflexivity).
      destruct (merkle_path_ok EE SKseed d h idx G SK) as (d' & Ed & Gd & Cd & Bo & Ba);
        [congruence|congruence|exact C4|change (p_h' (e_P EE)) with h'; lia|congruence|exact Hi|
         rewrite EA; exact HB|].
      rewrite EA in Bo, Ba. change (e_P EE) with P in Bo, Ba. change (e_seed EE) with PKseed in Bo, Ba.
      change (e_cfg EE) with cfg in *. change (e_mem EE) with mem in *.
      cbn [path_steps]. rewrite Ed. cbn [bind].
      destruct (IH (h + 1) d') as (c' & Ec & Gc & Bc); [lia|lia|exact Gd| |exact Ba|].
      { rewrite Cd. unfold core in Cd. injection Cd as D0 D1 D2 D3 D4 D5 D6 D7. unfold core. rewrite D1. cbn. congruence. }
      rewrite Ec. cbn [bind]. exists c'. split; [|split; [exact Gc|exact Bc]].
      assert (Ho : output p d' = xmss_node P PKseed SKseed (Z.lxor (idx / 2 ^ h) 1) (Z.to_nat h) A).
      { apply (buf_output cfg p); [exact Bo|]. apply (xmss_node_ok EE SKseed A), SK. }
      rewrite Ho. do 2 f_equal. cbn [seq map]. rewrite Z.add_0_r. f_equal.
      rewrite <- seq_shift, !map_map. apply map_ext. intros j. replace (h + Z.of_nat (S j)) with (h + 1 + Z.of_nat j) by lia. reflexivity. }
  destruct (K (Z.to_nat h') 0 c) as (c' & Ec & Gc & Bc); [lia|lia|apply GR, R|destruct c; cbn in *; unfold core; cbn; congruence| |].
  { rewrite Z.pow_0_r, Z.div_1_r. eapply running_buf, Hrun. }
  exists c'. split; [|split; [apply RG, Gc|]].
  - rewrite Ec. do 2 f_equal.
  - rewrite (Z.div_small idx) in Bc by exact Hi. apply (buf_running cfg p); [exact Bc|]. apply (xmss_node_ok EE SKseed A), SK.
Qed.
End Functions.

(** ** The hypotheses can be met: for every configuration, parameter set and key, by a
    context such as C31 asks for; and by a concrete one. *)
Theorem parts_hypotheses : forall cfg mem p pk PKseed SKseed, ps_enabled cfg p = true ->
  lies_at mem pk (p_n (slh_of p)) PKseed -> lies_at mem (pk - 2 * p_n (slh_of p)) (p_n (slh_of p)) SKseed ->
  forall idx tree kp A, 0 <= idx < 2 ^ 14 -> 0 <= tree < 35 -> 0 <= kp < 2 ^ 9 ->
  exists c, ready cfg mem p pk c /\ address_is p c A /\
    c_hypertree_level c = 0 /\ c_merkle_level c = 0 /\ c_auth_path_node c = idx /\ c_fors_tree c = tree /\ c_fors_keypair_addr c = kp /\
    running p c = fors_node (slh_of p) PKseed SKseed (tree * 2 ^ p_a (slh_of p) + idx) 0 (mkADRS 0 (c_tree_address c) FORS_TREE kp 0 0).
Proof.
  intros cfg mem p pk PKseed SKseed on Hs Hk idx tree kp A Hi Ht Hkp.
  set (EE := E0 cfg mem p pk PKseed on Hs).
  set (c0 := set_public_key pk (zero_ctx cfg (the_ps cfg p))).
  assert (G0 : pregood EE c0) by (apply mkPregood; [pose proof (zero_wf cfg (the_ps cfg p)) as W; destruct W; split; assumption|reflexivity|reflexivity]).
  destruct (prehash_ok_good EE c0 G0) as (c1 & _ & G1 & _).
  set (c2 := set_fors_keypair_addr kp (set_fors_tree tree (set_auth_path_node idx (set_merkle_level 0 (set_hypertree_level 0 c1))))).
  assert (G2 : good EE c2).
  { apply good_keypair; [lia|]. apply good_fors_tree; [lia|]. apply good_auth_path_node; [lia|].
    apply good_merkle_level; [lia|]. apply good_level; [lia|]. exact G1. }
  assert (SK : sk_at EE SKseed) by (split; [exact (lies_load _ _ _ _ Hk)|apply Hk]).
  set (v := fors_node (slh_of p) PKseed SKseed (tree * 2 ^ p_a (slh_of p) + idx) 0 (mkADRS 0 (c_tree_address c1) FORS_TREE kp 0 0)).
  assert (Hv : str_ok EE v) by apply (fors_node_ok EE SKseed _ 0%nat SK).
  pose proof (good_buf_set EE BufAuth v c2 Hv G2) as G3. set (c3 := buf_set BufAuth v c2) in *.
  pose proof (adr_size_ge EE) as Hge. pose proof (adr_string_len EE A) as Hl.
  set (a := adr_string EE A ++ repeat 0 (Z.to_nat (ADR_SIZE cfg - adr_len EE))).
  assert (Ba : bytes_of (ADR_SIZE cfg) a).
  { split; [unfold a; rewrite zlen_app, Hl, zlen_repeat; change (e_cfg EE) with cfg in Hge; lia|].
    apply bytes_app; [apply adr_string_bytes|apply Forall_forall; intros x Hx; apply repeat_spec in Hx; rewrite Hx; split; reflexivity]. }
  exists (set_adr a c3). split; [apply (good_ready cfg mem p pk PKseed on Hs), good_adr; [exact Ba|exact G3]|].
  split. { apply (rep_address cfg mem p pk PKseed on Hs). split; [exact Ba|]. unfold a. change (c_adr (set_adr a c3)) with a.
           apply rd_range_0. exact Hl. }
  split; [reflexivity|]. split; [reflexivity|]. split; [reflexivity|]. split; [reflexivity|]. split; [reflexivity|].
  apply (buf_running cfg p); [|exact (proj1 Hv)]. change (buf_is BufAuth v c3). apply buf_is_set.
Qed.
Example parts_concrete :
  ps_enabled full_cfg SHA2_192s = true /\
  lies_at (mem_of 500 (map Z.of_nat (seq 1 96))) 548 (p_n (slh_of SHA2_192s)) (map Z.of_nat (seq 49 24)) /\
  lies_at (mem_of 500 (map Z.of_nat (seq 1 96))) (548 - 2 * p_n (slh_of SHA2_192s)) (p_n (slh_of SHA2_192s)) (map Z.of_nat (seq 1 24)).
Proof.
  assert (B : is_bytes (map Z.of_nat (seq 1 96))) by (apply bytes_dec; reflexivity).
  pose proof (mem_of_holds 500 _ B) as H.
  split; [reflexivity|]. split; (split; [|split; [reflexivity|apply bytes_dec; reflexivity]]).
  - exact (holds_slice _ _ _ 48 24 H ltac:(lia) ltac:(lia) ltac:(cbv; discriminate)).
  - change (548 - 2 * p_n (slh_of SHA2_192s)) with (500 + 0). exact (holds_slice _ _ _ 0 24 H ltac:(lia) ltac:(lia) ltac:(cbv; discriminate)).
Qed.
Print Assumptions C33_PRF_msg.
Print Assumptions C33_H_msg.
Print Assumptions C33_PRF.
Print Assumptions C33_F.
Print Assumptions C33_T.
Print Assumptions C33_H_is_T2.
Print Assumptions C28_setters.
Print Assumptions C29_digest_split.
Print Assumptions C30_digits.
Print Assumptions C30_incomparable.
Print Assumptions C31_fors_path.
Print Assumptions C31_merkle_path.
Print Assumptions parts_hypotheses.
