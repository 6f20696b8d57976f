(** * Context level operations: buffers, F, PRF, T, chains, leaves *)
From Verif Require Import Arr SpecSha2 SpecKeccak SpecSLH ModelEndian ModelSha256 ModelSha512 ModelFips202
  ModelParams ModelCtx ModelHash ModelSphincs SpecMap PfEndian PfIter PfEnv PfAdr PfGlueSha SpecResidue PfGlue.

Section Ctx.
Variable E : env.
Local Notation cfg := (e_cfg E).
Local Notation mem := (e_mem E).
Local Notation n := (e_n E).
Local Notation P := (e_P E).
Local Notation hs := (e_hs E).
Local Notation seed := (e_seed E).

(** The members that only direct assignments change. *)
Definition core (c : ts_context) :=
  (c_state c, c_buffer_offset c, c_hypertree_level c, c_fors_tree c, c_merkle_level c,
   c_auth_path_node c, c_fors_keypair_addr c, c_tree_address c).

(** Scratch members: the address and the small iterator. *)
Definition scr (a s : list Z) (c : ts_context) : ts_context := set_adr a (set_small_iter s c).
Definition scr_ok (a s : list Z) : Prop := bytes_of (ADR_SIZE cfg) a /\ iter_ok E s.

Definition buf_of (b : bufid) (c : ts_context) : list Z :=
  match b with
  | BufBuffer => c_buffer c
  | BufAuth => c_auth_path_buffer c
  | BufMerkle => c_x c
  end.
Definition set_buf (b : bufid) (v : list Z) (c : ts_context) : ts_context :=
  match b with
  | BufBuffer => set_buffer v c
  | BufAuth => set_auth_path_buffer v c
  | BufMerkle => set_x v c
  end.
(** The first n bytes of buffer [b] replaced by [v]. *)
Definition buf_set (b : bufid) (v : list Z) (c : ts_context) : ts_context :=
  set_buf b (v ++ skipn (length v) (buf_of b c)) c.
(** The first n bytes of buffer [b]. *)
Definition buf_is (b : bufid) (v : list Z) (c : ts_context) : Prop :=
  exists t, buf_of b c = v ++ t.

Definition buf_size (b : bufid) : Z :=
  match b with BufMerkle => SIZEOF_X cfg | _ => TS_MAX_HASH cfg end.
Lemma round_up_ge a s : 0 < a -> s <= round_up a s.
Proof.
  intros. unfold round_up. pose proof (Z.div_mod (s + a - 1) a). pose proof (Z.mod_pos_bound (s + a - 1) a). nia.
Qed.
Lemma ptr_pos : 0 < SIZEOF_PTR cfg.
Proof. unfold SIZEOF_PTR. destruct (cfg_ptr64 cfg); reflexivity. Qed.
Lemma x_ge_merkle : MERKLE_STACK_OFFSET cfg + MERKLE_STACK_SIZE cfg <= SIZEOF_X cfg.
Proof. unfold SIZEOF_X. etransitivity; [|apply round_up_ge, ptr_pos]. lia. Qed.
Lemma x_ge_fors : FORS_STACK_OFFSET + FORS_STACK_SIZE cfg <= SIZEOF_X cfg.
Proof.
  unfold SIZEOF_X. etransitivity; [|apply round_up_ge, ptr_pos].
  pose proof (round_up_ge 2 (FORS_STACK_OFFSET + FORS_STACK_SIZE cfg)). lia.
Qed.
Lemma x_ge_wots : 1 + TS_MAX_WOTS_DIGITS cfg <= SIZEOF_X cfg.
Proof. unfold SIZEOF_X. etransitivity; [|apply round_up_ge, ptr_pos]. lia. Qed.
Lemma x_ge_verify : 2 * SIZEOF_PTR cfg <= SIZEOF_X cfg.
Proof. unfold SIZEOF_X. etransitivity; [|apply round_up_ge, ptr_pos]. lia. Qed.
Lemma x_ge_n : n <= TS_MAX_HASH cfg /\ TS_MAX_HASH cfg <= SIZEOF_X cfg.
Proof.
  pose proof (n_max E). pose proof x_ge_merkle. unfold MERKLE_STACK_OFFSET, MERKLE_STACK_SIZE in *.
  pose proof (mh_bounds E). nia.
Qed.
Lemma buf_of_ok b c : good E c -> bytes_of (buf_size b) (buf_of b c).
Proof. intros G. destruct b; apply (g_wf E c G). Qed.
Lemma buf_size_n b : n <= buf_size b.
Proof. pose proof x_ge_n. destruct b; cbn [buf_size]; lia. Qed.
Lemma good_set_buf b v c : bytes_of (buf_size b) v -> good E c -> good E (set_buf b v c).
Proof. destruct b; cbn [set_buf buf_size]; [apply good_buffer|apply good_auth|apply good_x]. Qed.
Lemma good_buf_set b v c : str_ok E v -> good E c -> good E (buf_set b v c).
Proof.
  intros [Lv Bv] G. apply good_set_buf; [|exact G]. destruct (buf_of_ok b c G) as [L B].
  pose proof (buf_size_n b). split.
  - rewrite zlen_app. unfold zlen in *. rewrite skipn_length. lia.
  - apply bytes_app; [exact Bv|apply Forall_skipn', B].
Qed.
Lemma good_scr a s c : scr_ok a s -> good E c -> good E (scr a s c).
Proof. intros [Ha Hs] G. apply good_adr, good_small; assumption. Qed.
Lemma buf_is_set b v c : buf_is b v (buf_set b v c).
Proof. destruct b; eexists; reflexivity. Qed.
Lemma buf_set_is b v c : buf_is b v c -> buf_set b v c = c.
Proof.
  intros (t & Ht). unfold buf_set. rewrite Ht, skipn_app_exact by reflexivity. rewrite <- Ht.
  destruct b, c; reflexivity.
Qed.
Lemma buf_is_scr b v a s c : buf_is b v c -> buf_is b v (scr a s c).
Proof. destruct b; exact (fun H => H). Qed.
Lemma buf_set_set b v w c : length v = length w -> buf_set b v (buf_set b w c) = buf_set b v c.
Proof.
  intros H. unfold buf_set.
  assert (X : buf_of b (set_buf b (w ++ skipn (length w) (buf_of b c)) c) = w ++ skipn (length w) (buf_of b c))
    by (destruct b; reflexivity).
  rewrite X, H, skipn_app_exact by reflexivity. destruct b; reflexivity.
Qed.
Lemma buf_set_scr b v a s c : scr a s (buf_set b v c) = buf_set b v (scr a s c).
Proof. destruct b; reflexivity. Qed.
Lemma scr_scr a s a' s' c : scr a s (scr a' s' c) = scr a s c.
Proof. reflexivity. Qed.
Lemma core_scr a s c : core (scr a s c) = core c. Proof. reflexivity. Qed.
Lemma core_buf_set b v c : core (buf_set b v c) = core c. Proof. destruct b; reflexivity. Qed.

Lemma get_buf_is b v c : good E c -> zlen v = n -> buf_is b v c -> get_buf cfg c b n = Ok v.
Proof.
  intros G Lv (t & Ht). destruct b; cbn [get_buf buf_of] in *; rewrite ?Ht; try (apply rd_range_0, Lv).
  unfold sub_rd. pose proof (n_max E). destruct (Z.leb_spec (0 + n) (TS_MAX_HASH cfg)); [|lia].
  cbn [Z.leb Z.compare andb Z.add]. apply rd_range_0, Lv.
Qed.
Lemma buf_is_read b v c : zlen v = n -> buf_is b v c -> rd_range (buf_of b c) 0 n = Ok v.
Proof. intros Lv (t & ->). apply rd_range_0, Lv. Qed.
Lemma put_buf_ok b v c : good E c -> str_ok E v -> put_buf cfg c b v = Ok (buf_set b v c).
Proof.
  intros G [Lv Bv]. pose proof (buf_size_n b). destruct (buf_of_ok b c G) as [L _].
  destruct b; cbn [put_buf buf_of buf_size] in *.
  - rewrite wr_range_0 by lia. reflexivity.
  - rewrite wr_range_0 by lia. reflexivity.
  - unfold sub_wr. pose proof (n_max E). destruct (Z.leb_spec (0 + zlen v) (TS_MAX_HASH cfg)); [|lia].
    cbn [Z.leb Z.compare andb Z.add]. rewrite wr_range_0 by lia. reflexivity.
Qed.

(** ** PRF and F *)
Lemma do_prf_ok sk b A c : good E c -> sk_at E sk -> adr_rep E (c_adr c) A ->
  exists s, iter_ok E s /\ do_prf cfg mem b c = Ok (buf_set b (PRF hs seed sk A) (set_small_iter s c)).
Proof.
  intros G Hsk HA. unfold do_prf. destruct (prf_ok E sk c A G Hsk HA) as (s & -> & I). cbn [bind].
  exists s. split; [exact I|]. apply put_buf_ok; [apply good_small; assumption|apply PRF_ok, Hsk].
Qed.
Lemma do_f_ok o i X A c : good E c -> adr_rep E (c_adr c) A -> buf_is i X c -> str_ok E X ->
  exists s, iter_ok E s /\ do_f cfg mem o i c = Ok (buf_set o (hF hs seed A X) (set_small_iter s c)).
Proof.
  intros G HA HX SX. unfold do_f. rewrite (ps_n_c E c G), (get_buf_is i X c G) by (auto; apply SX). cbn [bind].
  assert (RX : rd_range X 0 n = Ok X) by (apply rd_range_all, SX).
  destruct (f_ok E X X c A G HA RX SX) as (s & -> & I). cbn [bind].
  exists s. split; [exact I|]. apply put_buf_ok; [apply good_small; assumption|apply hF_ok, SX].
Qed.

(** ** Multi part hashes *)
Definition small_is (c : ts_context) A D := irep E (c_small_iter c) A D.
Definition big_is (c : ts_context) A D := irep E (c_big_iter c) A D.
Lemma irep_ok it A D : irep E it A D -> iter_ok E it. Proof. intros H; apply H. Qed.

Lemma small_init_ok A c : good E c -> adr_rep E (c_adr c) A ->
  exists s, small_init_t cfg mem c = Ok (set_small_iter s c) /\ irep E s A [].
Proof.
  intros G HA. unfold small_init_t. destruct (init_t_ok E _ A c G (small_ok E c G) HA) as (s & -> & I).
  exists s; auto.
Qed.
Lemma small_next_ok A D X input c : good E c -> small_is c A D -> rd_range input 0 n = Ok X -> str_ok E X ->
  exists s, small_next_t cfg input c = Ok (set_small_iter s c) /\ irep E s A (D ++ X).
Proof.
  intros G HI HX SX. unfold small_next_t. destruct (next_t_ok E _ A D input X c G HI HX SX) as (s & -> & I).
  exists s; auto.
Qed.
Lemma small_final_left b A D c : good E c -> small_is c A D -> zlen D < 2 ^ 60 ->
  exists s, iter_ok E s /\ spent E s A D /\ small_final_t cfg b c = Ok (buf_set b (hT hs seed A D) (set_small_iter s c)).
Proof.
  intros G HI HD. unfold small_final_t. destruct (final_t_left E _ A D c G HI HD) as (s & -> & I & SP). cbn [bind].
  exists s. split; [exact I|]. split; [exact SP|]. apply put_buf_ok; [apply good_small; assumption|apply hT_ok, HI].
Qed.
Lemma small_final_ok b A D c : good E c -> small_is c A D -> zlen D < 2 ^ 60 ->
  exists s, iter_ok E s /\ small_final_t cfg b c = Ok (buf_set b (hT hs seed A D) (set_small_iter s c)).
Proof. intros G HI HD. destruct (small_final_left b A D c G HI HD) as (s & I & _ & X). eauto. Qed.
Lemma big_init_ok A c : good E c -> adr_rep E (c_adr c) A ->
  exists s, big_init_t cfg mem c = Ok (set_big_iter s c) /\ irep E s A [].
Proof.
  intros G HA. unfold big_init_t. destruct (init_t_ok E _ A c G (big_ok E c G) HA) as (s & -> & I).
  exists s; auto.
Qed.
Lemma big_next_ok A D X input c : good E c -> big_is c A D -> rd_range input 0 n = Ok X -> str_ok E X ->
  exists s, big_next_t cfg input c = Ok (set_big_iter s c) /\ irep E s A (D ++ X).
Proof.
  intros G HI HX SX. unfold big_next_t. destruct (next_t_ok E _ A D input X c G HI HX SX) as (s & -> & I).
  exists s; auto.
Qed.
Lemma big_final_left b A D c : good E c -> big_is c A D -> zlen D < 2 ^ 60 ->
  exists s, iter_ok E s /\ spent E s A D /\ big_final_t cfg b c = Ok (buf_set b (hT hs seed A D) (set_big_iter s c)).
Proof.
  intros G HI HD. unfold big_final_t. destruct (final_t_left E _ A D c G HI HD) as (s & -> & I & SP). cbn [bind].
  exists s. split; [exact I|]. split; [exact SP|]. apply put_buf_ok; [apply good_big; assumption|apply hT_ok, HI].
Qed.
Lemma big_final_ok b A D c : good E c -> big_is c A D -> zlen D < 2 ^ 60 ->
  exists s, iter_ok E s /\ big_final_t cfg b c = Ok (buf_set b (hT hs seed A D) (set_big_iter s c)).
Proof. intros G HI HD. destruct (big_final_left b A D c G HI HD) as (s & I & _ & X). eauto. Qed.

(** Two strings hashed with H on the small iterator. *)
Lemma two_hash_left b A X Y inX inY c : good E c -> adr_rep E (c_adr c) A ->
  rd_range inX 0 n = Ok X -> str_ok E X -> rd_range inY 0 n = Ok Y -> str_ok E Y ->
  exists s s1 s2 s3, small_init_t cfg mem c = Ok (set_small_iter s c) /\
    small_next_t cfg inX (set_small_iter s c) = Ok (set_small_iter s1 c) /\
    small_next_t cfg inY (set_small_iter s1 c) = Ok (set_small_iter s2 c) /\
    small_final_t cfg b (set_small_iter s2 c) = Ok (buf_set b (hH hs seed A (X ++ Y)) (set_small_iter s3 c)) /\
    iter_ok E s3 /\ spent E s3 A (X ++ Y).
Proof.
  intros G HA HX SX HY SY.
  destruct (small_init_ok A c G HA) as (s & E1 & I1).
  pose proof (good_small E s c (irep_ok _ _ _ I1) G) as G1.
  destruct (small_next_ok A [] X inX _ G1 I1 HX SX) as (s1 & E2 & I2). cbn [app] in I2.
  pose proof (good_small E s1 c (irep_ok _ _ _ I2) G) as G2.
  destruct (small_next_ok A X Y inY (set_small_iter s1 c) G2 I2 HY SY) as (s2 & E3 & I3).
  pose proof (good_small E s2 c (irep_ok _ _ _ I3) G) as G3.
  destruct (small_final_left b A (X ++ Y) (set_small_iter s2 c) G3 I3) as (s3 & I4 & V4 & E4).
  { rewrite zlen_app. destruct SX as [-> _], SY as [-> _]. pose proof (n_bounds E). lia. }
  exists s, s1, s2, s3. rewrite hH_hT. split; [exact E1|]. split; [exact E2|]. split; [exact E3|]. split; [exact E4|]. split; [exact I4|exact V4].
Qed.
Lemma two_hash b A X Y inX inY c : good E c -> adr_rep E (c_adr c) A ->
  rd_range inX 0 n = Ok X -> str_ok E X -> rd_range inY 0 n = Ok Y -> str_ok E Y ->
  exists s s1 s2 s3, small_init_t cfg mem c = Ok (set_small_iter s c) /\
    small_next_t cfg inX (set_small_iter s c) = Ok (set_small_iter s1 c) /\
    small_next_t cfg inY (set_small_iter s1 c) = Ok (set_small_iter s2 c) /\
    small_final_t cfg b (set_small_iter s2 c) = Ok (buf_set b (hH hs seed A (X ++ Y)) (set_small_iter s3 c)) /\
    iter_ok E s3.
Proof.
  intros G HA HX SX HY SY. destruct (two_hash_left b A X Y inX inY c G HA HX SX HY SY) as (s & s1 & s2 & s3 & E1 & E2 & E3 & E4 & I & _).
  exists s, s1, s2, s3. auto.
Qed.

(** ** FORS secrets and leaves *)
Definition lvl c := c_hypertree_level c.
Definition fidx c i := c_fors_tree c * 2 ^ p_a P + i.
Definition fors_A (c : ts_context) : ADRS := mkADRS 0 (c_tree_address c) FORS_TREE (c_fors_keypair_addr c) 0 0.

Lemma adr_rep_ok a A : adr_rep E a A -> bytes_of (ADR_SIZE cfg) a.
Proof. intros H; apply H. Qed.

Lemma fors_prf_ok sk b i c : good E c -> sk_at E sk -> 0 <= i < 2 ^ 24 ->
  exists a s, scr_ok a s /\
    fors_prf cfg mem b i c = Ok (buf_set b (fors_skGen P seed sk (fors_A c) (fidx c i)) (scr a s c)).
Proof.
  intros G Hsk Hi. unfold fors_prf. destruct (set_fors_prf_ok E i c G Hi) as (a & -> & HA). cbn [bind].
  pose proof (good_adr E a c (adr_rep_ok _ _ HA) G) as G1.
  destruct (do_prf_ok sk b _ (set_adr a c) G1 Hsk HA) as (s & I & ->). exists a, s.
  split; [split; [apply HA|exact I]|reflexivity].
Qed.
Lemma fors_skGen_ok sk A i : sk_at E sk -> str_ok E (fors_skGen P seed sk A i).
Proof. intros H. apply PRF_ok, H. Qed.
Lemma fors_leaf_ok sk b i c : good E c -> sk_at E sk -> 0 <= i < 2 ^ 24 ->
  exists a s, scr_ok a s /\
    fors_leaf cfg mem b i c = Ok (buf_set b (fors_node P seed sk (fidx c i) 0 (fors_A c)) (scr a s c)).
Proof.
  intros G Hsk Hi. unfold fors_leaf. destruct (set_fors_prf_ok E i c G Hi) as (a & -> & HA). cbn [bind].
  pose proof (good_adr E a c (adr_rep_ok _ _ HA) G) as G1.
  destruct (do_prf_ok sk b _ (set_adr a c) G1 Hsk HA) as (s & I & ->). cbn [bind].
  set (v := PRF hs seed sk _). assert (Sv : str_ok E v) by (apply PRF_ok, Hsk).
  pose proof (good_buf_set b v _ Sv (good_small E s _ I G1)) as G2. set (c2 := buf_set b v _) in *.
  assert (HA2 : adr_rep E (c_adr c2) (mkADRS 0 (c_tree_address c) FORS_PRF (c_fors_keypair_addr c) 0 (fidx c i)))
    by (unfold c2; destruct b; exact HA).
  destruct (set_type_rep E ADR_TYPE_FORSTREE c2 _ _ _ _ _ _ G2 HA2) as (a' & -> & HA3). cbn [bind].
  pose proof (good_adr E a' c2 (adr_rep_ok _ _ HA3) G2) as G3.
  assert (B3 : buf_is b v (set_adr a' c2)) by (unfold c2; destruct b; eexists; reflexivity).
  destruct (do_f_ok b b v _ (set_adr a' c2) G3 HA3 B3 Sv) as (s' & I' & ->).
  exists a', s'. split; [split; [apply HA3|exact I']|].
  unfold c2. f_equal.
  transitivity (buf_set b (fors_node P seed sk (fidx c i) 0 (fors_A c)) (buf_set b v (scr a' s' c))).
  - destruct b; reflexivity.
  - apply buf_set_set. transitivity (Z.to_nat n).
    + assert (X : str_ok E (fors_node P seed sk (fidx c i) 0 (fors_A c))) by apply hF_ok, fors_skGen_ok, Hsk.
      destruct X as [X _]. unfold zlen in X. lia.
    + destruct Sv as [X _]. unfold zlen in X. lia.
Qed.

(** ** WOTS chains and leaves *)
Definition wots_A (c : ts_context) (leaf : Z) : ADRS := mkADRS (lvl c) (c_tree_address c) WOTS_HASH leaf 0 0.

Lemma wots_prf_ok sk b leaf d c : good E c -> sk_at E sk ->
  exists a s, scr_ok a s /\
    wots_prf cfg mem b leaf d c = Ok (buf_set b (wots_sk P seed sk (wots_A c leaf) d) (scr a s c)).
Proof.
  intros G Hsk. unfold wots_prf. destruct (set_wots_prf_ok E leaf d c G) as (a & -> & HA). cbn [bind].
  pose proof (good_adr E a c (adr_rep_ok _ _ HA) G) as G1.
  destruct (do_prf_ok sk b _ (set_adr a c) G1 Hsk HA) as (s & I & ->). exists a, s.
  split; [split; [apply HA|exact I]|reflexivity].
Qed.
Lemma wots_sk_ok sk A d : sk_at E sk -> str_ok E (wots_sk P seed sk A d).
Proof. intros H. apply PRF_ok, H. Qed.
Lemma chain_ok k : forall X i A, str_ok E X -> str_ok E (chain P seed X i k A).
Proof. induction k as [|k IH]; intros X i A H; cbn [chain]; [exact H|]. apply IH, hF_ok, H. Qed.
Lemma str_length X : str_ok E X -> length X = Z.to_nat n.
Proof. intros [H _]. unfold zlen in H. lia. Qed.

Lemma chain_loop_gen b leaf d k : forall i X c, good E c -> buf_is b X c -> str_ok E X ->
  exists a s, scr_ok a s /\
    for_loop k i (fun i ctx => ctx <- ts_set_wots_f_adr cfg leaf d i ctx ;; do_f cfg mem b b ctx) c
    = Ok (buf_set b (chain P seed X i k (setChainAddress d (wots_A c leaf))) (scr a s c)).
Proof.
  induction k as [|k IH]; intros i X c G HX SX; cbn [for_loop].
  - exists (c_adr c), (c_small_iter c). split; [split; [apply good_adr_bytes, G|apply small_ok, G]|].
    cbn [chain]. assert (Es : scr (c_adr c) (c_small_iter c) c = c) by (destruct c; reflexivity).
    rewrite Es, buf_set_is by exact HX. reflexivity.
  - destruct (ts_set_wots_f_ok E leaf d i c G) as (a & -> & HA). cbn [bind].
    pose proof (good_adr E a c (adr_rep_ok _ _ HA) G) as G1.
    assert (HX1 : buf_is b X (set_adr a c)) by (destruct b; exact HX).
    destruct (do_f_ok b b X _ (set_adr a c) G1 HA HX1 SX) as (s & I & ->). cbn [bind].
    set (v := hF _ _ _ _). assert (Sv : str_ok E v) by apply hF_ok, SX.
    pose proof (good_buf_set b v _ Sv (good_small E s _ I G1)) as G2. set (c2 := buf_set b v _) in *.
    destruct (IH (i + 1) v c2 G2 (buf_is_set _ _ _) Sv) as (a' & s' & O & ->). exists a', s'. split; [exact O|].
    f_equal. assert (Ec : wots_A c2 leaf = wots_A c leaf) by (unfold c2; destruct b; reflexivity). rewrite Ec.
    assert (E2 : scr a' s' c2 = buf_set b v (scr a' s' c)) by (unfold c2; destruct b; reflexivity).
    rewrite E2, buf_set_set; [reflexivity|]. rewrite (str_length v Sv). apply str_length, chain_ok, Sv.
Qed.
Lemma chain_loop_ok b leaf d from to X c : good E c -> buf_is b X c -> str_ok E X ->
  exists a s, scr_ok a s /\
    chain_loop cfg mem b leaf d from to c
    = Ok (buf_set b (chain P seed X from (Z.to_nat (to - from)) (setChainAddress d (wots_A c leaf))) (scr a s c)).
Proof. intros. apply chain_loop_gen; assumption. Qed.

Definition wots_end sk A i := chain P seed (wots_sk P seed sk A i) 0 15 (setChainAddress i A).

Definition wpk_A (c : ts_context) (leaf : Z) : ADRS := mkADRS (lvl c) (c_tree_address c) WOTS_PK leaf 0 0.

(** A context after a leaf computation: scratch, big iterator and x.merkle.buffer changed *)
Definition wscr (a s g v : list Z) (c : ts_context) : ts_context :=
  set_big_iter g (buf_set BufMerkle v (scr a s c)).

Lemma wots_leaf_loop sk leaf k : forall d D c, good E c -> sk_at E sk ->
  irep E (c_big_iter c) (wpk_A c leaf) D -> zlen D + Z.of_nat k * n < 2 ^ 60 ->
  exists c', for_loop k d (fun d ctx =>
    ctx <- wots_prf cfg mem BufMerkle leaf d ctx ;;
    ctx <- chain_loop cfg mem BufMerkle leaf d 0 15 ctx ;;
    b <- get_buf cfg ctx BufMerkle (ps_n (c_ps ctx)) ;;
    big_next_t cfg b ctx) c = Ok c' /\
   (c' = c /\ k = O \/ exists a s g v, scr_ok a s /\ str_ok E v /\ c' = wscr a s g v c /\
      v = wots_end sk (wots_A c leaf) (d + Z.of_nat k - 1)) /\
   irep E (c_big_iter c') (wpk_A c leaf)
      (D ++ flat_map (wots_end sk (wots_A c leaf)) (map (fun j => d + Z.of_nat j) (seq 0 k))).
Proof.
  induction k as [|k IH]; intros d D c G Hsk HI HL; cbn [for_loop].
  - exists c. split; [reflexivity|]. split; [left; auto|]. cbn [seq map flat_map]. rewrite app_nil_r. exact HI.
  - destruct (wots_prf_ok sk BufMerkle leaf d c G Hsk) as (a & s & O & ->). cbn [bind].
    set (v := wots_sk _ _ _ _ _). assert (Sv : str_ok E v) by apply wots_sk_ok, Hsk.
    pose proof (good_buf_set BufMerkle v _ Sv (good_scr _ _ _ O G)) as G1. set (c1 := buf_set BufMerkle v _) in *.
    destruct (chain_loop_ok BufMerkle leaf d 0 15 v c1 G1 (buf_is_set _ _ _) Sv) as (a2 & s2 & O2 & ->). cbn [bind].
    set (v2 := chain _ _ _ _ _ _). assert (Sv2 : str_ok E v2) by apply chain_ok, Sv.
    assert (Ec : scr a2 s2 c1 = buf_set BufMerkle v (scr a2 s2 c)) by reflexivity.
    rewrite Ec, buf_set_set by (rewrite (str_length _ Sv), (str_length _ Sv2); reflexivity). clear Ec.
    pose proof (good_buf_set BufMerkle v2 _ Sv2 (good_scr _ _ _ O2 G)) as G2. set (c2 := buf_set BufMerkle v2 _) in *.
    rewrite (ps_n_c E c2 G2), (get_buf_is BufMerkle v2 c2 G2) by (try apply buf_is_set; apply Sv2). cbn [bind].
    assert (HI2 : big_is c2 (wpk_A c leaf) D) by exact HI.
    destruct (big_next_ok _ D v2 v2 c2 G2 HI2 (rd_range_all _ _ (proj1 Sv2)) Sv2) as (g & -> & HI3). cbn [bind].
    pose proof (good_big E g c2 (irep_ok _ _ _ HI3) G2) as G3. set (c3 := set_big_iter g c2) in *.
    destruct (IH (d + 1) (D ++ v2) c3 G3 Hsk HI3) as (c' & -> & Hc & HI').
    { rewrite zlen_app. destruct Sv2 as [-> _]. lia. }
    exists c'. split; [reflexivity|]. split.
    + right. destruct Hc as [[-> Ek]|(a4 & s4 & g4 & v4 & O4 & Sv4 & -> & Ev4)].
      * exists a2, s2, g, v2. split; [exact O2|]. split; [exact Sv2|]. split; [reflexivity|].
        rewrite Ek. replace (d + Z.of_nat 1 - 1) with d by lia. reflexivity.
      * exists a4, s4, g4, v4. split; [exact O4|split; [exact Sv4|]].
        split; [|rewrite Ev4; change (wots_A c3 leaf) with (wots_A c leaf); f_equal; lia]. unfold wscr.
        transitivity (set_big_iter g4 (buf_set BufMerkle v4 (buf_set BufMerkle v2 (scr a4 s4 c)))); [reflexivity|].
        rewrite buf_set_set by (rewrite (str_length _ Sv4), (str_length _ Sv2); reflexivity). reflexivity.
    + change (wpk_A c3 leaf) with (wpk_A c leaf) in HI'. change (wots_A c3 leaf) with (wots_A c leaf) in HI'.
      cbn [seq map flat_map]. rewrite Z.add_0_r. rewrite <- app_assoc in HI'.
      rewrite <- seq_shift, map_map.
      replace (map (fun x => d + Z.of_nat (S x)) (seq 0 k)) with (map (fun j => d + 1 + Z.of_nat j) (seq 0 k))
        by (apply map_ext; intros; lia).
      exact HI'.
Qed.

Lemma wots_end_ok sk A i : sk_at E sk -> str_ok E (wots_end sk A i).
Proof. intros H. apply chain_ok, wots_sk_ok, H. Qed.
Lemma flat_strs {T} (f : T -> list Z) l : (forall i, str_ok E (f i)) ->
  zlen (flat_map f l) = Z.of_nat (length l) * n /\ is_bytes (flat_map f l).
Proof.
  intros H. induction l as [|x l IH]; [split; [reflexivity|constructor]|].
  cbn [flat_map length]. destruct (H x) as [L B], IH as [L' B']. rewrite zlen_app.
  split; [lia|apply bytes_app; assumption].
Qed.
Lemma wots_pkGen_eq sk A : wots_pkGen P seed sk A = wots_pk_compress P seed A (flat_map (wots_end sk A) (upto (wlen P))).
Proof.
  unfold wots_pkGen, wots_end. pose proof (w_eq E) as W. rewrite W. change (Z.to_nat (16 - 1)) with 15%nat. reflexivity.
Qed.

Lemma ts_wots_leaf_left sk b leaf c : good E c -> sk_at E sk ->
  exists a s g v, scr_ok a s /\ iter_ok E g /\ str_ok E v /\
    spent E g (wpk_A c leaf) (flat_map (wots_end sk (wots_A c leaf)) (upto (wlen P))) /\ v = wots_end sk (wots_A c leaf) (wlen P - 1) /\
    ts_wots_leaf cfg mem b leaf c
    = Ok (buf_set b (wots_pkGen P seed sk (wots_A c leaf)) (wscr a s g v c)).
Proof.
  intros G Hsk. pose proof (n_bounds E) as Hn. unfold ts_wots_leaf.
  destruct (ts_set_wots_header_ok E leaf c G) as (a & -> & HA). cbn [bind].
  pose proof (good_adr E a c (adr_rep_ok _ _ HA) G) as G1.
  destruct (big_init_ok _ (set_adr a c) G1 HA) as (g & -> & I1). cbn [bind].
  pose proof (good_big E g _ (irep_ok _ _ _ I1) G1) as G2. set (c2 := set_big_iter g _) in *.
  rewrite (ps_n_c E c2 G2).
  destruct (wots_leaf_loop sk leaf (Z.to_nat (2 * n + 3)) 0 [] c2 G2 Hsk I1) as (c3 & -> & Hc & I3).
  { rewrite zlen_nil. nia. }
  cbn [bind]. destruct Hc as [[_ K]|(a3 & s3 & g3 & v3 & O3 & S3 & -> & Ev3)]; [lia|].
  assert (G3 : good E (wscr a3 s3 g3 v3 c2)).
  { apply good_big; [exact (irep_ok _ _ _ I3)|]. apply good_buf_set; [exact S3|]. apply good_scr; assumption. }
  set (c3 := wscr a3 s3 g3 v3 c2) in *. cbn [app] in I3.
  match type of I3 with irep _ _ _ ?X => set (D := X) in * end.
  assert (ED : D = flat_map (wots_end sk (wots_A c leaf)) (upto (wlen P))).
  { unfold D, upto. rewrite (wlen_eq E). change (wots_A c2 leaf) with (wots_A c leaf).
    f_equal. }
  destruct (flat_strs (wots_end sk (wots_A c leaf)) (upto (wlen P))) as [LD BD].
  { intros; apply wots_end_ok, Hsk. }
  rewrite <- ED in LD. unfold upto in LD. rewrite map_length, seq_length, (wlen_eq E) in LD.
  destruct (big_final_left b _ D c3 G3 I3) as (g4 & I4 & V4 & ->); [nia|].
  exists a3, s3, g4, v3. split; [exact O3|split; [exact I4|split; [exact S3|]]].
  split; [rewrite <- ED; exact V4|]. split; [rewrite Ev3; change (wots_A c2 leaf) with (wots_A c leaf); f_equal; rewrite (wlen_eq E); lia|].
  rewrite wots_pkGen_eq, <- ED. destruct b; reflexivity.
Qed.
Lemma ts_wots_leaf_ok sk b leaf c : good E c -> sk_at E sk ->
  exists a s g v, scr_ok a s /\ iter_ok E g /\ str_ok E v /\
    ts_wots_leaf cfg mem b leaf c
    = Ok (buf_set b (wots_pkGen P seed sk (wots_A c leaf)) (wscr a s g v c)).
Proof.
  intros G Hsk. destruct (ts_wots_leaf_left sk b leaf c G Hsk) as (a & s & g & v & O & I & S & _ & _ & X).
  exists a, s, g, v. auto.
Qed.
End Ctx.
