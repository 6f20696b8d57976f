(** * Message hashing, message PRF, the SHA-2 midstates *)
From Verif Require Import Arr SpecSha2 SpecKeccak SpecSLH ModelEndian ModelSha256 ModelSha512 ModelFips202
  ModelParams ModelCtx ModelHash ModelSphincs SpecMap PfEndian PfIter PfEnv PfAdr PfGlueSha PfGlue.
From Verif Require PfShake.

(** ** Memory *)
Lemma load_n_nth m a k l i : load_n m a k = Ok l -> (i < k)%nat ->
  m (a + Z.of_nat i) = Some (nth i l 0).
Proof.
  revert a l i; induction k as [|k IH]; intros a l i H Hi; [lia|]. cbn [load_n] in H.
  destruct (m a) as [b|] eqn:Eb; [|discriminate].
  destruct (load_n m (a + 1) k) as [r|] eqn:Er; cbn [bind] in H; [|discriminate].
  injection H as <-. destruct i as [|i]; cbn [nth].
  - rewrite Z.add_0_r. exact Eb.
  - replace (a + Z.of_nat (S i)) with (a + 1 + Z.of_nat i) by lia. eapply IH; eauto. lia.
Qed.
Lemma load_n_len m a k l : load_n m a k = Ok l -> length l = k.
Proof.
  revert a l; induction k as [|k IH]; intros a l; cbn [load_n]; [intros [= <-]; reflexivity|].
  destruct (m a); [|discriminate]. destruct (load_n m (a + 1) k) eqn:El; cbn [bind]; [|discriminate].
  intros [= <-]. cbn [length]. erewrite IH; eauto.
Qed.
Lemma load_len m a k l : load m a k = Ok l -> zlen l = k.
Proof.
  unfold load. destruct (Z.leb_spec 0 k) as [Hk|]; [|discriminate]. intros H. apply load_n_len in H.
  unfold zlen; lia.
Qed.
Lemma load_one m a k l i : load m a k = Ok l -> 0 <= i < k -> load m (a + i) 1 = Ok [nth (Z.to_nat i) l 0].
Proof.
  unfold load. destruct (Z.leb_spec 0 k) as [Hk|]; [|discriminate]. intros H Hi.
  pose proof (load_n_nth m a _ l (Z.to_nat i) H) as X. rewrite Z2Nat.id in X by lia.
  cbn [Z.leb Z.compare Z.to_nat Pos.to_nat]. change (Pos.to_nat 1) with 1%nat. cbn [load_n].
  rewrite X by lia. reflexivity.
Qed.

(** ** MGF1 *)
Lemma flat_map_seq_len (f : nat -> list Z) h a k : (forall i, length (f i) = h) ->
  length (flat_map f (seq a k)) = (k * h)%nat.
Proof.
  intros Hf; revert a; induction k as [|k IH]; intros a; [reflexivity|].
  cbn [seq flat_map]. rewrite app_length, Hf, IH. lia.
Qed.
Lemma MGF1_prefix v s a b hl : (forall m, length (sha2 v m) = Z.to_nat hl) ->
  8 * Z.of_nat (Z.to_nat (v_w v / 8)) = hl -> 0 < hl -> 0 <= a <= b ->
  firstn (Z.to_nat a) (MGF1 v s b) = MGF1 v s a.
Proof.
  intros Hl Hw Hp Hab. unfold MGF1. rewrite Hw. rewrite firstn_firstn.
  replace (Nat.min (Z.to_nat a) (Z.to_nat b)) with (Z.to_nat a) by lia.
  set (f := fun c => sha2 v _).
  assert (Hf : forall i, length (f i) = Z.to_nat hl) by (intros; apply Hl). clearbody f.
  assert (Hc : (a + hl - 1) / hl <= (b + hl - 1) / hl) by (apply Z.div_le_mono; lia).
  assert (0 <= (a + hl - 1) / hl) by (apply Z.div_pos; lia).
  set (ca := (a + hl - 1) / hl) in *. set (cb := (b + hl - 1) / hl) in *.
  replace (Z.to_nat cb) with (Z.to_nat ca + (Z.to_nat cb - Z.to_nat ca))%nat by lia.
  rewrite seq_app, flat_map_app. rewrite firstn_app_le; [reflexivity|].
  rewrite (flat_map_seq_len f _ _ _ Hf).
  assert (a <= ca * hl).
  { subst ca. pose proof (Z.div_mod (a + hl - 1) hl). pose proof (Z.mod_pos_bound (a + hl - 1) hl). nia. }
  nia.
Qed.
Lemma hlen256 : 8 * Z.of_nat (Z.to_nat (v_w SHA256 / 8)) = 32. Proof. reflexivity. Qed.
Lemma hlen512 : 8 * Z.of_nat (Z.to_nat (v_w SHA512 / 8)) = 64. Proof. reflexivity. Qed.

Lemma defined_some l : defined (map Some l) = Ok l.
Proof. induction l as [|a l IH]; [reflexivity|]. cbn [map defined]. rewrite IH. reflexivity. Qed.
Lemma zlen_map {A B} (f : A -> B) l : zlen (map f l) = zlen l.
Proof. unfold zlen. rewrite map_length. reflexivity. Qed.
Lemma zlen_uninit k : 0 <= k -> zlen (uninit k) = k.
Proof. intros. unfold uninit. rewrite zlen_repeat. lia. Qed.
Lemma rd_local_0 a b k : zlen a = k -> rd_local (map Some a ++ b) 0 k = Ok a.
Proof. intros. unfold rd_local. rewrite rd_range_0 by (rewrite zlen_map; exact H). cbn [bind]. apply defined_some. Qed.

Section Msg.
Variable E : env.
Local Notation cfg := (e_cfg E).
Local Notation mem := (e_mem E).
Local Notation n := (e_n E).
Local Notation P := (e_P E).
Local Notation hs := (e_hs E).
Local Notation le := (cfg_le cfg).
Local Notation seed := (e_seed E).

(** ** Midstates *)
Record pregood (c : ts_context) : Prop := mkPregood {
  pg_wf : wf_ctx cfg c; pg_ps : c_ps c = e_ps E; pg_pk : c_public_key c = e_pk E }.

Definition after_prehash (c c' : ts_context) : Prop :=
  exists it p q, c' = set_prehash_sha512 q (set_prehash_sha256 p (set_small_iter it c)).

Lemma pregood_small it c : iter_ok E it -> pregood c -> pregood (set_small_iter it c).
Proof. intros I [W A B]. split; auto. destruct W; split; auto. Qed.
Lemma pregood_pre256 p c : has_prehash256 cfg = true -> length p = 8%nat -> words_ok 4 p ->
  pregood c -> pregood (set_prehash_sha256 p c).
Proof.
  intros Hp L O [W A B]. split; auto. destruct W; split; auto. cbn. rewrite Hp. split; [unfold zlen; lia|exact O].
Qed.
Lemma pregood_pre512 p c : has_prehash512 cfg = true -> length p = 8%nat -> words_ok 8 p ->
  pregood c -> pregood (set_prehash_sha512 p c).
Proof.
  intros Hp L O [W A B]. split; auto. destruct W; split; auto. cbn. rewrite Hp. split; [unfold zlen; lia|exact O].
Qed.
Lemma seed_load' c : pregood c -> load mem (CONVERT_PUBLIC_KEY_TO_PUB_SEED (c_public_key c) n) n = Ok seed.
Proof. intros G. unfold CONVERT_PUBLIC_KEY_TO_PUB_SEED. rewrite (pg_pk c G). apply (e_seed_ld E). Qed.

Lemma L1_prehash_ok c : pregood c -> e_fam E <> FShake -> cfg_sha2_opt cfg = true ->
  exists it, ts_sha2_L1_prehash cfg mem c
    = Ok (set_prehash_sha256 (S256 (sha_seed_block E 64)) (set_small_iter it c)) /\ iter_ok E it.
Proof.
  intros G F O. pose proof (n_bounds E) as Hn. unfold ts_sha2_L1_prehash.
  rewrite (pg_ps c G), ps_n_eq.
  assert (I : iter_ok E (c_small_iter c)) by exact (wf_small _ _ (pg_wf c G)).
  destruct (iter_size256 E _ F I) as [B L].
  destruct (get256_any le _ B L) as (s0 & -> & Sh0). cbn [bind].
  pose proof (R256_init s0 Sh0) as R0. rewrite seed_load' by exact G. cbn [bind].
  ok_step R256_update s1 R1; [exact R0|apply (e_seed_bytes E)|].
  ok_step pad256 s2 R2; [exact R1|]. cbn [app] in R2. change (R256 s2 (sha_seed_block E 64)) in R2.
  rewrite (R256_save s2 _ R2); [|pose proof (seed_block_len E 64); unfold zlen in *; lia]. cbn [bind].
  rewrite wr_range_0.
  2:{ pose proof (S256_ok (sha_seed_block E 64)) as [L8 _]. unfold zlen at 1. rewrite L8.
      destruct (wf_pre256 _ _ (pg_wf c G)) as [-> _].
      unfold has_prehash256. pose proof (fam_on E) as H.
      destruct (e_fam E); [congruence| |]; [|destruct H as [H _]]; rewrite H, O; cbn; lia. }
  cbn [bind].
  rewrite skipn_all2.
  2:{ pose proof (S256_ok (sha_seed_block E 64)) as [L8 _]. rewrite L8.
      destruct (wf_pre256 _ _ (pg_wf c G)) as [LL _]. unfold zlen in LL.
      destruct (has_prehash256 cfg); lia. }
  rewrite app_nil_r.
  destruct (put256_iter E _ s2 F I (R256_shape _ _ R2)) as (it' & -> & I' & _). cbn [bind].
  exists it'. split; [reflexivity|exact I'].
Qed.

Lemma fold_H0_256 b : S256 b = fold_left (hash_block SHA256) (blocks 64 b) (v_H0 SHA256).
Proof. reflexivity. Qed.
Lemma prehash_ok_good c : pregood c ->
  exists c', call_compute_prehash cfg mem c = Ok c' /\ good E c' /\ after_prehash c c'.
Proof.
  intros G. unfold call_compute_prehash. rewrite (pg_ps c G), ps_pre_eq.
  assert (Triv : good E c -> exists c', Ok c = Ok c' /\ good E c' /\ after_prehash c c').
  { intros G'. exists c. split; [reflexivity|split; [exact G'|]]. exists (c_small_iter c), (c_prehash_sha256 c), (c_prehash_sha512 c).
    destruct c; reflexivity. }
  destruct (cfg_sha2_opt cfg) eqn:O.
  2:{ apply Triv. destruct G as [g1 g2 g3]. apply mkGood; auto. apply mkPre; intros; congruence. }
  destruct (e_fam E) eqn:F.
  - apply Triv. destruct G as [g1 g2 g3]. apply mkGood; auto. apply mkPre; intros; congruence.
  - assert (F' : e_fam E <> FShake) by congruence.
    destruct (L1_prehash_ok c G F' O) as (it & -> & I).
    eexists. split; [reflexivity|]. split.
    + assert (Hp : has_prehash256 cfg = true).
      { unfold has_prehash256. pose proof (fam_on E) as H. rewrite F in H. rewrite H, O. reflexivity. }
      destruct (S256_ok (sha_seed_block E 64)) as [L8 W8].
      pose proof (pregood_pre256 _ _ Hp L8 W8 (pregood_small it c I G)) as G2.
      destruct G2 as [g1 g2 g3]. apply mkGood; auto. apply mkPre; [intros _ _; reflexivity|intros; congruence].
    + exists it, (S256 (sha_seed_block E 64)), (c_prehash_sha512 c). destruct c; reflexivity.
  - assert (F' : e_fam E <> FShake) by congruence. unfold ts_sha2_L35_prehash.
    destruct (L1_prehash_ok c G F' O) as (it & -> & I). cbn [bind].
    assert (Hp : has_prehash256 cfg = true /\ has_prehash512 cfg = true).
    { unfold has_prehash256, has_prehash512. pose proof (fam_on E) as H. rewrite F in H.
      destruct H as [-> [-> | ->]]; rewrite O, ?orb_true_r; split; reflexivity. }
    destruct Hp as [Hp Hq].
    destruct (S256_ok (sha_seed_block E 64)) as [L8 W8].
    pose proof (pregood_pre256 _ _ Hp L8 W8 (pregood_small it c I G)) as G2.
    set (c2 := set_prehash_sha256 _ _) in *.
    rewrite (pg_ps c2 G2), ps_n_eq.
    assert (I2 : iter_ok E (c_small_iter c2)) by exact I.
    destruct (iter_size512 E _ F I2) as [B L].
    destruct (get512_any cfg _ B L) as (s0 & -> & Sh0). cbn [bind].
    pose proof (R512_init s0 Sh0) as R0. rewrite seed_load' by exact G2. cbn [bind].
    ok_step R512_update s1 R1; [exact R0|apply (e_seed_bytes E)|].
    ok_step pad512 s2 R2; [exact R1|]. cbn [app] in R2. change (R512 s2 (sha_seed_block E 128)) in R2.
    pose proof (n_bounds E) as Hn.
    rewrite (R512_save s2 _ R2); [|pose proof (seed_block_len E 128); unfold zlen in *; lia]. cbn [bind].
    destruct (S512_ok (sha_seed_block E 128)) as [M8 V8].
    destruct (wf_pre512 _ _ (pg_wf c2 G2)) as [LL _]. rewrite Hq in LL.
    rewrite wr_range_0 by (unfold zlen in *; lia). cbn [bind].
    rewrite skipn_all2 by (unfold zlen in *; lia). rewrite app_nil_r.
    destruct (put512_iter E _ s2 F I2 (R512_shape _ _ R2)) as (it' & -> & I' & _). cbn [bind].
    eexists. split; [reflexivity|]. split.
    + pose proof (pregood_pre512 _ _ Hq M8 V8 (pregood_small it' c2 I' G2)) as G3.
      destruct G3 as [g1 g2 g3]. apply mkGood; auto. apply mkPre; intros; reflexivity.
    + exists it', (S256 (sha_seed_block E 64)), (S512 (sha_seed_block E 128)). destruct c; reflexivity.
Qed.

(** ** PRF_msg *)
Definition prf_at (k : list Z) : Prop := load mem (e_pk E - n) n = Ok k /\ str_ok E k.
Definition root_at (r : list Z) : Prop := load mem (e_pk E + n) n = Ok r /\ str_ok E r.

Lemma lxor_byte a b : is_byte a -> is_byte b -> is_byte (Z.lxor a b).
Proof.
  unfold is_byte. intros Ha Hb. assert (0 <= Z.lxor a b) by (apply Z.lxor_nonneg; lia). split; [lia|].
  destruct (Z.eq_dec (Z.lxor a b) 0) as [->|]; [lia|]. change 256 with (2 ^ 8).
  apply Z.log2_lt_pow2; [lia|]. pose proof (Z.log2_lxor a b).
  assert (forall x, 0 <= x < 256 -> Z.log2 x < 8).
  { intros x Hx. destruct (Z.eq_dec x 0) as [->|]; [cbn; lia|]. apply Z.log2_lt_pow2; cbn; lia. }
  pose proof (H1 a Ha). pose proof (H1 b Hb). lia.
Qed.
Lemma hmac_block_ok block size v k : prf_at k -> zlen block = size -> n <= size -> is_byte v ->
  hmac_block mem block size v (e_pk E) n
  = Ok (map Some (map (Z.lxor v) (k ++ repeat 0 (Z.to_nat size - length k)))).
Proof.
  intros [Hk [Lk Bk]] Lb Hs Hv. pose proof (n_bounds E) as Hn. unfold hmac_block.
  destruct (for_loop_inv
    (fun i b => b = map Some (map (Z.lxor v) (firstn (Z.to_nat i) k)) ++ skipn (Z.to_nat i) block)
    (fun i block => kb <- load mem (CONVERT_PUBLIC_KEY_TO_PRF (e_pk E) n + i) 1 ;;
       b <- rd kb 0 ;; wr block i (Some (Z.lxor v b))) (Z.to_nat n) 0 block) as (b & -> & Eb).
  - reflexivity.
  - intros i b Hi ->. unfold CONVERT_PUBLIC_KEY_TO_PRF.
    rewrite (load_one mem (e_pk E - n) n k i Hk) by lia. cbn [bind].
    unfold rd at 1. cbn [Z.leb Z.compare nth_error Z.to_nat bind].
    unfold zlen in *.
    rewrite wr_ok by (unfold zlen; rewrite app_length, !map_length, firstn_length, skipn_length; lia).
    eexists. split; [reflexivity|]. unfold upd.
    assert (Lm : length (map Some (map (Z.lxor v) (firstn (Z.to_nat i) k))) = Z.to_nat i)
      by (rewrite !map_length, firstn_length; lia).
    rewrite firstn_app_exact by exact Lm.
    rewrite skipn_app_ge by lia. rewrite Lm.
    replace (S (Z.to_nat i) - Z.to_nat i)%nat with 1%nat by lia. rewrite skipn_skipn'.
    replace (Z.to_nat (i + 1)) with (S (Z.to_nat i)) by lia.
    rewrite (firstn_S_nth (Z.to_nat i) k 0) by lia. rewrite !map_app, <- app_assoc.
    cbn [map app]. do 3 f_equal. lia.
  - cbn [bind]. rewrite Z.add_0_l, Z2Nat.id in Eb by lia. rewrite firstn_all2 in Eb by (unfold zlen in *; lia).
    assert (Lm : length (map Some (map (Z.lxor v) k)) = Z.to_nat n) by (rewrite !map_length; unfold zlen in *; lia).
    rewrite memset_ok; [|lia|lia|rewrite Eb, zlen_app; unfold zlen in *; rewrite Lm, skipn_length; lia].
    rewrite Eb. rewrite firstn_app_exact by exact Lm.
    rewrite !map_app. f_equal. f_equal.
    rewrite skipn_all2; [|rewrite app_length, Lm, skipn_length; unfold zlen in *; lia].
    rewrite app_nil_r. replace (Z.to_nat (size - n)) with (Z.to_nat size - length k)%nat by (unfold zlen in *; lia).
    generalize (Z.to_nat size - length k)%nat as j. clear. induction j as [|j IH]; [reflexivity|].
    cbn [repeat map]. rewrite Z.lxor_0_r, IH. reflexivity.
Qed.
Lemma hmac_key_bytes v k j : is_byte v -> is_bytes k -> is_bytes (map (Z.lxor v) (k ++ repeat 0 j)).
Proof.
  intros Hv Hk. apply Forall_map. apply Forall_app; split.
  - eapply Forall_impl; [|exact Hk]. intros a Ha. apply lxor_byte; auto.
  - apply Forall_repeat. apply lxor_byte; auto. unfold is_byte; lia.
Qed.
Lemma set_small_id it it' c : set_small_iter it (set_small_iter it' c) = set_small_iter it c.
Proof. reflexivity. Qed.

Definition msg_ok (m : list Z) : Prop := is_bytes m /\ zlen m < 2 ^ 60.

Lemma prf_msg_ok k optr addrnd msg c : good E c -> prf_at k -> rd_range optr 0 n = Ok addrnd ->
  str_ok E addrnd -> msg_ok msg ->
  exists it, call_prf_msg cfg mem optr msg c = Ok (PRF_msg hs k addrnd msg, set_small_iter it c)
    /\ iter_ok E it.
Proof.
  intros G Hk Ho [Lo Bo] [Bm Lm]. pose proof (n_bounds E) as Hn.
  unfold call_prf_msg. rewrite (g_ps E c G), ps_prf_msg_eq.
  pose proof (small_ok E c G) as I. rewrite hs_eq.
  assert (H36 : is_byte 0x36) by (unfold is_byte; lia). assert (H5c : is_byte 0x5c) by (unfold is_byte; lia).
  destruct Hk as [Hk1 [Lk Bk]] eqn:Hk'. 
  destruct (e_fam E) eqn:F.
  - unfold ts_shake256_prf_msg. rewrite (ps_n_c E c G). destruct (iter_sizeK E _ F I) as [B L].
    destruct (getshake_any le _ B L) as (s0 & -> & L0). cbn [bind].
    ok_step RK_init s1 R1; [exact L0|].
    unfold CONVERT_PUBLIC_KEY_TO_PRF. rewrite (g_pk E c G), Hk1. cbn [bind].
    ok_step RK_absorb s2 R2; [exact R1|exact Bk|lia|].
    rewrite Ho. cbn [bind].
    ok_step RK_absorb s3 R3; [exact R2|exact Bo|lia|].
    ok_step RK_absorb s4 R4; [exact R3|exact Bm|lia|].
    edestruct (RK_final (cfg_shake_opt cfg) s4 _ n R4) as (s5 & E5 & s6 & E6 & L6).
    { apply bytes_app; [|exact Bm]. apply bytes_app; [exact Bk|exact Bo]. }
    { lia. }
    rewrite E5. cbn [bind]. rewrite E6. cbn [bind].
    destruct (putK_iter E _ s6 F I L6) as (it' & -> & I' & _). cbn [bind]. exists it'. split; [|exact I'].
    cbn [PRF_msg shake_hashes app]. rewrite <- app_assoc. reflexivity.
  - assert (F' : e_fam E <> FShake) by congruence.
    unfold ts_sha2_L1_prf_msg. rewrite (ps_n_c E c G). destruct (iter_size256 E _ F' I) as [B L].
    destruct (get256_any le _ B L) as (s0 & -> & Sh0). cbn [bind].
    pose proof (R256_init s0 Sh0) as R0. rewrite (g_pk E c G).
    rewrite (hmac_block_ok (uninit 64) 64 0x36 k Hk) by (auto; try (rewrite zlen_uninit; lia); lia). cbn [bind].
    rewrite defined_some. cbn [bind].
    change (Z.to_nat 64) with 64%nat. set (k0 := k ++ repeat 0 (64 - length k)).
    ok_step R256_update s1 R1; [exact R0|apply hmac_key_bytes; auto|].
    rewrite Ho. cbn [bind].
    ok_step R256_update s2 R2; [exact R1|exact Bo|].
    ok_step R256_update s3 R3; [exact R2|exact Bm|].
    assert (Lk0 : forall v, length (map (Z.lxor v) k0) = 64%nat).
    { intros v. unfold k0. rewrite map_length, app_length, repeat_length. unfold zlen in *; lia. }
    assert (Lk0z : forall v, zlen (map (Z.lxor v) k0) = 64) by (intros v; unfold zlen; rewrite Lk0; reflexivity).
    ok_step R256_final_full s4 Sh4; [exact R3|rewrite !zlen_app, Lk0z, zlen_nil; lia|].
    pose proof (R256_init s4 Sh4) as R5.
    rewrite (hmac_block_ok _ 64 0x5c k Hk) by (auto; try (rewrite zlen_map, Lk0z; reflexivity); lia). cbn [bind].
    rewrite defined_some. cbn [bind].
    change (Z.to_nat 64) with 64%nat. fold k0.
    ok_step R256_update s6 R6; [exact R5|apply hmac_key_bytes; auto|].
    rewrite rd_range_all by (unfold zlen; rewrite D256_len; reflexivity). cbn [bind].
    ok_step R256_update s7 R7; [exact R6|apply D256_bytes|].
    ok_step (trunc256_n E) s8 Sh8; [exact R7|rewrite !zlen_app, Lk0z, zlen_nil; unfold zlen; rewrite D256_len; lia|].
    destruct (put256_iter E _ s8 F' I Sh8) as (it' & -> & I' & _). cbn [bind]. exists it'. split; [|exact I'].
    unfold sha2_cat1_hashes, HMAC. change (16 * Z.to_nat (v_w SHA256 / 8))%nat with 64%nat. cbv zeta. fold k0.
    unfold D256. cbn [PRF_msg app]. rewrite <- !app_assoc. reflexivity.
  - assert (F' : e_fam E <> FShake) by congruence.
    unfold ts_sha2_L35_prf_msg. rewrite (ps_n_c E c G). destruct (iter_size512 E _ F I) as [B L].
    destruct (get512_any cfg _ B L) as (s0 & -> & Sh0). cbn [bind].
    pose proof (R512_init s0 Sh0) as R0. rewrite (g_pk E c G).
    rewrite (hmac_block_ok (uninit 128) 128 0x36 k Hk) by (auto; try (rewrite zlen_uninit; lia); lia). cbn [bind].
    rewrite defined_some. cbn [bind].
    change (Z.to_nat 128) with 128%nat. set (k0 := k ++ repeat 0 (128 - length k)).
    ok_step R512_update s1 R1; [exact R0|apply hmac_key_bytes; auto|].
    rewrite Ho. cbn [bind].
    ok_step R512_update s2 R2; [exact R1|exact Bo|].
    ok_step R512_update s3 R3; [exact R2|exact Bm|].
    assert (Lk0 : forall v, length (map (Z.lxor v) k0) = 128%nat).
    { intros v. unfold k0. rewrite map_length, app_length, repeat_length. unfold zlen in *; lia. }
    assert (Lk0z : forall v, zlen (map (Z.lxor v) k0) = 128) by (intros v; unfold zlen; rewrite Lk0; reflexivity).
    ok_step R512_final_full s4 Sh4; [exact R3|rewrite !zlen_app, Lk0z, zlen_nil; lia|].
    pose proof (R512_init s4 Sh4) as R5.
    rewrite (hmac_block_ok _ 128 0x5c k Hk) by (auto; try (rewrite zlen_map, Lk0z; reflexivity); lia). cbn [bind].
    rewrite defined_some. cbn [bind].
    change (Z.to_nat 128) with 128%nat. fold k0.
    ok_step R512_update s6 R6; [exact R5|apply hmac_key_bytes; auto|].
    rewrite rd_range_all by (unfold zlen; rewrite D512_len; reflexivity). cbn [bind].
    ok_step R512_update s7 R7; [exact R6|apply D512_bytes|].
    ok_step (trunc512_n E) s8 Sh8; [exact R7|rewrite !zlen_app, Lk0z, zlen_nil; unfold zlen; rewrite D512_len; lia|].
    destruct (put512_iter E _ s8 F I Sh8) as (it' & -> & I' & _). cbn [bind]. exists it'. split; [|exact I'].
    unfold sha2_cat35_hashes, HMAC. change (16 * Z.to_nat (v_w SHA512 / 8))%nat with 128%nat. cbv zeta. fold k0.
    unfold D512. cbn [PRF_msg app]. rewrite <- !app_assoc. reflexivity.
Qed.
Lemma PRF_msg_ok k addrnd msg : is_bytes k -> is_bytes addrnd -> is_bytes msg ->
  str_ok E (PRF_msg hs k addrnd msg).
Proof.
  intros. rewrite hs_eq. destruct (e_fam E); [|apply D256_ok|apply D512_ok].
  apply shake_ok. apply bytes_app; [assumption|]. apply bytes_app; assumption.
Qed.

(** ** H_msg *)
Lemma toByte_ull i : 0 <= i < 2 ^ 31 -> ts_ull_to_bytes i 4 = toByte i 4.
Proof. intros H. apply (ull_tree i 4). lia. Qed.

Lemma mgf256_step fuel N msg_hash ctx i lenout S : shape256 ctx -> 16 <= N <= 32 -> 0 <= i < 2 ^ 30 ->
  0 < lenout -> zlen S = 2 * N + 32 -> is_bytes S ->
  2 * N + 36 <= zlen msg_hash -> firstn (Z.to_nat (2 * N + 32)) msg_hash = map Some S ->
  exists mh' ctx', sha256_mgf_loop cfg (Datatypes.S fuel) N msg_hash ctx i lenout =
    (let b := if 32 <=? lenout then 32 else lenout in
     '(rest, c) <- sha256_mgf_loop cfg fuel N mh' ctx' (i + 1) (lenout - b) ;;
     Ok (firstn (Z.to_nat b) (D256 (S ++ toByte i 4)) ++ rest, c)) /\
    shape256 ctx' /\ zlen mh' = zlen msg_hash /\ firstn (Z.to_nat (2 * N + 32)) mh' = map Some S.
Proof.
  intros Sc HN Hi Hl LS BS Lm Em. cbn [sha256_mgf_loop].
  destruct (Z.eqb_spec lenout 0) as [|_]; [lia|].
  rewrite toByte_ull by lia.
  unfold wr_local. rewrite wr_range_ok by (rewrite ?zlen_map, ?zlen_toByte; lia). cbn [bind].
  rewrite map_length, toByte_length, Em.
  set (mh' := map Some S ++ map Some (toByte i 4) ++ _).
  assert (L' : zlen mh' = zlen msg_hash).
  { unfold mh'. rewrite !zlen_app, !zlen_map, zlen_toByte, LS. unfold zlen in *. rewrite skipn_length. lia. }
  pose proof (R256_init ctx Sc) as R0.
  assert (Erd : rd_local mh' 0 (2 * N + 32 + 4) = Ok (S ++ toByte i 4)).
  { unfold mh'. rewrite app_assoc, <- map_app. apply rd_local_0. rewrite zlen_app, zlen_toByte. lia. }
  rewrite Erd. cbn [bind].
  ok_step R256_update s1 R1; [exact R0|apply bytes_app; [exact BS|apply toByte_bytes]|].
  ok_step R256_final_full s2 Sh2; [exact R1|cbn [app]; rewrite zlen_app, zlen_toByte; lia|]. cbn [app].
  set (b := if 32 <=? lenout then 32 else lenout).
  assert (Hb : 0 <= b <= 32) by (unfold b; destruct (Z.leb_spec 32 lenout); lia).
  rewrite rd_range_ok; [|lia|lia|unfold zlen; rewrite D256_len; lia]. cbn [bind Z.to_nat skipn].
  rewrite int_val_ok by lia. cbn [bind].
  exists mh', s2. split; [reflexivity|]. split; [exact Sh2|]. split; [exact L'|].
  unfold mh'. apply firstn_app_exact. rewrite map_length. unfold zlen in *; lia.
Qed.
Lemma mgf512_step fuel N msg_hash ctx i lenout S : shape512 ctx -> 16 <= N <= 32 -> 0 <= i < 2 ^ 30 ->
  0 < lenout -> zlen S = 2 * N + 64 -> is_bytes S ->
  2 * N + 68 <= zlen msg_hash -> firstn (Z.to_nat (2 * N + 64)) msg_hash = map Some S ->
  exists mh' ctx', sha512_mgf_loop cfg (Datatypes.S fuel) N msg_hash ctx i lenout =
    (let b := if 64 <=? lenout then 64 else lenout in
     '(rest, c) <- sha512_mgf_loop cfg fuel N mh' ctx' (i + 1) (lenout - b) ;;
     Ok (firstn (Z.to_nat b) (D512 (S ++ toByte i 4)) ++ rest, c)) /\
    shape512 ctx' /\ zlen mh' = zlen msg_hash /\ firstn (Z.to_nat (2 * N + 64)) mh' = map Some S.
Proof.
  intros Sc HN Hi Hl LS BS Lm Em. cbn [sha512_mgf_loop].
  destruct (Z.eqb_spec lenout 0) as [|_]; [lia|].
  rewrite toByte_ull by lia.
  unfold wr_local. rewrite wr_range_ok by (rewrite ?zlen_map, ?zlen_toByte; lia). cbn [bind].
  rewrite map_length, toByte_length, Em.
  set (mh' := map Some S ++ map Some (toByte i 4) ++ _).
  assert (L' : zlen mh' = zlen msg_hash).
  { unfold mh'. rewrite !zlen_app, !zlen_map, zlen_toByte, LS. unfold zlen in *. rewrite skipn_length. lia. }
  pose proof (R512_init ctx Sc) as R0.
  assert (Erd : rd_local mh' 0 (2 * N + 64 + 4) = Ok (S ++ toByte i 4)).
  { unfold mh'. rewrite app_assoc, <- map_app. apply rd_local_0. rewrite zlen_app, zlen_toByte. lia. }
  rewrite Erd. cbn [bind].
  ok_step R512_update s1 R1; [exact R0|apply bytes_app; [exact BS|apply toByte_bytes]|].
  ok_step R512_final_full s2 Sh2; [exact R1|cbn [app]; rewrite zlen_app, zlen_toByte; lia|]. cbn [app].
  set (b := if 64 <=? lenout then 64 else lenout).
  assert (Hb : 0 <= b <= 64) by (unfold b; destruct (Z.leb_spec 64 lenout); lia).
  rewrite rd_range_ok; [|lia|lia|unfold zlen; rewrite D512_len; lia]. cbn [bind Z.to_nat skipn].
  rewrite int_val_ok by lia. cbn [bind].
  exists mh', s2. split; [reflexivity|]. split; [exact Sh2|]. split; [exact L'|].
  unfold mh'. apply firstn_app_exact. rewrite map_length. unfold zlen in *; lia.
Qed.

(** The loop computes the first [len] bytes of T(i) || T(i+1) || ... *)
Lemma mgf256_ok fuel : forall N msg_hash ctx i lenout S, shape256 ctx -> 16 <= N <= 32 ->
  0 <= lenout < Z.of_nat fuel -> 0 <= i -> i + lenout < 2 ^ 30 -> zlen S = 2 * N + 32 -> is_bytes S ->
  2 * N + 36 <= zlen msg_hash -> firstn (Z.to_nat (2 * N + 32)) msg_hash = map Some S ->
  exists ctx', sha256_mgf_loop cfg fuel N msg_hash ctx i lenout =
    Ok (firstn (Z.to_nat lenout)
         (flat_map (fun c => D256 (S ++ toByte (Z.of_nat c) 4))
            (seq (Z.to_nat i) (Z.to_nat ((lenout + 32 - 1) / 32)))), ctx') /\ shape256 ctx'.
Proof.
  induction fuel as [|fuel IH]; intros N mh ctx i lo S Sc HN Hlo Hi Hil LS BS Lm Em; [lia|].
  destruct (Z.eq_dec lo 0) as [->|Hne].
  - exists ctx. split; [reflexivity|exact Sc].
  - destruct (mgf256_step fuel N mh ctx i lo S Sc HN) as (mh' & ctx' & Eq & Sc' & L' & E'); auto; [lia|lia|].
    rewrite Eq. cbv zeta. set (b := if 32 <=? lo then 32 else lo) in *.
    assert (Hb : 1 <= b <= 32 /\ b <= lo /\ (b = lo \/ b = 32 /\ 32 <= lo)) by (unfold b; destruct (Z.leb_spec 32 lo); lia).
    destruct (IH N mh' ctx' (i + 1) (lo - b) S Sc' HN) as (c2 & E2 & Sh2); auto; try lia.
    rewrite E2. cbn [bind]. exists c2. split; [|exact Sh2]. f_equal. f_equal.
    assert (Hq : Z.to_nat ((lo + 32 - 1) / 32) = Datatypes.S (Z.to_nat ((lo - b + 32 - 1) / 32)) \/
                 (b = lo /\ Z.to_nat ((lo + 32 - 1) / 32) = 1%nat)).
    { destruct Hb as (H1 & H2 & [H3|[H3 H4]]).
      - right. split; [exact H3|]. assert ((lo + 32 - 1) / 32 = 1) by (symmetry; apply Z.div_unique with (lo - 1); lia). lia.
      - left. rewrite H3. replace (lo + 32 - 1) with (lo - 32 + 32 - 1 + 1 * 32) by lia. rewrite Z.div_add by lia.
        assert (0 <= (lo - 32 + 32 - 1) / 32) by (apply Z.div_pos; lia). lia. }
    destruct Hb as (H1 & H2 & [H3|[H3 H4]]).
    + replace (lo - b) with 0 by lia. cbn [Z.to_nat firstn]. rewrite app_nil_r, H3.
      assert (Hq1 : Z.to_nat ((lo + 32 - 1) / 32) = 1%nat).
      { assert ((lo + 32 - 1) / 32 = 1) by (symmetry; apply Z.div_unique with (lo - 1); lia). lia. }
      rewrite Hq1. cbn [seq flat_map]. rewrite app_nil_r, Z2Nat.id by lia. reflexivity.
    + destruct Hq as [Hq|[Hq1 Hq2]].
      * rewrite Hq. cbn [seq flat_map]. rewrite Z2Nat.id by lia.
        rewrite firstn_app_ge by (rewrite D256_len; lia). rewrite D256_len.
        rewrite firstn_all2 by (rewrite D256_len; lia). f_equal.
        replace (Z.to_nat (i + 1)) with (Datatypes.S (Z.to_nat i)) by lia.
        f_equal. lia.
      * rewrite Hq2, <- Hq1. rewrite Z.sub_diag. cbn [Z.to_nat firstn seq flat_map].
        rewrite !app_nil_r, Z2Nat.id by lia. reflexivity.
Qed.
Lemma mgf512_ok fuel : forall N msg_hash ctx i lenout S, shape512 ctx -> 16 <= N <= 32 ->
  0 <= lenout < Z.of_nat fuel -> 0 <= i -> i + lenout < 2 ^ 30 -> zlen S = 2 * N + 64 -> is_bytes S ->
  2 * N + 68 <= zlen msg_hash -> firstn (Z.to_nat (2 * N + 64)) msg_hash = map Some S ->
  exists ctx', sha512_mgf_loop cfg fuel N msg_hash ctx i lenout =
    Ok (firstn (Z.to_nat lenout)
         (flat_map (fun c => D512 (S ++ toByte (Z.of_nat c) 4))
            (seq (Z.to_nat i) (Z.to_nat ((lenout + 64 - 1) / 64)))), ctx') /\ shape512 ctx'.
Proof.
  induction fuel as [|fuel IH]; intros N mh ctx i lo S Sc HN Hlo Hi Hil LS BS Lm Em; [lia|].
  destruct (Z.eq_dec lo 0) as [->|Hne].
  - exists ctx. split; [reflexivity|exact Sc].
  - destruct (mgf512_step fuel N mh ctx i lo S Sc HN) as (mh' & ctx' & Eq & Sc' & L' & E'); auto; [lia|lia|].
    rewrite Eq. cbv zeta. set (b := if 64 <=? lo then 64 else lo) in *.
    assert (Hb : 1 <= b <= 64 /\ b <= lo /\ (b = lo \/ b = 64 /\ 64 <= lo)) by (unfold b; destruct (Z.leb_spec 64 lo); lia).
    destruct (IH N mh' ctx' (i + 1) (lo - b) S Sc' HN) as (c2 & E2 & Sh2); auto; try lia.
    rewrite E2. cbn [bind]. exists c2. split; [|exact Sh2]. f_equal. f_equal.
    destruct Hb as (H1 & H2 & [H3|[H3 H4]]).
    + replace (lo - b) with 0 by lia. cbn [Z.to_nat firstn]. rewrite app_nil_r, H3.
      assert (Hq1 : Z.to_nat ((lo + 64 - 1) / 64) = 1%nat).
      { assert ((lo + 64 - 1) / 64 = 1) by (symmetry; apply Z.div_unique with (lo - 1); lia). lia. }
      rewrite Hq1. cbn [seq flat_map]. rewrite app_nil_r, Z2Nat.id by lia. reflexivity.
    + assert (Hq : Z.to_nat ((lo + 64 - 1) / 64) = Datatypes.S (Z.to_nat ((lo - b + 64 - 1) / 64))).
      { rewrite H3. replace (lo + 64 - 1) with (lo - 64 + 64 - 1 + 1 * 64) by lia. rewrite Z.div_add by lia.
        assert (0 <= (lo - 64 + 64 - 1) / 64) by (apply Z.div_pos; lia). lia. }
      rewrite Hq. cbn [seq flat_map]. rewrite Z2Nat.id by lia.
      rewrite firstn_app_ge by (rewrite D512_len; lia). rewrite D512_len.
      rewrite firstn_all2 by (rewrite D512_len; lia). f_equal.
      replace (Z.to_nat (i + 1)) with (Datatypes.S (Z.to_nat i)) by lia.
      f_equal. lia.
Qed.

Definition H49 (R root msg : list Z) : list Z :=
  match e_fam E with
  | FShake => shake256 (R ++ seed ++ root ++ msg) 49
  | F1 => MGF1 SHA256 (R ++ seed ++ D256 (R ++ seed ++ root ++ msg)) 49
  | F35 => MGF1 SHA512 (R ++ seed ++ D512 (R ++ seed ++ root ++ msg)) 49
  end.
Lemma MGF_len v s hl l : (forall m, length (sha2 v m) = Z.to_nat hl) ->
  8 * Z.of_nat (Z.to_nat (v_w v / 8)) = hl -> 0 < hl -> 0 <= l -> zlen (MGF1 v s l) = l.
Proof.
  intros Hl Hw Hp H0. unfold MGF1. rewrite Hw. unfold zlen. rewrite firstn_length.
  rewrite (flat_map_seq_len _ (Z.to_nat hl)) by (intros; apply Hl).
  assert (l <= (l + hl - 1) / hl * hl).
  { pose proof (Z.div_mod (l + hl - 1) hl). pose proof (Z.mod_pos_bound (l + hl - 1) hl). nia. }
  assert (0 <= (l + hl - 1) / hl) by (apply Z.div_pos; lia). nia.
Qed.
Lemma MGF_bytes v s l : is_bytes (MGF1 v s l).
Proof.
  unfold MGF1. apply Forall_firstn'. apply Forall_flat_map. apply Forall_forall. intros. apply flat_toByte_bytes.
Qed.
Lemma H49_ok R root msg : is_bytes R -> is_bytes root -> is_bytes msg ->
  zlen (H49 R root msg) = 49 /\ is_bytes (H49 R root msg).
Proof.
  intros BR Br Bm. unfold H49. destruct (e_fam E).
  - assert (B : is_bytes (R ++ seed ++ root ++ msg)).
    { repeat (apply bytes_app; [first [assumption|apply (e_seed_bytes E)]|]). assumption. }
    split; [unfold zlen; rewrite PfShake.shake256_length by exact B; reflexivity|apply PfShake.shake256_bytes, B].
  - split; [|apply MGF_bytes]. apply (MGF_len _ _ 32); auto using hlen256; try lia. intros; apply D256_len.
  - split; [|apply MGF_bytes]. apply (MGF_len _ _ 64); auto using hlen512; try lia. intros; apply D512_len.
Qed.
Lemma H49_prefix R root msg : is_bytes R -> is_bytes root -> is_bytes msg ->
  firstn (Z.to_nat (p_m P)) (H49 R root msg) = H_msg hs R seed root msg.
Proof.
  intros BR Br Bm. pose proof (m_bounds E) as Hm. unfold H49. rewrite hs_eq. destruct (e_fam E).
  - apply PfShake.shake256_prefix; [|lia].
    repeat (apply bytes_app; [first [assumption|apply (e_seed_bytes E)]|]). assumption.
  - apply (MGF1_prefix _ _ _ _ 32); auto using hlen256; try lia. intros; apply D256_len.
  - apply (MGF1_prefix _ _ _ _ 64); auto using hlen512; try lia. intros; apply D512_len.
Qed.

Lemma msg_hash_build (z : list (option Z)) (R h : list Z) k : zlen R = n -> zlen h = k -> 2 * n + k <= zlen z -> 0 <= k ->
  exists mh, (m <- wr_local z (2 * n) h ;; m <- wr_local m 0 R ;; wr_local m n seed) = Ok mh /\
    zlen mh = zlen z /\ firstn (Z.to_nat (2 * n + k)) mh = map Some (R ++ seed ++ h).
Proof.
  intros LR Lh Lz Hk. pose proof (n_bounds E) as Hn. pose proof (seed_len E) as Lseed. unfold wr_local.
  rewrite !map_app. rewrite <- (zlen_map (@Some Z)) in LR, Lh, Lseed.
  set (R' := map Some R) in *. set (h' := map Some h) in *. set (seed' := map Some seed) in *.
  clearbody R' h' seed'.
  destruct (split_at z n) as (z0 & t0 & -> & L0 & M0); [lia|]. rewrite zlen_app in *.
  destruct (split_at t0 n) as (z1 & t1 & -> & L1 & M1); [lia|]. rewrite zlen_app in *.
  destruct (split_at t1 k) as (z2 & t2 & -> & L2 & M2); [lia|]. rewrite zlen_app in *.
  rewrite (app_assoc z0 z1). rewrite wr_range_mid; [|rewrite zlen_app; lia|lia]. cbn [bind].
  rewrite <- app_assoc.
  pose proof (wr_range_mid (@nil (option Z)) z0 (z1 ++ h' ++ t2) R' 0) as W. cbn [app] in W. rewrite W; [|reflexivity|lia]. cbn [bind].
  rewrite wr_range_mid; [|lia|lia].
  eexists. split; [reflexivity|]. split; [rewrite !zlen_app; lia|].
  replace (R' ++ seed' ++ h' ++ t2) with ((R' ++ seed' ++ h') ++ t2) by (rewrite <- !app_assoc; reflexivity).
  apply firstn_app_exact. rewrite !app_length. unfold zlen in *; lia.
Qed.

Lemma hash_msg_ok R rbuf root msg c : good E c -> root_at root -> rd_range rbuf 0 n = Ok R -> str_ok E R ->
  msg_ok msg ->
  exists it, call_hash_msg cfg mem MAX_MESSAGE_HASH rbuf msg c = Ok (H49 R root msg, set_small_iter it c)
    /\ iter_ok E it.
Proof.
  intros G [Hr [Lr Br]] HR [LR BR] [Bm Lm]. pose proof (n_bounds E) as Hn. pose proof (seed_len E) as Lseed.
  pose proof (n_max E) as [[Hnm _] _].
  unfold call_hash_msg, H49. rewrite (g_ps E c G), ps_hash_msg_eq.
  pose proof (small_ok E c G) as I. change MAX_MESSAGE_HASH with 49.
  destruct (e_fam E) eqn:F.
  - unfold ts_shake256_hash_msg. rewrite (ps_n_c E c G). destruct (iter_sizeK E _ F I) as [B L].
    destruct (getshake_any le _ B L) as (s0 & -> & L0). cbn [bind].
    ok_step RK_init s1 R1; [exact L0|]. rewrite HR. cbn [bind].
    ok_step RK_absorb s2 R2; [exact R1|exact BR|lia|].
    rewrite seed_load by exact G. cbn [bind].
    ok_step RK_absorb s3 R3; [exact R2|apply (e_seed_bytes E)|lia|].
    unfold CONVERT_PUBLIC_KEY_TO_ROOT. rewrite (g_pk E c G), Hr. cbn [bind].
    ok_step RK_absorb s4 R4; [exact R3|exact Br|lia|].
    ok_step RK_absorb s4' R4'; [exact R4|exact Bm|lia|].
    edestruct (RK_final (cfg_shake_opt cfg) s4' _ 49 R4') as (s5 & E5 & s6 & E6 & L6).
    { repeat (apply bytes_app; [|assumption]). apply bytes_app; [exact BR|apply (e_seed_bytes E)]. }
    { lia. }
    rewrite E5. cbn [bind]. rewrite E6. cbn [bind].
    destruct (putK_iter E _ s6 F I L6) as (it' & -> & I' & _). cbn [bind]. exists it'. split; [|exact I'].
    cbn [app]. rewrite <- !app_assoc. reflexivity.
  - assert (F' : e_fam E <> FShake) by congruence.
    unfold ts_sha2_L1_hash_msg. rewrite (ps_n_c E c G). destruct (iter_size256 E _ F' I) as [B L].
    destruct (get256_any le _ B L) as (s0 & -> & Sh0). cbn [bind].
    pose proof (R256_init s0 Sh0) as R0. rewrite HR. cbn [bind].
    ok_step R256_update s1 R1; [exact R0|exact BR|].
    rewrite seed_load by exact G. cbn [bind].
    ok_step R256_update s2 R2; [exact R1|apply (e_seed_bytes E)|].
    unfold CONVERT_PUBLIC_KEY_TO_ROOT. rewrite (g_pk E c G), Hr. cbn [bind].
    ok_step R256_update s3 R3; [exact R2|exact Br|].
    ok_step R256_update s4 R4; [exact R3|exact Bm|].
    ok_step R256_final_full s5 Sh5; [exact R4|rewrite !zlen_app, zlen_nil; lia|].
    cbn [app] in *. rewrite <- !app_assoc. set (h := D256 (R ++ seed ++ root ++ msg)).
    assert (Lh : zlen h = 32) by (unfold zlen, h; rewrite D256_len; reflexivity).
    assert (Bh : is_bytes h) by apply D256_bytes.
    set (z := uninit _). assert (Lz : zlen z = 2 * TS_MAX_HASH cfg + 32 + 4) by (unfold z; rewrite zlen_uninit; lia).
    clearbody z.
    destruct (msg_hash_build z R h 32 LR Lh) as (mh & Emh & Lmh & Fmh); [lia|lia|].
    destruct (wr_local z (2 * n) h) as [m1|]; cbn [bind] in Emh |- *; [|discriminate].
    destruct (wr_local m1 0 R) as [m2|]; cbn [bind] in Emh |- *; [|discriminate].
    rewrite Emh. cbn [bind].
    destruct (mgf256_ok (Datatypes.S (Z.to_nat 49)) n mh s5 0 49 (R ++ seed ++ h) Sh5 Hn) as (s6 & E6 & Sh6); auto; try lia.
    { rewrite !zlen_app; lia. }
    { apply bytes_app; [exact BR|]. apply bytes_app; [apply (e_seed_bytes E)|exact Bh]. }
    rewrite E6. cbn [bind].
    destruct (put256_iter E _ s6 F' I Sh6) as (it' & -> & I' & _). cbn [bind]. exists it'. split; [|exact I'].
    unfold MGF1. rewrite hlen256. reflexivity.
  - assert (F' : e_fam E <> FShake) by congruence.
    unfold ts_sha2_L35_hash_msg. rewrite (ps_n_c E c G). destruct (iter_size512 E _ F I) as [B L].
    destruct (get512_any cfg _ B L) as (s0 & -> & Sh0). cbn [bind].
    pose proof (R512_init s0 Sh0) as R0. rewrite HR. cbn [bind].
    ok_step R512_update s1 R1; [exact R0|exact BR|].
    rewrite seed_load by exact G. cbn [bind].
    ok_step R512_update s2 R2; [exact R1|apply (e_seed_bytes E)|].
    unfold CONVERT_PUBLIC_KEY_TO_ROOT. rewrite (g_pk E c G), Hr. cbn [bind].
    ok_step R512_update s3 R3; [exact R2|exact Br|].
    ok_step R512_update s4 R4; [exact R3|exact Bm|].
    ok_step R512_final_full s5 Sh5; [exact R4|rewrite !zlen_app, zlen_nil; lia|].
    cbn [app] in *. rewrite <- !app_assoc. set (h := D512 (R ++ seed ++ root ++ msg)).
    assert (Lh : zlen h = 64) by (unfold zlen, h; rewrite D512_len; reflexivity).
    assert (Bh : is_bytes h) by apply D512_bytes.
    set (z := uninit _). assert (Lz : zlen z = 2 * TS_MAX_HASH cfg + 64 + 4) by (unfold z; rewrite zlen_uninit; lia).
    clearbody z.
    destruct (msg_hash_build z R h 64 LR Lh) as (mh & Emh & Lmh & Fmh); [lia|lia|].
    destruct (wr_local z (2 * n) h) as [m1|]; cbn [bind] in Emh |- *; [|discriminate].
    destruct (wr_local m1 0 R) as [m2|]; cbn [bind] in Emh |- *; [|discriminate].
    rewrite Emh. cbn [bind].
    destruct (mgf512_ok (Datatypes.S (Z.to_nat 49)) n mh s5 0 49 (R ++ seed ++ h) Sh5 Hn) as (s6 & E6 & Sh6); auto; try lia.
    { rewrite !zlen_app; lia. }
    { apply bytes_app; [exact BR|]. apply bytes_app; [apply (e_seed_bytes E)|exact Bh]. }
    rewrite E6. cbn [bind].
    destruct (put512_iter E _ s6 F I Sh6) as (it' & -> & I' & _). cbn [bind]. exists it'. split; [|exact I'].
    unfold MGF1. rewrite hlen512. reflexivity.
Qed.
End Msg.
