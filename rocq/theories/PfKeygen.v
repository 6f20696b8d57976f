(** * Key generation computes slh_keygen_internal *)
From Verif Require Import Arr SpecSLH SpecApi ModelParams ModelCtx ModelHash ModelSphincs ModelKeygen SpecMap PfGlueSha PfIter PfEnv PfAdr PfGlue PfMsg PfCtx PfTree PfPaths PfBits PfWots PfSpec PfSign PfApi.
Ltac Zify.zify_post_hook ::= idtac.


Lemma zeros_of k : 0 <= k -> bytes_of k (repeat 0 (Z.to_nat k)).
Proof. intros H. split; [unfold zlen; rewrite repeat_length; lia|apply zeros_bytes']. Qed.
Lemma zero_wf cfg ps : wf_ctx cfg (zero_ctx cfg ps).
Proof.
  assert (T : 16 <= TS_MAX_HASH cfg) by (unfold TS_MAX_HASH; destruct (cfg_L5 cfg), (cfg_L3 cfg); lia).
  assert (W : forall b k, 0 < b -> words b (repeat 0 k)).
  { intros b k Hb. apply Forall_forall. intros x Hx. apply repeat_spec in Hx. subst x. split; [lia|apply Z.pow_pos_nonneg; lia]. }
  apply mkWf.
  - change (0 <= 0 < 2 ^ 32). lia.
  - apply zeros_of. lia.
  - change (0 <= 0 < 256). lia.
  - change (0 <= 0 < 256). lia.
  - change (0 <= 0 < 256). lia.
  - change (0 <= 0 < 256). lia.
  - apply zeros_of. unfold ADR_SIZE. destruct (cfg_shake cfg); lia.
  - change (0 <= 0 < 2 ^ 16). lia.
  - change (0 <= 0 < 2 ^ 16). lia.
  - change (0 <= 0 < 2 ^ 64). lia.
  - apply zeros_of. lia.
  - apply zeros_of. unfold SIZEOF_T_ITERATOR, SIZEOF_SHAKE256_CTX. destruct (cfg_shake cfg), (cfg_sha2 cfg); lia.
  - apply zeros_of. unfold SIZEOF_T_ITERATOR, SIZEOF_SHAKE256_CTX. destruct (cfg_shake cfg), (cfg_sha2 cfg); lia.
  - split; [|apply W; lia]. unfold zlen, zero_ctx. cbn [c_prehash_sha256]. rewrite repeat_length. destruct (has_prehash256 cfg); lia.
  - split; [|apply W; lia]. unfold zlen, zero_ctx. cbn [c_prehash_sha512]. rewrite repeat_length. destruct (has_prehash512 cfg); lia.
  - apply zeros_of. unfold SIZEOF_X, round_up. assert (0 < SIZEOF_PTR cfg) by (unfold SIZEOF_PTR; destruct (cfg_ptr64 cfg); reflexivity). apply Z.mul_nonneg_nonneg; [|lia]. apply Z.div_pos; lia.
Qed.

Section Gen.
Variable E : env.
Local Notation cfg := (e_cfg E). Local Notation mem := (e_mem E). Local Notation P := (e_P E). Local Notation n := (e_n E).
Local Notation seed := (e_seed E).
Variable sk : list Z.
Hypothesis Hsk : sk_at E sk.

Lemma gen_root_ok : gen_root cfg mem (e_pk E - 2 * n) (e_ps E) = Ok (slh_root P seed sk).
Proof.
  pose proof (n_bounds E) as Nb. pose proof (d_bounds E) as Db. pose proof (mh_bounds E) as Mb.
  unfold gen_root. rewrite (ps_n_eq E).
  set (c0 := set_public_key _ _).
  assert (PG : pregood E c0).
  { pose proof (zero_wf cfg (e_ps E)) as W. split; [destruct W; split; assumption|reflexivity|].
    unfold c0. cbn [c_public_key set_public_key]. unfold CONVERT_PRIVATE_KEY_TO_PUBLIC. lia. }
  destruct (prehash_ok_good E c0 PG) as (c1 & -> & G1 & (it & q1 & q2 & EC1)). cbn [bind].
  rewrite (ps_d_eq E). unfold u8. rewrite (Z.mod_small n) by lia. rewrite (Z.mod_small (p_d P - 1)) by lia.
  set (c2 := set_merkle_level 0 _).
  assert (G2 : good E c2).
  { apply good_merkle_level; [lia|]. apply good_auth_path_node; [lia|]. apply good_tree; [lia|]. apply good_level; [lia|]. apply good_offset; [lia|exact G1]. }
  change (c_auth_path_node c2) with 0.
  destruct (ts_wots_leaf_ok E sk BufAuth 0 c2 G2 Hsk) as (a5 & s5 & g5 & v5 & O5 & I5 & S5 & ->). cbn [bind].
  set (A := setLayerAddress (p_d P - 1) zero_ADRS).
  set (c3 := buf_set _ _ _).
  assert (Q3 : good E c3 /\ core c3 = core c2 /\ buf_is BufAuth (xmss_node P seed sk 0 0 A) c3).
  { split; [|split].
    - apply good_buf_set; [apply wots_pkGen_ok, Hsk|]. apply good_big; [exact I5|]. apply good_buf_set; [exact S5|]. apply good_scr; assumption.
    - reflexivity.
    - apply buf_is_set. }
  destruct Q3 as (G3 & C3 & B3).
  pose (Q := fun (h : Z) (c : ts_context) => good E c /\ c_fors_keypair_addr c = 0 /\ c_fors_tree c = 0 /\ c_merkle_level c = h /\
     c_auth_path_node c = 0 /\ c_hypertree_level c = p_d P - 1 /\ c_tree_address c = 0 /\ buf_is BufAuth (xmss_node P seed sk 0 (Z.to_nat h) A) c).
  destruct (for_loop_inv Q (fun _ ctx => ts_merkle_path cfg mem (ts_wots_leaf cfg mem) ADR_TYPE_HASHTREE (merkle_stack cfg) ctx)
     (Z.to_nat (ps_merkle_h (e_ps E))) 0 c3) as (c4 & E4 & Q4).
  - apply core_inv in C3. destruct C3 as (K1 & K2 & K3 & K4 & K5 & K6 & K7 & K8).
    split; [exact G3|]. rewrite K7, K4, K5, K6, K3, K8.
    split; [unfold c2; rewrite EC1; reflexivity|]. split; [unfold c2; rewrite EC1; reflexivity|].
    split; [reflexivity|]. split; [reflexivity|]. split; [reflexivity|]. split; [reflexivity|exact B3].
  - intros h c Hh (G & Hk & Hf & Hm & Ha & Hl & Ht & HB). rewrite (ps_mh_eq E) in Hh.
    assert (EA : tree_A c = A) by (unfold tree_A; rewrite Hl, Ht; reflexivity).
    destruct (merkle_path_ok E sk c h 0 G Hsk Hk Hf Hm) as (c' & E' & G' & C' & _ & A'); auto; try lia.
    { rewrite EA, Zdiv_0_l. exact HB. }
    exists c'. split; [exact E'|]. rewrite EA, Zdiv_0_l in A'. apply core_inv in C'. destruct C' as (K1 & K2 & K3 & K4 & K5 & K6 & K7 & K8).
    split; [exact G'|]. rewrite K7, K4, K5, K6, K3, K8. split; [exact Hk|]. split; [exact Hf|]. split; [reflexivity|]. split; [exact Ha|]. split; [exact Hl|]. split; [exact Ht|exact A'].
  - rewrite E4. cbn [bind]. destruct Q4 as (G4 & _ & _ & _ & _ & _ & _ & B4).
    rewrite (ps_mh_eq E), Z2Nat.id, Z.add_0_l in B4 by lia.
    apply (buf_is_read E BufAuth (slh_root P seed sk) c4); [|exact B4].
    apply (xmss_node_ok E sk _ _ Hsk).
Qed.
End Gen.

(** ** ts_gen_key *)
Section GenKey.
Variable cfg : config.
Variable p : ps_name.
Hypothesis on : ps_enabled cfg p = true.
Local Notation P := (slh_of p). Local Notation n := (p_n (slh_of p)).

Lemma gen_root_priv addr priv : is_bytes priv -> 4 * n <= len priv ->
  gen_root cfg (mem_of addr priv) addr (the_ps cfg p) = Ok (slh_root P (slice priv (2 * n) n) (slice priv 0 n)) /\
  len (slh_root P (slice priv (2 * n) n) (slice priv 0 n)) = n /\ is_bytes (slh_root P (slice priv (2 * n) n) (slice priv 0 n)).
Proof.
  intros B L. pose proof (mem_of_holds addr priv B) as H. assert (Nb : 16 <= n <= 32) by (destruct p; cbn; lia).
  destruct (KE_build cfg p (addr + 2 * n) (slice priv (2 * n) n) (mem_of addr priv) on) as (E & HE & Em).
  { apply load_slice; [exact H|lia|lia|lia]. } { apply slice_bytes, B. }
  pose proof HE as (Ec & Ep & Epk & Es). destruct (KE_facts _ _ _ _ _ HE) as (En & EP & _).
  assert (Hsk : sk_at E (slice priv 0 n)).
  { unfold sk_at. rewrite Em, Epk, En. replace (addr + 2 * n - 2 * n) with (addr + 0) by lia. split; [apply load_slice; [exact H|lia|lia|lia]|].
    unfold str_ok. rewrite En. split; [apply slice_zlen; [lia|lia|]; change (@zlen Z) with len; lia|apply slice_bytes, B]. }
  pose proof (gen_root_ok E _ Hsk) as X. unfold e_ps in X. rewrite Ec, Em, Epk, En, EP, Es, Ep in X.
  replace (addr + 2 * n - 2 * n) with addr in X by lia. split; [exact X|].
  destruct (xmss_node_ok E (slice priv 0 n) (setLayerAddress (p_d P - 1) zero_ADRS) (Z.to_nat (p_h' P)) Hsk 0) as [L1 B1].
  rewrite EP, Es in L1, B1. rewrite En in L1. split; [exact L1|exact B1].
Qed.

Theorem gen_key_ok addr priv pub f : is_bytes priv -> 4 * n <= len priv ->
  match pub with Some b => 2 * n <= len b | None => True end ->
  forall ret data, f (3 * n) = (ret, data) -> is_bytes data -> len data <= 3 * n -> (ret <> 0 -> len data = 3 * n) ->
  ts_gen_key cfg (Some (addr, priv)) pub (Some (the_ps cfg p)) (Some f) =
  Ok (if ret =? 0 then (0, Some (data ++ skipn (length data) priv), pub)
      else let '(SK, PK) := slh_keygen_internal P (slice data 0 n) (slice data n n) (slice data (2 * n) n) in
        (1, Some (SK ++ skipn (Z.to_nat (4 * n)) priv), option_map (fun b => PK ++ skipn (Z.to_nat (2 * n)) b) pub)).
Proof.
  intros B L Lp ret data Hf Bd Ld Hd. assert (Nb : 16 <= n <= 32) by (destruct p; cbn; lia).
  assert (En : ps_n (the_ps cfg p) = n) by (destruct p; reflexivity).
  unfold ts_gen_key, ts_gen_key_gen. cbn [option_map]. rewrite En, Hf. rewrite wr_range_pre by (change (@zlen Z) with len; lia). cbn [bind].
  destruct (Z.eqb_spec ret 0) as [Er|Er]; [reflexivity|]. specialize (Hd Er).
  set (priv1 := data ++ skipn (length data) priv).
  assert (B1 : is_bytes priv1) by (apply bytes_app; [exact Bd|apply Forall_skipn', B]).
  assert (L1 : len priv1 = len priv) by (unfold priv1; rewrite len_app; unfold len in *; rewrite skipn_length; lia).
  destruct (gen_root_priv addr priv1 B1 ltac:(lia)) as (-> & LR & BR). cbn [bind].
  assert (S1 : forall o, 0 <= o -> o + n <= 3 * n -> slice priv1 o n = slice data o n).
  { intros o H1 H2. apply slice_app_l; [lia|lia|]. change (@zlen Z) with len. lia. }
  rewrite (S1 0), (S1 (2 * n)) in * by lia.
  set (root := slh_root P (slice data (2 * n) n) (slice data 0 n)) in *.
  replace (CONVERT_PUBLIC_KEY_TO_ROOT (CONVERT_PRIVATE_KEY_TO_PUBLIC 0 n) n) with (3 * n) by (unfold CONVERT_PUBLIC_KEY_TO_ROOT, CONVERT_PRIVATE_KEY_TO_PUBLIC; lia).
  replace (CONVERT_PRIVATE_KEY_TO_PUBLIC 0 n) with (2 * n) by (unfold CONVERT_PRIVATE_KEY_TO_PUBLIC; lia).
  rewrite wr_range_ok by (change (@zlen Z) with len; lia). cbn [bind].
  assert (ES : data = slice data 0 n ++ slice data n n ++ slice data (2 * n) n).
  { unfold slice. rewrite <- (firstn_skipn (Z.to_nat n) data) at 1. f_equal.
    rewrite <- (firstn_skipn (Z.to_nat n) (skipn (Z.to_nat n) data)) at 1. f_equal. rewrite skipn_skipn'.
    replace (Z.to_nat n + Z.to_nat n)%nat with (Z.to_nat (2 * n)) by lia. symmetry. apply firstn_all2. rewrite skipn_length. unfold len in *. lia. }
  assert (EF : firstn (Z.to_nat (3 * n)) priv1 = data).
  { unfold priv1. apply firstn_app_exact. unfold len in *. lia. }
  assert (EK : skipn (Z.to_nat (3 * n) + length root) priv1 = skipn (Z.to_nat (4 * n)) priv).
  { unfold priv1. rewrite skipn_app. rewrite skipn_all2 by (unfold len in *; lia). cbn [app]. rewrite skipn_skipn'. f_equal. unfold len in *. lia. }
  rewrite EF, EK. unfold slh_keygen_internal. fold root.
  set (sk := slice data 0 n) in *. set (pf := slice data n n) in *. set (sd := slice data (2 * n) n) in *.
  assert (Lsk : len sk = n) by (apply slice_zlen; change (@zlen Z) with len; lia).
  assert (Lpf : len pf = n) by (apply slice_zlen; change (@zlen Z) with len; lia).
  assert (Lsd : len sd = n) by (apply slice_zlen; change (@zlen Z) with len; lia).
  assert (EL : data ++ root ++ skipn (Z.to_nat (4 * n)) priv = (sk ++ pf ++ sd ++ root) ++ skipn (Z.to_nat (4 * n)) priv).
  { rewrite ES. rewrite <- !app_assoc. reflexivity. }
  rewrite EL. destruct pub as [b|]; cbn [option_map]; [|reflexivity].
  assert (ER : rd_range ((sk ++ pf ++ sd ++ root) ++ skipn (Z.to_nat (4 * n)) priv) (2 * n) (2 * n) = Ok (sd ++ root)).
  { replace ((sk ++ pf ++ sd ++ root) ++ skipn (Z.to_nat (4 * n)) priv) with ((sk ++ pf) ++ (sd ++ root) ++ skipn (Z.to_nat (4 * n)) priv) by (rewrite <- !app_assoc; reflexivity).
    apply rd_range_mid; rewrite zlen_app; change (@zlen Z) with len; lia. }
  rewrite ER. cbn [bind]. rewrite wr_range_pre by (rewrite zlen_app; change (@zlen Z) with len; lia). cbn [bind].
  assert (EQ : length (sd ++ root) = Z.to_nat (2 * n)) by (unfold len in *; rewrite app_length; lia). rewrite EQ. reflexivity.
Qed.
End GenKey.
