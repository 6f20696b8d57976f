(** * From [ready] contexts to the invariant of the proofs *)
From Verif Require Import Arr SpecSLH SpecMap CSem ModelParams ModelCtx ModelHash ModelSphincs SpecApi PropParams SpecParts
  PfIter PfEnv PfAdr PfGlueSha PfGlue PfMsg PfCtx PfTree PfPaths PfBits PfWots PfSpec PfApi.
Ltac Zify.zify_post_hook ::= idtac.

Lemma lies_load mem a n X : lies_at mem a n X -> load mem a n = Ok X.
Proof. intros [H [L B]]. apply holds_load in H. change (len X) with (zlen X) in H. rewrite L in H. exact H. Qed.
Lemma lies_bytes mem a n X : lies_at mem a n X -> is_bytes X.
Proof. intros [H [L B]]. exact B. Qed.

Section Parts.
Variables (cfg : config) (mem : memory) (p : ps_name) (pk : Z) (seed : list Z).
Hypothesis on : ps_enabled cfg p = true.
Hypothesis Hseed : lies_at mem pk (p_n (slh_of p)) seed.
Definition E0 : env := mkEnv cfg mem p pk seed on (lies_load _ _ _ _ Hseed) (lies_bytes _ _ _ _ Hseed).
Local Notation n := (p_n (slh_of p)).

Lemma ready_good c : ready cfg mem p pk c -> good E0 c.
Proof.
  intros (W & Hp & Hk & c0 & c1 & W0 & Hp0 & Hk0 & Hc & Q1 & Q2).
  assert (G0 : pregood E0 c0) by (apply mkPregood; assumption).
  destruct (prehash_ok_good E0 c0 G0) as (c1' & Hc' & G1 & _).
  change (e_cfg E0) with cfg in Hc'. change (e_mem E0) with mem in Hc'.
  assert (c1' = c1) by congruence. rewrite H in G1.
  apply mkGood; [exact W|exact Hp|exact Hk|]. destruct (g_pre E0 c1 G1) as [A B].
  apply mkPre; [rewrite Q1; exact A|rewrite Q2; exact B].
Qed.
Lemma good_ready c : good E0 c -> ready cfg mem p pk c.
Proof.
  intros G. split; [apply (g_wf _ _ G)|]. split; [apply (g_ps _ _ G)|]. split; [apply (g_pk _ _ G)|].
  assert (G0 : pregood E0 c) by (destruct G; apply mkPregood; assumption).
  destruct (prehash_ok_good E0 c G0) as (c1 & Hc & G1 & _).
  change (e_cfg E0) with cfg in Hc. change (e_mem E0) with mem in Hc.
  exists c, c1. split; [apply (g_wf _ _ G)|]. split; [apply (g_ps _ _ G)|]. split; [apply (g_pk _ _ G)|]. split; [exact Hc|].
  destruct (g_pre _ _ G) as [a b]. destruct (g_pre _ _ G1) as [a1 b1]. change (e_cfg E0) with cfg in *.
  pose proof Hc as Hc2. unfold call_compute_prehash in Hc2. rewrite (g_ps _ _ G), ps_pre_eq in Hc2. change (e_cfg E0) with cfg in Hc2.
  destruct (cfg_sha2_opt cfg) eqn:O.
  2:{ assert (c1 = c) by (destruct (e_fam E0); congruence). rewrite H. auto. }
  destruct (e_fam E0) eqn:F.
  - assert (c1 = c) by congruence. rewrite H. auto.
  - split; [rewrite a, a1 by congruence; reflexivity|].
    destruct (L1_prehash_ok E0 c G0 ltac:(congruence) O) as (it & El & _). change (e_cfg E0) with cfg in El. change (e_mem E0) with mem in El.
    assert (c1 = set_prehash_sha256 (S256 (sha_seed_block E0 64)) (set_small_iter it c)) by congruence. rewrite H. reflexivity.
  - split; [rewrite a, a1 by congruence; reflexivity|rewrite b, b1 by congruence; reflexivity].
Qed.
Lemma fam_sha2 : (match fam p with FShake => adrs_bytes | _ => adrs_compressed end) = (if is_sha2 p then adrs_compressed else adrs_bytes).
Proof. destruct p; reflexivity. Qed.
Lemma adr_string_eq A : adr_string E0 A = address_bytes p A.
Proof. unfold adr_string, address_bytes, e_fam. cbn [e_p E0]. destruct p; reflexivity. Qed.
Lemma address_rep c A : wf_ctx cfg c -> address_is p c A -> adr_rep E0 (c_adr c) A.
Proof.
  intros W H. unfold adr_rep. split; [exact (wf_adr _ _ W)|]. rewrite <- (adr_string_len E0 A), adr_string_eq.
  unfold address_is in H. rewrite <- H at 2.
  assert (L : (length (address_bytes p A) <= length (c_adr c))%nat).
  { rewrite <- H. rewrite firstn_length. lia. }
  rewrite rd_range_ok by (unfold zlen; lia). cbn [Z.to_nat skipn]. f_equal. f_equal. unfold zlen. lia.
Qed.
Lemma rep_address c A : adr_rep E0 (c_adr c) A -> address_is p c A.
Proof.
  intros [[L _] R]. unfold address_is. rewrite <- (adr_string_len E0 A), adr_string_eq in R.
  unfold rd_range in R. destruct (_ && _); [|discriminate]. injection R as R. cbn [Z.to_nat skipn] in R.
  unfold zlen in R. rewrite Nat2Z.id in R. exact R.
Qed.
Lemma buf_output v c : buf_is BufBuffer v c -> zlen v = n -> output p c = v.
Proof.
  intros [t H] L. unfold output. cbn [buf_of] in H. rewrite H. apply firstn_app_exact. unfold zlen in L. lia.
Qed.
Lemma buf_running v c : buf_is BufAuth v c -> zlen v = n -> running p c = v.
Proof.
  intros [t H] L. unfold running. cbn [buf_of] in H. rewrite H. apply firstn_app_exact. unfold zlen in L. lia.
Qed.
Lemma running_buf v c : running p c = v -> buf_is BufAuth v c.
Proof.
  intros <-. exists (skipn (Z.to_nat n) (c_auth_path_buffer c)). symmetry. apply firstn_skipn.
Qed.
Lemma t_next blocks : forall it A D c rest, good E0 c -> irep E0 it A D -> length rest = length blocks ->
  Forall (fun X => nbytes n X) blocks ->
  exists it', t_feed cfg it (map (fun q => fst q ++ snd q) (combine blocks rest)) c = Ok it' /\
    irep E0 it' A (D ++ concat blocks).
Proof.
  induction blocks as [|X blocks IH]; intros it A D c rest G I Lr HF.
  - exists it. cbn. rewrite app_nil_r. auto.
  - destruct rest as [|r rest]; [discriminate|]. apply Forall_cons_iff in HF. destruct HF as [HX HF].
    cbn [combine map t_feed fst snd].
    destruct (next_t_ok E0 it A D (X ++ r) X c G I) as (it' & E1 & I1); [apply rd_range_0, HX|exact HX|].
    change (e_cfg E0) with cfg in E1. rewrite E1. cbn [bind].
    destruct (IH it' A (D ++ X) c rest G I1) as (it2 & E2 & I2); [cbn in Lr; lia|exact HF|].
    exists it2. split; [exact E2|]. cbn [concat]. rewrite app_assoc. exact I2.
Qed.
End Parts.
