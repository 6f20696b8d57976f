(** * Bounds for the automatic storage: the parameter sets, the API, histories *)
From Verif Require Import SpecApi CSem CStack ModelEndian ModelSha256 ModelSha512 ModelFips202 ModelParams ModelCtx ModelHash ModelSphincs ModelKeygen ModelVerify ModelApi
  StkSha2 StkFips202 StkHash StkSphincs StkVerify StkApi PfStkErase PfStkErase2 PfStkErase3 PfStkErase4 PfStack PfStackOps SpecStack.
Ltac Zify.zify_post_hook ::= idtac.

(** ** The bounds of the hash functions, by family *)
Definition b_prf cfg p := match family_of p with Shake => 12 * SIZEOF_PTR cfg + 8 + perm_space (cfg_shake_opt cfg) | _ => 13 * SIZEOF_PTR cfg + 96 end.
Definition b_f cfg p := match family_of p with Shake => 17 * SIZEOF_PTR cfg + 8 + perm_space (cfg_shake_opt cfg) | _ => 14 * SIZEOF_PTR cfg + 96 end.
Definition b_t cfg p := match family_of p with Shake => 13 * SIZEOF_PTR cfg + 8 + perm_space (cfg_shake_opt cfg)
  | Sha2_category1 => 13 * SIZEOF_PTR cfg + 96 | _ => 13 * SIZEOF_PTR cfg + 140 end.
Definition b_prf_msg cfg p := match family_of p with Shake => 16 * SIZEOF_PTR cfg + 8 + perm_space (cfg_shake_opt cfg)
  | Sha2_category1 => 19 * SIZEOF_PTR cfg + 200 | _ => 19 * SIZEOF_PTR cfg + 340 end.
Definition b_hash_msg cfg p := match family_of p with Shake => 19 * SIZEOF_PTR cfg + 8 + perm_space (cfg_shake_opt cfg)
  | Sha2_category1 => 20 * SIZEOF_PTR cfg + 172 + 2 * TS_MAX_HASH cfg | _ => 20 * SIZEOF_PTR cfg + 280 + 2 * TS_MAX_HASH cfg end.
Definition b_prehash cfg p := if cfg_sha2_opt cfg then match family_of p with Shake => 0
  | Sha2_category1 => 10 * SIZEOF_PTR cfg + 84 | _ => 10 * SIZEOF_PTR cfg + 120 end else 0.

Section Family.
Variable cfg : config.
Variable p : ps_name.
Let HP := ptr_size cfg.
Let HT := max_hash_pos cfg.
Let HK := perm_space_pos (cfg_shake_opt cfg).
Local Notation ps := (the_ps cfg p).
Ltac side := intros; first
  [ apply ft_sha2_prf; assumption | apply ft_shk_prf; assumption | apply ft_sha2_f; assumption | apply ft_shk_f; assumption
  | apply ft_L1_final | apply ft_L35_final | apply ft_shk_init | apply ft_shk_next | apply ft_shk_final
  | apply ft_L1_prf_msg; assumption | apply ft_L35_prf_msg; assumption | apply ft_shk_prf_msg; assumption
  | apply ft_L1_hash_msg; assumption | apply ft_L35_hash_msg; assumption | apply ft_shk_hash_msg; assumption
  | eapply fits_le; [first [apply ft_L1_init | apply ft_L1_next | apply ft_L35_init | apply ft_L35_next]|lia] ].
Lemma fam_prf mem c : c_ps c = ps -> fits (b_prf cfg p) (keep2 ps) (k_call_prf cfg mem c).
Proof using HP HK. unfold k_call_prf, b_prf. intros E. rewrite E. destruct p; cbn [the_ps family_of]; side. Qed.
Lemma fam_f mem b c : c_ps c = ps -> fits (b_f cfg p) (keep2 ps) (k_call_f cfg mem b c).
Proof using HP HK. unfold k_call_f, b_f. intros E. rewrite E. destruct p; cbn [the_ps family_of]; side. Qed.
Lemma fam_init mem t c : c_ps c = ps -> fits (b_t cfg p) anything (k_call_init_t cfg mem t c).
Proof using HP HK. unfold k_call_init_t, b_t. intros E. rewrite E. destruct p; cbn [the_ps family_of]; side. Qed.
Lemma fam_next t i c : c_ps c = ps -> fits (b_t cfg p) anything (k_call_next_t cfg t i c).
Proof using HP HK. unfold k_call_next_t, b_t. intros E. rewrite E. destruct p; cbn [the_ps family_of]; side. Qed.
Lemma fam_final t c : c_ps c = ps -> fits (b_t cfg p) anything (k_call_final_t cfg t c).
Proof using HP HK. unfold k_call_final_t, b_t. intros E. rewrite E. destruct p; cbn [the_ps family_of]; side. Qed.
Lemma fam_prf_msg mem o m c : c_ps c = ps -> fits (b_prf_msg cfg p) (keep2 ps) (k_call_prf_msg cfg mem o m c).
Proof using HP HK. unfold k_call_prf_msg, b_prf_msg. intros E. rewrite E. destruct p; cbn [the_ps family_of]; side. Qed.
Lemma fam_hash_msg mem n r m c : c_ps c = ps -> fits (b_hash_msg cfg p) (keep2 ps) (k_call_hash_msg cfg mem n r m c).
Proof using HP HK HT. unfold k_call_hash_msg, b_hash_msg. intros E. rewrite E. destruct p; cbn [the_ps family_of]; side. Qed.
Lemma fam_prehash mem c : c_ps c = ps -> fits (b_prehash cfg p) (keep ps) (k_call_compute_prehash cfg mem c).
Proof using HP.
  unfold k_call_compute_prehash, b_prehash. intros E. destruct (cfg_sha2_opt cfg) eqn:O; [|apply fits_ret; [lia|exact E]].
  assert (F : ps_compute_prehash ps = match family_of p with Shake => None | Sha2_category1 => Some sha2_L1_prehash | _ => Some sha2_L35_prehash end).
  { destruct p; cbn; rewrite ?O; reflexivity. }
  rewrite E, F. destruct (family_of p); [apply fits_ret; [lia|exact E] | apply ft_L1_prehash; exact E | apply ft_L35_prehash; exact E].
Qed.
Ltac lo := unfold b_prf, b_f, b_t, b_prf_msg, b_hash_msg, b_prehash; destruct (family_of p); try destruct (cfg_sha2_opt cfg); lia.
Lemma lo_p : 4 * SIZEOF_PTR cfg + 40 <= b_prf cfg p. Proof using HP HK. lo. Qed.
Lemma lo_f : 4 * SIZEOF_PTR cfg + 40 <= b_f cfg p. Proof using HP HK. lo. Qed.
Lemma lo_t : 5 * SIZEOF_PTR cfg + 40 <= b_t cfg p. Proof using HP HK. lo. Qed.
Lemma lo_m : 0 <= b_prf_msg cfg p. Proof using HP HK. lo. Qed.
Lemma lo_h : 5 * SIZEOF_PTR cfg + 40 <= b_hash_msg cfg p. Proof using HP HK HT. lo. Qed.
Lemma lo_q : 0 <= b_prehash cfg p. Proof using HP. lo. Qed.

Lemma w_ptr : w cfg = SIZEOF_PTR cfg. Proof. reflexivity. Qed.
Lemma largest_max : largest cfg = TS_MAX_HASH cfg. Proof. reflexivity. Qed.
Lemma keccak_perm : keccak cfg = perm_space (cfg_shake_opt cfg). Proof. reflexivity. Qed.
Ltac fig := rewrite ?w_ptr, ?largest_max, ?keccak_perm; unfold b_prf, b_f, b_t, b_prf_msg, b_hash_msg, b_prehash; destruct (family_of p); try destruct (cfg_sha2_opt cfg); lia.

Theorem fit_init_sign_gen {R} mem c msg l k (rng : random_generator R) r :
  fits (init_sign_storage cfg p) (keep1 ps) (k_ts_init_sign_gen cfg mem c msg l ps k rng r).
Proof using HP HT HK.
  eapply fits_le; [exact (ft_init_sign_gen cfg ps _ _ _ _ lo_t lo_m lo_h lo_q fam_init fam_prf_msg fam_hash_msg fam_prehash mem c msg l k rng r)|].
  unfold init_sign_storage. fig.
Qed.
Theorem fit_init_sign mem c msg l k f : fits (init_sign_storage cfg p) (keep ps) (k_ts_init_sign cfg mem c msg l ps k f).
Proof using HP HT HK.
  unfold k_ts_init_sign. eapply fits_bind; [apply fit_init_sign_gen|]. intros [c' u] _ H. apply fits_ret; [|exact H].
  unfold init_sign_storage. fig.
Qed.
Theorem fit_sign mem d m c : c_ps c = ps -> fits (sign_storage cfg p) (keep2 ps) (k_ts_sign cfg mem d m c).
Proof using HP HK.
  intros E. eapply fits_le; [exact (ft_sign cfg ps _ _ _ lo_p lo_f lo_t fam_prf fam_f fam_init fam_next fam_final mem d m c E)|].
  unfold sign_storage. fig.
Qed.
Theorem fit_init_verify mem c msg l k : fits (init_verify_storage cfg p) (keep ps) (k_ts_init_verify cfg mem c msg l ps k).
Proof using HP.
  eapply fits_le; [exact (ft_init_verify cfg ps _ lo_q fam_prehash mem c msg l k)|].
  unfold init_verify_storage. fig.
Qed.
Theorem fit_update_verify mem s m c : c_ps c = ps -> fits (update_verify_storage cfg p) (keep2 ps) (k_ts_update_verify cfg mem s m c).
Proof using HP HK HT.
  intros E. eapply fits_le; [exact (ft_update_verify cfg ps _ _ _ lo_f lo_t lo_h fam_f fam_init fam_next fam_final fam_hash_msg mem s m c E)|].
  unfold update_verify_storage. fig.
Qed.
Theorem fit_gen_key {R} k pub (rng : random_generator R) r :
  fits (SIZEOF_TS_CONTEXT cfg + keygen_storage cfg p) anything (k_ts_gen_key_gen cfg k pub (Some ps) rng r).
Proof using HP HK.
  eapply fits_le; [exact (ft_gen_key cfg ps _ _ _ _ lo_p lo_f lo_t lo_q fam_prf fam_f fam_init fam_next fam_final fam_prehash k pub rng r)|].
  unfold keygen_storage. fig.
Qed.
End Family.

(** ** Call histories *)
Lemma action_storage_pos cfg p act : 0 <= action_storage cfg p act.
Proof.
  pose proof (ptr_size cfg) as HP. pose proof (max_hash_pos cfg) as HT. pose proof (perm_space_pos (cfg_shake_opt cfg)) as HK.
  destruct act as [? ? q ? ?|? ?|? ? q ?|?|]; cbn [action_storage];
    unfold init_sign_storage, sign_storage, init_verify_storage, update_verify_storage; rewrite ?w_ptr, ?largest_max, ?keccak_perm;
    [destruct (family_of q)|destruct (family_of p)|destruct (family_of q), (cfg_sha2_opt cfg)|destruct (family_of p)|]; lia.
Qed.
Theorem fit_call cfg p m act c : c_ps c = the_ps cfg p \/ is_init act ->
  fits (action_storage cfg p act) (keep2 (the_ps cfg (next_set p act))) (k_api_call cfg m act c).
Proof.
  intros H. pose proof (action_storage_pos cfg p act) as N. destruct act as [msg l q sk f|d z|msg l q pk|s|]; cbn [action_storage next_set k_api_call is_init] in *.
  - eapply fits_bind; [apply fit_init_sign|]. intros c' _ E. apply fits_ret; [exact N|exact E].
  - destruct H as [H|[]]. eapply fits_bind; [exact (fit_sign cfg p m d z c H)|]. intros [[r d'] c'] _ E. apply fits_ret; [exact N|exact E].
  - eapply fits_bind; [apply fit_init_verify|]. intros c' _ E. apply fits_ret; [exact N|exact E].
  - destruct H as [H|[]]. eapply fits_bind; [exact (fit_update_verify cfg p m s (zlen s) c H)|]. intros [r c'] _ E. apply fits_ret; [exact N|exact E].
  - destruct H as [H|[]]. unfold k_ts_verify. apply (fits_bind _ anything); [apply fits_call; apply fits_ret; [rewrite w_ptr; lia|exact I]|].
    intros v _ _. apply fits_ret; [exact N|exact H].
Qed.
Theorem fit_calls cfg : forall h p c, c_ps c = the_ps cfg p \/ match h with (_, act) :: _ => is_init act | [] => True end ->
  fits (history_storage cfg p h) anything (k_calls cfg h c).
Proof.
  induction h as [|[m act] h IH]; intros p c H; cbn [k_calls history_storage].
  - apply fits_ret; [lia|exact I].
  - pose proof (action_storage_pos cfg p act). eapply fits_bind; [eapply fits_le; [exact (fit_call cfg p m act c H)|lia]|].
    intros [o c'] _ E. unfold keep2 in E. cbn [snd] in E.
    eapply fits_bind; [eapply fits_le; [exact (IH (next_set p act) c' (or_introl E))|lia]|]. intros [os c''] _ _. apply fits_ret; [lia|exact I].
Qed.
Lemma ke_api_call cfg m act c : answer (k_api_call cfg m act c) = call cfg m act c.
Proof.
  destruct act as [msg l q sk f|d z|msg l q pk|s|]; cbn [k_api_call call]; rewrite ?answer_bind.
  - apply bind_ext2; [apply ke_init_sign|reflexivity].
  - apply bind_ext2; [apply ke_sign|]. intros [[r d'] c']. reflexivity.
  - apply bind_ext2; [apply ke_init_verify|reflexivity].
  - apply bind_ext2; [apply ke_update_verify|]. intros [r c']. reflexivity.
  - reflexivity.
Qed.
Lemma ke_calls cfg : forall h c, answer (k_calls cfg h c) = calls cfg h c.
Proof.
  induction h as [|[m act] h IH]; intros c; [reflexivity|]. cbn [k_calls calls]. rewrite answer_bind. apply bind_ext2; [apply ke_api_call|].
  intros [o c']. rewrite answer_bind. apply bind_ext2; [apply IH|]. intros [os c'']. reflexivity.
Qed.
