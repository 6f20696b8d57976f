(** * The environment of a run: configuration, memory, parameter set, key *)
From Verif Require Import Arr SpecSha2 SpecSLH ModelSha256 ModelSha512 ModelFips202
  ModelParams ModelCtx ModelHash SpecMap PfIter.

Inductive family : Set := FShake | F1 | F35.
Definition fam (p : ps_name) : family :=
  match p with
  | SHAKE_128f | SHAKE_128s | SHAKE_192f | SHAKE_192s | SHAKE_256f | SHAKE_256s => FShake
  | SHA2_128f | SHA2_128s => F1
  | SHA2_192f | SHA2_192s | SHA2_256f | SHA2_256s => F35
  end.

Record env := mkEnv {
  e_cfg : config;
  e_mem : memory;
  e_p : ps_name;
  e_pk : Z;                 (* address of the public key *)
  e_seed : list Z;          (* PK.seed *)
  e_on : ps_enabled e_cfg e_p = true;
  e_seed_ld : load e_mem e_pk (p_n (slh_of e_p)) = Ok e_seed;
  e_seed_bytes : is_bytes e_seed
}.

Section Env.
Variable E : env.
Local Notation cfg := (e_cfg E).
Definition e_ps : parameter_set := the_ps cfg (e_p E).
Definition e_P : params := slh_of (e_p E).
Definition e_n : Z := p_n e_P.
Definition e_fam : family := fam (e_p E).
Definition e_hs : hashes := p_hash e_P.

Local Ltac cases := unfold e_ps, e_P, e_n, e_fam, e_hs, e_P in *; generalize (e_on E); destruct (e_p E); cbn; intros Hon.

Lemma ps_n_eq : ps_n e_ps = e_n. Proof. cases; reflexivity. Qed.
Lemma ps_k_eq : ps_k e_ps = p_k e_P. Proof. cases; reflexivity. Qed.
Lemma ps_t_eq : ps_t e_ps = p_a e_P. Proof. cases; reflexivity. Qed.
Lemma ps_h_eq : ps_h e_ps = p_h e_P. Proof. cases; reflexivity. Qed.
Lemma ps_d_eq : ps_d e_ps = p_d e_P. Proof. cases; reflexivity. Qed.
Lemma ps_mh_eq : ps_merkle_h e_ps = p_h' e_P. Proof. cases; reflexivity. Qed.
Lemma p_lgw_eq : p_lgw e_P = 4. Proof. cases; reflexivity. Qed.
Lemma ps_sha2_eq : ps_sha2 e_ps = match e_fam with FShake => false | _ => true end.
Proof. cases; reflexivity. Qed.
Lemma ps_prf_eq : ps_prf e_ps = match e_fam with FShake => shake256_prf | _ => sha2_prf end.
Proof. cases; reflexivity. Qed.
Lemma ps_f_eq : ps_f e_ps = match e_fam with FShake => shake256_f_simple | _ => sha2_f_simple end.
Proof. cases; reflexivity. Qed.
Lemma ps_init_eq : ps_init_t e_ps = match e_fam with FShake => shake256_init_t_simple
  | F1 => sha2_L1_init_t_simple | F35 => sha2_L35_init_t_simple end.
Proof. cases; reflexivity. Qed.
Lemma ps_next_eq : ps_next_t e_ps = match e_fam with FShake => shake256_next_t_simple
  | F1 => sha2_L1_next_t_simple | F35 => sha2_L35_next_t_simple end.
Proof. cases; reflexivity. Qed.
Lemma ps_final_eq : ps_final_t e_ps = match e_fam with FShake => shake256_final_t_simple
  | F1 => sha2_L1_final_t_simple | F35 => sha2_L35_final_t_simple end.
Proof. cases; reflexivity. Qed.
Lemma ps_prf_msg_eq : ps_prf_msg e_ps = match e_fam with FShake => shake256_prf_msg
  | F1 => sha2_L1_prf_msg | F35 => sha2_L35_prf_msg end.
Proof. cases; reflexivity. Qed.
Lemma ps_hash_msg_eq : ps_hash_msg e_ps = match e_fam with FShake => shake256_hash_msg
  | F1 => sha2_L1_hash_msg | F35 => sha2_L35_hash_msg end.
Proof. cases; reflexivity. Qed.
Lemma ps_pre_eq : ps_compute_prehash e_ps = match e_fam with FShake => None
  | F1 => if cfg_sha2_opt cfg then Some sha2_L1_prehash else None
  | F35 => if cfg_sha2_opt cfg then Some sha2_L35_prehash else None end.
Proof. cases; reflexivity. Qed.
Lemma hs_eq : e_hs = match e_fam with FShake => shake_hashes e_n (p_m e_P)
  | F1 => sha2_cat1_hashes e_n (p_m e_P) | F35 => sha2_cat35_hashes e_n (p_m e_P) end.
Proof. cases; reflexivity. Qed.
Lemma fam_on : match e_fam with FShake => cfg_shake cfg = true
  | F1 => cfg_sha2 cfg = true
  | F35 => cfg_sha2 cfg = true /\ (cfg_L5 cfg = true \/ cfg_L3 cfg = true) end.
Proof.
  cases; auto;
  repeat match goal with
  | H : _ && _ = true |- _ => apply andb_true_iff in H; destruct H
  | H : _ || _ = true |- _ => apply orb_true_iff in H end; auto; tauto.
Qed.
Lemma n_cases : e_n = 16 \/ e_n = 24 \/ e_n = 32.
Proof. cases; auto. Qed.
Lemma n_words : exists k, (k <= 8)%nat /\ e_n = 4 * Z.of_nat k.
Proof. destruct n_cases as [->|[->| ->]]; [exists 4%nat|exists 6%nat|exists 8%nat]; lia. Qed.
Lemma n_words8 : exists k, (k <= 4)%nat /\ e_n = 8 * Z.of_nat k.
Proof. destruct n_cases as [->|[->| ->]]; [exists 2%nat|exists 3%nat|exists 4%nat]; lia. Qed.
Lemma n_bounds : 16 <= e_n <= 32.
Proof. destruct n_cases as [->|[->| ->]]; lia. Qed.

Local Ltac cfgs := repeat match goal with
  | H : _ && _ = true |- _ => apply andb_true_iff in H; destruct H
  | H : _ || _ = true |- _ => apply orb_true_iff in H; destruct H
  | H : cfg_L5 _ = true |- _ => try rewrite H; clear H
  | H : cfg_L3 _ = true |- _ => try rewrite H; clear H
  | H : cfg_S _ = true |- _ => try rewrite H; clear H
  end.
Local Ltac ifs := repeat match goal with |- context [if ?b then _ else _] => destruct b end.
Lemma n_max : e_n <= TS_MAX_HASH cfg <= 32 /\ 16 <= TS_MAX_HASH cfg.
Proof. cases; unfold TS_MAX_HASH; cfgs; ifs; lia. Qed.
Lemma t_bounds : 6 <= p_a e_P <= 14 /\ p_a e_P <= TS_MAX_T cfg.
Proof. cases; unfold TS_MAX_T; cfgs; cbn [orb]; rewrite ?orb_true_r; ifs; lia. Qed.
Lemma k_bounds : 14 <= p_k e_P <= 35.
Proof. cases; lia. Qed.
Lemma mh_bounds : 3 <= p_h' e_P <= 9 /\ p_h' e_P <= TS_MAX_MERKLE_H cfg.
Proof. cases; unfold TS_MAX_MERKLE_H; cfgs; ifs; lia. Qed.
Lemma d_bounds : 7 <= p_d e_P <= 22.
Proof. cases; lia. Qed.
Lemma h_eq : p_h e_P = p_d e_P * p_h' e_P.
Proof. cases; reflexivity. Qed.
Lemma h_div : p_h e_P / p_d e_P = p_h' e_P.
Proof. cases; reflexivity. Qed.
Lemma h_sub : p_h e_P - p_h' e_P <= 64 /\ 54 <= p_h e_P - p_h' e_P.
Proof. cases; lia. Qed.
Lemma m_split : p_m e_P = ceil_div (p_k e_P * p_a e_P) 8 + ceil_div (p_h e_P - p_h' e_P) 8
                          + ceil_div (p_h e_P) (8 * p_d e_P).
Proof. cases; reflexivity. Qed.
Lemma ceil_h : ceil_div (p_h e_P) (8 * p_d e_P) = ceil_div (p_h' e_P) 8.
Proof. cases; reflexivity. Qed.
Lemma m_bounds : 30 <= p_m e_P <= 49.
Proof. cases; lia. Qed.
Lemma fors_stack_min : 49 <= FORS_STACK_SIZE cfg.
Proof.
  unfold FORS_STACK_SIZE, TS_MAX_T, TS_MAX_HASH.
  destruct (cfg_S cfg), (cfg_L5 cfg), (cfg_L3 cfg); cbn; lia.
Qed.
Lemma wlen_eq : wlen e_P = 2 * e_n + 3.
Proof. cases; reflexivity. Qed.
Lemma w_eq : SpecSLH.w e_P = 16.
Proof. cases; reflexivity. Qed.
Lemma len1_eq : len1 e_P = 2 * e_n.
Proof. cases; reflexivity. Qed.
Lemma len2_eq : len2 e_P = 3.
Proof. cases; reflexivity. Qed.

Lemma seed_len : zlen (e_seed E) = e_n.
Proof.
  pose proof n_bounds as Hn. pose proof (e_seed_ld E) as H. change (p_n (slh_of (e_p E))) with e_n in H.
  unfold load in H. destruct (Z.leb_spec 0 e_n) as [_|]; [|lia].
  assert (G : forall k m a l, load_n m a k = Ok l -> length l = k).
  { clear. induction k as [|k IH]; intros m a l; cbn [load_n]; [intros [= <-]; reflexivity|].
    destruct (m a); [|discriminate]. destruct (load_n m (a + 1) k) eqn:El; cbn [bind]; [|discriminate].
    intros [= <-]. cbn [length]. erewrite IH; eauto. }
  apply G in H. unfold zlen; lia.
Qed.

Definition sha_seed_block (b : Z) : list Z := e_seed E ++ repeat 0 (Z.to_nat (b - e_n)).

Record prehash_ok (c : ts_context) : Prop := mkPre {
  pre256 : cfg_sha2_opt cfg = true -> e_fam <> FShake ->
    c_prehash_sha256 c = fold_left (hash_block SHA256) (blocks 64 (sha_seed_block 64)) (v_H0 SHA256);
  pre512 : cfg_sha2_opt cfg = true -> e_fam = F35 ->
    c_prehash_sha512 c = fold_left (hash_block SHA512) (blocks 128 (sha_seed_block 128)) (v_H0 SHA512)
}.

Record good (c : ts_context) : Prop := mkGood {
  g_wf : wf_ctx cfg c;
  g_ps : c_ps c = e_ps;
  g_pk : c_public_key c = e_pk E;
  g_pre : prehash_ok c
}.
End Env.
