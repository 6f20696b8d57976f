(** * Counting runs of the compression functions: the functions of a parameter set *)
From Verif Require Import CSem Arr PfIter CLeak ModelSha256 ModelSha512 ModelFips202 ModelParams ModelCtx ModelHash LeakSha2 LeakFips202 LeakHash
  PfLeakErase PfLeakErase2 PfLeakSha PfLeakShake PfLeakHash PfLeakSign SpecSLH SpecMap SpecWork SpecBlocks PfBlkSha PfWork.
Ltac Zify.zify_post_hook ::= idtac.
Ltac dlia := Z.to_euclidean_division_equations; lia.

Section Hash.
Variable q : primitive.
Local Notation of256 k := (of_ sha256_compression k q).
Local Notation of512 k := (of_ sha512_compression k q).
Local Notation ofk k := (of_ keccak_permutation k q).

(** ** After [t] bytes *)
Lemma tk_upd256 le c p t l : s256_num c = t mod 64 -> zlen p = l -> takes q (of256 ((t + l) / 64 - t / 64)) (fun c' => s256_num c' = (t + l) mod 64) (l_ts_SHA256_update le c p).
Proof.
  intros H <-. assert (B : 0 <= s256_num c < 64) by (rewrite H; apply Z.mod_pos_bound; lia).
  eapply tk_eq; [eapply tk_weak; [apply tk_update256, B|]|].
  - intros c' _ E. cbv beta in E |- *. rewrite E, H. apply Zplus_mod_idemp_l.
  - f_equal. rewrite H. clear. dlia.
Qed.
Lemma tk_fin256 le c n t : s256_num c = t mod 64 -> takes q (of256 ((t + 8) / 64 + 1 - t / 64)) (fun _ => True) (l_ts_SHA256_final_trunc le c n).
Proof.
  intros H. assert (B : 0 <= s256_num c < 64) by (rewrite H; apply Z.mod_pos_bound; lia).
  eapply tk_eq; [apply tk_final256, B|]. f_equal. rewrite H. clear. dlia.
Qed.
Lemma tk_upd512 le c p t l : s512_num c = t mod 128 -> zlen p = l -> takes q (of512 ((t + l) / 128 - t / 128)) (fun c' => s512_num c' = (t + l) mod 128) (l_ts_SHA512_update le c p).
Proof.
  intros H <-. assert (B : 0 <= s512_num c < 128) by (rewrite H; apply Z.mod_pos_bound; lia).
  eapply tk_eq; [eapply tk_weak; [apply tk_update512, B|]|].
  - intros c' _ E. cbv beta in E |- *. rewrite E, H. apply Zplus_mod_idemp_l.
  - f_equal. rewrite H. clear. dlia.
Qed.
Lemma tk_fin512 le c n t : s512_num c = t mod 128 -> takes q (of512 ((t + 16) / 128 + 1 - t / 128)) (fun _ => True) (l_ts_SHA512_final_trunc le c n).
Proof.
  intros H. assert (B : 0 <= s512_num c < 128) by (rewrite H; apply Z.mod_pos_bound; lia).
  eapply tk_eq; [apply tk_final512, B|]. f_equal. rewrite H. clear. dlia.
Qed.
Lemma tk_abs opt s m t l : kat (t mod 136) s -> zlen m = l -> l < 2 ^ 63 ->
  takes q (ofk ((t + l) / 136 - t / 136)) (kat ((t + l) mod 136)) (l_ts_shake256_inc_absorb opt s m).
Proof.
  intros H <- Hm. eapply tk_eq; [eapply tk_weak; [apply (tk_absorb q opt (t mod 136)); assumption|]|].
  - intros s' _ E. cbv beta in E. rewrite Zplus_mod_idemp_l in E. exact E.
  - f_equal. clear. dlia.
Qed.

(** ** Iterators *)
Lemma sq_get256 le it : still (l_get_sha256 le it). Proof. unfold l_get_sha256. stl. Qed.
Lemma sq_put256 le it c : still (l_put_sha256 le it c). Proof. unfold l_put_sha256. stl. Qed.
Lemma sq_get512 cfg it : still (l_get_sha512 cfg it). Proof. unfold l_get_sha512. stl. Qed.
Lemma sq_put512 cfg it c : still (l_put_sha512 cfg it c). Proof. unfold l_put_sha512. stl. Qed.
Lemma sq_get_shake le it : still (l_get_shake le it). Proof. unfold l_get_shake. stl. Qed.
Lemma sq_put_shake le it c : still (l_put_shake le it c). Proof. unfold l_put_shake. stl. Qed.
#[local] Hint Resolve sq_get256 sq_put256 sq_get512 sq_put512 sq_get_shake sq_put_shake : sq.

Definition at256 (le : bool) (t : Z) (it : list Z) : Prop := rd_word le 4 it 40 0 = Ok (t mod 64).
Definition at512 (le : bool) (t : Z) (it : list Z) : Prop := rd_word le 4 it 72 0 = Ok (t mod 128).
Definition atk (le : bool) (t : Z) (it : list Z) : Prop := rd_word le 8 it 0 25 = Ok (t mod 136).
Lemma num256 le it t c : at256 le t it -> result (l_get_sha256 le it) = Ok c -> s256_num c = t mod 64.
Proof. unfold at256. rewrite er_get256. intros H E. apply get256_num in E. congruence. Qed.
Lemma num512 cfg it t c : at512 (cfg_le cfg) t it -> result (l_get_sha512 cfg it) = Ok c -> s512_num c = t mod 128.
Proof. unfold at512. rewrite er_get512. intros H E. apply get512_num in E. congruence. Qed.
Lemma numk le it t s : atk le t it -> result (l_get_shake le it) = Ok s -> kat (t mod 136) s.
Proof.
  unfold atk. rewrite er_get_shake. intros H E. destruct (get_shake_last le it s E) as (L & k & HL & -> & Hk). split; [apply Z.mod_pos_bound; lia|].
  exists L. split; [exact HL|]. congruence.
Qed.
Lemma length_shake le it s : result (l_get_shake le it) = Ok s -> length s = 26%nat.
Proof. rewrite er_get_shake. intros E. destruct (get_shake_last le it s E) as (L & k & HL & -> & Hk). rewrite app_length, HL. reflexivity. Qed.
Lemma put256 le it c t it' : s256_num c = t mod 64 -> result (l_put_sha256 le it c) = Ok it' -> at256 le t it'.
Proof.
  intros H. unfold l_put_sha256. rewrite result_bind. destruct (result (l_wr_range it 0 _)) as [a|]; [|discriminate]. cbn [bind]. rewrite result_bind.
  destruct (result (l_wr_word le 8 a 32 0 _)) as [b|]; [|discriminate]. cbn [bind]. rewrite result_bind.
  destruct (result (l_wr_word le 4 b 40 0 _)) as [d|] eqn:E1; [|discriminate]. cbn [bind]. intros E2.
  unfold l_wr_word in E1. rewrite result_tick in E1. unfold quiet, result in E1. cbn [snd] in E1. unfold wr_word in E1. change (40 + Z.of_nat 4 * 0) with 40 in E1.
  unfold l_wr_range in E2. rewrite result_tick in E2. unfold quiet, result in E2. cbn [snd] in E2.
  unfold at256, rd_word. change (40 + Z.of_nat 4 * 0) with 40. change (Z.of_nat 4) with 4.
  rewrite (rd_wr_before _ _ _ _ 40 4 E2) by lia. rewrite (rd_wr_same _ _ _ _ 4 (f_equal Z.of_nat (enc_word_length le 4 (s256_num c))) E1). cbn [bind]. f_equal.
  rewrite dec_enc_word; [exact H|]. rewrite H. change (8 * Z.of_nat 4) with 32. pose proof (Z.mod_pos_bound t 64 ltac:(lia)). lia.
Qed.
Lemma put512 cfg it c t it' : s512_num c = t mod 128 -> result (l_put_sha512 cfg it c) = Ok it' -> at512 (cfg_le cfg) t it'.
Proof.
  intros H. unfold l_put_sha512. cbv zeta. rewrite result_bind. destruct (result (l_wr_range it 0 _)) as [a|]; [|discriminate]. cbn [bind]. rewrite result_bind.
  destruct (result (l_wr_word _ 8 a 64 0 _)) as [b|]; [|discriminate]. cbn [bind]. rewrite result_bind.
  destruct (result (l_wr_word _ 4 b 72 0 _)) as [d|] eqn:E1; [|discriminate]. cbn [bind]. intros E2.
  unfold l_wr_word in E1. rewrite result_tick in E1. unfold quiet, result in E1. cbn [snd] in E1. unfold wr_word in E1. change (72 + Z.of_nat 4 * 0) with 72 in E1.
  unfold l_wr_range in E2. rewrite result_tick in E2. unfold quiet, result in E2. cbn [snd] in E2.
  unfold at512, rd_word. change (72 + Z.of_nat 4 * 0) with 72. change (Z.of_nat 4) with 4. pose proof (x512_after cfg).
  rewrite (rd_wr_before _ _ _ _ 72 4 E2) by lia. rewrite (rd_wr_same _ _ _ _ 4 (f_equal Z.of_nat (enc_word_length (cfg_le cfg) 4 (s512_num c))) E1). cbn [bind]. f_equal.
  rewrite dec_enc_word; [exact H|]. rewrite H. change (8 * Z.of_nat 4) with 32. pose proof (Z.mod_pos_bound t 128 ltac:(lia)). lia.
Qed.
Lemma putk le it s t it' : kat (t mod 136) s -> result (l_put_shake le it s) = Ok it' -> atk le t it'.
Proof.
  intros (B & L & HL & ->). unfold l_put_shake, l_wr_range. rewrite result_tick. unfold quiet, result. cbn [snd]. intros E.
  apply wr_range_inv in E. destruct E as (_ & _ & ->). cbn [Z.to_nat firstn app]. rewrite enc_words_app.
  replace (enc_words le 8 [t mod 136]) with (enc_word le 8 (t mod 136)) by (symmetry; apply app_nil_r). rewrite <- app_assoc.
  unfold atk, rd_word. change (0 + Z.of_nat 8 * 25) with 200. change (Z.of_nat 8) with 8. rewrite rd_range_mid.
  - cbn [bind]. f_equal. apply dec_enc_word. change (8 * Z.of_nat 8) with 64. lia.
  - unfold zlen. rewrite enc_words_length, HL. reflexivity.
  - unfold zlen. rewrite enc_word_length. reflexivity.
Qed.
Lemma len_range {A} (a : list A) o k l : result (l_rd_range a o k) = Ok l -> 0 <= k -> zlen l = k.
Proof. intros E H. unfold l_rd_range in E. rewrite result_tick in E. unfold quiet, result in E. cbn [snd] in E. apply rd_range_length in E. unfold zlen. lia. Qed.
Lemma len_load m o k l : result (l_load m o k) = Ok l -> 0 <= k -> zlen l = k.
Proof. intros E H. unfold l_load in E. rewrite result_tick in E. unfold quiet, result in E. cbn [snd] in E. apply load_length in E. unfold zlen. lia. Qed.

Variable cfg : config.
Variable mem : memory.
Local Notation le := (cfg_le cfg).
Local Notation opt := (cfg_shake_opt cfg).
Variable n : Z.
Hypothesis Hn : 0 <= n <= 32.
Definition sv : Z := if cfg_sha2_opt cfg then 1 else 0.

Lemma tk_pad256 c k : 0 <= k <= 64 -> s256_num c = k mod 64 -> takes q (of256 (1 - k / 64)) (fun c' => s256_num c' = 0) (l_sha256_pad_zero cfg c k).
Proof.
  intros Hk H. unfold l_sha256_pad_zero. eapply tk_eq; [eapply tk_weak; [apply (tk_for q (fun j => of256 (j / 64)) (fun j c => s256_num c = j mod 64))|]|].
  - exact H.
  - intros j s _ E. eapply tk_eq; [apply (tk_upd256 le s [0] j 1 E eq_refl)|]. cbv beta. rewrite of_sub. reflexivity.
  - intros c' _ E. cbv beta in E. rewrite E. replace (k + Z.of_nat (Z.to_nat (64 - k))) with 64 by lia. reflexivity.
  - cbv beta. replace (k + Z.of_nat (Z.to_nat (64 - k))) with 64 by lia. rewrite of_sub. reflexivity.
Qed.
Lemma tk_pad512 c k : 0 <= k <= 128 -> s512_num c = k mod 128 -> takes q (of512 (1 - k / 128)) (fun c' => s512_num c' = 0) (l_sha512_pad_zero cfg c k).
Proof.
  intros Hk H. unfold l_sha512_pad_zero. eapply tk_eq; [eapply tk_weak; [apply (tk_for q (fun j => of512 (j / 128)) (fun j c => s512_num c = j mod 128))|]|].
  - exact H.
  - intros j s _ E. eapply tk_eq; [apply (tk_upd512 le s [0] j 1 E eq_refl)|]. cbv beta. rewrite of_sub. reflexivity.
  - intros c' _ E. cbv beta in E. rewrite E. replace (k + Z.of_nat (Z.to_nat (128 - k))) with 128 by lia. reflexivity.
  - cbv beta. replace (k + Z.of_nat (Z.to_nat (128 - k))) with 128 by lia. rewrite of_sub. reflexivity.
Qed.
Lemma tk_init256 ctx c : ps_n (c_ps c) = n -> takes q (of256 (1 - sv)) (fun c' => s256_num c' = 64 mod 64) (l_ts_sha256_init_ctx cfg mem ctx c).
Proof.
  intros En. unfold l_ts_sha256_init_ctx, sv. destruct (cfg_sha2_opt cfg).
  - eapply tk_eq; [apply tk_still|symmetry; apply of_0]; [auto with sq nocore|]. unfold l_ts_SHA256_restore_state_after_64. intros a. rewrite result_bind.
    destruct (result (l_for _ _ _ _)) as [x|]; [|discriminate]. cbn [bind]. intros E. apply ok_inj in E. subst a. reflexivity.
  - cbv zeta. rewrite En. apply tk_bind0; [auto with sq nocore|]. intros s Es. apply len_load in Es; [|lia].
    eapply tk_eq; [eapply tk_bind; [apply (tk_upd256 _ _ _ 0 n); [reflexivity|exact Es]|]|].
    + intros c1 _ E1. cbv beta in E1. rewrite Z.add_0_l in E1. apply (tk_pad256 c1 n); [lia|exact E1].
    + rewrite Z.add_0_l, of_add. f_equal. change (0 / 64) with 0. lia.
Qed.
Lemma tk_init512 ctx c : ps_n (c_ps c) = n -> takes q (of512 (1 - sv)) (fun c' => s512_num c' = 128 mod 128) (l_ts_sha512_init_ctx cfg mem ctx c).
Proof.
  intros En. unfold l_ts_sha512_init_ctx, sv. destruct (cfg_sha2_opt cfg).
  - eapply tk_eq; [apply tk_still|symmetry; apply of_0]; [auto with sq nocore|]. unfold l_ts_SHA512_restore_state_after_128. intros a. rewrite result_bind.
    destruct (result (l_for _ _ _ _)) as [x|]; [|discriminate]. cbn [bind]. intros E. apply ok_inj in E. subst a. reflexivity.
  - cbv zeta. rewrite En. apply tk_bind0; [auto with sq nocore|]. intros s Es. apply len_load in Es; [|lia].
    eapply tk_eq; [eapply tk_bind; [apply (tk_upd512 _ _ _ 0 n); [reflexivity|exact Es]|]|].
    + intros c1 _ E1. cbv beta in E1. rewrite Z.add_0_l in E1. apply (tk_pad512 c1 n); [lia|exact E1].
    + rewrite Z.add_0_l, of_add. f_equal. change (0 / 128) with 0. lia.
Qed.

(** ** SHA-2 *)
(** hide the parts of a sum *)
Ltac step := eapply tk_bind.
Definition F256 : Z := (64 + 22 + n + 8) / 64 + 1 - sv.
Ltac up t l := step; [eapply (tk_upd256 _ _ _ t l); [eassumption|eassumption]|cbv beta; intros ? _ ?].
Ltac up5 t l := step; [eapply (tk_upd512 _ _ _ t l); [eassumption|eassumption]|cbv beta; intros ? _ ?].
Ltac rdn := apply tk_bind0; [auto with sq nocore|]; let x := fresh "x" in let E := fresh "E" in intros x E; first [apply len_range in E; [|unfold SHA2_ADR_SIZE; lia] | apply len_load in E; [|lia]].
Ltac keep := apply tk_still; [stl|]; let r := fresh "r" in intros r; rewrite result_bind; let it := fresh "it" in match goal with |- bind ?x _ = _ -> _ => destruct x as [it|]; [|discriminate] end; cbn [bind];
  let E := fresh "E" in intros E; apply ok_inj in E; subst r; eexists; reflexivity.
Lemma tk_sha2_prf c : ps_n (c_ps c) = n -> takes q (of256 F256) (only_small c) (l_ts_sha2_prf cfg mem c).
Proof.
  intros En. unfold l_ts_sha2_prf. cbv zeta. rewrite En. apply tk_bind0; [auto with sq nocore|]. intros x _. eapply tk_eq.
  - step; [apply tk_init256, En|]. cbv beta. intros x1 _ E1. rdn. up 64 SHA2_ADR_SIZE. rdn. up (64 + SHA2_ADR_SIZE) n.
    step; [eapply (tk_fin256 _ _ _ (64 + SHA2_ADR_SIZE + n)); eassumption|]. intros [o x4] _ _. keep.
  - rewrite Z.add_0_r, !of_add. f_equal. unfold F256, SHA2_ADR_SIZE. change (64 / 64) with 1. lia.
Qed.
Lemma tk_sha2_f b c : ps_n (c_ps c) = n -> takes q (of256 F256) (only_small c) (l_ts_sha2_f_simple cfg mem b c).
Proof.
  intros En. unfold l_ts_sha2_f_simple. cbv zeta. rewrite En. apply tk_bind0; [auto with sq nocore|]. intros x _. eapply tk_eq.
  - step; [apply tk_init256, En|]. cbv beta. intros x1 _ E1. rdn. up 64 SHA2_ADR_SIZE. rdn. up (64 + SHA2_ADR_SIZE) n.
    step; [eapply (tk_fin256 _ _ _ (64 + SHA2_ADR_SIZE + n)); eassumption|]. intros [o x4] _ _. keep.
  - rewrite Z.add_0_r, !of_add. f_equal. unfold F256, SHA2_ADR_SIZE. change (64 / 64) with 1. lia.
Qed.
Lemma tk_L1_init it c : ps_n (c_ps c) = n -> takes q (of256 ((64 + 22) / 64 - sv)) (at256 le (64 + 22)) (l_ts_sha2_L1_init_t_simple cfg mem it c).
Proof.
  intros En. unfold l_ts_sha2_L1_init_t_simple. apply tk_bind0; [auto with sq nocore|]. intros x _. eapply tk_eq.
  - step; [apply tk_init256, En|]. cbv beta. intros x1 _ E1. rdn. up 64 SHA2_ADR_SIZE. apply tk_still; [auto with sq nocore|]. intros it'. apply (put256 le it). assumption.
  - rewrite Z.add_0_r, !of_add. f_equal. unfold SHA2_ADR_SIZE. change (64 / 64) with 1. lia.
Qed.
Lemma tk_L1_next t it b c : ps_n (c_ps c) = n -> at256 le t it -> takes q (of256 ((t + n) / 64 - t / 64)) (at256 le (t + n)) (l_ts_sha2_L1_next_t_simple cfg it b c).
Proof.
  intros En H. unfold l_ts_sha2_L1_next_t_simple. cbv zeta. rewrite En. apply tk_bind0; [auto with sq nocore|]. intros x Ex. apply (num256 _ _ _ _ H) in Ex. rdn. eapply tk_eq.
  - up t n. apply tk_still; [auto with sq nocore|]. intros it'. apply (put256 le it). assumption.
  - apply Z.add_0_r.
Qed.
Lemma tk_L1_final t it c : at256 le t it -> takes q (of256 ((t + 8) / 64 + 1 - t / 64)) (fun _ => True) (l_ts_sha2_L1_final_t_simple cfg it c).
Proof.
  intros H. unfold l_ts_sha2_L1_final_t_simple. cbv zeta. apply tk_bind0; [auto with sq nocore|]. intros x Ex. apply (num256 _ _ _ _ H) in Ex. eapply tk_eq.
  - step; [eapply (tk_fin256 _ _ _ t); eassumption|]. intros [o x4] _ _. apply tk_still; [stl|auto].
  - apply Z.add_0_r.
Qed.
Lemma tk_L35_init it c : ps_n (c_ps c) = n -> takes q (of512 ((128 + 22) / 128 - sv)) (at512 le (128 + 22)) (l_ts_sha2_L35_init_t_simple cfg mem it c).
Proof.
  intros En. unfold l_ts_sha2_L35_init_t_simple. apply tk_bind0; [auto with sq nocore|]. intros x _. eapply tk_eq.
  - step; [apply tk_init512, En|]. cbv beta. intros x1 _ E1. rdn. up5 128 SHA2_ADR_SIZE. apply tk_still; [auto with sq nocore|]. intros it'. apply (put512 cfg it). assumption.
  - rewrite Z.add_0_r, !of_add. f_equal. unfold SHA2_ADR_SIZE. change (128 / 128) with 1. lia.
Qed.
Lemma tk_L35_next t it b c : ps_n (c_ps c) = n -> at512 le t it -> takes q (of512 ((t + n) / 128 - t / 128)) (at512 le (t + n)) (l_ts_sha2_L35_next_t_simple cfg it b c).
Proof.
  intros En H. unfold l_ts_sha2_L35_next_t_simple. cbv zeta. rewrite En. apply tk_bind0; [auto with sq nocore|]. intros x Ex. apply (num512 _ _ _ _ H) in Ex. rdn. eapply tk_eq.
  - up5 t n. apply tk_still; [auto with sq nocore|]. intros it'. apply (put512 cfg it). assumption.
  - apply Z.add_0_r.
Qed.
Lemma tk_L35_final t it c : at512 le t it -> takes q (of512 ((t + 16) / 128 + 1 - t / 128)) (fun _ => True) (l_ts_sha2_L35_final_t_simple cfg it c).
Proof.
  intros H. unfold l_ts_sha2_L35_final_t_simple. cbv zeta. apply tk_bind0; [auto with sq nocore|]. intros x Ex. apply (num512 _ _ _ _ H) in Ex. eapply tk_eq.
  - step; [eapply (tk_fin512 _ _ _ t); eassumption|]. intros [o x4] _ _. apply tk_still; [stl|auto].
  - apply Z.add_0_r.
Qed.
(** what prehash leaves alone *)
Lemma tk_L1_prehash c : ps_n (c_ps c) = n ->
  takes q (of256 1) (fun d => c_ps d = c_ps c /\ fr true c d) (l_ts_sha2_L1_prehash cfg mem c).
Proof.
  intros En. unfold l_ts_sha2_L1_prehash. cbv zeta. rewrite En. apply tk_bind0; [auto with sq nocore|]. intros x _. rdn. eapply tk_eq.
  - step; [eapply (tk_upd256 _ _ _ 0 n); [reflexivity|eassumption]|]. cbv beta. intros x1 _ E1. rewrite Z.add_0_l in E1. step; [apply (tk_pad256 x1 n); [lia|exact E1]|]. intros x2 _ E2.
    apply tk_bind0; [auto with sq nocore|]. intros s _. apply tk_bind0; [auto with sq nocore|]. intros pre _. apply tk_bind0; [auto with sq nocore|]. intros it _.
    apply tk_ret. split; [reflexivity|]. apply mkFr; reflexivity.
  - rewrite Z.add_0_r, !of_add. f_equal. rewrite Z.add_0_l. change (0 / 64) with 0. lia.
Qed.
Lemma tk_L35_prehash c : ps_n (c_ps c) = n ->
  takes q (of256 1 + of512 1) (fun d => c_ps d = c_ps c /\ fr true c d) (l_ts_sha2_L35_prehash cfg mem c).
Proof.
  intros En. unfold l_ts_sha2_L35_prehash. eapply tk_bind; [apply tk_L1_prehash, En|]. intros d _ [Hd Fd]. cbv zeta. rewrite Hd, En.
  apply tk_bind0; [auto with sq nocore|]. intros x _. rdn. eapply tk_eq.
  - step; [eapply (tk_upd512 _ _ _ 0 n); [reflexivity|eassumption]|]. cbv beta. intros x1 _ E1. rewrite Z.add_0_l in E1. step; [apply (tk_pad512 x1 n); [lia|exact E1]|]. intros x2 _ E2.
    apply tk_bind0; [auto with sq nocore|]. intros s _. apply tk_bind0; [auto with sq nocore|]. intros pre _. apply tk_bind0; [auto with sq nocore|]. intros it _.
    apply tk_ret. split; [exact Hd|]. eapply fr_trans; [exact Fd|]. apply mkFr; reflexivity.
  - rewrite Z.add_0_r, !of_add. f_equal. rewrite Z.add_0_l. change (0 / 128) with 0. lia.
Qed.

(** ** SHAKE *)
Ltac ar := rewrite ?Z.add_0_l, ?Z.add_0_r, ?of_add; match goal with |- of_ ?k ?a ?q = of_ ?k ?b ?q => apply (f_equal (fun z => of_ k z q)) end; rewrite ?Z.add_0_l, ?Z.add_0_r; change (0 / 136) with 0; change (0 / 64) with 0; change (0 / 128) with 0.
Ltac ab t l := step; [eapply (tk_abs _ _ _ t l); [eassumption|eassumption|lia]|cbv beta; intros ? _ ?].
Ltac ini := step; [apply tk_inc_init; eassumption|]; let E := fresh "E" in intros ? _ E; change 0 with (0 mod 136) in E.
Ltac get26 := apply tk_bind0; [auto with sq nocore|]; let x := fresh "x" in let E := fresh "E" in intros x E; apply length_shake in E.
(** finish and squeeze [l] bytes *)
Lemma tk_end {A} t l s (g : list Z * list Z -> leaky A) (Q : A -> Prop) : 0 <= l -> kat (t mod 136) s -> (forall y, takes q 0 Q (g y)) ->
  takes q (ofk ((l + 135) / 136)) Q (lbind (l_ts_shake256_inc_finalize s) (fun s => lbind (l_ts_shake256_inc_squeeze opt l s) g)).
Proof.
  intros Hl H K. eapply tk_eq; [eapply tk_bind; [apply (tk_finalize q (t mod 136)), H|]|apply Z.add_0_l]. intros s1 _ H1.
  eapply tk_eq; [eapply tk_bind; [apply tk_squeeze; [exact Hl|exact H1]|]|apply Z.add_0_r]. intros y _ _. apply K.
Qed.
Hypothesis Hn' : 0 < n.
Lemma one_block : (n + 135) / 136 = 1. Proof. clear - Hn Hn'. dlia. Qed.
Definition FK : Z := (n + 32 + n) / 136 + 1.
Lemma tk_sh_prf c : ADR_SIZE cfg = 32 -> ps_n (c_ps c) = n -> takes q (ofk FK) (only_small c) (l_ts_shake256_prf cfg mem c).
Proof.
  intros Ha En. unfold l_ts_shake256_prf. cbv zeta. rewrite En, Ha. get26. eapply tk_eq.
  - ini. rdn. ab 0 n. rdn. ab (0 + n) 32. rdn. ab (0 + n + 32) n. apply (tk_end (0 + n + 32 + n)); [lia|assumption|]. intros [o s]. keep.
  - ar. rewrite one_block. unfold FK. lia.
Qed.
Lemma tk_sh_init it c : ADR_SIZE cfg = 32 -> ps_n (c_ps c) = n -> takes q (ofk ((n + 32) / 136)) (atk le (n + 32)) (l_ts_shake256_init_t_simple cfg mem it c).
Proof.
  intros Ha En. unfold l_ts_shake256_init_t_simple. cbv zeta. rewrite En, Ha. get26. eapply tk_eq.
  - ini. rdn. ab 0 n. rdn. ab (0 + n) 32. apply tk_still; [auto with sq nocore|]. intros it'. apply (putk le it). rewrite Z.add_0_l in *. assumption.
  - ar. lia.
Qed.
Lemma tk_sh_next t it b c : ps_n (c_ps c) = n -> atk le t it -> takes q (ofk ((t + n) / 136 - t / 136)) (atk le (t + n)) (l_ts_shake256_next_t_simple cfg it b c).
Proof.
  intros En H. unfold l_ts_shake256_next_t_simple. cbv zeta. rewrite En. apply tk_bind0; [auto with sq nocore|]. intros x Ex. apply (numk _ _ _ _ H) in Ex. rdn. eapply tk_eq.
  - ab t n. apply tk_still; [auto with sq nocore|]. intros it'. apply (putk le it). assumption.
  - apply Z.add_0_r.
Qed.
Lemma tk_sh_final t it c : ps_n (c_ps c) = n -> atk le t it -> takes q (ofk 1) (fun _ => True) (l_ts_shake256_final_t_simple cfg it c).
Proof.
  intros En H. unfold l_ts_shake256_final_t_simple. cbv zeta. rewrite En. apply tk_bind0; [auto with sq nocore|]. intros x Ex. apply (numk _ _ _ _ H) in Ex. eapply tk_eq.
  - apply (tk_end t); [lia|exact Ex|]. intros [o s]. apply tk_still; [stl|auto].
  - rewrite one_block. reflexivity.
Qed.
Lemma tk_sh_f b c : ADR_SIZE cfg = 32 -> ps_n (c_ps c) = n -> takes q (ofk FK) (only_small c) (l_ts_shake256_f_simple cfg mem b c).
Proof.
  intros Ha En. unfold l_ts_shake256_f_simple. eapply tk_eq.
  - step; [apply (tk_sh_init (c_small_iter c) c Ha En)|]. intros it1 _ E1. step; [apply (tk_sh_next _ it1 b c En E1)|]. intros it2 _ E2.
    step; [apply (tk_sh_final _ it2 c En E2)|]. intros [o it3] _ _. apply tk_ret. eexists. reflexivity.
  - ar. unfold FK. lia.
Qed.

(** ** The message *)
Variable L : Z.
Hypothesis HL : 0 <= L < 2 ^ 62.
Lemma sq_hmac b s v pk k : still (l_hmac_block mem b s v pk k).
Proof. unfold l_hmac_block. stl. Qed.
Hint Resolve sq_hmac : sq.
Lemma len_hmac b s v pk k b' : 0 <= s -> zlen b = s -> result (l_hmac_block mem b s v pk k) = Ok b' -> zlen b' = s.
Proof.
  intros Hs Hb. unfold l_hmac_block. rewrite result_bind.
  destruct (result (l_for _ _ _ b)) as [a|] eqn:E; [|discriminate]. cbn [bind]. unfold l_memset. rewrite result_tick. unfold quiet, result. cbn [snd]. intros E2.
  assert (Ha : length a = length b).
  { clear - E. revert E. generalize (Z.to_nat k). generalize 0 at 1. intros i m. revert i b. induction m as [|m IH]; intros i b; cbn [l_for].
    - intros E. apply ok_inj in E. congruence.
    - rewrite result_tick, !result_bind. match goal with |- bind (bind ?x _) _ = _ -> _ => destruct x as [kb|]; [|discriminate] end. cbn [bind]. rewrite result_bind.
      destruct (result (l_rd kb 0)) as [bb|]; [|discriminate]. cbn [bind]. destruct (result (l_wr b i (Some (Z.lxor v bb)))) as [b1|] eqn:E1; [|discriminate]. cbn [bind]. intros E.
      rewrite (IH _ _ E). unfold l_wr in E1. rewrite result_tick in E1. apply wr_length in E1. exact E1. }
  unfold memset in E2. destruct (_ && _) eqn:B in E2; [|discriminate E2]. apply ok_inj in E2. apply andb_prop in B. destruct B as [B B3]. apply andb_prop in B. destruct B as [B1 B2]. apply Z.leb_le in B1, B2, B3.
  apply (f_equal (@length _)) in E2. rewrite !app_length, firstn_length, repeat_length, skipn_length in E2. unfold zlen in *. lia.
Qed.
Lemma len_defined b l : result (l_defined b) = Ok l -> zlen l = zlen b.
Proof. intros E. unfold l_defined, quiet, result in E. cbn [snd] in E. apply defined_length in E. unfold zlen. congruence. Qed.
Lemma tk_sh_prf_msg o m c : ps_n (c_ps c) = n -> zlen m = L -> takes q (ofk ((2 * n + L) / 136 + 1)) (only_small c) (l_ts_shake256_prf_msg cfg mem o m c).
Proof.
  intros En Em. unfold l_ts_shake256_prf_msg. cbv zeta. rewrite En. get26. eapply tk_eq.
  - ini. rdn. ab 0 n. rdn. ab (0 + n) n. ab (0 + n + n) L. apply (tk_end (0 + n + n + L)); [lia|assumption|]. intros [o' s]. keep.
  - ar. rewrite one_block. replace (2 * n + L) with (n + n + L) by lia. lia.
Qed.
Lemma tk_sh_hash_msg l r m c : 0 <= l -> ps_n (c_ps c) = n -> zlen m = L -> takes q (ofk ((3 * n + L) / 136 + (l + 135) / 136)) (only_small c) (l_ts_shake256_hash_msg cfg mem l r m c).
Proof.
  intros Hl En Em. unfold l_ts_shake256_hash_msg. cbv zeta. rewrite En. get26. eapply tk_eq.
  - ini. rdn. ab 0 n. rdn. ab (0 + n) n. rdn. ab (0 + n + n) n. ab (0 + n + n + n) L. apply (tk_end (0 + n + n + n + L)); [lia|assumption|]. intros [o' s]. keep.
  - ar. replace (3 * n + L) with (n + n + n + L) by lia. lia.
Qed.
Lemma len_uninit k : 0 <= k -> zlen (uninit k) = k.
Proof. intros H. unfold uninit, zlen. rewrite repeat_length. lia. Qed.
Lemma tk_L1_prf_msg o m c : ps_n (c_ps c) = n -> zlen m = L ->
  takes q (of256 ((64 + n + L + 8) / 64 + 1 + ((64 + 32 + 8) / 64 + 1))) (only_small c) (l_ts_sha2_L1_prf_msg cfg mem o m c).
Proof.
  intros En Em. unfold l_ts_sha2_L1_prf_msg. cbv zeta. rewrite En. apply tk_bind0; [auto with sq nocore|]. intros x _. pose proof (len_uninit 64 ltac:(lia)) as U.
  apply tk_bind0; [auto with sq nocore|]. intros b1 B1. apply len_hmac in B1; [|lia|exact U]. apply tk_bind0; [auto with sq nocore|]. intros l1 L1. apply len_defined in L1. rewrite B1 in L1.
  eapply tk_eq.
  - step; [eapply (tk_upd256 _ _ _ 0 64); [reflexivity|exact L1]|]. cbv beta. intros x1 _ E1. rdn. up (0 + 64) n. up (0 + 64 + n) L.
    match goal with H : s256_num ?x = (0 + 64 + n + L) mod 64 |- _ => step; [exact (tk_fin256 le x 32 (0 + 64 + n + L) H)|] end. intros [h x4] _ _.
    apply tk_bind0; [auto with sq nocore|]. intros b2 B2. apply len_hmac in B2; [|lia|exact B1]. apply tk_bind0; [auto with sq nocore|]. intros l2 L2. apply len_defined in L2. rewrite B2 in L2.
    step; [eapply (tk_upd256 _ _ _ 0 64); [reflexivity|exact L2]|]. cbv beta. intros x5 _ E5. rdn. up (0 + 64) 32.
    match goal with H : s256_num ?x = (0 + 64 + 32) mod 64 |- _ => step; [exact (tk_fin256 _ x _ (0 + 64 + 32) H)|] end. intros [h' x6] _ _. keep.
  - ar. lia.
Qed.
Lemma tk_L35_prf_msg o m c : ps_n (c_ps c) = n -> zlen m = L ->
  takes q (of512 ((128 + n + L + 16) / 128 + 1 + ((128 + 64 + 16) / 128 + 1))) (only_small c) (l_ts_sha2_L35_prf_msg cfg mem o m c).
Proof.
  intros En Em. unfold l_ts_sha2_L35_prf_msg. cbv zeta. rewrite En. apply tk_bind0; [auto with sq nocore|]. intros x _. pose proof (len_uninit 128 ltac:(lia)) as U.
  apply tk_bind0; [auto with sq nocore|]. intros b1 B1. apply len_hmac in B1; [|lia|exact U]. apply tk_bind0; [auto with sq nocore|]. intros l1 L1. apply len_defined in L1. rewrite B1 in L1.
  eapply tk_eq.
  - step; [eapply (tk_upd512 _ _ _ 0 128); [reflexivity|exact L1]|]. cbv beta. intros x1 _ E1. rdn. up5 (0 + 128) n. up5 (0 + 128 + n) L.
    match goal with H : s512_num ?x = (0 + 128 + n + L) mod 128 |- _ => step; [exact (tk_fin512 _ x _ (0 + 128 + n + L) H)|] end. intros [h x4] _ _.
    apply tk_bind0; [auto with sq nocore|]. intros b2 B2. apply len_hmac in B2; [|lia|exact B1]. apply tk_bind0; [auto with sq nocore|]. intros l2 L2. apply len_defined in L2. rewrite B2 in L2.
    step; [eapply (tk_upd512 _ _ _ 0 128); [reflexivity|exact L2]|]. cbv beta. intros x5 _ E5. rdn. up5 (0 + 128) 64.
    match goal with H : s512_num ?x = (0 + 128 + 64) mod 128 |- _ => step; [exact (tk_fin512 _ x _ (0 + 128 + 64) H)|] end. intros [h' x6] _ _. keep.
  - ar. lia.
Qed.
Lemma tk_mgf256 fuel : forall mh x i l, 0 <= l -> takes q (of256 ((l + 31) / 32 * ((2 * n + 36 + 8) / 64 + 1))) (fun _ => True) (l_sha256_mgf_loop cfg fuel n mh x i l).
Proof.
  induction fuel as [|fuel IH]; intros mh x i l Hl; [apply tk_ub|]. cbn [l_sha256_mgf_loop]. cbv zeta.
  apply tk_if; intros E; [apply Z.eqb_eq in E|apply Z.eqb_neq in E].
  { subst l. change ((0 + 31) / 32) with 0. rewrite Z.mul_0_l, of_0. apply tk_ret. exact I. }
  apply tk_bind0; [auto with sq nocore|]. intros ib _. apply tk_bind0; [auto with sq nocore|]. intros mh1 _. apply tk_bind0; [auto with sq nocore|]. intros m Em.
  assert (Lm : zlen m = 2 * n + 36).
  { unfold l_rd_local in Em. rewrite result_tick in Em. unfold quiet, result in Em. cbn [snd] in Em. unfold rd_local in Em.
    destruct (rd_range mh1 0 _) as [y|] eqn:Ey; [|discriminate]. cbn [bind] in Em. apply rd_range_length in Ey. apply defined_length in Em. unfold zlen. lia. }
  eapply tk_eq.
  - step; [eapply (tk_upd256 _ _ _ 0 (2 * n + 36)); [reflexivity|exact Lm]|]. cbv beta. intros x1 _ E1. unfold l_ts_SHA256_final.
    step; [eapply (tk_fin256 _ _ _ (0 + (2 * n + 36))); eassumption|]. intros [h x4] _ _.
    eapply (tk_bind q 0 _ (fun b => b = Z.min 32 l)). { apply tk_if; intros X; apply tk_ret; [apply Z.leb_le in X|apply Z.leb_gt in X]; lia. }
    intros bs _ ->. apply tk_bind0; [auto with sq nocore|]. intros o _. apply tk_bind0; [auto with sq nocore|]. intros i' _.
    step; [apply IH; lia|]. intros [r x5] _ _. apply tk_ret. exact I.
  - ar. replace ((l + 31) / 32) with ((l - Z.min 32 l + 31) / 32 + 1) by (clear - Hl E; dlia). lia.
Qed.
Lemma tk_mgf512 fuel : forall mh x i l, 0 <= l -> takes q (of512 ((l + 63) / 64 * ((2 * n + 68 + 16) / 128 + 1))) (fun _ => True) (l_sha512_mgf_loop cfg fuel n mh x i l).
Proof.
  induction fuel as [|fuel IH]; intros mh x i l Hl; [apply tk_ub|]. cbn [l_sha512_mgf_loop]. cbv zeta.
  apply tk_if; intros E; [apply Z.eqb_eq in E|apply Z.eqb_neq in E].
  { subst l. change ((0 + 63) / 64) with 0. rewrite Z.mul_0_l, of_0. apply tk_ret. exact I. }
  apply tk_bind0; [auto with sq nocore|]. intros ib _. apply tk_bind0; [auto with sq nocore|]. intros mh1 _. apply tk_bind0; [auto with sq nocore|]. intros m Em.
  assert (Lm : zlen m = 2 * n + 68).
  { unfold l_rd_local in Em. rewrite result_tick in Em. unfold quiet, result in Em. cbn [snd] in Em. unfold rd_local in Em.
    destruct (rd_range mh1 0 _) as [y|] eqn:Ey; [|discriminate]. cbn [bind] in Em. apply rd_range_length in Ey. apply defined_length in Em. unfold zlen. lia. }
  eapply tk_eq.
  - step; [eapply (tk_upd512 _ _ _ 0 (2 * n + 68)); [reflexivity|exact Lm]|]. cbv beta. intros x1 _ E1. unfold l_ts_SHA512_final.
    step; [eapply (tk_fin512 _ _ _ (0 + (2 * n + 68))); eassumption|]. intros [h x4] _ _.
    eapply (tk_bind q 0 _ (fun b => b = Z.min 64 l)). { apply tk_if; intros X; apply tk_ret; [apply Z.leb_le in X|apply Z.leb_gt in X]; lia. }
    intros bs _ ->. apply tk_bind0; [auto with sq nocore|]. intros o _. apply tk_bind0; [auto with sq nocore|]. intros i' _.
    step; [apply IH; lia|]. intros [r x5] _ _. apply tk_ret. exact I.
  - ar. replace ((l + 63) / 64) with ((l - Z.min 64 l + 63) / 64 + 1) by (clear - Hl E; dlia). lia.
Qed.
Lemma tk_L1_hash_msg l r m c : 0 <= l -> ps_n (c_ps c) = n -> zlen m = L ->
  takes q (of256 ((3 * n + L + 8) / 64 + 1 + (l + 31) / 32 * ((2 * n + 36 + 8) / 64 + 1))) (only_small c) (l_ts_sha2_L1_hash_msg cfg mem l r m c).
Proof.
  intros Hl En Em. unfold l_ts_sha2_L1_hash_msg. cbv zeta. rewrite En. apply tk_bind0; [auto with sq nocore|]. intros x _. rdn. eapply tk_eq.
  - step; [eapply (tk_upd256 _ _ _ 0 n); [reflexivity|eassumption]|]. cbv beta. intros x1 _ E1. rdn. up (0 + n) n. rdn. up (0 + n + n) n. up (0 + n + n + n) L. unfold l_ts_SHA256_final.
    match goal with H : s256_num ?x = (0 + n + n + n + L) mod 64 |- _ => step; [exact (tk_fin256 _ x _ (0 + n + n + n + L) H)|] end. intros [h x4] _ _.
    do 3 (apply tk_bind0; [auto with sq nocore|]; intros ? _). step; [apply tk_mgf256, Hl|]. intros [o x5] _ _. keep.
  - ar. replace (3 * n + L) with (n + n + n + L) by lia. lia.
Qed.
Lemma tk_L35_hash_msg l r m c : 0 <= l -> ps_n (c_ps c) = n -> zlen m = L ->
  takes q (of512 ((3 * n + L + 16) / 128 + 1 + (l + 63) / 64 * ((2 * n + 68 + 16) / 128 + 1))) (only_small c) (l_ts_sha2_L35_hash_msg cfg mem l r m c).
Proof.
  intros Hl En Em. unfold l_ts_sha2_L35_hash_msg. cbv zeta. rewrite En. apply tk_bind0; [auto with sq nocore|]. intros x _. rdn. eapply tk_eq.
  - step; [eapply (tk_upd512 _ _ _ 0 n); [reflexivity|eassumption]|]. cbv beta. intros x1 _ E1. rdn. up5 (0 + n) n. rdn. up5 (0 + n + n) n. up5 (0 + n + n + n) L. unfold l_ts_SHA512_final.
    match goal with H : s512_num ?x = (0 + n + n + n + L) mod 128 |- _ => step; [exact (tk_fin512 _ x _ (0 + n + n + n + L) H)|] end. intros [h x4] _ _.
    do 3 (apply tk_bind0; [auto with sq nocore|]; intros ? _). step; [apply tk_mgf512, Hl|]. intros [o x5] _ _. keep.
  - ar. replace (3 * n + L) with (n + n + n + L) by lia. lia.
Qed.
End Hash.
