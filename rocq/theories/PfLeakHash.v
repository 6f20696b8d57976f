(** * What the hash functions of the library show to an observer depends on the lengths
    of their inputs only *)
From Verif Require Import CSem Arr PfIter CLeak ModelSha256 ModelSha512 ModelFips202 ModelParams ModelCtx ModelHash LeakSha2 LeakFips202 LeakHash
  PfLeakErase PfLeakErase2 PfLeakSha PfLeakShake.
Ltac Zify.zify_post_hook ::= idtac.

(** Both lists have the length given *)
Definition lenis {A} (k : Z) (a b : list A) : Prop := length a = Z.to_nat k /\ length b = Z.to_nat k.
Lemma lenis_same {A} k (a b : list A) : lenis k a b -> samelen a b. Proof. intros [H K]. unfold samelen. congruence. Qed.
Lemma lenis_small {A} k (a b : list A) : lenis k a b -> k < 2 ^ 63 -> zlen a < 2 ^ 63. Proof. intros [H K] B. unfold zlen. rewrite H. lia. Qed.
Lemma sim_rd_range_n {A} (a b : list A) o k : sim (lenis k) (l_rd_range a o k) (l_rd_range b o k).
Proof. apply sim_tick; [reflexivity|]. apply sim_quiet. intros x y Hx Hy. apply rd_range_length in Hx, Hy. split; assumption. Qed.
Lemma sim_load_n m m' a k : sim (lenis k) (l_load m a k) (l_load m' a k).
Proof. apply sim_tick; [reflexivity|]. apply sim_quiet. intros x y Hx Hy. apply load_length in Hx, Hy. split; assumption. Qed.

(** ** Memory *)
Lemma wr_range_inv {A} (a s b : list A) o : wr_range a o s = Ok b -> 0 <= o /\ o + zlen s <= zlen a /\ b = firstn (Z.to_nat o) a ++ s ++ skipn (Z.to_nat o + length s) a.
Proof.
  unfold wr_range. destruct ((0 <=? o) && (o + zlen s <=? zlen a)) eqn:E; [|discriminate]. intros H. apply ok_inj in H. subst b.
  apply andb_prop in E. destruct E as [E1 E2]. apply Z.leb_le in E1, E2. auto.
Qed.
Lemma rd_wr_same {A} (a s b : list A) o k : zlen s = k -> wr_range a o s = Ok b -> rd_range b o k = Ok s.
Proof.
  intros <- H. pose proof (wr_range_length _ _ _ _ H) as L. apply wr_range_inv in H. destruct H as (H0 & H1 & ->).
  rewrite rd_range_ok; [|exact H0|unfold zlen; lia|unfold zlen in *; rewrite L; exact H1]. f_equal.
  assert (Lf : length (firstn (Z.to_nat o) a) = Z.to_nat o) by (rewrite firstn_length; unfold zlen in *; lia).
  rewrite skipn_app_exact by exact Lf. apply firstn_app_exact. unfold zlen. lia.
Qed.
Lemma rd_wr_before {A} (a s b : list A) o o' k : wr_range a o s = Ok b -> 0 <= o' -> 0 <= k -> o' + k <= o -> rd_range b o' k = rd_range a o' k.
Proof.
  intros H H2 H3 H4. pose proof (wr_range_length _ _ _ _ H) as L. apply wr_range_inv in H. destruct H as (H0 & H1 & ->).
  pose proof (Zle_0_nat (length s)) as Hs. unfold zlen in *. rewrite !rd_range_ok; unfold zlen; try rewrite L; try lia.
  f_equal. assert (Lf : length (firstn (Z.to_nat o) a) = Z.to_nat o) by (rewrite firstn_length; lia).
  rewrite skipn_app_le by (rewrite Lf; lia). rewrite firstn_app_le by (rewrite skipn_length, Lf; lia).
  rewrite skipn_firstn_comm, firstn_firstn. f_equal. lia.
Qed.

(** ** Iterators as bytes *)
Lemma for_snoc_len {A} (f : Z -> leaky A) n : forall i l r, result (l_for n i (fun j h => lbind (f j) (fun w => lret (h ++ [w]))) l) = Ok r -> length r = (length l + n)%nat.
Proof.
  induction n as [|n IH]; intros i l r; cbn [l_for].
  - intros H. apply ok_inj in H. subst r. lia.
  - rewrite result_tick, result_bind, result_bind. destruct (result (f i)) as [w|] eqn:E; [|discriminate]. cbn [bind]. rewrite result_ret. cbn [bind].
    intros H. rewrite (IH _ _ _ H), app_length. cbn [length]. lia.
Qed.
Lemma sim_get_words le sz it it' o n : sim samelen (l_for n 0 (fun i h => lbind (l_rd_word le sz it o i) (fun w => lret (h ++ [w]))) [])
  (l_for n 0 (fun i h => lbind (l_rd_word le sz it' o i) (fun w => lret (h ++ [w]))) []).
Proof. apply sim_for; [|reflexivity]. intros j s t _ H. eapply sim_bind; [apply sim_rd_word|]. intros. sr. apply samelen_app; [exact H|reflexivity]. Qed.
Definition i256 (it it' : list Z) : Prop := rd_range it 40 4 = rd_range it' 40 4.
Definition i512 (it it' : list Z) : Prop := rd_range it 72 4 = rd_range it' 72 4.
Definition ishake (le : bool) (it it' : list Z) : Prop := rd_range it 200 8 = rd_range it' 200 8 /\ exists k, rd_word le 8 it 0 25 = Ok k /\ 0 <= k < 136.

Record l256 (c d : sha256_ctx) : Prop := mkL256 { l256_h : samelen (s256_h c) (s256_h d); l256_x : samelen (s256_x c) (s256_x d) }.
Record l512 (c d : sha512_ctx) : Prop := mkL512 { l512_h : samelen (s512_h c) (s512_h d); l512_x : samelen (s512_x c) (s512_x d) }.
Lemma sim_get256 le it it' : sim l256 (l_get_sha256 le it) (l_get_sha256 le it').
Proof.
  unfold l_get_sha256. eapply (sim_bind samelen); [apply sim_get_words|]. intros h h' _ _ Hh.
  eapply sim_bind; [apply sim_rd_word|]. intros. eapply sim_bind; [apply sim_rd_word|]. intros.
  eapply (sim_bind samelen); [apply sim_rd_range|]. intros x x' _ _ Hx. sr. apply mkL256; assumption.
Qed.
Lemma sim_get256_same le it it' : i256 it it' -> sim r256 (l_get_sha256 le it) (l_get_sha256 le it').
Proof.
  intros H. unfold l_get_sha256. eapply (sim_bind samelen); [apply sim_get_words|]. intros h h' _ _ Hh.
  eapply sim_bind; [apply sim_rd_word|]. intros. eapply (sim_bind eq).
  - apply sim_tick; [reflexivity|]. apply sim_quiet. unfold rd_word. change (40 + Z.of_nat 4 * 0) with 40. change (Z.of_nat 4) with 4. rewrite H. intros; congruence.
  - intros n ? _ _ <-. eapply (sim_bind samelen); [apply sim_rd_range|]. intros x x' _ _ Hx. sr. apply mkR256; [reflexivity|assumption|assumption].
Qed.
Lemma sim_put256 le it it' c d : r256 c d -> sim i256 (l_put_sha256 le it c) (l_put_sha256 le it' d).
Proof.
  intros [Hn Hh Hx]. unfold l_put_sha256. eapply sim_bind; [apply sim_wr_range; unfold samelen in *; rewrite !enc_words_length, Hh; reflexivity|].
  intros a b _ _ _. eapply sim_bind; [apply sim_wr_word|]. intros a1 b1 _ _ _. rewrite Hn.
  eapply (sim_bind (fun x y => rd_range x 40 4 = rd_range y 40 4)).
  - apply sim_tick; [reflexivity|]. apply sim_quiet. unfold wr_word. change (40 + Z.of_nat 4 * 0) with 40. intros x y Ex Ey.
    rewrite (rd_wr_same _ _ _ _ 4 (f_equal Z.of_nat (enc_word_length le 4 (s256_num d))) Ex), (rd_wr_same _ _ _ _ 4 (f_equal Z.of_nat (enc_word_length le 4 (s256_num d))) Ey). reflexivity.
  - intros a2 b2 _ _ H. apply sim_tick; [unfold zlen; rewrite Hx; reflexivity|]. apply sim_quiet. intros x y Ex Ey. unfold i256.
    rewrite (rd_wr_before _ _ _ _ 40 4 Ex), (rd_wr_before _ _ _ _ 40 4 Ey) by lia. exact H.
Qed.
Lemma sim_get512 cfg it it' : sim l512 (l_get_sha512 cfg it) (l_get_sha512 cfg it').
Proof.
  unfold l_get_sha512. cbv zeta. eapply (sim_bind samelen); [apply sim_get_words|]. intros h h' _ _ Hh.
  eapply sim_bind; [apply sim_rd_word|]. intros. eapply sim_bind; [apply sim_rd_word|]. intros.
  eapply (sim_bind samelen); [apply sim_rd_range|]. intros x x' _ _ Hx. sr. apply mkL512; assumption.
Qed.
Lemma sim_get512_same cfg it it' : i512 it it' -> sim r512 (l_get_sha512 cfg it) (l_get_sha512 cfg it').
Proof.
  intros H. unfold l_get_sha512. cbv zeta. eapply (sim_bind samelen); [apply sim_get_words|]. intros h h' _ _ Hh.
  eapply sim_bind; [apply sim_rd_word|]. intros. eapply (sim_bind eq).
  - apply sim_tick; [reflexivity|]. apply sim_quiet. unfold rd_word. change (72 + Z.of_nat 4 * 0) with 72. change (Z.of_nat 4) with 4. rewrite H. intros; congruence.
  - intros n ? _ _ <-. eapply (sim_bind samelen); [apply sim_rd_range|]. intros x x' _ _ Hx. sr. apply mkR512; [reflexivity|assumption|assumption].
Qed.
Lemma x512_after cfg : 76 <= SHA512_X_OFFSET cfg.
Proof. apply (x512_bounds cfg). Qed.
Lemma sim_put512 cfg it it' c d : r512 c d -> sim i512 (l_put_sha512 cfg it c) (l_put_sha512 cfg it' d).
Proof.
  intros [Hn Hh Hx]. unfold l_put_sha512. cbv zeta. eapply sim_bind; [apply sim_wr_range; unfold samelen in *; rewrite !enc_words_length, Hh; reflexivity|].
  intros a b _ _ _. eapply sim_bind; [apply sim_wr_word|]. intros a1 b1 _ _ _. rewrite Hn.
  eapply (sim_bind (fun x y => rd_range x 72 4 = rd_range y 72 4)).
  - apply sim_tick; [reflexivity|]. apply sim_quiet. unfold wr_word. change (72 + Z.of_nat 4 * 0) with 72. intros x y Ex Ey.
    rewrite (rd_wr_same _ _ _ _ 4 (f_equal Z.of_nat (enc_word_length (cfg_le cfg) 4 (s512_num d))) Ex), (rd_wr_same _ _ _ _ 4 (f_equal Z.of_nat (enc_word_length (cfg_le cfg) 4 (s512_num d))) Ey). reflexivity.
  - intros a2 b2 _ _ H. apply sim_tick; [unfold zlen; rewrite Hx; reflexivity|]. apply sim_quiet. intros x y Ex Ey. unfold i512.
    pose proof (x512_after cfg). rewrite (rd_wr_before _ _ _ _ 72 4 Ex), (rd_wr_before _ _ _ _ 72 4 Ey) by lia. exact H.
Qed.
Lemma sim_get_shake le it it' : sim (fun s t => length s = 26%nat /\ length t = 26%nat) (l_get_shake le it) (l_get_shake le it').
Proof.
  eapply sim_weaken; [apply sim_get_words|]. intros a b Ha Hb _. apply for_snoc_len in Ha, Hb. cbn [length Nat.add] in Ha, Hb. split; assumption.
Qed.
Lemma get_shake_last le it s : get_shake le it = Ok s -> exists L k, length L = 25%nat /\ s = L ++ [k] /\ rd_word le 8 it 0 25 = Ok k.
Proof.
  intros H. pose proof (for_snoc_len (fun i => l_rd_word le 8 it 0 i) 25 0 []) as HL.
  unfold get_shake in H. change 26%nat with (25 + 1)%nat in H. rewrite for_loop_app in H.
  match type of H with bind ?x _ = _ => destruct x as [L|] eqn:E; [|discriminate] end. cbn [bind for_loop] in H.
  change (0 + Z.of_nat 25) with 25 in H. destruct (rd_word le 8 it 0 25) as [k|]; [|discriminate]. cbn [bind] in H.
  exists L, k. split; [|split; [symmetry; apply ok_inj, H|reflexivity]].
  apply (HL L). erewrite result_for; [exact E|]. intros i l. rewrite result_bind. reflexivity.
Qed.
Lemma sim_get_shake_same le it it' : ishake le it it' -> sim srel (l_get_shake le it) (l_get_shake le it').
Proof.
  intros [H (k & Hk & Bk)]. eapply sim_weaken; [apply sim_get_shake|]. intros a b Ha Hb _. rewrite er_get_shake in Ha. rewrite er_get_shake in Hb.
  apply get_shake_last in Ha, Hb. destruct Ha as (L & u & HL & -> & Hu). destruct Hb as (M & v & HM & -> & Hv).
  assert (u = k) as -> by congruence. assert (v = k) as ->.
  { unfold rd_word in Hk, Hv. change (0 + Z.of_nat 8 * 25) with 200 in *. change (Z.of_nat 8) with 8 in *. rewrite H in Hk. congruence. }
  exists L, M, k. auto.
Qed.
Lemma sim_put_shake le it it' s t : srel s t -> sim (ishake le) (l_put_shake le it s) (l_put_shake le it' t).
Proof.
  intros (L & M & k & HL & HM & Hk & -> & ->). unfold l_put_shake. apply sim_tick.
  - unfold zlen. rewrite !enc_words_length, !app_length, HL, HM. reflexivity.
  - apply sim_quiet. intros x y Ex Ey.
    assert (K : forall N z z', length N = 25%nat -> wr_range z 0 (enc_words le 8 (N ++ [k])) = Ok z' -> rd_range z' 200 8 = Ok (enc_word le 8 k)).
    { intros N z z' HN Ez. apply wr_range_inv in Ez. destruct Ez as (_ & _ & ->). cbn [Z.to_nat firstn app]. rewrite enc_words_app.
      replace (enc_words le 8 [k]) with (enc_word le 8 k) by (symmetry; apply app_nil_r). rewrite <- app_assoc. apply rd_range_mid.
      - unfold zlen. rewrite enc_words_length, HN. reflexivity.
      - unfold zlen. rewrite enc_word_length. reflexivity. }
    split.
    + rewrite (K L _ _ HL Ex), (K M _ _ HM Ey). reflexivity.
    + exists k. split; [|exact Hk]. unfold rd_word. change (0 + Z.of_nat 8 * 25) with 200. change (Z.of_nat 8) with 8. rewrite (K L _ _ HL Ex). cbn [bind].
      f_equal. apply dec_enc_word. change (8 * Z.of_nat 8) with 64. lia.
Qed.

(** ** The hash functions *)
Section Glue.
Variable cfg : config.
Variables mem mem' : memory.
(** What the two runs have in common *)
Definition hrel (c d : ts_context) : Prop := c_ps c = c_ps d /\ c_public_key c = c_public_key d.
Variables c d : ts_context.
Hypothesis H : hrel c d.
Local Notation n := (ps_n (c_ps c)).
Hypothesis Hn : 0 <= n < 2 ^ 63.
Local Notation le := (cfg_le cfg).

Ltac cd := destruct H as [Hps Hpk]; rewrite <- ?Hps, <- ?Hpk.
(** a block of bytes is read *)
Ltac rn := eapply sim_bind; [first [apply sim_rd_range_n | apply sim_load_n] | cbv beta; intros ? ? _ _ ?].
Ltac up := eapply sim_bind; [first [ apply sim_update256 | apply sim_update512 ]; [eapply lenis_same; eassumption|eassumption] | cbv beta; intros ? ? _ _ ?].
Ltac ab := eapply sim_bind; [apply sim_sh_absorb; [eapply lenis_same; eassumption|eapply lenis_small; [eassumption|first [apply Hn|reflexivity]]|eassumption] | cbv beta; intros ? ? _ _ ?].

Lemma sim_pad256 u v k : r256 u v -> sim r256 (l_sha256_pad_zero cfg u k) (l_sha256_pad_zero cfg v k).
Proof. intros K. apply sim_for; [|exact K]. intros j s t _ R. apply sim_update256; [reflexivity|exact R]. Qed.
Lemma sim_pad512 u v k : r512 u v -> sim r512 (l_sha512_pad_zero cfg u k) (l_sha512_pad_zero cfg v k).
Proof. intros K. apply sim_for; [|exact K]. intros j s t _ R. apply sim_update512; [reflexivity|exact R]. Qed.
Lemma sim_init_ctx256 u v : l256 u v -> sim r256 (l_ts_sha256_init_ctx cfg mem u c) (l_ts_sha256_init_ctx cfg mem' v d).
Proof.
  intros [K1 K2]. unfold l_ts_sha256_init_ctx. cd. destruct (cfg_sha2_opt cfg); [apply sim_restore256; assumption|]. cbv zeta.
  pose proof (init256 u v K2) as R. rn. up. apply sim_pad256. assumption.
Qed.
Lemma sim_init_ctx512 u v : l512 u v -> sim r512 (l_ts_sha512_init_ctx cfg mem u c) (l_ts_sha512_init_ctx cfg mem' v d).
Proof.
  intros [K1 K2]. unfold l_ts_sha512_init_ctx. cd. destruct (cfg_sha2_opt cfg); [apply sim_restore512; assumption|]. cbv zeta.
  pose proof (init512 u v K2) as R. rn. up. apply sim_pad512. assumption.
Qed.
(** Output and context: only small_iter has changed *)
Definition hout (a b : list Z * ts_context) : Prop :=
  samelen (fst a) (fst b) /\ (exists it, snd a = set_small_iter it c) /\ (exists it, snd b = set_small_iter it d).
Ltac ho := sr; split; [assumption|split; eexists; reflexivity].
Lemma sim_sha2_prf : sim hout (l_ts_sha2_prf cfg mem c) (l_ts_sha2_prf cfg mem' d).
Proof.
  unfold l_ts_sha2_prf. cd. cbv zeta. eapply sim_bind; [apply sim_get256|]. intros u v _ _ K.
  eapply sim_bind; [apply sim_init_ctx256, K|]. intros u1 v1 _ _ K1. rn. up. rn. up.
  eapply sim_bind; [apply sim_final256; eassumption|]. intros [o u2] [o' v2] _ _ [Ko K2]. cbn [fst snd] in Ko, K2.
  eapply sim_bind; [apply sim_put256, K2|]. intros it it' _ _ _. ho.
Qed.
Lemma sim_sha2_f b b' : sim hout (l_ts_sha2_f_simple cfg mem b c) (l_ts_sha2_f_simple cfg mem' b' d).
Proof.
  unfold l_ts_sha2_f_simple. cd. cbv zeta. eapply sim_bind; [apply sim_get256|]. intros u v _ _ K.
  eapply sim_bind; [apply sim_init_ctx256, K|]. intros u1 v1 _ _ K1. rn. up. rn. up.
  eapply sim_bind; [apply sim_final256; eassumption|]. intros [o u2] [o' v2] _ _ [Ko K2]. cbn [fst snd] in Ko, K2.
  eapply sim_bind; [apply sim_put256, K2|]. intros it it' _ _ _. ho.
Qed.
Lemma sim_L1_init it it' : sim i256 (l_ts_sha2_L1_init_t_simple cfg mem it c) (l_ts_sha2_L1_init_t_simple cfg mem' it' d).
Proof.
  unfold l_ts_sha2_L1_init_t_simple. eapply sim_bind; [apply sim_get256|]. intros u v _ _ K.
  eapply sim_bind; [apply sim_init_ctx256, K|]. intros u1 v1 _ _ K1. rn. up. apply sim_put256. assumption.
Qed.
Lemma sim_L1_next it it' b b' : i256 it it' -> sim i256 (l_ts_sha2_L1_next_t_simple cfg it b c) (l_ts_sha2_L1_next_t_simple cfg it' b' d).
Proof.
  intros Hi. unfold l_ts_sha2_L1_next_t_simple. cd. cbv zeta. eapply sim_bind; [apply sim_get256_same, Hi|]. intros u v _ _ K. rn. up. apply sim_put256. assumption.
Qed.
Definition tout (a b : list Z * list Z) : Prop := samelen (fst a) (fst b).
Lemma sim_L1_final it it' : i256 it it' -> sim tout (l_ts_sha2_L1_final_t_simple cfg it c) (l_ts_sha2_L1_final_t_simple cfg it' d).
Proof.
  intros Hi. unfold l_ts_sha2_L1_final_t_simple. cd. cbv zeta. eapply sim_bind; [apply sim_get256_same, Hi|]. intros u v _ _ K.
  eapply sim_bind; [apply sim_final256; eassumption|]. intros [o u2] [o' v2] _ _ [Ko K2]. cbn [fst snd] in Ko, K2.
  eapply sim_bind; [apply sim_put256, K2|]. intros. sr. exact Ko.
Qed.
Lemma sim_L35_init it it' : sim i512 (l_ts_sha2_L35_init_t_simple cfg mem it c) (l_ts_sha2_L35_init_t_simple cfg mem' it' d).
Proof.
  unfold l_ts_sha2_L35_init_t_simple. eapply sim_bind; [apply sim_get512|]. intros u v _ _ K.
  eapply sim_bind; [apply sim_init_ctx512, K|]. intros u1 v1 _ _ K1. rn. up. apply sim_put512. assumption.
Qed.
Lemma sim_L35_next it it' b b' : i512 it it' -> sim i512 (l_ts_sha2_L35_next_t_simple cfg it b c) (l_ts_sha2_L35_next_t_simple cfg it' b' d).
Proof.
  intros Hi. unfold l_ts_sha2_L35_next_t_simple. cd. cbv zeta. eapply sim_bind; [apply sim_get512_same, Hi|]. intros u v _ _ K. rn. up. apply sim_put512. assumption.
Qed.
Lemma sim_L35_final it it' : i512 it it' -> sim tout (l_ts_sha2_L35_final_t_simple cfg it c) (l_ts_sha2_L35_final_t_simple cfg it' d).
Proof.
  intros Hi. unfold l_ts_sha2_L35_final_t_simple. cd. cbv zeta. eapply sim_bind; [apply sim_get512_same, Hi|]. intros u v _ _ K.
  eapply sim_bind; [apply sim_final512; eassumption|]. intros [o u2] [o' v2] _ _ [Ko K2]. cbn [fst snd] in Ko, K2.
  eapply sim_bind; [apply sim_put512, K2|]. intros. sr. exact Ko.
Qed.
(** The precomputed states: only they and small_iter have changed *)
Definition pout (a b : ts_context) : Prop :=
  (exists it p q, a = set_prehash_sha512 q (set_prehash_sha256 p (set_small_iter it c))) /\
  (exists it p q, b = set_prehash_sha512 q (set_prehash_sha256 p (set_small_iter it d))).
Lemma sim_L1_prehash : sim pout (l_ts_sha2_L1_prehash cfg mem c) (l_ts_sha2_L1_prehash cfg mem' d).
Proof.
  unfold l_ts_sha2_L1_prehash. cd. cbv zeta. eapply sim_bind; [apply sim_get256|]. intros u v _ _ [K1 K2].
  pose proof (init256 u v K2) as R. rn. up. eapply sim_bind; [apply sim_pad256; eassumption|]. intros u2 v2 _ _ R2.
  eapply sim_bind; [apply sim_save256|]. intros s t _ _ Hst. eapply sim_bind; [apply sim_wr_range, Hst|]. intros p p' _ _ _.
  eapply sim_bind; [apply sim_put256, R2|]. intros it it' _ _ _. sr. split.
  - exists it, p, (c_prehash_sha512 c). reflexivity.
  - exists it', p', (c_prehash_sha512 d). reflexivity.
Qed.
(** sha256_L1_hash.c: the key is read one byte at a time *)
Lemma sim_hmac b b' s v pk k : samelen b b' -> sim samelen (l_hmac_block mem b s v pk k) (l_hmac_block mem' b' s v pk k).
Proof.
  intros K. unfold l_hmac_block. eapply (sim_bind samelen); [|intros x y _ _ Hxy; apply sim_memset_len, Hxy].
  apply sim_for; [|exact K]. intros i x y _ Hxy. rn. eapply sim_bind; [apply sim_rd|]. intros. apply sim_wr_len, Hxy.
Qed.
Ltac us t := eapply sim_bind; [first [ apply sim_update256 | apply sim_update512 ]; [t|eassumption] | cbv beta; intros ? ? _ _ ?].
Lemma sim_L1_prf_msg o o' m m' : samelen m m' -> sim hout (l_ts_sha2_L1_prf_msg cfg mem o m c) (l_ts_sha2_L1_prf_msg cfg mem' o' m' d).
Proof.
  intros Hm. unfold l_ts_sha2_L1_prf_msg. cd. cbv zeta. eapply sim_bind; [apply sim_get256|]. intros u v _ _ [K1 K2].
  pose proof (init256 u v K2) as R. eapply sim_bind; [apply sim_hmac; reflexivity|]. intros b b' _ _ Hb.
  eapply sim_bind; [apply sim_defined, Hb|]. intros bl bl' _ _ Hbl. us assumption. rn. up. us assumption.
  eapply sim_bind; [apply sim_final256'; eassumption|]. intros [h u2] [h' v2] _ _ [Ko R2]. cbn [fst snd] in Ko, R2.
  pose proof (init256 u2 v2 (r256_x _ _ R2)) as R3. eapply sim_bind; [apply sim_hmac; exact Hb|]. intros bk bk' _ _ Hb2.
  eapply sim_bind; [apply sim_defined, Hb2|]. intros bm bm' _ _ Hbl2. us assumption. rn. up.
  eapply sim_bind; [apply sim_final256; eassumption|]. intros [h2 u4] [h2' v4] _ _ [Ko2 R4]. cbn [fst snd] in Ko2, R4.
  eapply sim_bind; [apply sim_put256, R4|]. intros it it' _ _ _. ho.
Qed.
Lemma sim_L35_prf_msg o o' m m' : samelen m m' -> sim hout (l_ts_sha2_L35_prf_msg cfg mem o m c) (l_ts_sha2_L35_prf_msg cfg mem' o' m' d).
Proof.
  intros Hm. unfold l_ts_sha2_L35_prf_msg. cd. cbv zeta. eapply sim_bind; [apply sim_get512|]. intros u v _ _ [K1 K2].
  pose proof (init512 u v K2) as R. eapply sim_bind; [apply sim_hmac; reflexivity|]. intros b b' _ _ Hb.
  eapply sim_bind; [apply sim_defined, Hb|]. intros bl bl' _ _ Hbl. us assumption. rn. up. us assumption.
  eapply sim_bind; [apply sim_final512'; eassumption|]. intros [h u2] [h' v2] _ _ [Ko R2]. cbn [fst snd] in Ko, R2.
  pose proof (init512 u2 v2 (r512_x _ _ R2)) as R3. eapply sim_bind; [apply sim_hmac; exact Hb|]. intros bk bk' _ _ Hb2.
  eapply sim_bind; [apply sim_defined, Hb2|]. intros bm bm' _ _ Hbl2. us assumption. rn. up.
  eapply sim_bind; [apply sim_final512; eassumption|]. intros [h2 u4] [h2' v4] _ _ [Ko2 R4]. cbn [fst snd] in Ko2, R4.
  eapply sim_bind; [apply sim_put512, R4|]. intros it it' _ _ _. ho.
Qed.
Lemma sim_mgf256 fuel k : forall mh mh' u v i j z, samelen mh mh' -> r256 u v ->
  sim out256 (l_sha256_mgf_loop cfg fuel k mh u i z) (l_sha256_mgf_loop cfg fuel k mh' v j z).
Proof.
  induction fuel as [|fuel IH]; intros mh mh' u v i j z Hmh Hx; [apply sim_ub_l|]. cbn [l_sha256_mgf_loop]. apply sim_if; [reflexivity| |]; intros _.
  - sr. split; [reflexivity|]. exact Hx.
  - eapply sim_bind; [apply sim_ull|]. intros ib ib' _ _ Hib. eapply sim_bind; [apply sim_wr_local; assumption|]. intros mh2 mh2' _ _ Hmh2. cbv zeta.
    pose proof (init256 u v (r256_x _ _ Hx)) as R. eapply sim_bind; [apply sim_rd_local|]. intros m m' _ _ Hm. us assumption.
    eapply sim_bind; [apply sim_final256'; eassumption|]. intros [h u2] [h' v2] _ _ [Ko R2]. cbn [fst snd] in Ko, R2.
    eapply (sim_bind eq); [apply sim_if; [reflexivity| |]; intros _; sr; reflexivity|]. intros by0 ? _ _ <-.
    rn. eapply sim_bind; [apply sim_int_val|]. intros i' j' _ _ _.
    eapply sim_bind; [apply IH; [assumption|exact R2]|]. intros [r u3] [r' v3] _ _ [Kr R3]. cbn [fst snd] in Kr, R3. sr. split; [|exact R3].
    apply samelen_app; [eapply lenis_same; eassumption|exact Kr].
Qed.
Lemma sim_L1_hash_msg k r r' m m' : samelen m m' -> sim hout (l_ts_sha2_L1_hash_msg cfg mem k r m c) (l_ts_sha2_L1_hash_msg cfg mem' k r' m' d).
Proof.
  intros Hm. unfold l_ts_sha2_L1_hash_msg. cd. cbv zeta. eapply sim_bind; [apply sim_get256|]. intros u v _ _ [K1 K2].
  pose proof (init256 u v K2) as R. rn. up. rn. up. rn. up. us assumption.
  eapply sim_bind; [apply sim_final256'; eassumption|]. intros [h u2] [h' v2] _ _ [Ko R2]. cbn [fst snd] in Ko, R2.
  eapply sim_bind; [apply sim_wr_local; [exact Ko|reflexivity]|]. intros mh mh' _ _ Hmh.
  eapply sim_bind; [apply sim_wr_local; [eapply lenis_same; eassumption|exact Hmh]|]. intros mh2 mh2' _ _ Hmh2.
  eapply sim_bind; [apply sim_wr_local; [eapply lenis_same; eassumption|exact Hmh2]|]. intros mh3 mh3' _ _ Hmh3.
  eapply sim_bind; [apply sim_mgf256; [exact Hmh3|exact R2]|]. intros [o u3] [o' v3] _ _ [Ko3 R3]. cbn [fst snd] in Ko3, R3.
  eapply sim_bind; [apply sim_put256, R3|]. intros it it' _ _ _. ho.
Qed.
Lemma sim_mgf512 fuel k : forall mh mh' u v i j z, samelen mh mh' -> r512 u v ->
  sim out512 (l_sha512_mgf_loop cfg fuel k mh u i z) (l_sha512_mgf_loop cfg fuel k mh' v j z).
Proof.
  induction fuel as [|fuel IH]; intros mh mh' u v i j z Hmh Hx; [apply sim_ub_l|]. cbn [l_sha512_mgf_loop]. apply sim_if; [reflexivity| |]; intros _.
  - sr. split; [reflexivity|]. exact Hx.
  - eapply sim_bind; [apply sim_ull|]. intros ib ib' _ _ Hib. eapply sim_bind; [apply sim_wr_local; assumption|]. intros mh2 mh2' _ _ Hmh2. cbv zeta.
    pose proof (init512 u v (r512_x _ _ Hx)) as R. eapply sim_bind; [apply sim_rd_local|]. intros m m' _ _ Hm. us assumption.
    eapply sim_bind; [apply sim_final512'; eassumption|]. intros [h u2] [h' v2] _ _ [Ko R2]. cbn [fst snd] in Ko, R2.
    eapply (sim_bind eq); [apply sim_if; [reflexivity| |]; intros _; sr; reflexivity|]. intros by0 ? _ _ <-.
    rn. eapply sim_bind; [apply sim_int_val|]. intros i' j' _ _ _.
    eapply sim_bind; [apply IH; [assumption|exact R2]|]. intros [r u3] [r' v3] _ _ [Kr R3]. cbn [fst snd] in Kr, R3. sr. split; [|exact R3].
    apply samelen_app; [eapply lenis_same; eassumption|exact Kr].
Qed.
Lemma sim_L35_hash_msg k r r' m m' : samelen m m' -> sim hout (l_ts_sha2_L35_hash_msg cfg mem k r m c) (l_ts_sha2_L35_hash_msg cfg mem' k r' m' d).
Proof.
  intros Hm. unfold l_ts_sha2_L35_hash_msg. cd. cbv zeta. eapply sim_bind; [apply sim_get512|]. intros u v _ _ [K1 K2].
  pose proof (init512 u v K2) as R. rn. up. rn. up. rn. up. us assumption.
  eapply sim_bind; [apply sim_final512'; eassumption|]. intros [h u2] [h' v2] _ _ [Ko R2]. cbn [fst snd] in Ko, R2.
  eapply sim_bind; [apply sim_wr_local; [exact Ko|reflexivity]|]. intros mh mh' _ _ Hmh.
  eapply sim_bind; [apply sim_wr_local; [eapply lenis_same; eassumption|exact Hmh]|]. intros mh2 mh2' _ _ Hmh2.
  eapply sim_bind; [apply sim_wr_local; [eapply lenis_same; eassumption|exact Hmh2]|]. intros mh3 mh3' _ _ Hmh3.
  eapply sim_bind; [apply sim_mgf512; [exact Hmh3|exact R2]|]. intros [o u3] [o' v3] _ _ [Ko3 R3]. cbn [fst snd] in Ko3, R3.
  eapply sim_bind; [apply sim_put512, R3|]. intros it it' _ _ _. ho.
Qed.

(** SHAKE256 *)
Lemma sim_sh_init s t : length s = 26%nat /\ length t = 26%nat -> sim srel (l_ts_shake256_inc_init s) (l_ts_shake256_inc_init t).
Proof. intros [Hs Ht]. exact (sim_inc_init s t Hs Ht). Qed.
Ltac fin := eapply sim_bind; [apply sim_sh_finalize; eassumption | cbv beta; intros ? ? _ _ ?].
Ltac sta := eapply sim_bind; [apply sim_get_shake | cbv beta; intros ? ? _ _ ?]; eapply sim_bind; [apply sim_sh_init; eassumption | cbv beta; intros ? ? _ _ ?].
Lemma sim_sh_prf_msg o o' m m' : samelen m m' -> zlen m < 2 ^ 63 -> sim hout (l_ts_shake256_prf_msg cfg mem o m c) (l_ts_shake256_prf_msg cfg mem' o' m' d).
Proof.
  intros Hm Hz. unfold l_ts_shake256_prf_msg. cd. cbv zeta. sta. rn. ab. rn. ab. eapply sim_bind; [apply sim_sh_absorb; eassumption|]. intros w w' _ _ K. fin.
  eapply sim_bind; [apply sim_sh_squeeze; [apply Hn|eassumption]|]. intros [h u] [h' v] _ _ [Ko R]. cbn [fst snd] in Ko, R.
  eapply sim_bind; [apply sim_put_shake, R|]. intros it it' _ _ _. ho.
Qed.
Lemma sim_sh_hash_msg k r r' m m' : 0 <= k -> samelen m m' -> zlen m < 2 ^ 63 -> sim hout (l_ts_shake256_hash_msg cfg mem k r m c) (l_ts_shake256_hash_msg cfg mem' k r' m' d).
Proof.
  intros Hk Hm Hz. unfold l_ts_shake256_hash_msg. cd. cbv zeta. sta. rn. ab. rn. ab. rn. ab. eapply sim_bind; [apply sim_sh_absorb; eassumption|]. intros w w' _ _ K. fin.
  eapply sim_bind; [apply sim_sh_squeeze; [exact Hk|eassumption]|]. intros [h u] [h' v] _ _ [Ko R]. cbn [fst snd] in Ko, R.
  eapply sim_bind; [apply sim_put_shake, R|]. intros it it' _ _ _. ho.
Qed.
Lemma adr_small : ADR_SIZE cfg < 2 ^ 63. Proof. unfold ADR_SIZE. destruct (cfg_shake cfg); reflexivity. Qed.
Ltac ab2 := eapply sim_bind; [apply sim_sh_absorb; [eapply lenis_same; eassumption|eapply lenis_small; [eassumption|apply adr_small]|eassumption] | cbv beta; intros ? ? _ _ ?].
Lemma sim_sh_prf : sim hout (l_ts_shake256_prf cfg mem c) (l_ts_shake256_prf cfg mem' d).
Proof.
  unfold l_ts_shake256_prf. cd. cbv zeta. sta. rn. ab. rn. ab2. rn. ab. fin.
  eapply sim_bind; [apply sim_sh_squeeze; [apply Hn|eassumption]|]. intros [h u] [h' v] _ _ [Ko R]. cbn [fst snd] in Ko, R.
  eapply sim_bind; [apply sim_put_shake, R|]. intros it it' _ _ _. ho.
Qed.
Lemma sim_sh_init_t it it' : sim (ishake le) (l_ts_shake256_init_t_simple cfg mem it c) (l_ts_shake256_init_t_simple cfg mem' it' d).
Proof. unfold l_ts_shake256_init_t_simple. cd. cbv zeta. sta. rn. ab. rn. ab2. apply sim_put_shake. assumption. Qed.
Lemma sim_sh_next_t it it' b b' : ishake le it it' -> sim (ishake le) (l_ts_shake256_next_t_simple cfg it b c) (l_ts_shake256_next_t_simple cfg it' b' d).
Proof.
  intros Hi. unfold l_ts_shake256_next_t_simple. cd. cbv zeta. eapply sim_bind; [apply sim_get_shake_same, Hi|]. intros w w' _ _ K. rn. ab. apply sim_put_shake. assumption.
Qed.
Lemma sim_sh_final_t it it' : ishake le it it' -> sim tout (l_ts_shake256_final_t_simple cfg it c) (l_ts_shake256_final_t_simple cfg it' d).
Proof.
  intros Hi. unfold l_ts_shake256_final_t_simple. cd. cbv zeta. eapply sim_bind; [apply sim_get_shake_same, Hi|]. intros w w' _ _ K. fin.
  eapply sim_bind; [apply sim_sh_squeeze; [apply Hn|eassumption]|]. intros [h u] [h' v] _ _ [Ko R]. cbn [fst snd] in Ko, R.
  eapply sim_bind; [apply sim_put_shake, R|]. intros it2 it2' _ _ _. sr. exact Ko.
Qed.
Lemma sim_sh_f b b' : sim hout (l_ts_shake256_f_simple cfg mem b c) (l_ts_shake256_f_simple cfg mem' b' d).
Proof.
  unfold l_ts_shake256_f_simple. eapply sim_bind; [apply sim_sh_init_t|]. intros it it' _ _ Hi. eapply sim_bind; [apply sim_sh_next_t, Hi|]. intros it2 it2' _ _ Hi2.
  eapply sim_bind; [apply sim_sh_final_t, Hi2|]. intros [o it3] [o' it3'] _ _ Ko. cbn [fst] in Ko. ho.
Qed.
End Glue.

(** ** Calls through the function pointers *)
(** The three functions of T belong together *)
Definition consistent (ps : parameter_set) : Prop :=
  match ps_init_t ps, ps_next_t ps, ps_final_t ps with
  | shake256_init_t_simple, shake256_next_t_simple, shake256_final_t_simple => True
  | sha2_L1_init_t_simple, sha2_L1_next_t_simple, sha2_L1_final_t_simple => True
  | sha2_L35_init_t_simple, sha2_L35_next_t_simple, sha2_L35_final_t_simple => True
  | _, _, _ => False
  end.
(** Two iterators that look the same *)
Definition irel (cfg : config) (ps : parameter_set) (it it' : list Z) : Prop :=
  match ps_init_t ps with
  | shake256_init_t_simple => ishake (cfg_le cfg) it it'
  | sha2_L1_init_t_simple => i256 it it'
  | sha2_L35_init_t_simple => i512 it it'
  end.
Section Calls.
Variable cfg : config.
Variables mem mem' : memory.
Variables c d : ts_context.
Hypothesis H : hrel c d.
Hypothesis Hc : consistent (c_ps c).
Hypothesis Hn : 0 <= ps_n (c_ps c) < 2 ^ 63.
Lemma sim_call_prf : sim (hout c d) (l_call_prf cfg mem c) (l_call_prf cfg mem' d).
Proof. unfold l_call_prf. rewrite <- (proj1 H). destruct (ps_prf (c_ps c)); (apply sim_tick; [reflexivity|]); [apply sim_sh_prf|apply sim_sha2_prf]; assumption. Qed.
Lemma sim_call_f b b' : sim (hout c d) (l_call_f cfg mem b c) (l_call_f cfg mem' b' d).
Proof. unfold l_call_f. rewrite <- (proj1 H). destruct (ps_f (c_ps c)); (apply sim_tick; [reflexivity|]); [apply sim_sh_f|apply sim_sha2_f]; assumption. Qed.
Lemma sim_call_init it it' : sim (irel cfg (c_ps c)) (l_call_init_t cfg mem it c) (l_call_init_t cfg mem' it' d).
Proof.
  unfold l_call_init_t, irel. rewrite <- (proj1 H). destruct (ps_init_t (c_ps c)); (apply sim_tick; [reflexivity|]);
  [apply sim_sh_init_t|apply sim_L1_init|apply sim_L35_init]; assumption.
Qed.
Lemma sim_call_next it it' b b' : irel cfg (c_ps c) it it' -> sim (irel cfg (c_ps c)) (l_call_next_t cfg it b c) (l_call_next_t cfg it' b' d).
Proof.
  unfold l_call_next_t, irel. rewrite <- (proj1 H). unfold consistent in Hc.
  destruct (ps_init_t (c_ps c)), (ps_next_t (c_ps c)); try contradiction; intros K; (apply sim_tick; [reflexivity|]);
  [apply sim_sh_next_t|apply sim_L1_next|apply sim_L35_next]; assumption.
Qed.
Lemma sim_call_final it it' : irel cfg (c_ps c) it it' -> sim tout (l_call_final_t cfg it c) (l_call_final_t cfg it' d).
Proof.
  unfold l_call_final_t, irel. rewrite <- (proj1 H). unfold consistent in Hc.
  destruct (ps_init_t (c_ps c)), (ps_next_t (c_ps c)), (ps_final_t (c_ps c)); try contradiction; intros K; (apply sim_tick; [reflexivity|]);
  [apply sim_sh_final_t|apply sim_L1_final|apply sim_L35_final]; assumption.
Qed.
Lemma sim_call_prf_msg o o' m m' : samelen m m' -> zlen m < 2 ^ 63 -> sim (hout c d) (l_call_prf_msg cfg mem o m c) (l_call_prf_msg cfg mem' o' m' d).
Proof.
  intros Hm Hz. unfold l_call_prf_msg. rewrite <- (proj1 H). destruct (ps_prf_msg (c_ps c)); (apply sim_tick; [reflexivity|]);
  [apply sim_sh_prf_msg|apply sim_L1_prf_msg|apply sim_L35_prf_msg]; assumption.
Qed.
Lemma sim_call_hash_msg k r r' m m' : 0 <= k -> samelen m m' -> zlen m < 2 ^ 63 -> sim (hout c d) (l_call_hash_msg cfg mem k r m c) (l_call_hash_msg cfg mem' k r' m' d).
Proof.
  intros Hk Hm Hz. unfold l_call_hash_msg. rewrite <- (proj1 H). destruct (ps_hash_msg (c_ps c)); (apply sim_tick; [reflexivity|]);
  [apply sim_sh_hash_msg|apply sim_L1_hash_msg|apply sim_L35_hash_msg]; assumption.
Qed.
End Calls.

Lemma sim_L35_prehash cfg mem mem' c d : hrel c d -> sim (pout c d) (l_ts_sha2_L35_prehash cfg mem c) (l_ts_sha2_L35_prehash cfg mem' d).
Proof.
  intros H. unfold l_ts_sha2_L35_prehash. eapply sim_bind; [apply sim_L1_prehash, H|]. intros e f _ _ [(it1 & p1 & q1 & ->) (it2 & p2 & q2 & ->)]. cbv zeta.
  set (e := set_prehash_sha512 q1 _). set (f := set_prehash_sha512 q2 _).
  change (c_ps e) with (c_ps c). change (c_ps f) with (c_ps d). change (c_public_key e) with (c_public_key c). change (c_public_key f) with (c_public_key d).
  destruct H as [Hps Hpk]. rewrite <- Hps, <- Hpk. eapply sim_bind; [apply sim_get512|]. intros u v _ _ [K1 K2].
  pose proof (init512 u v K2) as R. eapply sim_bind; [apply sim_load_n|]. intros sd sd' _ _ Hsd.
  eapply sim_bind; [apply sim_update512; [eapply lenis_same, Hsd|exact R]|]. intros u1 v1 _ _ R1.
  eapply sim_bind; [apply sim_pad512, R1|]. intros u2 v2 _ _ R2.
  eapply sim_bind; [apply sim_save512|]. intros s t _ _ Hst. eapply sim_bind; [apply sim_wr_range, Hst|]. intros p p' _ _ _.
  eapply sim_bind; [apply sim_put512, R2|]. intros it it' _ _ _. sr. split.
  - exists it, p1, p. reflexivity.
  - exists it', p2, p'. reflexivity.
Qed.
Lemma sim_call_prehash cfg mem mem' c d : hrel c d -> sim (pout c d) (l_call_compute_prehash cfg mem c) (l_call_compute_prehash cfg mem' d).
Proof.
  intros H. unfold l_call_compute_prehash. rewrite <- (proj1 H).
  assert (K : sim (pout c d) (lret c) (lret d)).
  { sr. split.
    - exists (c_small_iter c), (c_prehash_sha256 c), (c_prehash_sha512 c). destruct c; reflexivity.
    - exists (c_small_iter d), (c_prehash_sha256 d), (c_prehash_sha512 d). destruct d; reflexivity. }
  destruct (cfg_sha2_opt cfg); [|exact K]. destruct (ps_compute_prehash (c_ps c)) as [[]|]; (apply sim_tick; [reflexivity|]).
  - apply sim_tick; [reflexivity|]. apply sim_L1_prehash, H.
  - apply sim_tick; [reflexivity|]. apply sim_L35_prehash, H.
  - exact K.
Qed.
