(** * Two memories in which the needed parts of the keys are the same *)
From Verif Require Import Arr SpecSLH SpecApi SpecMap SpecSessions SpecKeyParts ModelParams ModelCtx ModelHash ModelSphincs ModelVerify ModelApi
  PfEnv PfSpec PfApi PfTwoMem.
Ltac Zify.zify_post_hook ::= idtac.

Section Loads.
Variable cfg : config.
Variable p : ps_name.
Variables m m' : memory.
Variable pk : Z.
Local Notation n := (p_n (slh_of p)).
Local Notation K := (same_id (the_ps cfg p) pk).

Lemma n_of : ps_n (the_ps cfg p) = n.
Proof using. destruct p; reflexivity. Qed.
Definition shake_set : bool :=
  match p with SHAKE_128f | SHAKE_128s | SHAKE_192f | SHAKE_192s | SHAKE_256f | SHAKE_256s => true | _ => false end.
Lemma f_of : ps_f (the_ps cfg p) = if shake_set then shake256_f_simple else sha2_f_simple.
Proof using. unfold shake_set. destruct p; reflexivity. Qed.
Lemma prf_of : ps_prf (the_ps cfg p) = if shake_set then shake256_prf else sha2_prf.
Proof using. unfold shake_set. destruct p; reflexivity. Qed.
Lemma kept_of : seed_kept cfg p = negb shake_set && cfg_sha2_opt cfg.
Proof using. unfold shake_set. destruct p; reflexivity. Qed.
Lemma init_of : (shake_set = true /\ ps_init_t (the_ps cfg p) = shake256_init_t_simple) \/
  (shake_set = false /\ (ps_init_t (the_ps cfg p) = sha2_L1_init_t_simple \/ ps_init_t (the_ps cfg p) = sha2_L35_init_t_simple)).
Proof using. unfold shake_set. destruct p; cbn; auto. Qed.
Lemma prehash_of : cfg_sha2_opt cfg = true -> (shake_set = true /\ ps_compute_prehash (the_ps cfg p) = None) \/
  (shake_set = false /\ (ps_compute_prehash (the_ps cfg p) = Some sha2_L1_prehash \/ ps_compute_prehash (the_ps cfg p) = Some sha2_L35_prehash)).
Proof using. unfold shake_set. intros Eo. destruct p; cbn; try rewrite Eo; auto. Qed.

(** PK.seed *)
Section Seed.
Hypothesis Hs : seed_kept cfg p = false -> load m pk n = load m' pk n.
Lemma sha256_same x c : shake_set = false -> K c -> ts_sha256_init_ctx cfg m x c = ts_sha256_init_ctx cfg m' x c.
Proof using Hs.
  intros Sh [D1 D2]. unfold ts_sha256_init_ctx. rewrite D1, D2, n_of. rewrite kept_of, Sh in Hs. cbn [negb andb] in Hs.
  destruct (cfg_sha2_opt cfg); [reflexivity|]. unfold CONVERT_PUBLIC_KEY_TO_PUB_SEED. rewrite (Hs eq_refl). reflexivity.
Qed.
Lemma sha512_same x c : shake_set = false -> K c -> ts_sha512_init_ctx cfg m x c = ts_sha512_init_ctx cfg m' x c.
Proof using Hs.
  intros Sh [D1 D2]. unfold ts_sha512_init_ctx. rewrite D1, D2, n_of. rewrite kept_of, Sh in Hs. cbn [negb andb] in Hs.
  destruct (cfg_sha2_opt cfg); [reflexivity|]. unfold CONVERT_PUBLIC_KEY_TO_PUB_SEED. rewrite (Hs eq_refl). reflexivity.
Qed.
Lemma shake_same it c : shake_set = true -> K c -> ts_shake256_init_t_simple cfg m it c = ts_shake256_init_t_simple cfg m' it c.
Proof using Hs.
  intros Sh [D1 D2]. unfold ts_shake256_init_t_simple. rewrite D1, D2, n_of. rewrite kept_of, Sh in Hs. cbn [negb andb] in Hs.
  unfold CONVERT_PUBLIC_KEY_TO_PUB_SEED. rewrite (Hs eq_refl). reflexivity.
Qed.
Lemma f_same i c : K c -> call_f cfg m i c = call_f cfg m' i c.
Proof using Hs.
  intros HK. unfold call_f. rewrite (proj1 HK), f_of. destruct shake_set eqn:Sh.
  - unfold ts_shake256_f_simple. rewrite (shake_same _ _ Sh HK). reflexivity.
  - unfold ts_sha2_f_simple. cbv zeta. destruct (get_sha256 _ _); cbn [bind]; [|reflexivity]. rewrite (sha256_same _ _ Sh HK). reflexivity.
Qed.
Lemma init_same it c : K c -> call_init_t cfg m it c = call_init_t cfg m' it c.
Proof using Hs.
  intros HK. unfold call_init_t. rewrite (proj1 HK). destruct init_of as [[Sh ->]|[Sh [-> | ->]]].
  - apply shake_same; assumption.
  - unfold ts_sha2_L1_init_t_simple. destruct (get_sha256 _ _); cbn [bind]; [|reflexivity]. rewrite (sha256_same _ _ Sh HK). reflexivity.
  - unfold ts_sha2_L35_init_t_simple. destruct (get_sha512 _ _); cbn [bind]; [|reflexivity]. rewrite (sha512_same _ _ Sh HK). reflexivity.
Qed.

(** ... and SK.seed *)
Hypothesis Hk : load m (pk - 2 * n) n = load m' (pk - 2 * n) n.
Lemma prf_same c : K c -> call_prf cfg m c = call_prf cfg m' c.
Proof using Hs Hk.
  intros HK. unfold call_prf. rewrite (proj1 HK), prf_of. destruct shake_set eqn:Sh.
  - unfold ts_shake256_prf. rewrite (proj1 HK), (proj2 HK), n_of. cbv zeta. rewrite kept_of, Sh in Hs. cbn [negb andb] in Hs.
    unfold CONVERT_PUBLIC_KEY_TO_PUB_SEED, CONVERT_PUBLIC_KEY_TO_SEC_SEED. rewrite (Hs eq_refl), Hk. reflexivity.
  - unfold ts_sha2_prf. cbv zeta. destruct (get_sha256 _ _); cbn [bind]; [|reflexivity]. rewrite (sha256_same _ _ Sh HK).
    rewrite (proj1 HK), (proj2 HK), n_of. unfold CONVERT_PUBLIC_KEY_TO_SEC_SEED. rewrite Hk. reflexivity.
Qed.
Lemma sign_same dest k c : K c -> ts_sign cfg m dest k c = ts_sign cfg m' dest k c.
Proof using Hs Hk. intros HK. apply (sign_two_memories cfg m m' (the_ps cfg p) pk); [apply prf_same|apply f_same|apply init_same|exact HK]. Qed.
End Seed.

(** ts_init_verify: PK.seed where it is kept *)
Lemma prehash_same c : (seed_kept cfg p = true -> load m pk n = load m' pk n) -> K c ->
  agree K (call_compute_prehash cfg m c) (call_compute_prehash cfg m' c).
Proof using.
  intros Hs HK. unfold call_compute_prehash. destruct (cfg_sha2_opt cfg) eqn:Eo; [|apply agree_ok, HK].
  rewrite (proj1 HK). destruct (prehash_of Eo) as [[Sh ->]|[Sh Hp]]; [apply agree_ok, HK|].
  rewrite kept_of, Sh, Eo in Hs. specialize (Hs eq_refl).
  assert (L1 : agree K (ts_sha2_L1_prehash cfg m c) (ts_sha2_L1_prehash cfg m' c)).
  { unfold ts_sha2_L1_prehash. cbv zeta. apply agree_pure. intros x. rewrite (proj1 HK), (proj2 HK), n_of. unfold CONVERT_PUBLIC_KEY_TO_PUB_SEED.
    rewrite Hs. do 6 (apply agree_pure; intros ?). apply agree_ok, HK. }
  destruct Hp as [-> | ->]; [exact L1|]. unfold ts_sha2_L35_prehash. eapply agree_bind; [exact L1|]. intros d HK'. cbv zeta.
  apply agree_pure. intros x. rewrite (proj1 HK'), (proj2 HK'), n_of. unfold CONVERT_PUBLIC_KEY_TO_PUB_SEED.
  rewrite Hs. do 6 (apply agree_pure; intros ?). apply agree_ok, HK'.
Qed.

(** ts_init_sign *)
Section Init.
Hypothesis Hs : load m pk n = load m' pk n.
Hypothesis Hr : load m (pk + n) n = load m' (pk + n) n.
Hypothesis Hf : load m (pk - n) n = load m' (pk - n) n.
Hypothesis Hf1 : forall i, 0 <= i < n -> load m (pk - n + i) 1 = load m' (pk - n + i) 1.

Lemma hmac_same b s v : hmac_block m b s v pk n = hmac_block m' b s v pk n.
Proof using Hf1.
  unfold hmac_block. f_equal. assert (G : forall k i b, 0 <= i -> i + Z.of_nat k <= n ->
   for_loop k i (fun i block => kb <- load m (CONVERT_PUBLIC_KEY_TO_PRF pk n + i) 1 ;; b <- rd kb 0 ;; wr block i (Some (Z.lxor v b))) b =
   for_loop k i (fun i block => kb <- load m' (CONVERT_PUBLIC_KEY_TO_PRF pk n + i) 1 ;; b <- rd kb 0 ;; wr block i (Some (Z.lxor v b))) b).
  { induction k as [|k IH]; intros i b' Hi Hk; cbn [for_loop]; [reflexivity|]. unfold CONVERT_PUBLIC_KEY_TO_PRF in *. rewrite Hf1 by lia.
    match goal with |- bind ?x _ = _ => destruct x; cbn [bind]; [|reflexivity] end. apply IH; lia. }
  destruct (Z.le_gt_cases 0 n); [apply G; lia|]. replace (Z.to_nat n) with 0%nat by lia. reflexivity.
Qed.
Local Ltac st HK := repeat first [ (apply agree_ok; exact HK) | match goal with |- agree _ (let '(_,_) := ?x in _) _ => destruct x end
  | rewrite hmac_same | (apply agree_pure; intros ?) ].
Lemma prf_msg_same o x c : K c -> agree (fun r => K (snd r)) (call_prf_msg cfg m o x c) (call_prf_msg cfg m' o x c).
Proof using Hf Hf1.
  intros HK. unfold call_prf_msg. destruct (ps_prf_msg (c_ps c)).
  - unfold ts_shake256_prf_msg. rewrite (proj1 HK), (proj2 HK), n_of. cbv zeta. unfold CONVERT_PUBLIC_KEY_TO_PRF. rewrite Hf. st HK.
  - unfold ts_sha2_L1_prf_msg. rewrite (proj1 HK), (proj2 HK), n_of. cbv zeta. st HK.
  - unfold ts_sha2_L35_prf_msg. rewrite (proj1 HK), (proj2 HK), n_of. cbv zeta. st HK.
Qed.
Lemma hash_msg_same k o x c : K c -> agree (fun r => K (snd r)) (call_hash_msg cfg m k o x c) (call_hash_msg cfg m' k o x c).
Proof using Hs Hr.
  intros HK. unfold call_hash_msg. destruct (ps_hash_msg (c_ps c)).
  - unfold ts_shake256_hash_msg. rewrite (proj1 HK), (proj2 HK), n_of. cbv zeta. unfold CONVERT_PUBLIC_KEY_TO_PUB_SEED, CONVERT_PUBLIC_KEY_TO_ROOT. rewrite Hs, Hr. st HK.
  - unfold ts_sha2_L1_hash_msg. rewrite (proj1 HK), (proj2 HK), n_of. cbv zeta. unfold CONVERT_PUBLIC_KEY_TO_PUB_SEED, CONVERT_PUBLIC_KEY_TO_ROOT. rewrite Hs, Hr. st HK.
  - unfold ts_sha2_L35_hash_msg. rewrite (proj1 HK), (proj2 HK), n_of. cbv zeta. unfold CONVERT_PUBLIC_KEY_TO_PUB_SEED, CONVERT_PUBLIC_KEY_TO_ROOT. rewrite Hs, Hr. st HK.
Qed.
Lemma convert_id h c q : K c -> ts_convert_message_hash_to_hypertree_position cfg h c = Ok q -> K (snd q).
Proof using.
  clear. intros HK. enough (X : agree (fun q => K (snd q)) (ts_convert_message_hash_to_hypertree_position cfg h c) (ts_convert_message_hash_to_hypertree_position cfg h c)).
  { intros E. exact (proj2 X _ E). }
  unfold ts_convert_message_hash_to_hypertree_position. cbv zeta.
  eapply (agree_bind (fun s => K (snd s))).
  - apply agree_for; [|exact HK]. intros i [[[mh o] b] d] Hd. cbn [snd] in Hd. apply agree_pure. intros [[[? ?] ?] ?]. apply agree_pure. intros x.
    apply agree_ok. exact Hd.
  - intros [[[mh o] b] d] Hd. cbn [snd] in Hd. apply agree_pure. intros [? ?]. apply agree_pure. intros [? ?]. apply agree_ok. exact Hd.
Qed.
Lemma root_adr_id c : K c -> agree K (ts_set_fors_root_adr cfg c) (ts_set_fors_root_adr cfg c).
Proof using.
  clear. intros H. unfold ts_set_fors_root_adr.
  eapply agree_bind; [apply a_layer; exact H|]. intros c1 H1. eapply agree_bind; [apply a_tree; exact H1|]. intros c2 H2.
  eapply agree_bind; [apply a_type; exact H2|]. intros c3 H3. eapply agree_bind; [apply a_keypair; exact H3|]. intros c4 H4.
  eapply agree_bind; [apply a_height; exact H4|]. intros c5 H5. apply a_index; exact H5.
Qed.
Lemma init_sign_same {R} a a' l (g : random_generator R) r c sk : pk = sk + 2 * n -> load m a l = load m' a' l ->
  ts_init_sign_gen cfg m c a l (the_ps cfg p) sk g r = ts_init_sign_gen cfg m' c a' l (the_ps cfg p) sk g r.
Proof using Hs Hr Hf Hf1.
  intros Epk Hm. assert (HK0 : K (set_public_key pk (set_ps (the_ps cfg p) c))) by (split; reflexivity).
  assert (HS1 : seed_kept cfg p = false -> load m pk n = load m' pk n) by (intros _; exact Hs).
  assert (HS2 : seed_kept cfg p = true -> load m pk n = load m' pk n) by (intros _; exact Hs).
  assert (X : agree (fun _ => True) (ts_init_sign_gen cfg m c a l (the_ps cfg p) sk g r) (ts_init_sign_gen cfg m' c a' l (the_ps cfg p) sk g r)); [|apply X].
  unfold ts_init_sign_gen. cbv zeta. rewrite n_of. unfold CONVERT_PRIVATE_KEY_TO_PUBLIC. rewrite <- Epk.
  eapply agree_bind; [apply prehash_same; [exact HS2|exact HK0]|]. intros c1 HK1.
  apply agree_pure. intros [[ok b] r'].
  unfold CONVERT_PUBLIC_KEY_TO_PUB_SEED. rewrite (proj2 HK1), Hs, Hm. apply agree_pure. intros b2. apply agree_pure. intros x. apply agree_pure. intros y.
  eapply agree_bind; [apply prf_msg_same; exact HK1|]. intros [v c2] HK2. cbn [snd] in HK2.
  eapply agree_bind; [apply a_put; exact HK2|]. intros c3 HK3.
  eapply agree_bind; [apply hash_msg_same; exact HK3|]. intros [mh c4] HK4. cbn [snd] in HK4.
  apply agree_pure. intros h1. apply agree_pure. intros h2.
  eapply (agree_bind (fun r => K (snd r))); [split; [reflexivity|intros q Hq; eapply convert_id; [exact HK4|exact Hq]]|].
  intros [z c5] HK5. cbn [snd] in HK5.
  eapply agree_bind; [apply root_adr_id; exact HK5|]. intros c6 HK6.
  eapply agree_bind; [apply (a_big_init cfg m m' _ _ ltac:(apply init_same; exact HS1)); exact HK6|].
  intros c7 HK7. apply agree_ok. exact I.
Qed.
End Init.
End Loads.

(** ** Parts *)
Lemma part_load m a X i l : part m a X i l -> 0 <= i -> 0 <= l -> i + l <= len X -> load m (a + i) l = Ok (slice X i l).
Proof.
  intros H Hi Hl HX. pose proof (holds_load _ _ _ H) as E. change (len (slice X i l)) with (zlen (slice X i l)) in E.
  rewrite slice_zlen in E by (change (@zlen Z) with len; lia). exact E.
Qed.
Lemma part_sub m a X i l j k : part m a X i l -> 0 <= i -> 0 <= l -> i + l <= len X -> i <= j -> 0 <= k -> j + k <= i + l -> part m a X j k.
Proof.
  intros H Hi Hl HX Hj Hk Hjk. unfold part in *.
  pose proof (holds_slice m (a + i) (slice X i l) (j - i) k H ltac:(lia) Hk) as S.
  change (len (slice X i l)) with (zlen (slice X i l)) in S. rewrite slice_zlen in S by (change (@zlen Z) with len; lia). specialize (S ltac:(lia)).
  replace (a + i + (j - i)) with (a + j) in S by lia. replace (slice X j k) with (slice (slice X i l) (j - i) k); [exact S|].
  rewrite slice_slice by lia. f_equal. lia.
Qed.
Lemma whole_part m a X i l : holds m a X -> 0 <= i -> 0 <= l -> i + l <= len X -> part m a X i l.
Proof. intros. unfold part. apply holds_slice; assumption. Qed.
Lemma holds_join m a l1 l2 : holds m a l1 -> holds m (a + len l1) l2 -> holds m a (l1 ++ l2).
Proof.
  intros [B1 H1] [B2 H2]. split; [apply Forall_app; split; assumption|]. intros i Hi. rewrite app_length in Hi.
  destruct (Nat.lt_ge_cases i (length l1)).
  - rewrite app_nth1 by assumption. apply H1. assumption.
  - rewrite app_nth2 by assumption. rewrite <- H2 by lia. f_equal. unfold len. lia.
Qed.
