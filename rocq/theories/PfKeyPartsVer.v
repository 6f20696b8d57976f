(** * ts_update_verify in two memories *)
From Verif Require Import Arr SpecSLH ModelParams ModelCtx ModelHash ModelSphincs ModelVerify PfTwoMem.
Ltac Zify.zify_post_hook ::= idtac.

Section Two.
Variable cfg : config.
Variables m m' : memory.
Variables (ps0 : parameter_set) (pk0 : Z).
Local Notation K := (same_id ps0 pk0).
Hypothesis H_f : forall i c, K c -> call_f cfg m i c = call_f cfg m' i c.
Hypothesis H_init : forall it c, K c -> call_init_t cfg m it c = call_init_t cfg m' it c.

(** ... of the same state, too *)
Definition same_st (s : Z) (c : ts_context) : Prop := K c /\ c_state c = s.
Section St.
Variable s : Z.
Local Notation N := (same_st s).
Local Ltac pure := apply agree_pure; intro.
Local Ltac ok H := apply agree_ok; split; [exact (proj1 H)|exact (proj2 H)].
Lemma b_wr_adr o v c : N c -> agree N (wr_adr o v c) (wr_adr o v c).
Proof using. clear. intros H. unfold wr_adr. pure. ok H. Qed.
Lemma b_layer x c : N c -> agree N (set_layer_adr cfg x c) (set_layer_adr cfg x c).
Proof using. clear. intros H. unfold set_layer_adr. destruct use_sha2_adr; apply b_wr_adr, H. Qed.
Lemma b_tree x c : N c -> agree N (set_tree_adr cfg x c) (set_tree_adr cfg x c).
Proof using. clear. intros H. unfold set_tree_adr. destruct use_sha2_adr; apply b_wr_adr, H. Qed.
Lemma b_type x c : N c -> agree N (set_type_adr cfg x c) (set_type_adr cfg x c).
Proof using. clear. intros H. unfold set_type_adr. destruct use_sha2_adr; apply b_wr_adr, H. Qed.
Lemma b_keypair x c : N c -> agree N (set_keypair_adr cfg x c) (set_keypair_adr cfg x c).
Proof using. clear. intros H. unfold set_keypair_adr. destruct use_sha2_adr; apply b_wr_adr, H. Qed.
Lemma b_height x c : N c -> agree N (set_tree_height_adr cfg x c) (set_tree_height_adr cfg x c).
Proof using. clear. intros H. unfold set_tree_height_adr. destruct use_sha2_adr; apply b_wr_adr, H. Qed.
Lemma b_index x c : N c -> agree N (set_tree_index_adr cfg x c) (set_tree_index_adr cfg x c).
Proof using. clear. intros H. unfold set_tree_index_adr. destruct use_sha2_adr; apply b_wr_adr, H. Qed.
Local Ltac adr1 x := lazymatch x with
  | set_layer_adr _ _ _ => apply b_layer; assumption
  | set_tree_adr _ _ _ => apply b_tree; assumption
  | set_type_adr _ _ _ => apply b_type; assumption
  | set_keypair_adr _ _ _ => apply b_keypair; assumption
  | set_tree_height_adr _ _ _ => apply b_height; assumption
  | set_tree_index_adr _ _ _ => apply b_index; assumption
  end.
Local Ltac adr := repeat lazymatch goal with
  | |- agree _ (bind ?x _) _ => first [eapply agree_bind; [adr1 x|intros ? ?] | apply agree_pure; intro]
  | |- agree _ ?x _ => adr1 x
  end.
Lemma b_fors_leaf_adr i c : N c -> agree N (ts_set_fors_leaf_adr cfg i c) (ts_set_fors_leaf_adr cfg i c).
Proof using. clear. intros H. unfold ts_set_fors_leaf_adr. adr. Qed.
Lemma b_wots_f_adr i d j c : N c -> agree N (ts_set_wots_f_adr cfg i d j c) (ts_set_wots_f_adr cfg i d j c).
Proof using. clear. intros H. unfold ts_set_wots_f_adr, set_chain_adr, set_hash_adr. adr. Qed.
Lemma b_merkle_adr i d j c : N c -> agree N (ts_set_merkle_adr cfg i d j c) (ts_set_merkle_adr cfg i d j c).
Proof using. clear. intros H. unfold ts_set_merkle_adr. adr. Qed.
Lemma b_wots_header_adr i c : N c -> agree N (ts_set_wots_header_adr cfg i c) (ts_set_wots_header_adr cfg i c).
Proof using. clear. intros H. unfold ts_set_wots_header_adr. adr. Qed.
Lemma b_put b v c : N c -> agree N (put_buf cfg c b v) (put_buf cfg c b v).
Proof using. clear. intros H. unfold put_buf. destruct b; pure; ok H. Qed.
Lemma f_st i c : N c -> forall r, call_f cfg m i c = Ok r -> N (snd r).
Proof using.
  clear. intros H r. unfold call_f. destruct (ps_f (c_ps c)); [unfold ts_shake256_f_simple|unfold ts_sha2_f_simple]; cbv zeta; intros E;
  repeat match type of E with
  | bind ?x _ = _ => destruct x as [?|?]; cbn [bind] in E; [|discriminate E]
  | (let '(_, _) := ?p in _) = _ => destruct p
  end; injection E as <-; (split; [exact (proj1 H)|exact (proj2 H)]).
Qed.
Lemma b_do_f b i c : N c -> agree N (do_f cfg m b i c) (do_f cfg m' b i c).
Proof using H_f.
  intros H. unfold do_f. pure. eapply (agree_bind (fun r => N (snd r))).
  - split; [apply H_f, H|apply f_st, H].
  - intros [v d] Hd. apply b_put, Hd.
Qed.
Lemma b_small_init c : N c -> agree N (small_init_t cfg m c) (small_init_t cfg m' c).
Proof using H_init. intros H. unfold small_init_t. rewrite (H_init _ _ (proj1 H)). pure. ok H. Qed.
Lemma b_big_init c : N c -> agree N (big_init_t cfg m c) (big_init_t cfg m' c).
Proof using H_init. intros H. unfold big_init_t. rewrite (H_init _ _ (proj1 H)). pure. ok H. Qed.
Lemma b_small_next i c : N c -> agree N (small_next_t cfg i c) (small_next_t cfg i c).
Proof using. clear. intros H. unfold small_next_t. pure. ok H. Qed.
Lemma b_big_next i c : N c -> agree N (big_next_t cfg i c) (big_next_t cfg i c).
Proof using. clear. intros H. unfold big_next_t. pure. ok H. Qed.
Lemma b_small_final b c : N c -> agree N (small_final_t cfg b c) (small_final_t cfg b c).
Proof using. clear. intros H. unfold small_final_t. apply agree_pure. intros [? ?]. apply b_put. exact H. Qed.
Lemma b_big_final b c : N c -> agree N (big_final_t cfg b c) (big_final_t cfg b c).
Proof using. clear. intros H. unfold big_final_t. apply agree_pure. intros [? ?]. apply b_put. exact H. Qed.
Local Ltac go l := eapply agree_bind; [apply l; assumption|intros ? ?].
Lemma b_chain b t d fr to c : N c -> agree N (chain_loop cfg m b t d fr to c) (chain_loop cfg m' b t d fr to c).
Proof using H_f. intros H. unfold chain_loop. apply agree_for; [|exact H]. intros i e He. go b_wots_f_adr. apply b_do_f; assumption. Qed.
Lemma b_next_path ty c : N c -> agree N (next_auth_path cfg m ty c) (next_auth_path cfg m' ty c).
Proof using H_init.
  intros H. unfold next_auth_path. cbv zeta. pure. eapply agree_bind; [apply b_merkle_adr; exact H|]. intros d Hd. go b_small_init.
  eapply agree_bind; [|intros; apply b_small_final; eassumption].
  destruct (negb _); go b_small_next; apply b_small_next; assumption.
Qed.
End St.
Lemma b_setup s l c : same_st s c -> agree (same_st ts_verify_wots) (set_up_wots_verify_signature cfg m l c) (set_up_wots_verify_signature cfg m' l c).
Proof using H_init.
  intros H. unfold set_up_wots_verify_signature. eapply agree_bind; [apply (a_setup cfg ps0 pk0); exact (proj1 H)|]. intros d Hd. cbv zeta.
  assert (Hd' : same_st ts_verify_wots (set_state ts_verify_wots d)) by (split; [exact Hd|reflexivity]).
  eapply agree_bind; [apply b_wots_header_adr; exact Hd'|]. intros e He. eapply agree_bind; [apply b_big_init; exact He|]. intros g Hg.
  apply agree_ok. split; [exact (proj1 Hg)|exact (proj2 Hg)].
Qed.

(** Past the first block *)
Definition past (c : ts_context) : Prop := K c /\ c_state c <> ts_verify_init.
Definition pasto (r : ts_context + Z * ts_context) : Prop := match r with inl d => past d | inr (_, d) => ts_verify_success <= c_state d end.
Definition root_same : Prop := load m (pk0 + ps_n ps0) (ps_n ps0) = load m' (pk0 + ps_n ps0) (ps_n ps0).

Lemma st_past s d : same_st s d -> s <> ts_verify_init -> past d.
Proof using. clear. intros [A B] C. split; [exact A|rewrite B; exact C]. Qed.
Lemma past_ok d : past d -> agree pasto (Ok (inl d)) (Ok (inl d)).
Proof using. clear. intros H. apply agree_ok. exact H. Qed.

(** The switch: the runs agree, unless the one in [m'] ends the verification and the roots differ *)
Lemma v_switch k c : past c ->
  (forall r, verify_switch cfg m' k c = Ok r -> pasto r) /\
  (root_same -> verify_switch cfg m k c = verify_switch cfg m' k c) /\
  (forall d, verify_switch cfg m' k c = Ok (inl d) -> verify_switch cfg m k c = Ok (inl d)).
Proof using H_f H_init.
  intros [HK Hst]. set (s := c_state c) in *. assert (H : same_st s c) by (split; [exact HK|reflexivity]).
  assert (Easy : forall x y : outcome (ts_context + Z * ts_context), agree pasto x y ->
    (forall r, y = Ok r -> pasto r) /\ (root_same -> x = y) /\ (forall d, y = Ok (inl d) -> x = Ok (inl d))).
  { intros x y [-> Q]. split; [exact Q|]. split; auto. }
  assert (NB : forall A (x y : outcome A) (N : A -> Prop) (f g : A -> outcome (ts_context + Z * ts_context)), agree N x y ->
    (forall a, N a -> (forall r, g a = Ok r -> pasto r) /\ (root_same -> f a = g a) /\ (forall d, g a = Ok (inl d) -> f a = Ok (inl d))) ->
    (forall r, bind y g = Ok r -> pasto r) /\ (root_same -> bind x f = bind y g) /\ (forall d, bind y g = Ok (inl d) -> bind x f = Ok (inl d))).
  { intros A x y N f g [-> Q] HF. destruct y as [a|u]; cbn [bind]; [apply HF, Q; reflexivity|]. split; [discriminate|]. split; [reflexivity|discriminate]. }
  unfold verify_switch. cbv zeta. fold s. destruct (Z.eqb_spec s ts_verify_init) as [e|_]; [contradiction|].
  destruct (s =? ts_verify_fors_leaf).
  { apply Easy. apply agree_pure. intros x. eapply agree_bind; [apply b_fors_leaf_adr; exact H|]. intros d Hd.
    eapply agree_bind; [apply b_do_f; exact Hd|]. intros e He. apply past_ok. split; [exact (proj1 He)|discriminate]. }
  destruct (s =? ts_verify_fors).
  { apply Easy. eapply agree_bind; [apply b_next_path; exact H|]. intros d Hd. destruct (_ =? _); [|apply past_ok, (st_past _ _ Hd Hst)].
    eapply agree_bind; [apply b_big_next; exact Hd|]. intros e He. destruct (_ =? _); [|apply past_ok; split; [exact (proj1 He)|discriminate]].
    eapply (agree_bind (same_st ts_verify_fors_leaf)); [apply b_big_final; split; [exact (proj1 He)|reflexivity]|]. intros g Hg.
    eapply agree_bind; [apply (b_setup ts_verify_fors_leaf); split; [exact (proj1 Hg)|exact (proj2 Hg)]|]. intros h Hh. apply past_ok, (st_past _ _ Hh). discriminate. }
  destruct (s =? ts_verify_wots).
  { apply Easy. apply agree_pure. intros x. apply agree_pure. intros y. apply agree_pure. intros z.
    eapply agree_bind; [apply (b_chain s); split; [exact HK|reflexivity]|]. intros d Hd. eapply agree_bind; [apply b_big_next; exact Hd|]. intros e He.
    apply agree_pure. intros w. destruct (negb _); [apply past_ok, (st_past _ _ He Hst)|].
    eapply agree_bind; [apply b_big_final; exact He|]. intros g Hg. apply past_ok. split; [exact (proj1 Hg)|discriminate]. }
  destruct (s =? ts_verify_merkle).
  { eapply NB; [apply b_next_path; exact H|]. intros d Hd. destruct (negb _); [apply Easy, past_ok, (st_past _ _ Hd Hst)|].
    destruct (_ <? _).
    - apply Easy. apply agree_pure. intros sh. eapply agree_bind; [apply (b_setup s); split; [exact (proj1 Hd)|exact (proj2 Hd)]|].
      intros e He. apply past_ok, (st_past _ _ He). discriminate.
    - rewrite (proj1 HK). match goal with |- context [c_public_key ?e] => replace (c_public_key e) with pk0 by (symmetry; exact (proj2 (proj1 Hd))) end.
      unfold CONVERT_PUBLIC_KEY_TO_ROOT.
      split; [|split].
      + intros r. match goal with |- bind ?x _ = _ -> _ => destruct x as [good|u]; cbn [bind]; [|discriminate] end.
        destruct good; intros E; injection E as <-; cbn [pasto]; discriminate.
      + intros Hr. unfold root_same in Hr. rewrite Hr. reflexivity.
      + intros e. match goal with |- bind ?x _ = _ -> _ => destruct x as [good|u]; cbn [bind]; [|discriminate] end. destruct good; discriminate. }
  split; [|split; [reflexivity|discriminate]]. intros r E. injection E as <-. cbn [pasto]. discriminate.
Qed.

Lemma v_loop fuel : forall sig pos k c, past c ->
  (root_same -> verify_loop cfg m fuel sig pos k c = verify_loop cfg m' fuel sig pos k c) /\
  (forall r d, verify_loop cfg m' fuel sig pos k c = Ok (r, d) -> c_state d < ts_verify_success -> verify_loop cfg m fuel sig pos k c = Ok (r, d)).
Proof using H_f H_init.
  induction fuel as [|fuel IH]; intros sig pos k c [HK Hst]; cbn [verify_loop]; [split; [reflexivity|discriminate]|]. cbv zeta.
  destruct (rd_range _ _ _) as [src|]; cbn [bind]; [|split; [reflexivity|discriminate]].
  destruct (wr_range _ _ _) as [b|]; cbn [bind]; [|split; [reflexivity|discriminate]].
  destruct (_ <? _); [split; [reflexivity|auto]|].
  match goal with |- context [verify_switch cfg m ?k ?e] =>
    destruct (v_switch k e) as (V1 & V2 & V3); [split; [exact HK|exact Hst]|]; set (k' := k) in *; set (c' := e) in * end.
  destruct (verify_switch cfg m' k' c') as [[d|[z d]]|u]; cbn [bind].
  - specialize (V1 _ eq_refl). cbn [pasto] in V1. specialize (V3 _ eq_refl). rewrite V3. cbn [bind]. apply IH, V1.
  - specialize (V1 _ eq_refl). cbn [pasto] in V1. split; [intros Hr; rewrite (V2 Hr); reflexivity|]. intros r d' E. injection E as <- <-. lia.
  - split; [intros Hr; rewrite (V2 Hr); reflexivity|discriminate].
Qed.
Lemma v_update sig k c : past c ->
  (root_same -> ts_update_verify cfg m sig k c = ts_update_verify cfg m' sig k c) /\
  (forall r d, ts_update_verify cfg m' sig k c = Ok (r, d) -> c_state d < ts_verify_success -> ts_update_verify cfg m sig k c = Ok (r, d)).
Proof using H_f H_init.
  intros H. unfold ts_update_verify. destruct (_ || _); [split; [reflexivity|auto]|]. apply v_loop, H.
Qed.
End Two.
