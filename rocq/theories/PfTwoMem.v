(** * ts_sign depends on the caller's memory only through the hash functions *)
From Verif Require Import Arr SpecSLH ModelParams ModelCtx ModelHash ModelSphincs.
Ltac Zify.zify_post_hook ::= idtac.

Section Two.
Variable cfg : config.
Variables m m' : memory.
Variables (ps0 : parameter_set) (pk0 : Z).
(** Contexts of the same parameter set and key pointer *)
Definition same_id (c : ts_context) : Prop := c_ps c = ps0 /\ c_public_key c = pk0.
Local Notation K := same_id.
Hypothesis H_prf : forall c, K c -> call_prf cfg m c = call_prf cfg m' c.
Hypothesis H_f : forall i c, K c -> call_f cfg m i c = call_f cfg m' i c.
Hypothesis H_init : forall it c, K c -> call_init_t cfg m it c = call_init_t cfg m' it c.

(** The two runs agree, and the context they end with is still one of those *)
Definition agree {A} (Q : A -> Prop) (x y : outcome A) : Prop := x = y /\ forall a, x = Ok a -> Q a.
Lemma agree_bind {A B} (Q : A -> Prop) (R : B -> Prop) x y f g :
  agree Q x y -> (forall a, Q a -> agree R (f a) (g a)) -> agree R (bind x f) (bind y g).
Proof using.
  clear. intros [-> H] HF. destruct y as [a|u]; cbn [bind]; [apply HF, H; reflexivity|]. split; [reflexivity|discriminate].
Qed.
Lemma agree_pure {A B} (R : B -> Prop) (x : outcome A) f g : (forall a, agree R (f a) (g a)) -> agree R (bind x f) (bind x g).
Proof using. clear. intros HF. destruct x as [a|u]; cbn [bind]; [apply HF|]. split; [reflexivity|discriminate]. Qed.
Lemma agree_ok {A} (R : A -> Prop) a : R a -> agree R (Ok a) (Ok a).
Proof using. clear. intros H. split; [reflexivity|]. intros b E. injection E as <-. exact H. Qed.
Lemma agree_ub {A} (R : A -> Prop) u : agree R (UB u) (UB u).
Proof using. clear. split; [reflexivity|discriminate]. Qed.
Lemma agree_for {A} (R : A -> Prop) f g : (forall i a, R a -> agree R (f i a) (g i a)) ->
  forall k i a, R a -> agree R (for_loop k i f a) (for_loop k i g a).
Proof using.
  clear. intros HF. induction k as [|k IH]; intros i a HR; cbn [for_loop]; [apply agree_ok, HR|].
  eapply agree_bind; [apply HF, HR|]. intros b Hb. apply IH, Hb.
Qed.

Local Ltac pure := apply agree_pure; intro.
Lemma a_wr_adr o v c : K c -> agree K (wr_adr o v c) (wr_adr o v c).
Proof using. clear. intros H. unfold wr_adr. pure. apply agree_ok, H. Qed.
Lemma a_layer x c : K c -> agree K (set_layer_adr cfg x c) (set_layer_adr cfg x c).
Proof using. clear. intros H. unfold set_layer_adr. destruct use_sha2_adr; apply a_wr_adr, H. Qed.
Lemma a_tree x c : K c -> agree K (set_tree_adr cfg x c) (set_tree_adr cfg x c).
Proof using. clear. intros H. unfold set_tree_adr. destruct use_sha2_adr; apply a_wr_adr, H. Qed.
Lemma a_type x c : K c -> agree K (set_type_adr cfg x c) (set_type_adr cfg x c).
Proof using. clear. intros H. unfold set_type_adr. destruct use_sha2_adr; apply a_wr_adr, H. Qed.
Lemma a_keypair x c : K c -> agree K (set_keypair_adr cfg x c) (set_keypair_adr cfg x c).
Proof using. clear. intros H. unfold set_keypair_adr. destruct use_sha2_adr; apply a_wr_adr, H. Qed.
Lemma a_height x c : K c -> agree K (set_tree_height_adr cfg x c) (set_tree_height_adr cfg x c).
Proof using. clear. intros H. unfold set_tree_height_adr. destruct use_sha2_adr; apply a_wr_adr, H. Qed.
Lemma a_index x c : K c -> agree K (set_tree_index_adr cfg x c) (set_tree_index_adr cfg x c).
Proof using. clear. intros H. unfold set_tree_index_adr. destruct use_sha2_adr; apply a_wr_adr, H. Qed.
Local Ltac adr1 x := lazymatch x with
  | set_layer_adr _ _ _ => apply a_layer; assumption
  | set_tree_adr _ _ _ => apply a_tree; assumption
  | set_type_adr _ _ _ => apply a_type; assumption
  | set_keypair_adr _ _ _ => apply a_keypair; assumption
  | set_tree_height_adr _ _ _ => apply a_height; assumption
  | set_tree_index_adr _ _ _ => apply a_index; assumption
  end.
Local Ltac adr := repeat lazymatch goal with
  | |- agree _ (bind ?x _) _ => first [eapply agree_bind; [adr1 x|intros ? ?] | apply agree_pure; intro]
  | |- agree _ ?x _ => adr1 x
  end.
Lemma a_fors_prf_adr i c : K c -> agree K (set_fors_prf_adr cfg i c) (set_fors_prf_adr cfg i c).
Proof using. clear. intros H. unfold set_fors_prf_adr. adr. Qed.
Lemma a_wots_prf_adr i d c : K c -> agree K (set_wots_prf_adr cfg i d c) (set_wots_prf_adr cfg i d c).
Proof using. clear. intros H. unfold set_wots_prf_adr, set_chain_adr, set_hash_adr. adr. Qed.
Lemma a_wots_f_adr i d j c : K c -> agree K (ts_set_wots_f_adr cfg i d j c) (ts_set_wots_f_adr cfg i d j c).
Proof using. clear. intros H. unfold ts_set_wots_f_adr, set_chain_adr, set_hash_adr. adr. Qed.
Lemma a_merkle_adr i d j c : K c -> agree K (ts_set_merkle_adr cfg i d j c) (ts_set_merkle_adr cfg i d j c).
Proof using. clear. intros H. unfold ts_set_merkle_adr. adr. Qed.
Lemma a_wots_header_adr i c : K c -> agree K (ts_set_wots_header_adr cfg i c) (ts_set_wots_header_adr cfg i c).
Proof using. clear. intros H. unfold ts_set_wots_header_adr. adr. Qed.
Lemma a_put b v c : K c -> agree K (put_buf cfg c b v) (put_buf cfg c b v).
Proof using. clear. intros H. unfold put_buf. destruct b; pure; apply agree_ok, H. Qed.

(** The hash functions themselves leave the parameter set and the pointer alone *)
Lemma prf_id c : K c -> forall r, call_prf cfg m c = Ok r -> K (snd r).
Proof using.
  clear. intros H r. unfold call_prf. destruct (ps_prf (c_ps c)); [unfold ts_shake256_prf|unfold ts_sha2_prf]; cbv zeta; intros E;
  repeat match type of E with
  | bind ?x _ = _ => destruct x as [?|?]; cbn [bind] in E; [|discriminate E]
  | (let '(_, _) := ?p in _) = _ => destruct p
  end; injection E as <-; exact H.
Qed.
Lemma f_id i c : K c -> forall r, call_f cfg m i c = Ok r -> K (snd r).
Proof using.
  clear. intros H r. unfold call_f. destruct (ps_f (c_ps c)); [unfold ts_shake256_f_simple|unfold ts_sha2_f_simple]; cbv zeta; intros E;
  repeat match type of E with
  | bind ?x _ = _ => destruct x as [?|?]; cbn [bind] in E; [|discriminate E]
  | (let '(_, _) := ?p in _) = _ => destruct p
  end; injection E as <-; exact H.
Qed.
Lemma a_do_prf b c : K c -> agree K (do_prf cfg m b c) (do_prf cfg m' b c).
Proof using H_prf.
  intros H. unfold do_prf. eapply (agree_bind (fun r => K (snd r))).
  - split; [apply H_prf, H|apply prf_id, H].
  - intros [v d] Hd. apply a_put, Hd.
Qed.
Lemma a_do_f b i c : K c -> agree K (do_f cfg m b i c) (do_f cfg m' b i c).
Proof using H_f.
  intros H. unfold do_f. pure. eapply (agree_bind (fun r => K (snd r))).
  - split; [apply H_f, H|apply f_id, H].
  - intros [v d] Hd. apply a_put, Hd.
Qed.
Lemma a_small_init c : K c -> agree K (small_init_t cfg m c) (small_init_t cfg m' c).
Proof using H_init. intros H. unfold small_init_t. rewrite (H_init _ _ H). pure. apply agree_ok, H. Qed.
Lemma a_big_init c : K c -> agree K (big_init_t cfg m c) (big_init_t cfg m' c).
Proof using H_init. intros H. unfold big_init_t. rewrite (H_init _ _ H). pure. apply agree_ok, H. Qed.
Lemma a_small_next i c : K c -> agree K (small_next_t cfg i c) (small_next_t cfg i c).
Proof using. clear. intros H. unfold small_next_t. pure. apply agree_ok, H. Qed.
Lemma a_big_next i c : K c -> agree K (big_next_t cfg i c) (big_next_t cfg i c).
Proof using. clear. intros H. unfold big_next_t. pure. apply agree_ok, H. Qed.
Lemma a_small_final b c : K c -> agree K (small_final_t cfg b c) (small_final_t cfg b c).
Proof using. clear. intros H. unfold small_final_t. apply agree_pure. intros [? ?]. apply a_put, H. Qed.
Lemma a_big_final b c : K c -> agree K (big_final_t cfg b c) (big_final_t cfg b c).
Proof using. clear. intros H. unfold big_final_t. apply agree_pure. intros [? ?]. apply a_put, H. Qed.
Local Ltac go l := eapply agree_bind; [apply l; assumption|intros ? ?].

Lemma a_fors_prf b i c : K c -> agree K (fors_prf cfg m b i c) (fors_prf cfg m' b i c).
Proof using H_prf. intros H. unfold fors_prf. go a_fors_prf_adr. apply a_do_prf; assumption. Qed.
Lemma a_wots_prf b i d c : K c -> agree K (wots_prf cfg m b i d c) (wots_prf cfg m' b i d c).
Proof using H_prf. intros H. unfold wots_prf. go a_wots_prf_adr. apply a_do_prf; assumption. Qed.
Lemma a_fors_leaf b i c : K c -> agree K (fors_leaf cfg m b i c) (fors_leaf cfg m' b i c).
Proof using H_prf H_f. intros H. unfold fors_leaf. go a_fors_prf_adr. go a_do_prf. go a_type. apply a_do_f; assumption. Qed.
Lemma a_wr_stack s o v c : K c -> agree K (wr_stack s o v c) (wr_stack s o v c).
Proof using. clear. intros H. unfold wr_stack. pure. apply agree_ok, H. Qed.
Lemma a_combine fuel : forall s ty l nod k c, K c ->
  agree (fun r => K (snd r)) (combine_loop cfg m fuel s ty l nod k c) (combine_loop cfg m' fuel s ty l nod k c).
Proof using H_init.
  induction fuel as [|fuel IH]; intros s ty l nod k c H; cbn [combine_loop]; [apply agree_ub|].
  destruct (_ =? 0); [apply agree_ok, H|]. cbv zeta. go a_merkle_adr. go a_small_init. pure. go a_small_next. go a_small_next. go a_small_final.
  apply IH. assumption.
Qed.
Lemma a_path gl gl' ty s c : (forall b i d, K d -> agree K (gl b i d) (gl' b i d)) -> K c ->
  agree K (ts_merkle_path cfg m gl ty s c) (ts_merkle_path cfg m' gl' ty s c).
Proof using H_init.
  intros HG H. unfold ts_merkle_path. cbv zeta. pure. eapply agree_bind.
  - apply (agree_for K); [|exact H]. intros i d Hd. eapply agree_bind; [apply HG, Hd|]. intros e He.
    eapply agree_bind; [apply a_combine, He|]. intros [k g] Hk. destruct (_ <? _); [|apply agree_ok, Hk]. pure. apply a_wr_stack, Hk.
  - intros d Hd. eapply agree_bind; [apply a_merkle_adr; exact Hd|]. intros e He. go a_small_init. eapply agree_bind; [|intros; apply a_small_final; eassumption].
    destruct (negb _); go a_small_next; apply a_small_next; assumption.
Qed.
Lemma a_chain b t d fr to c : K c -> agree K (chain_loop cfg m b t d fr to c) (chain_loop cfg m' b t d fr to c).
Proof using H_f. intros H. unfold chain_loop. apply agree_for; [|exact H]. intros i e He. go a_wots_f_adr. apply a_do_f; assumption. Qed.
Lemma a_next_wots c : K c -> agree K (generate_next_wots_hash cfg m c) (generate_next_wots_hash cfg m' c).
Proof using H_prf H_f.
  intros H. unfold generate_next_wots_hash. pure. pure. cbv zeta. eapply agree_bind; [apply a_wots_prf; exact H|]. intros d Hd. pure. go a_chain.
  apply agree_ok. assumption.
Qed.
Lemma a_wots_leaf b l c : K c -> agree K (ts_wots_leaf cfg m b l c) (ts_wots_leaf cfg m' b l c).
Proof using H_prf H_f H_init.
  intros H. unfold ts_wots_leaf. go a_wots_header_adr. go a_big_init. eapply agree_bind; [|intros; apply a_big_final; eassumption].
  apply agree_for; [|assumption]. intros i d Hd. go a_wots_prf. go a_chain. pure. apply a_big_next; assumption.
Qed.
Lemma a_setup l c : K c -> agree K (ts_set_up_wots_signature cfg l c) (ts_set_up_wots_signature cfg l c).
Proof using. clear. intros H. unfold ts_set_up_wots_signature. cbv zeta. pure. pure. apply agree_ok, H. Qed.

Definition Ko (o : option ts_context) : Prop := match o with Some c => K c | None => True end.
Lemma a_switch c : K c -> agree Ko (sign_switch cfg m c) (sign_switch cfg m' c).
Proof using H_prf H_f H_init.
  intros H. unfold sign_switch. destruct (_ =? _).
  - pure. cbv zeta. eapply agree_bind; [apply a_fors_prf; exact H|]. intros d Hd. eapply agree_bind; [apply a_fors_leaf; exact Hd|].
    intros e He. apply agree_ok, He.
  - destruct (_ =? _); [|destruct (_ =? _); [|destruct (_ =? _); [|apply agree_ok; exact I]]].
    + eapply agree_bind; [apply a_path; [intros; apply a_fors_leaf; assumption|exact H]|]. intros d Hd.
      destruct (_ =? _); [|apply agree_ok, Hd]. go a_big_next. cbv zeta. destruct (_ =? _); [|apply agree_ok; assumption].
      eapply agree_bind; [apply a_big_final; assumption|]. intros e He. eapply agree_bind; [apply a_setup; exact He|]. intros g Hg. apply agree_ok, Hg.
    + go a_next_wots. pure. destruct (_ =? _); [|apply agree_ok; assumption]. cbv zeta. eapply agree_bind; [apply a_wots_leaf; assumption|].
      intros e He. apply agree_ok, He.
    + eapply agree_bind; [apply a_path; [intros; apply a_wots_leaf; assumption|exact H]|]. intros d Hd.
      destruct (_ =? _); [|apply agree_ok, Hd]. cbv zeta. destruct (_ =? _); [apply agree_ok, Hd|]. pure.
      eapply agree_bind; [apply a_setup; exact Hd|]. intros e He. apply agree_ok, He.
Qed.
Lemma a_loop fuel : forall dest pos k c, K c -> sign_loop cfg m fuel dest pos k c = sign_loop cfg m' fuel dest pos k c.
Proof using H_prf H_f H_init.
  induction fuel as [|fuel IH]; intros dest pos k c H; cbn [sign_loop]; [reflexivity|]. destruct (_ =? _); [reflexivity|]. cbv zeta.
  destruct (_ <? _).
  - destruct (rd_range _ _ _); cbn [bind]; [|reflexivity]. destruct (wr_range _ _ _); cbn [bind]; [|reflexivity]. apply IH, H.
  - destruct (a_switch c H) as [-> X]. destruct (sign_switch cfg m' c) as [[d|]|]; cbn [bind]; [|reflexivity|reflexivity].
    apply IH. exact (X _ eq_refl).
Qed.
Lemma sign_two_memories dest k c : K c -> ts_sign cfg m dest k c = ts_sign cfg m' dest k c.
Proof using H_prf H_f H_init.
  intros H. unfold ts_sign. destruct (_ || _); [reflexivity|]. rewrite (a_loop _ _ _ _ _ H). reflexivity.
Qed.
End Two.
