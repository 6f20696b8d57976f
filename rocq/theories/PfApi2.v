(** * More about the abstract machine: it is a function, and it accepts exactly the
      calls that keep the contract; monotonicity; interleaving *)
From Verif Require Import Arr SpecSLH SpecApi SpecMap ModelParams ModelCtx ModelApi PfApi.
Ltac Zify.zify_post_hook ::= idtac.

Lemma step_allowed en a m act : (exists o a', step en a m act o a') <-> allowed en a m act.
Proof.
  split.
  - intros (o & a' & S). destruct S; cbn [allowed].
    + split; [assumption|]. split; [exists SK; auto|]. split; [exists M; auto|auto].
    + auto.
    + split; [assumption|]. split; [exists PK; auto|auto].
    + split; [assumption|]. split; [assumption|]. split; [assumption|]. intros [H3 H4].
      match goal with HM : message_read _ _ _ _ _ _ _ _ |- _ => unfold message_read in HM; apply Z.ltb_lt in H3; apply Z.leb_le in H4; rewrite H3, H4 in HM; exists M'; exact HM end.
    + exact I.
    + discriminate.
    + exact I.
    + exact I.
    + discriminate.
  - destruct act as [msg l p sk f|dest sz|msg l p pk|chunk|]; cbn [allowed].
    + intros (en' & (SK & HK & LK) & (M & HM & LM) & Hl & Hf). eexists _, _. eapply s_init_sign; eassumption.
    + destruct a as [|p sk SK rem|p pk PK msg l M fed ok]; [intros []|intros (H1 & H2 & H3)|intros _].
      * eexists _, _. apply s_sign; assumption.
      * eexists _, _. apply s_sign_verifying.
    + intros (en' & (PK & HK & LK) & Hm & Hl & Hl2). eexists _, _. eapply s_init_verify; eassumption.
    + destruct a as [|p sk SK rem|p pk PK msg l M fed ok]; [intros []|intros _|].
      * eexists _, _. apply s_update_signing.
      * destruct ok; [|intros _; eexists _, _; apply s_update_failed].
        intros (H1 & H2 & H3 & H4).
        destruct ((len fed <? p_n (slh_of p)) && (p_n (slh_of p) <=? len (fed ++ chunk))) eqn:EB.
        -- apply andb_prop in EB as EB'. destruct EB' as [B1 B2]. apply Z.ltb_lt in B1. apply Z.leb_le in B2. destruct (H4 (conj B1 B2)) as (M' & HM & LM).
           eexists _, _. apply (s_update en m p pk PK msg l M M'); try assumption. unfold message_read. rewrite EB. auto.
        -- eexists _, _. apply (s_update en m p pk PK msg l M M); try assumption. unfold message_read. rewrite EB. reflexivity.
    + intros H. destruct a as [|p sk SK rem|p pk PK msg l M fed ok]; [contradiction| |].
      * eexists _, _. apply s_verify_signing.
      * eexists _, _. apply s_verify.
Qed.

Lemma step_det en a m act o1 a1 o2 a2 : step en a m act o1 a1 -> step en a m act o2 a2 -> o1 = o2 /\ a1 = a2.
Proof.
  intros H1 H2. destruct H1; inversion H2; subst; try (split; reflexivity).
  - assert (SK0 = SK) by (eapply holds_inj; [eassumption|eassumption|congruence]). subst SK0.
    assert (M0 = M) by (eapply holds_inj; [eassumption|eassumption|congruence]). subst M0. split; reflexivity.
  - assert (PK0 = PK) by (eapply holds_inj; [eassumption|eassumption|congruence]). subst PK0. split; reflexivity.
  - assert (EM : M'0 = M').
    { unfold message_read in *. destruct ((len fed <? p_n (slh_of p)) && (p_n (slh_of p) <=? len (fed ++ chunk))); [|congruence].
      match goal with A : holds m msg M'0 /\ _, B : holds m msg M' /\ _ |- _ => destruct A as [A1 A2], B as [B1 B2]; eapply holds_inj; [exact A1|exact B1|congruence] end. }
    subst M'0. split; reflexivity.
Qed.

Lemma step_mono (en en' : platform) a m act o a' : (forall p, enabled en p -> enabled en' p) -> addresses en <= addresses en' -> step en a m act o a' -> step en' a m act o a'.
Proof. intros H HA S. destruct S; econstructor; eauto; lia. Qed.
Lemma wsteps_mono (en en' : platform) w h os w' : (forall p, enabled en p -> enabled en' p) -> addresses en <= addresses en' -> wsteps en w h os w' -> wsteps en' w h os w'.
Proof. intros H HA S. induction S; econstructor; eauto. eapply step_mono; eauto. Qed.
