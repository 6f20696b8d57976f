(** * Copying contexts (C39)

    struct ts_context (tiny_sphincs.h:85-169) has three pointers - the parameter set, the
    public key and, while a verification waits for its first n bytes, the message - and
    none of them points into the context itself; neither do SHA256_CTX, SHA512_CTX
    (sha2.h) and SHAKE256_CTX (fips202.h) contain pointers.  Struct assignment (or
    memcpy) of a context is therefore plain copying of the record of the model. *)
From Verif Require Import Arr SpecSLH SpecApi SpecMap SpecSessions ModelParams ModelCtx ModelSphincs ModelVerify ModelKeygen ModelApi PfApi PfApi2 PfKeygen PfComplete PfSession PropSign PropApi.
Ltac Zify.zify_post_hook ::= idtac.

(** ** Histories with calls and copies: [Copy i j] is "context j = context i" *)
Inductive event := Call (i : nat) (m : memory) (act : action) | Copy (i j : nat).

(** The machine: a copy takes over the abstract state. *)
Inductive esteps (pf : platform) : world astate -> list event -> list obs -> world astate -> Prop :=
| esteps_nil w : esteps pf w [] [] w
| esteps_call w i m act o a h os w2 :
    step pf (w i) m act o a -> esteps pf (set i a w) h os w2 ->
    esteps pf w (Call i m act :: h) (o :: os) w2
| esteps_copy w i j h os w2 :
    esteps pf (set j (w i) w) h os w2 -> esteps pf w (Copy i j :: h) os w2.

(** The library, and assignment of contexts *)
Fixpoint ecalls (cfg : config) (h : list event) (w : world ts_context) : outcome (list obs * world ts_context) :=
  match h with
  | [] => Ok ([], w)
  | Call i m act :: h => '(o, c) <- call cfg m act (w i) ;; '(os, w) <- ecalls cfg h (set i c w) ;; Ok (o :: os, w)
  | Copy i j :: h => ecalls cfg h (set j (w i) w)
  end.

(** C39: with copies anywhere - in the middle of a signature, of a verification, over
    contexts in use - every call has the result that the machine says. *)
Theorem C39_copies : forall cfg h cw os w',
  (forall i, wf_ctx cfg (cw i)) -> esteps (platform_of cfg) (fun _ => Fresh) h os w' ->
  exists cw', ecalls cfg h cw = Ok (os, cw') /\ forall i, wf_ctx cfg (cw' i).
Proof.
  intros cfg h cw os w' W S.
  assert (G : forall w h os w', esteps (platform_of cfg) w h os w' -> forall cw, (forall i, Rel cfg (w i) (cw i)) ->
    exists cw', ecalls cfg h cw = Ok (os, cw') /\ forall i, wf_ctx cfg (cw' i)).
  { clear. intros w h os w' S. induction S as [w|w i m act o a h os w2 H S IH|w i j h os w2 S IH]; intros cw R.
    - exists cw. split; [reflexivity|]. intros i. eapply Rel_wf, R.
    - destruct (simulation cfg _ _ _ _ _ _ H (R i)) as (c & E & Rc).
      destruct (IH (set i c cw)) as (cw' & E' & W'). { intros k. unfold set. destruct (Nat.eqb_spec k i); [exact Rc|apply R]. }
      exists cw'. cbn [ecalls]. rewrite E. cbn [bind]. rewrite E'. split; [reflexivity|exact W'].
    - destruct (IH (set j (cw i) cw)) as (cw' & E' & W'). { intros k. unfold set. destruct (Nat.eqb_spec k j); apply R. }
      exists cw'. split; [exact E'|exact W']. }
  exact (G _ _ _ _ S cw W).
Qed.

(** C39, going back: a context is saved after [h0], used for [h1] and restored; what
    follows is as if [h1] had never been. *)
Definition on (i : nat) (h : list (memory * action)) : list event := map (fun '(m, act) => Call i m act) h.
Lemma run_on cfg i h a os a' : steps (platform_of cfg) a h os a' -> forall cw, Rel cfg a (cw i) ->
  exists cw1, Rel cfg a' (cw1 i) /\ (forall j, j <> i -> cw1 j = cw j) /\
    forall rest, ecalls cfg (on i h ++ rest) cw = ('(os', w) <- ecalls cfg rest cw1 ;; Ok (os ++ os', w)).
Proof.
  induction 1 as [a|a m act o a1 h os a2 H S IH]; intros cw R.
  - exists cw. split; [exact R|]. split; [reflexivity|]. intros rest. cbn [on map app]. destruct (ecalls cfg rest cw) as [[os' w]|]; reflexivity.
  - destruct (simulation cfg _ _ _ _ _ _ H R) as (c & E & Rc).
    destruct (IH (set i c cw)) as (cw1 & R1 & O1 & E1). { unfold set. rewrite Nat.eqb_refl. exact Rc. }
    exists cw1. split; [exact R1|]. split.
    + intros j Hj. rewrite O1 by exact Hj. unfold set. destruct (Nat.eqb_spec j i); [contradiction|reflexivity].
    + intros rest. change (on i ((m, act) :: h)) with (Call i m act :: on i h). cbn [app ecalls]. rewrite E. cbn [bind]. rewrite E1.
      destruct (ecalls cfg rest cw1) as [[os' w]|]; reflexivity.
Qed.
Theorem C39_going_back : forall cfg cw i j h0 os0 a0 h1 os1 a1 h2 os2 a2,
  (forall k, wf_ctx cfg (cw k)) -> i <> j ->
  steps (platform_of cfg) Fresh h0 os0 a0 -> steps (platform_of cfg) a0 h1 os1 a1 -> steps (platform_of cfg) a0 h2 os2 a2 ->
  exists cw1 c2,
    ecalls cfg (on i h0 ++ [Copy i j] ++ on i h1 ++ [Copy j i] ++ on i h2) cw = Ok (os0 ++ os1 ++ os2, cw1) /\
    calls cfg (h0 ++ h2) (cw i) = Ok (os0 ++ os2, c2).
Proof.
  intros cfg cw i j h0 os0 a0 h1 os1 a1 h2 os2 a2 W Nij S0 S1 S2.
  destruct (run_on cfg i _ _ _ _ S0 cw (W i)) as (w0 & R0 & O0 & E0). rewrite E0. clear E0. cbn [app ecalls].
  destruct (run_on cfg i _ _ _ _ S1 (set j (w0 i) w0)) as (w1 & R1 & O1 & E1).
  { unfold set. destruct (Nat.eqb_spec i j); [contradiction|exact R0]. }
  rewrite E1. clear E1. cbn [app ecalls].
  assert (Ej : w1 j = w0 i) by (rewrite O1 by congruence; unfold set; rewrite Nat.eqb_refl; reflexivity).
  destruct (run_on cfg i _ _ _ _ S2 (set i (w1 j) w1)) as (w2 & R2 & O2 & E2).
  { unfold set. rewrite Nat.eqb_refl, Ej. exact R0. }
  rewrite <- (app_nil_r (on i h2)). rewrite E2. clear E2. cbn [ecalls bind].
  destruct (simulation_steps cfg _ _ _ _ (steps_app _ _ _ _ _ _ _ _ S0 S2) (cw i) (W i)) as (c2 & E2 & _).
  exists w2, c2. rewrite app_nil_r. split; [reflexivity|exact E2].
Qed.

Definition sign_calls (rqs : list request) : list (memory * action) := map (fun r => (rq_mem r, Sign (rq_dest r) (rq_size r))) rqs.
Lemma requests_left en p sk SK rqs : forall S, Forall (request_ok sk SK) rqs ->
  steps en (Signing p sk SK S) (sign_calls rqs) (sign_answers S rqs) (Signing p sk SK (skipn (Z.to_nat (asked rqs)) S)).
Proof.
  induction rqs as [|r rqs IH]; intros S H; [constructor|].
  inversion H as [|? ? (H1 & H2 & H3) H4]; subst. cbn [sign_calls map sign_answers]. fold (sign_calls rqs).
  set (k := Z.to_nat (Z.min (rq_size r) (len S))).
  assert (Ek : Z.min (rq_size r) (len S) = Z.of_nat k) by (unfold k, len; lia).
  assert (A0 : 0 <= asked rqs).
  { clear - H4. induction H4 as [|r l (_ & A & _)]; cbn [asked fold_right]; [lia|]. fold (asked l). lia. }
  assert (EL : skipn (Z.to_nat (asked (r :: rqs))) S = skipn (Z.to_nat (asked rqs)) (skipn k S)).
  { cbn [asked fold_right]. fold (asked rqs). rewrite skipn_skipn'. destruct (Z.le_gt_cases (rq_size r) (len S)).
    - f_equal. unfold k. lia.
    - rewrite !skipn_all2; [reflexivity| |]; unfold k, len in *; lia. }
  rewrite EL. econstructor; [|apply IH, H4].
  pose proof (s_sign en (rq_mem r) p sk SK S (rq_dest r) (rq_size r) (fun _ => H1) H2 H3) as X. cbv zeta in X. rewrite Ek, Nat2Z.id in X. exact X.
Qed.

(** C39, in terms of signatures: after any requests [r0] the context is copied; both
    copies deliver all the remaining bytes, however they are asked for. *)
Theorem C39_both_copies_finish_the_signature : forall cfg p cw i j m0 msg M sk SK f r0 r1 r2,
  ps_enabled cfg p = true -> (forall k, wf_ctx cfg (cw k)) -> i <> j ->
  sign_init_ok m0 msg M p sk SK f ->
  Forall (request_ok sk SK) r0 -> Forall (request_ok sk SK) r1 -> Forall (request_ok sk SK) r2 ->
  let rest := skipn (Z.to_nat (asked r0)) (signature p M SK f) in
  exists cw1,
    ecalls cfg (on i (sign_history m0 msg (len M) p sk f r0) ++ [Copy i j] ++ on i (sign_calls r1) ++ on j (sign_calls r2)) cw
      = Ok ((Started :: sign_answers (signature p M SK f) r0) ++ sign_answers rest r1 ++ sign_answers rest r2, cw1).
Proof.
  intros cfg p cw i j m0 msg M sk SK f r0 r1 r2 on0 W Nij (A1 & A2 & A3 & A4 & A5) H0 H1 H2 rest.
  assert (S0 : steps (platform_of cfg) Fresh (sign_history m0 msg (len M) p sk f r0) (Started :: sign_answers (signature p M SK f) r0) (Signing p sk SK rest)).
  { unfold sign_history. econstructor; [|apply requests_left, H0]. eapply s_init_sign; try eassumption. reflexivity. }
  destruct (run_on cfg i _ _ _ _ S0 cw (W i)) as (w0 & R0 & O0 & E0). rewrite E0. clear E0. cbn [app ecalls].
  destruct (run_on cfg i _ _ _ _ (requests_left (platform_of cfg) p sk SK r1 rest H1) (set j (w0 i) w0)) as (w1 & R1 & O1 & E1).
  { unfold set. destruct (Nat.eqb_spec i j); [contradiction|exact R0]. }
  rewrite E1. clear E1.
  destruct (run_on cfg j _ _ _ _ (requests_left (platform_of cfg) p sk SK r2 rest H2) w1) as (w2 & R2 & O2 & E2).
  { rewrite O1 by congruence. unfold set. rewrite Nat.eqb_refl. exact R0. }
  rewrite <- (app_nil_r (on j _)), E2. cbn [ecalls bind]. rewrite app_nil_r. exists w2. reflexivity.
Qed.

(** ** A case that meets the hypotheses: the session of PropSign, saved after its second
    request, continued, restored and continued *)
Example ex_copies : exists os w', esteps (platform_of full_cfg) (fun _ => Fresh)
  (on 0 (firstn 2 (sign_history ex_mem 1064 (len ex_M) SHA2_128f 1000 ex_rng ex_rqs)) ++ [Copy 0 1; Call 0 (mem_of 0 []) Verify; Copy 1 0]) os w' /\ length os = 3%nat.
Proof.
  destruct ex_sign_hypotheses as (on0 & _ & (A1 & A2 & A3 & A4 & A5) & HR & _). pose proof (Forall_inv HR) as (B1 & B2 & B3).
  eexists _, _. split.
  - cbn [on map firstn sign_history app ex_rqs rq_mem rq_dest rq_size].
    eapply esteps_call; [eapply s_init_sign; try eassumption; reflexivity|].
    eapply esteps_call; [apply s_sign; auto|]. apply esteps_copy. eapply esteps_call; [apply s_verify_signing|]. apply esteps_copy. apply esteps_nil.
  - reflexivity.
Qed.

Print Assumptions C39_copies.
Print Assumptions C39_going_back.
Print Assumptions C39_both_copies_finish_the_signature.
