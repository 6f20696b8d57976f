(** * Sessions are histories of the abstract machine *)
From Verif Require Import Arr SpecSLH SpecApi SpecMap SpecSessions ModelParams PfApi.
Ltac Zify.zify_post_hook ::= idtac.

Section S.
Variable cfg : config.
Local Notation pf := (platform_of cfg).

Lemma steps_app a h1 os1 a1 h2 os2 a2 : steps pf a h1 os1 a1 -> steps pf a1 h2 os2 a2 -> steps pf a (h1 ++ h2) (os1 ++ os2) a2.
Proof. induction 1; intros H2; [exact H2|]. cbn [app]. econstructor; [eassumption|auto]. Qed.

(** ** Signing *)
Lemma steps_requests p sk SK rqs : forall S, Forall (request_ok sk SK) rqs ->
  exists S', steps pf (Signing p sk SK S) (map (fun r => (rq_mem r, Sign (rq_dest r) (rq_size r))) rqs) (sign_answers S rqs) (Signing p sk SK S').
Proof.
  induction rqs as [|r rqs IH]; intros S H; [exists S; constructor|].
  inversion H as [|? ? (H1 & H2 & H3) H4]; subst. cbn [map sign_answers].
  set (k := Z.to_nat (Z.min (rq_size r) (len S))).
  destruct (IH (skipn k S) H4) as (S' & HS). exists S'.
  assert (Ek : Z.min (rq_size r) (len S) = Z.of_nat k) by (unfold k, len; lia).
  econstructor; [|exact HS].
  pose proof (s_sign pf (rq_mem r) p sk SK S (rq_dest r) (rq_size r) (fun _ => H1) H2 H3) as X. cbv zeta in X. rewrite Ek in X.
  rewrite Nat2Z.id in X. exact X.
Qed.
Lemma steps_sign a m0 msg M p sk SK f rqs : enabled pf p -> sign_init_ok m0 msg M p sk SK f -> Forall (request_ok sk SK) rqs ->
  exists S', steps pf a (sign_history m0 msg (len M) p sk f rqs) (Started :: sign_answers (signature p M SK f) rqs) (Signing p sk SK S').
Proof.
  intros en (H1 & H2 & H3 & H4 & H5) HR. destruct (steps_requests p sk SK rqs (signature p M SK f) HR) as (S' & HS).
  exists S'. unfold sign_history. econstructor; [|exact HS]. eapply s_init_sign; try eassumption. reflexivity.
Qed.

Lemma answers_taken rqs : forall S, Forall (fun r => 0 <= rq_size r <= len (rq_dest r)) rqs ->
  concat (map taken (sign_answers S rqs)) = firstn (Z.to_nat (asked rqs)) S.
Proof.
  induction rqs as [|r rqs IH]; intros S H; [reflexivity|].
  inversion H as [|? ? H1 H2]; subst. cbn [sign_answers map concat asked fold_right].
  set (k := Z.to_nat (Z.min (rq_size r) (len S))). rewrite IH by assumption. cbn [taken]. rewrite Nat2Z.id.
  assert (A0 : 0 <= asked rqs).
  { clear - H2. induction H2; cbn [asked fold_right]; [lia|]. fold (asked l). lia. }
  assert (Lk : (k <= length S)%nat) by (unfold k, len; lia).
  rewrite firstn_app. replace (k - length (firstn k S))%nat with 0%nat by (rewrite firstn_length; lia). rewrite firstn_O, app_nil_r, firstn_firstn, Nat.min_id.
  fold (asked rqs). rewrite Z2Nat.inj_add by lia.
  destruct (Z.le_gt_cases (rq_size r) (len S)) as [Hle|Hgt].
  - replace k with (Z.to_nat (rq_size r)) in * by (unfold k; f_equal; lia). set (q := Z.to_nat (rq_size r)) in *.
    rewrite <- (firstn_skipn q S) at 3. rewrite firstn_app, firstn_length, Nat.min_l by lia.
    rewrite firstn_firstn, Nat.min_r by lia. f_equal. f_equal. lia.
  - assert (Ek : k = length S) by (unfold k, len in *; lia). rewrite Ek, firstn_all, skipn_all, firstn_nil, app_nil_r.
    symmetry. apply firstn_all2. unfold len in *. lia.
Qed.

(** ** Verification *)
Lemma update_step m p pk PK msg l M M' fed chunk : (completes_block (slh_of p) fed (fed ++ chunk) -> holds m pk PK) -> is_bytes chunk -> len chunk < 2 ^ 32 ->
  message_read (slh_of p) m msg l fed (fed ++ chunk) M M' ->
  step pf (Verifying p pk PK msg l M fed true) m (UpdateVerify chunk)
    (Updated (b2z (update_result (slh_of p) M' PK fed (fed ++ chunk)))) (Verifying p pk PK msg l M' (fed ++ chunk) (update_result (slh_of p) M' PK fed (fed ++ chunk))).
Proof. intros. apply s_update; auto. Qed.

Lemma steps_failed p pk PK msg l M fed fs : forall os, os = map (fun _ => Updated 0) fs ->
  steps pf (Verifying p pk PK msg l M fed false) (feed_calls fs) os (Verifying p pk PK msg l M fed false).
Proof.
  induction fs as [|f fs IH]; intros os ->; [constructor|]. cbn [feed_calls map]. econstructor; [apply s_update_failed|]. apply IH. reflexivity.
Qed.
Lemma answers_failed P M PK fs : forall fed, verify_answers P M PK fed false fs = map (fun _ => Updated 0) fs.
Proof. induction fs as [|f fs IH]; intros fed; [reflexivity|]. cbn [verify_answers map andb b2z]. rewrite IH. reflexivity. Qed.

Lemma feeds_ok_need p pk PK msg M fs : forall fed, feeds_ok p pk PK msg M fed fs -> feeds_need p pk PK msg M fed fs.
Proof.
  induction fs as [|f fs IH]; intros fed H; [exact I|]. destruct H as (H1 & H2 & H3 & H4 & H5). cbn [feeds_need].
  split; [intros _ _; exact H1|]. split; [exact H2|]. split; [exact H3|]. split; [exact H4|]. apply IH, H5.
Qed.

(** Whether the session is accepted: nothing failed and the length is right *)
Lemma steps_feeds p pk PK msg M fs : forall fed M0, is_bytes M ->
  feeds_need p pk PK msg M fed fs -> (p_n (slh_of p) <= len fed -> M0 = M) ->
  (slh_sig_length (slh_of p) <= len fed -> slh_verify_internal (slh_of p) M (firstn (Z.to_nat (slh_sig_length (slh_of p))) fed) PK = true) ->
  exists M1 fed1 ok1, steps pf (Verifying p pk PK msg (len M) M0 fed true) (feed_calls fs)
     (verify_answers (slh_of p) M PK fed true fs) (Verifying p pk PK msg (len M) M1 fed1 ok1) /\
   (ok1 && (len fed1 =? slh_sig_length (slh_of p)) = slh_verify_internal (slh_of p) M (fed ++ all_fed fs) PK) /\
   (ok1 = true -> fed1 = fed ++ all_fed fs) /\
   (p_n (slh_of p) <= len fed1 -> M1 = M).
Proof.
  pose proof (L_pos p) as Lp. assert (Np : 0 < p_n (slh_of p)) by (destruct p; cbn; lia).
  set (P := slh_of p) in *. set (L := slh_sig_length P) in *. set (n := p_n P) in *.
  assert (VF : forall S, len S <> L -> slh_verify_internal P M S PK = false).
  { intros S H. unfold slh_verify_internal. fold L. destruct (Z.eqb_spec (len S) L); [contradiction|reflexivity]. }
  induction fs as [|f fs IH]; intros fed M0 BM HF HM0 HV.
  - exists M0, fed, true. cbn [feed_calls map verify_answers]. split; [constructor|]. unfold all_fed. cbn [map concat]. rewrite app_nil_r. split; [|auto].
    cbn [andb]. destruct (Z.eqb_spec (len fed) L) as [e|e]; [|symmetry; apply VF, e].
    rewrite <- (HV ltac:(lia)). rewrite firstn_all2; [reflexivity|unfold len in *; lia].
  - destruct HF as (H1 & H2 & H3 & H4 & H5). cbn [feed_calls map verify_answers andb].
    set (chunk := fd_chunk f) in *. set (fed' := fed ++ chunk) in *.
    assert (Lf : len fed' = len fed + len chunk) by apply len_app.
    assert (P0 : 0 <= len chunk /\ 0 <= len fed) by (unfold len; lia).
    set (M' := if (len fed <? n) && (n <=? len fed') then M else M0).
    assert (EM' : n <= len fed' -> M' = M).
    { intros Hge. unfold M'. destruct (Z.ltb_spec (len fed) n), (Z.leb_spec n (len fed')); cbn [andb]; try lia; try reflexivity. apply HM0. assumption. }
    assert (HMR : message_read P (fd_mem f) msg (len M) fed fed' M0 M').
    { unfold message_read, M'. fold n. destruct (Z.ltb_spec (len fed) n), (Z.leb_spec n (len fed')); cbn [andb]; try reflexivity.
      split; [apply H4; split; assumption|reflexivity]. }
    assert (ER : update_result P M' PK fed fed' =
       (if len fed' <? L then true else if len fed <? L then slh_verify_internal P M fed' PK else len fed' <? L + n)).
    { unfold update_result. fold L. fold n. destruct (Z.ltb_spec (len fed') L); [reflexivity|]. rewrite EM' by lia. reflexivity. }
    assert (H1' : completes_block (slh_of p) fed (fed ++ chunk) -> holds (fd_mem f) pk PK) by (intros [? ?]; apply H1; assumption).
    pose proof (update_step (fd_mem f) p pk PK msg (len M) M0 M' fed chunk H1' H2 H3 HMR) as US. fold fed' in US. fold P in US. rewrite ER in US.
    set (r := if len fed' <? L then true else if len fed <? L then slh_verify_internal P M fed' PK else len fed' <? L + n) in *.
    assert (AF : all_fed (f :: fs) = chunk ++ all_fed fs) by reflexivity.
    fold L. fold n. fold r.
    destruct r eqn:Er.
    + destruct (IH fed' M' BM H5 EM') as (M1 & fed1 & ok1 & HS & C1 & C2 & C3).
      { intros Hge. unfold r in Er. destruct (Z.ltb_spec (len fed') L); [lia|]. destruct (Z.ltb_spec (len fed) L).
        - assert (len fed' = L) by (destruct (Z.eq_dec (len fed') L); [assumption|rewrite VF in Er by assumption; discriminate]).
          rewrite firstn_all2; [exact Er|unfold len in *; lia].
        - unfold fed'. rewrite firstn_app. replace (Z.to_nat L - length fed)%nat with 0%nat by (unfold len in *; lia).
          rewrite firstn_O, app_nil_r. apply HV. assumption. }
      exists M1, fed1, ok1. split; [econstructor; [exact US|exact HS]|]. rewrite AF, app_assoc. fold fed'. split; [exact C1|]. split; [exact C2|exact C3].
    + exists M', fed', false. split; [econstructor; [exact US|]; apply steps_failed, answers_failed|]. cbn [andb]. split; [|split; [discriminate|exact EM']].
      symmetry. rewrite AF, app_assoc. fold fed'. unfold r in Er. destruct (Z.ltb_spec (len fed') L); [discriminate|].
      assert (LA : len (fed' ++ all_fed fs) = len fed' + len (all_fed fs)) by apply len_app.
      assert (0 <= len (all_fed fs)) by (unfold len; lia).
      destruct (Z.eq_dec (len (fed' ++ all_fed fs)) L) as [e|e]; [|apply VF, e].
      assert (Z0 : all_fed fs = []) by (apply length_zero_iff_nil; unfold len in *; lia). rewrite Z0, app_nil_r.
      destruct (Z.ltb_spec (len fed) L); [exact Er|]. destruct (Z.ltb_spec (len fed') (L + n)); [discriminate|]. apply VF. lia.
Qed.

Lemma steps_verify_need a m0 msg M p pk PK fs : enabled pf p -> verify_init_ok cfg m0 msg M p pk PK -> feeds_need p pk PK msg M [] fs ->
  exists M1 fed1 ok1, steps pf a (verify_history m0 msg (len M) p pk fs)
     (Started :: verify_answers (slh_of p) M PK [] true fs) (Verifying p pk PK msg (len M) M1 fed1 ok1) /\
   (ok1 && (len fed1 =? slh_sig_length (slh_of p)) = slh_verify_internal (slh_of p) M (all_fed fs) PK) /\
   (ok1 = true -> fed1 = all_fed fs).
Proof.
  intros en (H1 & H2 & H3 & H4 & H5 & H6) HF. pose proof (L_pos p) as Lp.
  assert (Np : 0 < p_n (slh_of p)) by (destruct p; cbn; lia).
  destruct (steps_feeds p pk PK msg M fs [] [] H4 HF) as (M1 & fed1 & ok1 & HS & C1 & C2 & _).
  { change (len []) with 0. lia. } { change (len []) with 0. lia. }
  exists M1, fed1, ok1. split; [|split; [exact C1|exact C2]]. unfold verify_history. econstructor; [|exact HS].
  eapply s_init_verify; try assumption. split; [unfold len; lia|exact H5].
Qed.

Lemma steps_verify a m0 msg M p pk PK fs : enabled pf p -> verify_init_ok cfg m0 msg M p pk PK -> feeds_ok p pk PK msg M [] fs ->
  exists M1 fed1 ok1, steps pf a (verify_history m0 msg (len M) p pk fs)
     (Started :: verify_answers (slh_of p) M PK [] true fs) (Verifying p pk PK msg (len M) M1 fed1 ok1) /\
   (ok1 && (len fed1 =? slh_sig_length (slh_of p)) = slh_verify_internal (slh_of p) M (all_fed fs) PK) /\
   (ok1 = true -> fed1 = all_fed fs).
Proof. intros en HI HF. apply steps_verify_need; [assumption|assumption|]. apply feeds_ok_need, HF. Qed.

(** A 0 leaves a failed state *)
Lemma steps_from_failed fs : forall p pk PK msg l M fed os a, steps pf (Verifying p pk PK msg l M fed false) (feed_calls fs) os a ->
  a = Verifying p pk PK msg l M fed false.
Proof.
  induction fs as [|g gs IH]; intros p pk PK msg l M fed os a S; [inversion S; reflexivity|].
  cbn [feed_calls map] in S. inversion S as [|? ? ? ? a1 ? ? ? S3 S4]; subst. inversion S3; subst. eapply IH, S4.
Qed.
Lemma steps_zero fs : forall p pk PK msg l M fed ok os p' pk' PK' msg' l' M' fed' ok',
  steps pf (Verifying p pk PK msg l M fed ok) (feed_calls fs) os (Verifying p' pk' PK' msg' l' M' fed' ok') ->
  In (Updated 0) os -> ok' = false.
Proof.
  induction fs as [|g gs IH]; intros p pk PK msg l M fed ok os p' pk' PK' msg' l' M' fed' ok' S HIn; [inversion S; subst; destruct HIn|].
  cbn [feed_calls map] in S. inversion S as [|? ? ? ? a1 ? ? ? S3 S4]; subst. inversion S3; subst.
  - destruct HIn as [HIn|HIn]; [|eapply IH; eassumption]. injection HIn as HIn. destruct r; [discriminate HIn|].
    apply steps_from_failed in S4. injection S4. auto.
  - apply steps_from_failed in S4. injection S4. auto.
Qed.

Definition allone (os : list obs) : bool := forallb (fun o => match o with Updated r => negb (r =? 0) | _ => true end) os.
Lemma allone_spec os : allone os = true <-> ~ In (Updated 0) os.
Proof.
  unfold allone. rewrite forallb_forall. split.
  - intros H HIn. specialize (H _ HIn). discriminate H.
  - intros HN o Ho. destruct o; try reflexivity. destruct (Z.eqb_spec ret 0); [subst; contradiction|reflexivity].
Qed.
Lemma answers_snoc P M PK f fs : forall fed ok, verify_answers P M PK fed ok (fs ++ [f]) =
  verify_answers P M PK fed ok fs ++
     [Updated (b2z ((ok && allone (verify_answers P M PK fed ok fs)) && (if len (fed ++ all_fed (fs ++ [f])) <? slh_sig_length P then true
        else if len (fed ++ all_fed fs) <? slh_sig_length P then slh_verify_internal P M (fed ++ all_fed (fs ++ [f])) PK
        else len (fed ++ all_fed (fs ++ [f])) <? slh_sig_length P + p_n P)))].
Proof.
  induction fs as [|g fs IH]; intros fed ok.
  - unfold all_fed. cbn [app map concat verify_answers allone forallb]. rewrite !app_nil_r, Bool.andb_true_r. reflexivity.
  - change (all_fed ((g :: fs) ++ [f])) with (fd_chunk g ++ all_fed (fs ++ [f])). change (all_fed (g :: fs)) with (fd_chunk g ++ all_fed fs).
    cbn [app verify_answers]. rewrite !app_assoc. set (r := ok && _). rewrite IH. cbn [allone forallb].
    change (forallb (fun o => match o with Updated r => negb (r =? 0) | _ => true end)) with allone.
    f_equal. f_equal. f_equal. f_equal. f_equal. f_equal. destruct ok; [|reflexivity].
    destruct r; reflexivity.
Qed.
Lemma answers_short P M PK fs : forall fed, len (fed ++ all_fed fs) < slh_sig_length P -> verify_answers P M PK fed true fs = map (fun _ => Updated 1) fs.
Proof.
  induction fs as [|f fs IH]; intros fed H; [reflexivity|]. cbn [verify_answers map]. change (all_fed (f :: fs)) with (fd_chunk f ++ all_fed fs) in H.
  rewrite app_assoc in H. pose proof H as H'. rewrite len_app in H'. assert (0 <= len (all_fed fs)) by (unfold len; lia).
  destruct (Z.ltb_spec (len (fed ++ fd_chunk f)) (slh_sig_length P)); [|lia]. cbn [andb b2z]. rewrite (IH _ H). reflexivity.
Qed.
End S.
