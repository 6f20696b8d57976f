(** * Properties of verification (C05 - C10, C17, C18)

    Statements only; proofs are in PfApi and PfSession.  Sessions and contracts are
    defined in SpecSessions.v, [slh_verify_internal] in SpecSLH.v, [calls] in ModelApi.v. *)
From Verif Require Import Arr SpecSLH SpecApi SpecMap SpecSessions ModelParams ModelCtx ModelKeygen ModelVerify ModelApi PfApi PfKeygen PfComplete PfSession PropSign.
Ltac Zify.zify_post_hook ::= idtac.

Lemma calls_app cfg h1 : forall h2 c os1 c1, calls cfg h1 c = Ok (os1, c1) ->
  calls cfg (h1 ++ h2) c = ('(os2, c2) <- calls cfg h2 c1 ;; Ok (os1 ++ os2, c2)).
Proof.
  induction h1 as [|[m act] h1 IH]; intros h2 c os1 c1 H; cbn [calls app] in *.
  - injection H as <- <-. destruct (calls cfg h2 c) as [[]|]; reflexivity.
  - destruct (call cfg m act c) as [[o c0]|]; cbn [bind] in *; [|discriminate].
    destruct (calls cfg h1 c0) as [[os c2]|] eqn:E1; cbn [bind] in H; [|discriminate]. injection H as <- <-.
    rewrite (IH h2 c0 os c2 E1). destruct (calls cfg h2 c2) as [[]|]; reflexivity.
Qed.

Lemma size_sig cfg p : ts_size_signature (the_ps cfg p) = slh_sig_length (slh_of p).
Proof. destruct p; reflexivity. Qed.

(** The answers to every call of a session *)
Theorem verify_session : forall cfg p c m0 msg M pk PK fs,
  ps_enabled cfg p = true -> wf_ctx cfg c ->
  verify_init_ok cfg m0 msg M p pk PK -> feeds_ok p pk PK msg M [] fs ->
  exists c', calls cfg (verify_history m0 msg (len M) p pk fs) c
             = Ok (Started :: verify_answers (slh_of p) M PK [] true fs, c') /\
    forall mv, call cfg mv Verify c' = Ok (Verdict (b2z (slh_verify_internal (slh_of p) M (all_fed fs) PK)), c').
Proof.
  intros cfg p c m0 msg M pk PK fs on W HI HF.
  destruct (steps_verify cfg Fresh m0 msg M p pk PK fs on HI HF) as (M1 & fed1 & ok1 & HS & HV & _).
  destruct (simulation_steps cfg _ _ _ _ HS c W) as (c' & E & HR). exists c'. split; [exact E|]. intros mv.
  destruct (simulation cfg _ c' mv Verify _ _ (s_verify _ mv p pk PK msg (len M) M1 fed1 ok1) HR) as (c2 & E2 & _).
  rewrite HV in E2. cbn [call] in *. assert (c2 = c') by congruence. subst c2. exact E2.
Qed.

(** C05: after the bytes S = [all_fed fs], ts_verify returns 1 iff S has the length
    ts_size_signature and FIPS 205 verification accepts; otherwise it returns 0. *)
Theorem C05_accepts_exactly_FIPS205 : forall cfg p c m0 msg M pk PK fs mv,
  ps_enabled cfg p = true -> wf_ctx cfg c ->
  verify_init_ok cfg m0 msg M p pk PK -> feeds_ok p pk PK msg M [] fs ->
  exists os v c', calls cfg (verify_history m0 msg (len M) p pk fs ++ [(mv, Verify)]) c = Ok (os ++ [Verdict v], c') /\
    (v = 1 <-> len (all_fed fs) = ts_size_signature (the_ps cfg p) /\ slh_verify_internal (slh_of p) M (all_fed fs) PK = true) /\
    (v = 0 \/ v = 1).
Proof.
  intros cfg p c m0 msg M pk PK fs mv on W HI HF.
  destruct (verify_session cfg p c m0 msg M pk PK fs on W HI HF) as (c' & E & HV).
  eexists _, _, c'. split; [rewrite (calls_app _ _ _ _ _ _ E); cbn [calls]; rewrite HV; reflexivity|].
  rewrite size_sig. destruct (slh_verify_internal (slh_of p) M (all_fed fs) PK) eqn:EV; cbn [b2z].
  - split; [|auto]. split; [|reflexivity]. intros _. split; [|reflexivity]. unfold slh_verify_internal in EV.
    destruct (Z.eqb_spec (len (all_fed fs)) (slh_sig_length (slh_of p))); [assumption|discriminate].
  - split; [|auto]. split; [discriminate|]. intros [_ ?]. discriminate.
Qed.

(** C06: the verdict depends on the bytes, not on how they were divided (or on the
    memory, context, addresses, configuration or platform). *)
Theorem C06_chunking : forall cfg1 cfg2 p c1 c2 m1 m2 msg1 msg2 M pk1 pk2 PK fs1 fs2 mv1 mv2,
  ps_enabled cfg1 p = true -> ps_enabled cfg2 p = true -> wf_ctx cfg1 c1 -> wf_ctx cfg2 c2 ->
  verify_init_ok cfg1 m1 msg1 M p pk1 PK -> verify_init_ok cfg2 m2 msg2 M p pk2 PK ->
  feeds_ok p pk1 PK msg1 M [] fs1 -> feeds_ok p pk2 PK msg2 M [] fs2 ->
  concat (map fd_chunk fs1) = concat (map fd_chunk fs2) ->
  exists os1 os2 v c1' c2',
    calls cfg1 (verify_history m1 msg1 (len M) p pk1 fs1 ++ [(mv1, Verify)]) c1 = Ok (os1 ++ [Verdict v], c1') /\
    calls cfg2 (verify_history m2 msg2 (len M) p pk2 fs2 ++ [(mv2, Verify)]) c2 = Ok (os2 ++ [Verdict v], c2').
Proof.
  intros cfg1 cfg2 p c1 c2 m1 m2 msg1 msg2 M pk1 pk2 PK fs1 fs2 mv1 mv2 on1 on2 W1 W2 I1 I2 F1 F2 EQ.
  destruct (verify_session cfg1 p c1 m1 msg1 M pk1 PK fs1 on1 W1 I1 F1) as (c1' & E1 & V1).
  destruct (verify_session cfg2 p c2 m2 msg2 M pk2 PK fs2 on2 W2 I2 F2) as (c2' & E2 & V2).
  assert (EQ' : all_fed fs1 = all_fed fs2) by exact EQ. rewrite <- EQ' in V2.
  eexists _, _, _, c1', c2'. split.
  - rewrite (calls_app _ _ _ _ _ _ E1). cbn [calls]. rewrite V1. reflexivity.
  - rewrite (calls_app _ _ _ _ _ _ E2). cbn [calls]. rewrite V2. reflexivity.
Qed.

(** C07: fewer bytes than a signature: every update returns 1, ts_verify returns 0. *)
Theorem C07_truncated : forall cfg p c m0 msg M pk PK fs mv,
  ps_enabled cfg p = true -> wf_ctx cfg c ->
  verify_init_ok cfg m0 msg M p pk PK -> feeds_ok p pk PK msg M [] fs ->
  len (all_fed fs) < ts_size_signature (the_ps cfg p) ->
  exists c', calls cfg (verify_history m0 msg (len M) p pk fs ++ [(mv, Verify)]) c
             = Ok (Started :: map (fun _ => Updated 1) fs ++ [Verdict 0], c').
Proof.
  intros cfg p c m0 msg M pk PK fs mv on W HI HF HL. rewrite size_sig in HL.
  destruct (verify_session cfg p c m0 msg M pk PK fs on W HI HF) as (c' & E & HV).
  exists c'. rewrite (calls_app _ _ _ _ _ _ E). cbn [calls]. rewrite HV. cbn [bind app].
  assert (EV : slh_verify_internal (slh_of p) M (all_fed fs) PK = false).
  { unfold slh_verify_internal. destruct (Z.eqb_spec (len (all_fed fs)) (slh_sig_length (slh_of p))); [lia|reflexivity]. }
  rewrite EV. do 4 f_equal.
  apply (answers_short (slh_of p) M PK fs []). exact HL.
Qed.

(** C08: more bytes than a signature: ts_verify returns 0. *)
Theorem C08_trailing_bytes : forall cfg p c m0 msg M pk PK fs mv,
  ps_enabled cfg p = true -> wf_ctx cfg c ->
  verify_init_ok cfg m0 msg M p pk PK -> feeds_ok p pk PK msg M [] fs ->
  ts_size_signature (the_ps cfg p) < len (all_fed fs) ->
  exists os c', calls cfg (verify_history m0 msg (len M) p pk fs ++ [(mv, Verify)]) c = Ok (os ++ [Verdict 0], c').
Proof.
  intros cfg p c m0 msg M pk PK fs mv on W HI HF HL.
  destruct (C05_accepts_exactly_FIPS205 cfg p c m0 msg M pk PK fs mv on W HI HF) as (os & v & c' & E & V & [->| ->]); [eauto|].
  exfalso. destruct (proj1 V eq_refl). lia.
Qed.

(** C09: after a 0 from ts_update_verify, whatever comes (chunks of any contents and
    size, any memory contents, even none), every update and ts_verify return 0 and the
    context does not change. *)
Theorem C09_failure_is_final : forall cfg p c m0 msg M pk PK fs,
  ps_enabled cfg p = true -> wf_ctx cfg c ->
  verify_init_ok cfg m0 msg M p pk PK -> feeds_ok p pk PK msg M [] fs ->
  exists os c1, calls cfg (verify_history m0 msg (len M) p pk fs) c = Ok (Started :: os, c1) /\
    (In (Updated 0) os -> forall (more : list feed) mv,
      calls cfg (feed_calls more ++ [(mv, Verify)]) c1 = Ok (map (fun _ => Updated 0) more ++ [Verdict 0], c1)).
Proof.
  intros cfg p c m0 msg M pk PK fs on W HI HF.
  destruct (steps_verify cfg Fresh m0 msg M p pk PK fs on HI HF) as (M1 & fed1 & ok1 & HS & HV & HO).
  destruct (simulation_steps cfg _ _ _ _ HS c W) as (c' & E & HR). exists (verify_answers (slh_of p) M PK [] true fs), c'. split; [exact E|].
  intros HIn. assert (OK : ok1 = false).
  { unfold verify_history in HS. inversion HS as [|? ? ? ? a1 ? ? ? S1 S2]; subst. inversion S1; subst.
    eapply steps_zero; [exact S2|exact HIn]. }
  subst ok1. intros more mv.
  assert (ST : ModelCtx.c_state c' = ModelCtx.ts_verify_fail) by (destruct HR as (_ & _ & _ & _ & E0 & _ & _ & _ & ST); exact ST).
  assert (U : forall m ch, call cfg m (UpdateVerify ch) c' = Ok (Updated 0, c')).
  { intros m ch. cbn [call]. unfold ts_update_verify. rewrite ST. reflexivity. }
  assert (CM : calls cfg (feed_calls more) c' = Ok (map (fun _ => Updated 0) more, c')).
  { clear - U. induction more as [|g gs IH]; [reflexivity|]. cbn [feed_calls map calls]. rewrite U. cbn [bind]. unfold feed_calls in IH. rewrite IH. reflexivity. }
  rewrite (calls_app _ _ _ _ _ _ CM). cbn [calls call]. unfold ts_verify. rewrite ST. reflexivity.
Qed.

(** C10: the result of each ts_update_verify.  Given the chunks [fs] before (with all
    results 1) and the next one [f]: *)
Theorem C10_update_results : forall cfg p c m0 msg M pk PK fs f,
  ps_enabled cfg p = true -> wf_ctx cfg c ->
  verify_init_ok cfg m0 msg M p pk PK -> feeds_ok p pk PK msg M [] (fs ++ [f]) ->
  let L := ts_size_signature (the_ps cfg p) in
  let before := all_fed fs in
  let after := all_fed (fs ++ [f]) in
  exists os r c', calls cfg (verify_history m0 msg (len M) p pk (fs ++ [f])) c = Ok (Started :: os ++ [Updated r], c') /\
    (* nothing decided yet *)
    (len after < L -> r = 1) /\
    (* the call that reaches the end *)
    (len before < L -> len after = L -> (r = 1 <-> slh_verify_internal (slh_of p) M after PK = true) /\ (r = 0 \/ r = 1)) /\
    (* a call that passes the end *)
    (len before < L -> L < len after -> r = 0) /\
    (* calls after the end: fewer than n further bytes do not show in the result (but see C08) *)
    (L <= len before -> In (Updated 0) os -> r = 0) /\
    (L <= len before -> ~ In (Updated 0) os -> r = if len after <? L + ps_n (the_ps cfg p) then 1 else 0).
Proof.
  intros cfg p c m0 msg M pk PK fs f on W HI HF L before after.
  destruct (verify_session cfg p c m0 msg M pk PK (fs ++ [f]) on W HI HF) as (c' & E & _).
  assert (EL : L = slh_sig_length (slh_of p)) by apply size_sig.
  assert (EN : ps_n (the_ps cfg p) = p_n (slh_of p)) by (destruct p; reflexivity).
  assert (EA : after = before ++ fd_chunk f).
  { unfold after, before, all_fed. rewrite map_app, concat_app. cbn [map concat]. rewrite app_nil_r. reflexivity. }
  pose proof (len_app before (fd_chunk f)) as LA. rewrite <- EA in LA. assert (P0 : 0 <= len (fd_chunk f)) by (unfold len; lia).
  rewrite answers_snoc in E. cbn [app andb] in E. fold before in E. fold after in E. rewrite <- EL, <- EN in E.
  set (os := verify_answers (slh_of p) M PK [] true fs) in *.
  eexists os, _, c'. split; [exact E|].
  assert (AO : len before < L -> allone os = true).
  { intros H. apply allone_spec. unfold os. rewrite answers_short by (cbn [app]; fold before; lia). intros HX. apply in_map_iff in HX. destruct HX as (? & HX & _). discriminate. }
  split; [|split; [|split; [|split]]].
  - intros H. destruct (Z.ltb_spec (len after) L); [|lia]. rewrite AO by lia. reflexivity.
  - intros H1 H2. rewrite (AO H1). cbn [andb]. destruct (Z.ltb_spec (len after) L); [lia|]. destruct (Z.ltb_spec (len before) L); [|lia].
    destruct (slh_verify_internal (slh_of p) M after PK); cbn [b2z]; split; auto; split; auto; discriminate.
  - intros H1 H2. rewrite (AO H1). cbn [andb]. destruct (Z.ltb_spec (len after) L); [lia|]. destruct (Z.ltb_spec (len before) L); [|lia].
    unfold slh_verify_internal. rewrite <- EL. destruct (Z.eqb_spec (len after) L); [lia|reflexivity].
  - intros H1 HX. destruct (allone os) eqn:EO; [apply allone_spec in EO; contradiction|reflexivity].
  - intros H1 HX. apply allone_spec in HX. rewrite HX. cbn [andb]. destruct (Z.ltb_spec (len after) L); [lia|]. destruct (Z.ltb_spec (len before) L); [lia|].
    unfold b2z. reflexivity.
Qed.

Lemma only2_holds m a l a' k' : holds m a l -> holds (only2 m a (len l) a' k') a l /\ holds (only2 m a' k' a (len l)) a l.
Proof.
  intros [B H]. split; (split; [exact B|]); intros i Hi; unfold only2, len; destruct (Z.leb_spec a (a + Z.of_nat i)); try lia;
  destruct (Z.ltb_spec (a + Z.of_nat i) (a + Z.of_nat (length l))); try lia; cbn [andb orb]; rewrite ?Bool.orb_true_r; apply H, Hi.
Qed.

(** C17: with nothing readable but the 2n bytes of the public key and the message, the
    same calls give the same answers and no invalid access. *)
Theorem C17_only_public_data : forall cfg p c m0 msg M pk PK fs mv,
  ps_enabled cfg p = true -> wf_ctx cfg c ->
  verify_init_ok cfg m0 msg M p pk PK -> feeds_ok p pk PK msg M [] fs ->
  let restrict m := only2 m pk (2 * ps_n (the_ps cfg p)) msg (len M) in
  exists os c1 c2,
    calls cfg (verify_history m0 msg (len M) p pk fs ++ [(mv, Verify)]) c = Ok (os, c1) /\
    calls cfg (verify_history (restrict m0) msg (len M) p pk (map (fun f => Feed (restrict (fd_mem f)) (fd_chunk f)) fs) ++ [(mv, Verify)]) c = Ok (os, c2).
Proof.
  intros cfg p c m0 msg M pk PK fs mv on W HI HF restrict.
  pose proof HI as (H1 & H2 & H3 & H4 & H5 & H6).
  assert (EN : 2 * ps_n (the_ps cfg p) = len PK) by (rewrite H2; destruct p; reflexivity).
  assert (HK : forall m, holds m pk PK -> holds (restrict m) pk PK) by (intros m Hm; unfold restrict; rewrite EN; apply only2_holds, Hm).
  assert (HMs : forall m, holds m msg M -> holds (restrict m) msg M) by (intros m Hm; unfold restrict; apply only2_holds, Hm).
  set (g := fun f => Feed (restrict (fd_mem f)) (fd_chunk f)).
  assert (HI' : verify_init_ok cfg (restrict m0) msg M p pk PK) by (split; [apply HK, H1|auto]).
  assert (HF' : forall fed, feeds_ok p pk PK msg M fed fs -> feeds_ok p pk PK msg M fed (map g fs)).
  { clear HF. induction fs as [|f fs IH]; intros fed; [auto|]. cbn [map feeds_ok g fd_mem fd_chunk]. intros (F1 & F2 & F3 & F4 & F5). auto 10. }
  assert (EQ : all_fed (map g fs) = all_fed fs) by (unfold all_fed; rewrite map_map; reflexivity).
  assert (EA : forall fed ok, verify_answers (slh_of p) M PK fed ok (map g fs) = verify_answers (slh_of p) M PK fed ok fs).
  { clear. induction fs as [|f fs IH]; intros fed ok; [reflexivity|]. cbn [map verify_answers g fd_chunk]. rewrite IH. reflexivity. }
  destruct (verify_session cfg p c m0 msg M pk PK fs on W HI HF) as (c1 & E1 & V1).
  destruct (verify_session cfg p c (restrict m0) msg M pk PK (map g fs) on W HI' (HF' _ HF)) as (c2 & E2 & V2).
  rewrite EQ in V2. rewrite EA in E2. eexists _, c1, c2. split.
  - rewrite (calls_app _ _ _ _ _ _ E1). cbn [calls]. rewrite V1. reflexivity.
  - rewrite (calls_app _ _ _ _ _ _ E2). cbn [calls]. rewrite V2. reflexivity.
Qed.

(** C18, verification: once n bytes have been fed ([fs1]), the rest ([fs2]) needs only the
    public key: the message may be gone. *)
Theorem C18_verify_needs_message_once : forall cfg p c m0 msg M pk PK fs1 fs2 mv,
  ps_enabled cfg p = true -> wf_ctx cfg c ->
  verify_init_ok cfg m0 msg M p pk PK -> feeds_ok p pk PK msg M [] (fs1 ++ fs2) ->
  ps_n (the_ps cfg p) <= len (all_fed fs1) ->
  let restrict m := only m pk (2 * ps_n (the_ps cfg p)) in
  exists os c1 c2,
    calls cfg (verify_history m0 msg (len M) p pk (fs1 ++ fs2) ++ [(mv, Verify)]) c = Ok (os, c1) /\
    calls cfg (verify_history m0 msg (len M) p pk (fs1 ++ map (fun f => Feed (restrict (fd_mem f)) (fd_chunk f)) fs2) ++ [(mv, Verify)]) c = Ok (os, c2).
Proof.
  intros cfg p c m0 msg M pk PK fs1 fs2 mv on W HI HF HL restrict.
  pose proof HI as (H1 & H2 & H3 & H4 & H5 & H6).
  assert (EN : 2 * ps_n (the_ps cfg p) = len PK) by (rewrite H2; destruct p; reflexivity).
  assert (En : ps_n (the_ps cfg p) = p_n (slh_of p)) by (destruct p; reflexivity). rewrite En in HL.
  assert (HK : forall m, holds m pk PK -> holds (restrict m) pk PK) by (intros m Hm; unfold restrict; rewrite EN; apply only_holds, Hm).
  set (g := fun f => Feed (restrict (fd_mem f)) (fd_chunk f)).
  assert (HF' : forall fed, p_n (slh_of p) <= len (fed ++ all_fed fs1) -> feeds_ok p pk PK msg M fed (fs1 ++ fs2) -> feeds_ok p pk PK msg M fed (fs1 ++ map g fs2)).
  { clear HF HL. induction fs1 as [|f fs1 IH]; intros fed Hl; cbn [app].
    - unfold all_fed in Hl. cbn [map concat] in Hl. rewrite app_nil_r in Hl. revert fed Hl. induction fs2 as [|f fs2 IH]; intros fed Hl; [auto|].
      cbn [map feeds_ok g fd_mem fd_chunk]. intros (F1 & F2 & F3 & F4 & F5). split; [apply HK, F1|]. split; [exact F2|]. split; [exact F3|]. split; [lia|].
      apply IH; [rewrite len_app; unfold len in *; lia|exact F5].
    - cbn [feeds_ok]. intros (F1 & F2 & F3 & F4 & F5). split; [exact F1|]. split; [exact F2|]. split; [exact F3|]. split; [exact F4|].
      apply IH; [|exact F5]. rewrite <- app_assoc. exact Hl. }
  assert (EQ : all_fed (fs1 ++ map g fs2) = all_fed (fs1 ++ fs2)) by (unfold all_fed; rewrite !map_app, map_map; reflexivity).
  assert (EA : forall fed ok, verify_answers (slh_of p) M PK fed ok (fs1 ++ map g fs2) = verify_answers (slh_of p) M PK fed ok (fs1 ++ fs2)).
  { clear. induction fs1 as [|f fs1 IH]; intros fed ok; cbn [app].
    - revert fed ok. induction fs2 as [|f fs2 IH]; intros fed ok; [reflexivity|]. cbn [map verify_answers g fd_chunk]. rewrite IH. reflexivity.
    - cbn [verify_answers]. rewrite IH. reflexivity. }
  destruct (verify_session cfg p c m0 msg M pk PK (fs1 ++ fs2) on W HI HF) as (c1 & E1 & V1).
  destruct (verify_session cfg p c m0 msg M pk PK (fs1 ++ map g fs2) on W HI (HF' [] HL HF)) as (c2 & E2 & V2).
  rewrite EQ in V2. rewrite EA in E2. eexists _, c1, c2. split.
  - rewrite (calls_app _ _ _ _ _ _ E1). cbn [calls]. rewrite V1. reflexivity.
  - rewrite (calls_app _ _ _ _ _ _ E2). cbn [calls]. rewrite V2. reflexivity.
Qed.

(** ** A case that meets the hypotheses: SHAKE-192s, a public key at 2000, the message
    readable only in the memory of the second call, which completes the first n bytes *)
Definition exv_PK : list Z := map Z.of_nat (seq 100 48).
Definition exv_mem : memory := mem_of 2000 (exv_PK ++ ex_M).
Definition exv_fs : list feed := [Feed (mem_of 2000 exv_PK) [1; 2; 3]; Feed exv_mem (repeat 77 (Z.to_nat 10000)); Feed (mem_of 2000 exv_PK) (repeat 78 (Z.to_nat 6221))].
Lemma addresses_ge cfg : 2 ^ 32 <= addresses (platform_of cfg).
Proof. cbn [platform_of addresses]. unfold SIZEOF_PTR. destruct (cfg_ptr64 cfg); vm_compute; discriminate. Qed.
Example ex_verify_hypotheses :
  ps_enabled full_cfg SHAKE_192s = true /\ (forall cfg, verify_init_ok cfg (mem_of 2000 exv_PK) 2048 ex_M SHAKE_192s 2000 exv_PK) /\
  feeds_ok SHAKE_192s 2000 exv_PK 2048 ex_M [] exv_fs /\ len (all_fed exv_fs) = ts_size_signature (the_ps full_cfg SHAKE_192s).
Proof.
  assert (H : holds exv_mem 2000 (exv_PK ++ ex_M)) by (apply mem_of_holds, bytes_dec; reflexivity).
  assert (H1 : holds exv_mem 2000 exv_PK).
  { rewrite <- (Z.add_0_r 2000). exact (holds_slice _ _ _ 0 48 H ltac:(lia) ltac:(lia) ltac:(cbv; discriminate)). }
  assert (H2 : holds exv_mem 2048 ex_M) by exact (holds_slice _ _ _ 48 5 H ltac:(lia) ltac:(lia) ltac:(cbv; discriminate)).
  assert (H3 : holds (mem_of 2000 exv_PK) 2000 exv_PK) by (apply mem_of_holds, bytes_dec; reflexivity).
  assert (BM : is_bytes ex_M) by (apply bytes_dec; reflexivity).
  split; [reflexivity|]. split; [|split].
  - intros cfg. pose proof (addresses_ge cfg). split; [exact H3|]. split; [reflexivity|]. split; [lia|]. split; [exact BM|]. change (len ex_M) with 5. lia.
  - cbn [exv_fs feeds_ok fd_mem fd_chunk app]. change (p_n (slh_of SHAKE_192s)) with 24. change (len [1; 2; 3]) with 3.
    assert (B : forall v k, 0 <= v < 256 -> is_bytes (repeat v k)) by (intros v k Hv; apply Forall_forall; intros x Hx; apply repeat_spec in Hx; subst x; exact Hv).
    assert (R : forall v k, len (repeat v (Z.to_nat k)) = Z.max 0 k) by (intros; unfold len; rewrite repeat_length; lia).
    split; [exact H3|]. split; [apply bytes_dec; reflexivity|]. split; [lia|]. split; [lia|].
    split; [exact H1|]. split; [apply B; lia|]. split; [rewrite R; lia|]. split; [intros _; exact H2|].
    split; [exact H3|]. split; [apply B; lia|]. split; [rewrite R; lia|]. split; [|exact I].
    intros [HX _]. exfalso. change (1 :: 2 :: 3 :: repeat 77 (Z.to_nat 10000)) with ([1; 2; 3] ++ repeat 77 (Z.to_nat 10000)) in HX. rewrite len_app, R in HX. change (len [1; 2; 3]) with 3 in HX. lia.
  - unfold all_fed, exv_fs. cbn [map concat fd_chunk]. rewrite !len_app. change (len [1; 2; 3]) with 3. unfold len. rewrite !repeat_length. reflexivity.
Qed.

Print Assumptions C05_accepts_exactly_FIPS205.
Print Assumptions C06_chunking.
Print Assumptions C07_truncated.
Print Assumptions C08_trailing_bytes.
Print Assumptions C09_failure_is_final.
Print Assumptions C10_update_results.
Print Assumptions C17_only_public_data.
Print Assumptions C18_verify_needs_message_once.
