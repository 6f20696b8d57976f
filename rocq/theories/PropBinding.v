(** * To what the rest of a signature is bound (C47)

    A signature is a randomiser of n bytes, and the rest.  C35 is about signatures with the
    same randomiser that differ in the rest.  Here it is the other way round: the rest is
    the same, the randomiser or the message, or both, differ.

    [selects], [coincidence], [chain_returns]: SpecBinding.v. *)
From Verif Require Import Arr SpecSLH SpecMap SpecUses SpecForge SpecBinding SpecApi SpecSessions ModelParams ModelCtx ModelKeygen ModelApi
  PfIter PfSpec PfApi PfKeygen PfComplete PfSession PfForge PfForge2 PfReuse PfEUF PfBind PropSign PropVerify PropForge PropReuse PropEUF.
Ltac Zify.zify_post_hook ::= idtac.

(** Both sessions below end with 1 from ts_verify, for the same key and the same rest. *)
Theorem C47_same_rest : forall cfg1 cfg2 p PK c1 c2 m1 m2 msg1 msg2 M1 M2 pk1 pk2 fs1 fs2 mv1 mv2 os1 os2 c1' c2',
  ps_enabled cfg1 p = true -> ps_enabled cfg2 p = true -> wf_ctx cfg1 c1 -> wf_ctx cfg2 c2 ->
  verify_init_ok cfg1 m1 msg1 M1 p pk1 PK -> feeds_ok p pk1 PK msg1 M1 [] fs1 ->
  verify_init_ok cfg2 m2 msg2 M2 p pk2 PK -> feeds_ok p pk2 PK msg2 M2 [] fs2 ->
  calls cfg1 (verify_history m1 msg1 (len M1) p pk1 fs1 ++ [(mv1, Verify)]) c1 = Ok (os1 ++ [Verdict 1], c1') ->
  calls cfg2 (verify_history m2 msg2 (len M2) p pk2 fs2 ++ [(mv2, Verify)]) c2 = Ok (os2 ++ [Verdict 1], c2') ->
  let P := slh_of p in let n := Z.to_nat (p_n P) in let S1 := all_fed fs1 in let S2 := all_fed fs2 in
  skipn n S1 = skipn n S2 ->
  selects P (message_digest P M1 S1 PK) = selects P (message_digest P M2 S2 PK) \/
  coincidence P PK M1 S1 M2 S2 \/ chain_returns P PK S1.
Proof.
  intros cfg1 cfg2 p PK c1 c2 m1 m2 msg1 msg2 M1 M2 pk1 pk2 fs1 fs2 mv1 mv2 os1 os2 c1' c2' on1 on2 W1 W2 I1 F1 I2 F2 E1 E2 P n S1 S2 ER.
  pose proof I1 as ([BP _] & LP & _).
  apply (bound p PK M1 M2 S1 S2 BP LP (feeds_bytes _ _ _ _ _ _ _ F1)).
  - apply (accepted _ _ _ _ _ _ _ _ _ _ _ _ on1 W1 I1 F1 E1).
  - apply (accepted _ _ _ _ _ _ _ _ _ _ _ _ on2 W2 I2 F2 E2).
  - exact ER.
Qed.

(** What the library has signed ([sigma], with a key pair of key generation) is valid *)
Lemma honest_valid : forall cfg p SKseed SKprf PKseed SK PK,
  slh_keygen_internal (slh_of p) SKseed SKprf PKseed = (SK, PK) ->
  len SKseed = p_n (slh_of p) -> len SKprf = p_n (slh_of p) -> len PKseed = p_n (slh_of p) ->
  forall M c m msg sk f rqs os c', ps_enabled cfg p = true -> wf_ctx cfg c ->
  sign_init_ok m msg M p sk SK f -> Forall (request_ok sk SK) rqs -> ts_size_signature (the_ps cfg p) <= asked rqs ->
  calls cfg (sign_history m msg (len M) p sk f rqs) c = Ok (os, c') ->
  let sigma := concat (map taken os) in
  is_bytes sigma /\ len sigma = slh_sig_length (slh_of p) /\ slh_verify_internal (slh_of p) M sigma PK = true.
Proof.
  intros cfg p SKseed SKprf PKseed SK PK HK L1 L2 L3 M c m msg sk f rqs os c' on W I1 R1 A1 E1 sigma.
  destruct (C02_signature_is_FIPS205 cfg p c m msg M sk SK f rqs on W I1 R1 A1) as (os2 & c2 & E & ES).
  assert (Eos : os = Started :: os2) by congruence. assert (EG : sigma = signature p M SK f) by (unfold sigma; rewrite Eos; exact ES). clear E ES Eos.
  pose proof I1 as ([BK _] & LK & [BM _] & _ & HR).
  destruct (signature_len _ _ _ _ _ _ _ I1) as [LS BS]. rewrite <- EG in LS, BS. split; [exact BS|]. split; [exact LS|].
  assert (Nb : 16 <= p_n (slh_of p) <= 32) by (destruct p; cbn; lia).
  unfold slh_keygen_internal in HK. set (root := slh_root _ _ _) in HK.
  assert (KS : SK = SKseed ++ SKprf ++ PKseed ++ root) by congruence. assert (KP : PK = PKseed ++ root) by congruence.
  assert (Q0 : slice SK 0 (p_n (slh_of p)) = SKseed).
  { rewrite KS, slice_app_l by (change (@zlen Z) with len; lia). apply slice_all. exact L1. }
  assert (Q2 : skipn (Z.to_nat (2 * p_n (slh_of p))) SK = PK).
  { rewrite KS, KP. rewrite app_assoc. apply skipn_app_exact. rewrite app_length. unfold len in *. lia. }
  assert (Q3 : slice SK (2 * p_n (slh_of p)) (p_n (slh_of p)) = PKseed).
  { unfold slice. rewrite Q2, KP. apply firstn_app_exact. unfold len in *. lia. }
  assert (LP : len PK = 2 * p_n (slh_of p)).
  { rewrite <- Q2. unfold len in *. rewrite skipn_length. lia. }
  assert (Q4 : slice SK (3 * p_n (slh_of p)) (p_n (slh_of p)) = root).
  { unfold slice. replace (Z.to_nat (3 * p_n (slh_of p))) with (Z.to_nat (2 * p_n (slh_of p)) + Z.to_nat (p_n (slh_of p)))%nat by lia.
    rewrite <- skipn_skipn', Q2, KP, skipn_app_exact by (unfold len in *; lia). apply firstn_all2.
    rewrite KP, len_app in LP. unfold len in *. lia. }
  rewrite EG, <- Q2. apply complete; [exact BK|exact LK|exact BM| |rewrite Q0, Q3, Q4; reflexivity].
  apply randomness_bytes; [exact HR|apply slice_bytes, BK].
Qed.

(** The library has signed [M].  Somebody changes the randomiser in the signature, or
    presents it with another message: then the verification session, which always runs to
    its end, ends with 0, unless the new digest selects the same leaves or the hash
    functions fail in one of the two ways. *)
Theorem C47_altered : forall cfg1 cfg2 p SKseed SKprf PKseed SK PK,
  slh_keygen_internal (slh_of p) SKseed SKprf PKseed = (SK, PK) ->
  len SKseed = p_n (slh_of p) -> len SKprf = p_n (slh_of p) -> len PKseed = p_n (slh_of p) ->
  forall M M' c1 c2 m1 m2 msg1 msg2 sk pk f rqs fs mv os1 c1',
  ps_enabled cfg1 p = true -> ps_enabled cfg2 p = true -> wf_ctx cfg1 c1 -> wf_ctx cfg2 c2 ->
  sign_init_ok m1 msg1 M p sk SK f -> Forall (request_ok sk SK) rqs -> ts_size_signature (the_ps cfg1 p) <= asked rqs ->
  calls cfg1 (sign_history m1 msg1 (len M) p sk f rqs) c1 = Ok (os1, c1') ->
  verify_init_ok cfg2 m2 msg2 M' p pk PK -> feeds_ok p pk PK msg2 M' [] fs ->
  let P := slh_of p in let n := Z.to_nat (p_n P) in let sigma := concat (map taken os1) in let S := all_fed fs in
  skipn n S = skipn n sigma ->
  exists os2 v c2', calls cfg2 (verify_history m2 msg2 (len M') p pk fs ++ [(mv, Verify)]) c2 = Ok (os2 ++ [Verdict v], c2') /\
  (v = 0 \/ v = 1 /\
    (selects P (message_digest P M' S PK) = selects P (message_digest P M sigma PK) \/
     coincidence P PK M' S M sigma \/ chain_returns P PK S)).
Proof.
  intros cfg1 cfg2 p SKseed SKprf PKseed SK PK HK L1 L2 L3 M M' c1 c2 m1 m2 msg1 msg2 sk pk f rqs fs mv os1 c1' on1 on2 W1 W2 I1 R1 A1 E1 I2 F2 P n sigma S ER.
  destruct (C05_accepts_exactly_FIPS205 cfg2 p c2 m2 msg2 M' pk PK fs mv on2 W2 I2 F2) as (os2 & v & c2' & E2 & V & D).
  exists os2, v, c2'. split; [exact E2|]. destruct D as [D|D]; [left; exact D|right; split; [exact D|]].
  destruct (proj1 V D) as [_ V2].
  destruct (honest_valid cfg1 p SKseed SKprf PKseed SK PK HK L1 L2 L3 M c1 m1 msg1 sk f rqs os1 c1' on1 W1 I1 R1 A1 E1) as (BS & LS & V1).
  pose proof I2 as ([BP _] & LP & _).
  exact (bound p PK M' M S sigma BP LP (feeds_bytes _ _ _ _ _ _ _ F2) V2 V1 ER).
Qed.

(** ** [selects] is all that matters
    With the same rest, and digests that select the same leaves, the verdicts are the same,
    whatever the messages and randomisers are.  So "or the same leaves" above cannot be
    left out. *)
Theorem C47_selects_decides : forall cfg1 cfg2 p PK c1 c2 m1 m2 msg1 msg2 M1 M2 pk1 pk2 fs1 fs2 mv1 mv2,
  ps_enabled cfg1 p = true -> ps_enabled cfg2 p = true -> wf_ctx cfg1 c1 -> wf_ctx cfg2 c2 ->
  verify_init_ok cfg1 m1 msg1 M1 p pk1 PK -> feeds_ok p pk1 PK msg1 M1 [] fs1 ->
  verify_init_ok cfg2 m2 msg2 M2 p pk2 PK -> feeds_ok p pk2 PK msg2 M2 [] fs2 ->
  let P := slh_of p in let n := Z.to_nat (p_n P) in let S1 := all_fed fs1 in let S2 := all_fed fs2 in
  len S1 = len S2 -> skipn n S1 = skipn n S2 ->
  selects P (message_digest P M1 S1 PK) = selects P (message_digest P M2 S2 PK) ->
  exists os1 os2 v c1' c2',
  calls cfg1 (verify_history m1 msg1 (len M1) p pk1 fs1 ++ [(mv1, Verify)]) c1 = Ok (os1 ++ [Verdict v], c1') /\
  calls cfg2 (verify_history m2 msg2 (len M2) p pk2 fs2 ++ [(mv2, Verify)]) c2 = Ok (os2 ++ [Verdict v], c2').
Proof.
  intros cfg1 cfg2 p PK c1 c2 m1 m2 msg1 msg2 M1 M2 pk1 pk2 fs1 fs2 mv1 mv2 on1 on2 W1 W2 I1 F1 I2 F2 P n S1 S2 EL ER ES.
  destruct (C05_accepts_exactly_FIPS205 cfg1 p c1 m1 msg1 M1 pk1 PK fs1 mv1 on1 W1 I1 F1) as (os1 & v1 & c1' & E1 & V1 & D1).
  destruct (C05_accepts_exactly_FIPS205 cfg2 p c2 m2 msg2 M2 pk2 PK fs2 mv2 on2 W2 I2 F2) as (os2 & v2 & c2' & E2 & V2 & D2).
  exists os1, os2, v1, c1', c2'. split; [exact E1|]. rewrite E2. enough (v1 = v2) as -> by reflexivity.
  rewrite size_sig in V1, V2. fold P S1 in V1. fold P S2 in V2.
  enough (slh_verify_internal P M1 S1 PK = slh_verify_internal P M2 S2 PK) as Q.
  { rewrite EL, Q, <- V2 in V1. clear - V1 D1 D2. lia. }
  assert (ESl : forall o l, p_n P <= o -> slice S2 o l = slice S1 o l).
  { intros o l Ho. pose proof (nbnd p) as Nb. fold P in Nb. unfold slice. replace (Z.to_nat o) with (n + Z.to_nat (o - p_n P))%nat by lia. rewrite <- !skipn_skipn'.
    rewrite ER. reflexivity. }
  pose proof (par_pos p) as (Pk & Pa & _). pose proof (nbnd p) as Nb. fold P in Pk, Pa, Nb.
  unfold slh_verify_internal. fold (message_digest P M1 S1 PK). fold (message_digest P M2 S2 PK). rewrite EL.
  destruct (negb _); [reflexivity|]. cbv zeta. rewrite !ESl by (clear - Pk Pa Nb; nia).
  unfold selects in ES. injection ES as E3 E4 E5. unfold fors_ADRS. rewrite E3, E4.
  unfold fors_pkFromSig. rewrite E5. reflexivity.
Qed.

(** ** The hypotheses of [C47_altered] can be met: for every key pair, any two messages and
    any randomiser there are such sessions *)
Theorem C47_sessions_exist : forall p SKseed SKprf PKseed SK PK M M' R,
  slh_keygen_internal (slh_of p) SKseed SKprf PKseed = (SK, PK) ->
  is_bytes SKseed -> is_bytes SKprf -> is_bytes PKseed ->
  len SKseed = p_n (slh_of p) -> len SKprf = p_n (slh_of p) -> len PKseed = p_n (slh_of p) ->
  is_bytes M -> len M < 2 ^ 60 -> is_bytes M' -> len M' < 2 ^ 60 -> is_bytes R -> len R = p_n (slh_of p) ->
  exists c1 c2 m1 m2 msg1 msg2 sk pk f rqs fs os1 c1',
  ps_enabled full_cfg p = true /\ wf_ctx full_cfg c1 /\ wf_ctx full_cfg c2 /\
  sign_init_ok m1 msg1 M p sk SK f /\ Forall (request_ok sk SK) rqs /\ ts_size_signature (the_ps full_cfg p) <= asked rqs /\
  calls full_cfg (sign_history m1 msg1 (len M) p sk f rqs) c1 = Ok (os1, c1') /\
  verify_init_ok full_cfg m2 msg2 M' p pk PK /\ feeds_ok p pk PK msg2 M' [] fs /\
  let n := Z.to_nat (p_n (slh_of p)) in
  firstn n (all_fed fs) = R /\ skipn n (all_fed fs) = skipn n (concat (map taken os1)).
Proof.
  intros p SKseed SKprf PKseed SK PK M M' R HK B1 B2 B3 L1 L2 L3 BM LM BM' LM' BR LR.
  pose proof HK as HK0. unfold slh_keygen_internal in HK. set (root := slh_root _ _ _) in HK.
  assert (KS : SK = SKseed ++ SKprf ++ PKseed ++ root) by congruence. assert (KP : PK = PKseed ++ root) by congruence.
  assert (Rt : len root = p_n (slh_of p) /\ is_bytes root) by (apply root_shape; assumption). destruct Rt as [Lr Br].
  assert (BK : is_bytes SK) by (rewrite KS; apply bytes_app; [assumption|]; apply bytes_app; [assumption|]; apply bytes_app; assumption).
  assert (LK : len SK = 4 * p_n (slh_of p)) by (rewrite KS, !len_app; lia).
  assert (BP : is_bytes PK) by (rewrite KP; apply bytes_app; assumption).
  assert (LP : len PK = 2 * p_n (slh_of p)) by (rewrite KP, len_app; lia).
  destruct (produced_exists p SK M BK LK BM LM) as (addrnd & BA & c1 & m1 & msg1 & sk & f & rqs & os0 & c1' & on & W & HI & HR & HA & HC & ET).
  set (os1 := Started :: os0) in *.
  destruct (honest_valid full_cfg p SKseed SKprf PKseed SK PK HK0 L1 L2 L3 M c1 m1 msg1 sk f rqs os1 c1' on W HI HR HA HC) as (BS & LS & _).
  set (S := R ++ skipn (Z.to_nat (p_n (slh_of p))) (concat (map taken os1))).
  pose proof (nbnd p) as Nb.
  assert (BS' : is_bytes S) by (apply bytes_app; [exact BR|apply Forall_skipn', BS]).
  assert (L32 : len S < 2 ^ 32).
  { unfold S. rewrite len_app. assert (X : len (skipn (Z.to_nat (p_n (slh_of p))) (concat (map taken os1))) <= slh_sig_length (slh_of p)) by (rewrite <- LS; unfold len; rewrite skipn_length; lia).
    assert (Y : slh_sig_length (slh_of p) < 2 ^ 31) by (clear; destruct p; reflexivity). lia. }
  pose proof (mem_of_holds 0 (PK ++ M') (bytes_app _ _ BP BM')) as H. set (m := mem_of 0 (PK ++ M')) in *.
  assert (H1 : holds m 0 PK).
  { pose proof (holds_slice _ _ _ 0 (len PK) H ltac:(lia) ltac:(lia) ltac:(rewrite len_app; unfold len; lia)) as X. rewrite Z.add_0_r in X.
    rewrite slice_app_l in X by (first [lia|apply Z.le_refl]). rewrite (slice_all PK (len PK) eq_refl) in X. exact X. }
  assert (H2 : holds m (len PK) M').
  { pose proof (holds_slice _ _ _ (len PK) (len M') H ltac:(lia) ltac:(unfold len; lia) ltac:(rewrite len_app; lia)) as X. rewrite Z.add_0_l in X.
    rewrite slice_app_r in X by (change (@zlen Z) with len; lia). change (@zlen Z) with len in X. rewrite Z.sub_diag in X. rewrite (slice_all M' (len M') eq_refl) in X. exact X. }
  exists c1, (zero_ctx full_cfg (the_ps full_cfg p)), m1, m, msg1, (len PK), sk, 0, f, rqs, [Feed m S], os1, c1'.
  split; [exact on|]. split; [exact W|]. split; [apply zero_wf|]. split; [exact HI|]. split; [exact HR|]. split; [exact HA|]. split; [exact HC|].
  split; [split; [exact H1|]; split; [exact LP|]; change (addresses (platform_of full_cfg)) with (2 ^ 64); split; [lia|]; split; [exact BM'|lia]|].
  split; [cbn [feeds_ok fd_mem fd_chunk]; split; [exact H1|]; split; [exact BS'|]; split; [exact L32|]; split; [intros _; exact H2|exact I]|].
  cbv zeta. assert (EF : all_fed [Feed m S] = S) by (unfold all_fed; cbn [map concat fd_chunk]; apply app_nil_r). rewrite EF. unfold S.
  split; [apply firstn_app_exact; unfold len in LR; lia|apply skipn_app_exact; unfold len in LR; lia].
Qed.

Print Assumptions C47_same_rest.
Print Assumptions C47_altered.
Print Assumptions C47_selects_decides.
Print Assumptions C47_sessions_exist.
