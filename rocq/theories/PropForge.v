(** * Two accepted signatures with the same randomiser imply a hash break (C35)

    [collision], [chains_inverted], [message_digest], [verify_inputs] are defined in
    SpecForge.v.  That collisions exist is clear; the point is that the two signatures
    exhibit one: the two colliding strings are among those that verifying them hashes. *)
From Verif Require Import Arr SpecSLH SpecMap SpecUses SpecForge SpecApi SpecSessions ModelParams ModelCtx ModelKeygen ModelApi
  PfIter PfSpec PfApi PfKeygen PfComplete PfSession PfForge PfForge2 PropSign PropVerify.
Ltac Zify.zify_post_hook ::= idtac.

Lemma feeds_bytes p pk PK msg M fs : forall fed, feeds_ok p pk PK msg M fed fs -> is_bytes (all_fed fs).
Proof.
  induction fs as [|f fs IH]; intros fed H; [constructor|]. cbn [feeds_ok] in H. destruct H as (_ & H & _ & _ & H').
  unfold all_fed. cbn [map concat]. apply bytes_app; [exact H|apply (IH _ H')].
Qed.
Lemma accepted cfg p c m0 msg M pk PK fs mv os c' :
  ps_enabled cfg p = true -> wf_ctx cfg c -> verify_init_ok cfg m0 msg M p pk PK -> feeds_ok p pk PK msg M [] fs ->
  calls cfg (verify_history m0 msg (len M) p pk fs ++ [(mv, Verify)]) c = Ok (os ++ [Verdict 1], c') ->
  slh_verify_internal (slh_of p) M (all_fed fs) PK = true.
Proof.
  intros on W HI HF HC. destruct (C05_accepts_exactly_FIPS205 cfg p c m0 msg M pk PK fs mv on W HI HF) as (os' & v & c2 & E & V & _).
  rewrite HC in E. injection E as E _. apply app_inj_tail in E. destruct E as [_ E]. injection E as <-. apply V. reflexivity.
Qed.

(** Both sessions below end with 1 from ts_verify.  They may be for different messages,
    if only the digests are the same. *)
Theorem C35_same_digest : forall cfg1 cfg2 p PK c1 c2 m1 m2 msg1 msg2 M1 M2 pk1 pk2 fs1 fs2 mv1 mv2 os1 os2 c1' c2',
  ps_enabled cfg1 p = true -> ps_enabled cfg2 p = true -> wf_ctx cfg1 c1 -> wf_ctx cfg2 c2 ->
  verify_init_ok cfg1 m1 msg1 M1 p pk1 PK -> feeds_ok p pk1 PK msg1 M1 [] fs1 ->
  verify_init_ok cfg2 m2 msg2 M2 p pk2 PK -> feeds_ok p pk2 PK msg2 M2 [] fs2 ->
  calls cfg1 (verify_history m1 msg1 (len M1) p pk1 fs1 ++ [(mv1, Verify)]) c1 = Ok (os1 ++ [Verdict 1], c1') ->
  calls cfg2 (verify_history m2 msg2 (len M2) p pk2 fs2 ++ [(mv2, Verify)]) c2 = Ok (os2 ++ [Verdict 1], c2') ->
  let P := slh_of p in let n := Z.to_nat (p_n P) in let S1 := all_fed fs1 in let S2 := all_fed fs2 in
  message_digest P M1 S1 PK = message_digest P M2 S2 PK ->
  skipn n S1 <> skipn n S2 ->
  collision P PK M1 S1 M2 S2 \/ chains_inverted P PK M1 S1 M2 S2.
Proof.
  intros cfg1 cfg2 p PK c1 c2 m1 m2 msg1 msg2 M1 M2 pk1 pk2 fs1 fs2 mv1 mv2 os1 os2 c1' c2' on1 on2 W1 W2 I1 F1 I2 F2 E1 E2 P n S1 S2 ED NE.
  pose proof I1 as ([BP _] & LP & _).
  apply (forge p PK M1 M2 S1 S2).
  - exact BP.
  - exact LP.
  - apply (feeds_bytes _ _ _ _ _ _ _ F1).
  - apply (feeds_bytes _ _ _ _ _ _ _ F2).
  - apply (accepted _ _ _ _ _ _ _ _ _ _ _ _ on1 W1 I1 F1 E1).
  - apply (accepted _ _ _ _ _ _ _ _ _ _ _ _ on2 W2 I2 F2 E2).
  - exact ED.
  - intros Q. apply NE. unfold slice in Q. rewrite !firstn_all2 in Q by (rewrite skipn_length; unfold len; lia). exact Q.
Qed.

(** The same message, and the same first n bytes (the randomiser R) *)
Theorem C35_same_randomiser : forall cfg1 cfg2 p PK M c1 c2 m1 m2 msg1 msg2 pk1 pk2 fs1 fs2 mv1 mv2 os1 os2 c1' c2',
  ps_enabled cfg1 p = true -> ps_enabled cfg2 p = true -> wf_ctx cfg1 c1 -> wf_ctx cfg2 c2 ->
  verify_init_ok cfg1 m1 msg1 M p pk1 PK -> feeds_ok p pk1 PK msg1 M [] fs1 ->
  verify_init_ok cfg2 m2 msg2 M p pk2 PK -> feeds_ok p pk2 PK msg2 M [] fs2 ->
  calls cfg1 (verify_history m1 msg1 (len M) p pk1 fs1 ++ [(mv1, Verify)]) c1 = Ok (os1 ++ [Verdict 1], c1') ->
  calls cfg2 (verify_history m2 msg2 (len M) p pk2 fs2 ++ [(mv2, Verify)]) c2 = Ok (os2 ++ [Verdict 1], c2') ->
  let P := slh_of p in let n := Z.to_nat (p_n P) in let S1 := all_fed fs1 in let S2 := all_fed fs2 in
  firstn n S1 = firstn n S2 -> S1 <> S2 ->
  collision P PK M S1 M S2 \/ chains_inverted P PK M S1 M S2.
Proof.
  intros cfg1 cfg2 p PK M c1 c2 m1 m2 msg1 msg2 pk1 pk2 fs1 fs2 mv1 mv2 os1 os2 c1' c2' on1 on2 W1 W2 I1 F1 I2 F2 E1 E2 P n S1 S2 EF NE.
  eapply C35_same_digest; [exact on1|exact on2|exact W1|exact W2|exact I1|exact F1|exact I2|exact F2|exact E1|exact E2| |].
  - unfold message_digest, slice. cbn [skipn Z.to_nat]. fold S1. fold S2. fold P n. rewrite EF. reflexivity.
  - fold P n S1 S2. intros Q. apply NE. rewrite <- (firstn_skipn n S1), <- (firstn_skipn n S2), EF, Q. reflexivity.
Qed.

(** What the library has signed ([sigma], with a key pair of key generation) against
    anything else that is accepted and has the same randomiser *)
Theorem C35_against_signed : forall cfg1 cfg2 p SKseed SKprf PKseed SK PK,
  slh_keygen_internal (slh_of p) SKseed SKprf PKseed = (SK, PK) ->
  len SKseed = p_n (slh_of p) -> len SKprf = p_n (slh_of p) -> len PKseed = p_n (slh_of p) ->
  forall M c1 c2 m1 m2 msg1 msg2 sk pk f rqs fs mv os1 os2 c1' c2',
  ps_enabled cfg1 p = true -> ps_enabled cfg2 p = true -> wf_ctx cfg1 c1 -> wf_ctx cfg2 c2 ->
  sign_init_ok m1 msg1 M p sk SK f -> Forall (request_ok sk SK) rqs -> ts_size_signature (the_ps cfg1 p) <= asked rqs ->
  calls cfg1 (sign_history m1 msg1 (len M) p sk f rqs) c1 = Ok (os1, c1') ->
  verify_init_ok cfg2 m2 msg2 M p pk PK -> feeds_ok p pk PK msg2 M [] fs ->
  calls cfg2 (verify_history m2 msg2 (len M) p pk fs ++ [(mv, Verify)]) c2 = Ok (os2 ++ [Verdict 1], c2') ->
  let P := slh_of p in let n := Z.to_nat (p_n P) in let sigma := concat (map taken os1) in let S := all_fed fs in
  firstn n S = firstn n sigma ->
  S = sigma \/ collision P PK M S M sigma \/ chains_inverted P PK M S M sigma.
Proof.
  intros cfg1 cfg2 p SKseed SKprf PKseed SK PK HK L1 L2 L3 M c1 c2 m1 m2 msg1 msg2 sk pk f rqs fs mv os1 os2 c1' c2' on1 on2 W1 W2 I1 R1 A1 E1 I2 F2 E2 P n sigma S EF.
  destruct (list_eq_dec Z.eq_dec S sigma) as [E|NE]; [auto|right].
  destruct (C02_signature_is_FIPS205 cfg1 p c1 m1 msg1 M sk SK f rqs on1 W1 I1 R1 A1) as (os & c & E & ES).
  assert (Eos : os1 = Started :: os) by congruence. assert (EG : sigma = signature p M SK f) by (unfold sigma; rewrite Eos; exact ES). clear E ES Eos.
  pose proof I2 as ([BP _] & LP & _). pose proof I1 as ([BK _] & LK & [BM _] & _ & HR).
  destruct (signature_len _ _ _ _ _ _ _ I1) as [LS BS]. rewrite <- EG in LS, BS.
  assert (Nb : 16 <= p_n (slh_of p) <= 32) by (destruct p; cbn; lia).
  unfold slh_keygen_internal in HK. set (root := slh_root _ _ _) in HK.
  assert (KS : SK = SKseed ++ SKprf ++ PKseed ++ root) by congruence. assert (KP : PK = PKseed ++ root) by congruence.
  assert (Q0 : slice SK 0 (p_n (slh_of p)) = SKseed).
  { rewrite KS, slice_app_l by (change (@zlen Z) with len; lia). apply slice_all. exact L1. }
  assert (Q2 : skipn (Z.to_nat (2 * p_n (slh_of p))) SK = PK).
  { rewrite KS, KP. rewrite app_assoc. apply skipn_app_exact. rewrite app_length. unfold len in *. lia. }
  assert (Q3 : slice SK (2 * p_n (slh_of p)) (p_n (slh_of p)) = PKseed).
  { unfold slice. rewrite Q2, KP. apply firstn_app_exact. unfold len in *. lia. }
  assert (Q4 : slice SK (3 * p_n (slh_of p)) (p_n (slh_of p)) = root).
  { unfold slice. replace (Z.to_nat (3 * p_n (slh_of p))) with (Z.to_nat (2 * p_n (slh_of p)) + Z.to_nat (p_n (slh_of p)))%nat by lia.
    rewrite <- skipn_skipn', Q2, KP, skipn_app_exact by (unfold len in *; lia). apply firstn_all2.
    rewrite KP, len_app in LP. unfold len in *. lia. }
  assert (V1 : slh_verify_internal P M sigma PK = true).
  { rewrite EG, <- Q2. apply complete; [exact BK|exact LK|exact BM| |rewrite Q0, Q3, Q4; reflexivity].
    apply randomness_bytes; [exact HR|apply slice_bytes, BK]. }
  apply (forge p PK M M S sigma).
  - exact BP.
  - exact LP.
  - apply (feeds_bytes _ _ _ _ _ _ _ F2).
  - exact BS.
  - apply (accepted _ _ _ _ _ _ _ _ _ _ _ _ on2 W2 I2 F2 E2).
  - exact V1.
  - unfold message_digest, slice. cbn [skipn Z.to_nat]. fold P n. rewrite EF. reflexivity.
  - intros Q. apply NE. unfold slice in Q. rewrite !firstn_all2 in Q by (rewrite skipn_length; unfold len; lia). fold P n in Q.
    rewrite <- (firstn_skipn n S), <- (firstn_skipn n sigma), EF, Q. reflexivity.
Qed.

(** About the list of hashed strings: each is for a use that occurs (SpecUses.v), with
    the length that belongs to it; and nothing else matters: with other hash functions
    that agree on the list, the verdict is the same. *)
Theorem C35_inputs_in_range : forall p M S PK,
  is_bytes PK -> len PK = 2 * p_n (slh_of p) -> is_bytes S -> len S = slh_sig_length (slh_of p) ->
  forall u X, In (u, X) (verify_inputs (slh_of p) M S PK) ->
  use_in (slh_of p) u /\ is_bytes X /\ len X = input_length (slh_of p) u.
Proof.
  intros p M S PK BP LP BS LS u X HX. pose proof (inputs_wf p PK M S BP LP BS LS) as H. rewrite Forall_forall in H. exact (H _ HX).
Qed.
Theorem C35_inputs_complete : forall P M S PK hs, let PKseed := slice PK 0 (p_n P) in
  (forall R root M, H_msg hs R PKseed root M = H_msg (p_hash P) R PKseed root M) ->
  (forall u X, In (u, X) (verify_inputs P M S PK) -> hash_at (with_hash P hs) PKseed u X = hash_at P PKseed u X) ->
  slh_verify_internal (with_hash P hs) M S PK = slh_verify_internal P M S PK.
Proof. intros P M S PK hs PKseed HM H. apply inputs_complete; assumption. Qed.

(** ** The hypotheses can be met: the holder of a private key can make two different
    signatures of any message that start with any given R, and both are accepted *)
Theorem C35_not_vacuous : forall p SK M R, let P := slh_of p in let n := p_n P in
  is_bytes SK -> len SK = 4 * n -> slice SK (3 * n) n = slh_root P (slice SK (2 * n) n) (slice SK 0 n) ->
  is_bytes R -> len R = n ->
  exists S1 S2, is_bytes S1 /\ is_bytes S2 /\ S1 <> S2 /\ firstn (Z.to_nat n) S1 = R /\ firstn (Z.to_nat n) S2 = R /\
    slh_verify_internal P M S1 (skipn (Z.to_nat (2 * n)) SK) = true /\
    slh_verify_internal P M S2 (skipn (Z.to_nat (2 * n)) SK) = true.
Proof.
  intros p SK M R P n BK LK RO BR LR. set (k := Z.to_nat (p_k P * (1 + p_a P) * n)).
  assert (Hz : 0 < p_k P * (1 + p_a P) * n) by (unfold P, n; destruct p; reflexivity).
  assert (Hk : (0 < k)%nat) by (unfold k; lia). 
  assert (L : forall v : Z, zlen (repeat v k) = p_k P * (1 + p_a P) * n).
  { intros v. unfold zlen. rewrite repeat_length. unfold k in *. lia. }
  assert (B : forall v, 0 <= v < 256 -> is_bytes (repeat v k)).
  { intros v Hv. apply Forall_forall. intros x Hx. apply repeat_spec in Hx. subst x. exact Hv. }
  destruct (made_ok p SK BK LK RO M R (repeat 0 k) LR BR (L 0) (B 0 ltac:(lia))) as [B1 V1].
  destruct (made_ok p SK BK LK RO M R (repeat 1 k) LR BR (L 1) (B 1 ltac:(lia))) as [B2 V2].
  exists (made p SK M R (repeat 0 k)), (made p SK M R (repeat 1 k)).
  split; [exact B1|]. split; [exact B2|].
  assert (T : forall X, firstn (Z.to_nat n) (R ++ X) = R) by (intros X; apply firstn_app_exact; unfold len in LR; lia).
  split; [|split; [apply T|split; [apply T|split; [exact V1|exact V2]]]].
  unfold made. cbv zeta. destruct k as [|k']; [lia|]. intros E. apply app_inv_head in E. cbn [repeat app] in E. discriminate E.
Qed.
Print Assumptions C35_same_digest.
Print Assumptions C35_same_randomiser.
Print Assumptions C35_against_signed.
Print Assumptions C35_inputs_in_range.
Print Assumptions C35_inputs_complete.
Print Assumptions C35_not_vacuous.
