(** * What a forgery implies (C42)

    Somebody who has seen any number of signatures under a key, and not the private key,
    makes a signature that verifies.  Then one of four things can be read off it; three of
    them break a hash function, the fourth is that the digest of the new message selects
    only secret values that have been published.

    [collision], [layer_message], [position], [wots_part]: SpecForge.v.  The numbering of
    the one-time and few-time key pairs and the values that belong to them: SpecReuse.v.
    [produced]: PropReuse.v. *)
From Verif Require Import Arr SpecSLH SpecMap SpecForge SpecReuse SpecApi SpecSessions ModelParams ModelCtx ModelKeygen ModelApi
  PfIter PfSpec PfApi PfKeygen PfComplete PfSession PfForge PfForge2 PfReuse PfEUF PropSign PropVerify PropForge PropReuse.
Ltac Zify.zify_post_hook ::= idtac.

Section Forgery.
Variable p : ps_name.
Local Notation P := (slh_of p). Local Notation n := (p_n (slh_of p)).

(** The signature of [M] reveals a value of a one-time chain from which the value that
    the holder of the key reveals there follows by at least one step; and the holder
    reveals only this one value of the chain, in all signatures ([signed]). *)
Definition reveals_earlier_value (PKseed SKseed PK : list Z) (signed : list (list Z * list Z)) (M S : list Z) : Prop :=
  exists layer c, 0 <= layer < p_d P /\ 0 <= c < wlen P /\
    let q := ots_index P (digest_of P PK M S) layer in
    let here := position P (layer_message P M S PK layer) c in
    let there := position P (ots_message P PKseed SKseed layer q) c in
    0 <= here < there /\ there <= w P - 1 /\
    chain P PKseed (wots_part P S layer c) here (Z.to_nat (there - here))
      (mkADRS layer (q / 2 ^ p_h' P) WOTS_HASH (q mod 2 ^ p_h' P) c 0) =
    chain_value P PKseed SKseed layer q c there /\
    forall M1 S1, In (M1, S1) signed -> ots_index P (digest_of P PK M1 S1) layer = q ->
      wots_part P S1 layer c = chain_value P PKseed SKseed layer q c there.

(** Signature [S1] of [M1] contains the secret value that tree [i] of [S] needs *)
Definition same_leaf (PK M S M1 S1 : list Z) (i : Z) : Prop :=
  fts_index P (digest_of P PK M1 S1) = fts_index P (digest_of P PK M S) /\
  fts_leaf P (digest_of P PK M1 S1) i = fts_leaf P (digest_of P PK M S) i.

(** It contains a secret value that no signature so far does *)
Definition reveals_new_secret (PKseed SKseed PK : list Z) (signed : list (list Z * list Z)) (M S : list Z) : Prop :=
  exists i, 0 <= i < p_k P /\
    let D := digest_of P PK M S in
    part_secret P S i = fts_secret P PKseed SKseed (fts_index P D) i (fts_leaf P D i) /\
    forall M1 S1, In (M1, S1) signed -> ~ same_leaf PK M S M1 S1 i.

(** All the secret values that it needs have been published *)
Definition covered (PK : list Z) (signed : list (list Z * list Z)) (M S : list Z) : Prop :=
  forall i, 0 <= i < p_k P -> exists M1 S1, In (M1, S1) signed /\ same_leaf PK M S M1 S1 i.

Theorem C42_what_a_forgery_implies : forall SKseed SKprf PKseed SK PK,
  slh_keygen_internal P SKseed SKprf PKseed = (SK, PK) ->
  is_bytes SKseed -> is_bytes SKprf -> is_bytes PKseed -> len SKseed = n -> len SKprf = n -> len PKseed = n ->
  forall signed, (forall M1 S1, In (M1, S1) signed -> exists cfg, produced cfg p SK M1 S1) ->
  forall cfg c m0 msg M pk fs mv os c',
  ps_enabled cfg p = true -> wf_ctx cfg c -> verify_init_ok cfg m0 msg M p pk PK -> feeds_ok p pk PK msg M [] fs ->
  calls cfg (verify_history m0 msg (len M) p pk fs ++ [(mv, Verify)]) c = Ok (os ++ [Verdict 1], c') ->
  let S := all_fed fs in
  let own := own_signature P SK M (part_R P S) in
  collision P PK M S M own \/
  reveals_earlier_value PKseed SKseed PK signed M S \/
  (S = own /\ (reveals_new_secret PKseed SKseed PK signed M S \/ covered PK signed M S)).
Proof.
  intros SKseed SKprf PKseed SK PK HK B1 B2 B3 L1 L2 L3 signed HS cfg c m0 msg M pk fs mv os c' on W HI HF HC S own.
  pose proof HI as ([BP _] & LP & _).
  pose proof (feeds_bytes _ _ _ _ _ _ _ HF) as BS. fold S in BS.
  pose proof (accepted _ _ _ _ _ _ _ _ _ _ _ _ on W HI HF HC) as V. fold S in V.
  pose proof (nbnd p) as Nb. destruct (par_pos p) as (Pk & Pa & Pd & Ph & Pw & EH).
  unfold slh_keygen_internal in HK. set (root := slh_root _ _ _) in HK.
  assert (KS : SK = SKseed ++ SKprf ++ PKseed ++ root) by congruence. assert (KP : PK = PKseed ++ root) by congruence.
  assert (Lr : len root = n) by (rewrite KP, len_app in LP; lia).
  assert (Br : is_bytes root) by (rewrite KP in BP; apply Forall_app in BP; apply BP).
  assert (BK : is_bytes SK) by (rewrite KS; repeat apply bytes_app; assumption).
  assert (LK : len SK = 4 * n) by (rewrite KS, !len_app; lia).
  assert (Q0 : slice SK 0 n = SKseed).
  { rewrite KS, slice_app_l by (change (@zlen Z) with len; lia). apply slice_all. exact L1. }
  assert (Q2 : skipn (Z.to_nat (2 * n)) SK = PK).
  { rewrite KS, KP. rewrite app_assoc. apply skipn_app_exact. rewrite app_length. unfold len in *. lia. }
  assert (Q3 : slice SK (2 * n) n = PKseed).
  { unfold slice. rewrite Q2, KP. apply firstn_app_exact. unfold len in *. lia. }
  assert (Q4 : slice SK (3 * n) n = root).
  { unfold slice. replace (Z.to_nat (3 * n)) with (Z.to_nat (2 * n) + Z.to_nat n)%nat by lia.
    rewrite <- skipn_skipn', Q2, KP, skipn_app_exact by (unfold len in *; lia). apply firstn_all2. unfold len in *. lia. }
  assert (Q5 : slice PK 0 n = PKseed) by (rewrite KP, slice_app_l by (change (@zlen Z) with len; lia); apply slice_all; exact L3).
  assert (RO : slice SK (3 * n) n = slh_root P (slice SK (2 * n) n) (slice SK 0 n)) by (rewrite Q0, Q3, Q4; reflexivity).
  pose proof (sig_len p PK M S V) as LS.
  assert (LR : zlen (part_R P S) = n).
  { apply slice_zlen; [lia|lia|]. rewrite LS. clear - Nb Pk Pa EH Pd Ph Pw. rewrite EH. nia. }
  assert (BR : is_bytes (part_R P S)) by apply slice_bytes, BS.
  destruct (own_ok p SK BK LK M (part_R P S) RO LR BR) as [BO VO]. fold own in BO, VO. rewrite Q2 in VO.
  destruct (own_parts p SK BK LK M (part_R P S) LR) as (OR & OD & OF & OL). fold own in OR, OD, OF, OL. rewrite Q2 in *. rewrite Q0, Q3 in *.
  assert (ED : digest_of P PK M own = digest_of P PK M S) by (unfold digest_of; rewrite OR; reflexivity).
  rewrite ED in *.
  destruct (list_eq_dec Z.eq_dec S own) as [ES|NE].
  - right. right. split; [exact ES|].
    assert (DEC : forall i, 0 <= i < p_k P -> (exists M1 S1, In (M1, S1) signed /\ same_leaf PK M S M1 S1 i) \/ (forall M1 S1, In (M1, S1) signed -> ~ same_leaf PK M S M1 S1 i)).
    { intros i _. clear. induction signed as [|[M1 S1] l IH]; [right; intros M1 S1 []|].
      assert (D1 : same_leaf PK M S M1 S1 i \/ ~ same_leaf PK M S M1 S1 i).
      { unfold same_leaf. destruct (Z.eq_dec (fts_index P (digest_of P PK M1 S1)) (fts_index P (digest_of P PK M S))) as [E1|E1]; [|right; tauto].
        destruct (Z.eq_dec (fts_leaf P (digest_of P PK M1 S1) i) (fts_leaf P (digest_of P PK M S) i)) as [E2|E2]; [left|right]; tauto. }
      destruct D1 as [D1|D1]; [left; exists M1, S1; split; [left; reflexivity|exact D1]|].
      destruct IH as [(M2 & S2 & H & H')|H]; [left; exists M2, S2; split; [right; exact H|exact H']|].
      right. intros M2 S2 [E|E]; [injection E as <- <-; exact D1|apply H, E]. }
    destruct (all_or (reveals_new_secret PKseed SKseed PK signed M S) (fun i => exists M1 S1, In (M1, S1) signed /\ same_leaf PK M S M1 S1 i) (p_k P)) as [N|C]; [|left; exact N|right; exact C].
    intros i Hi. destruct (DEC i Hi) as [C|N]; [right; exact C|left]. exists i. split; [exact Hi|]. split; [|exact N]. cbv zeta.
    set (D := digest_of P PK M S) in *.
    assert (T : part_secret P S i = slice (part_fors P S i) 0 n).
    { unfold part_fors. rewrite slice_slice; [unfold part_secret; f_equal; ring|clear - Hi Pa Nb; nia|lia|lia|clear - Pa Nb; nia]. }
    rewrite T, ES, (OF i Hi).
    assert (EA : fors_ADRS P D = mkADRS 0 (fts_index P D / 2 ^ p_h' P) FORS_TREE (fts_index P D mod 2 ^ p_h' P) 0 0).
    { pose proof (PfUses.digest_leaf P (PfUses.par_slh p) D) as HL. pose proof (Z.pow_pos_nonneg 2 (p_h' P) ltac:(lia) ltac:(lia)).
      unfold fors_ADRS, fts_index. rewrite Z.div_add_l, (Z.div_small (idx_leaf_of P D)), Z.add_0_r by lia.
      rewrite (Z.add_comm _ (idx_leaf_of P D)), Z.mod_add, Z.mod_small by lia. reflexivity. }
    rewrite EA.
    assert (LX : zlen (fts_secret P PKseed SKseed (fts_index P D) i (fts_leaf P D i)) = n).
    { pose proof (secret_len p SK BK LK (fts_index P D) i (fts_leaf P D i)) as X. rewrite Q0, Q3 in X. exact X. }
    rewrite slice_app_l by (first [lia|rewrite <- LX; apply Z.le_refl]). apply slice_all. exact LX.
  - assert (NT : slice S n (len S) <> slice own n (len own)).
    { intros Q. apply NE. unfold slice in Q. rewrite !firstn_all2 in Q by (rewrite skipn_length; unfold len; lia).
      unfold part_R, slice in OR. cbn [skipn Z.to_nat] in OR.
      rewrite <- (firstn_skipn (Z.to_nat n) S), <- (firstn_skipn (Z.to_nat n) own), OR, Q. reflexivity. }
    destruct (forge p PK M M S own BP LP BS BO V VO (eq_sym ED) NT) as [C|(layer & ch & ch' & Hl & Hc & _ & X & _)]; [left; exact C|right; left].
    exists layer, ch. split; [exact Hl|]. split; [exact Hc|]. cbv zeta in X.
    change (message_digest P M S PK) with (digest_of P PK M S) in X.
    destruct (ots_split p (digest_of P PK M S) layer Hl) as [T1 T2]. rewrite T1, T2 in X. cbv zeta.
    destruct (OL layer Hl) as [PL LM].
    unfold earlier_in_chain in X. cbv zeta in X. rewrite LM in X. rewrite Q5 in X. destruct X as (X1 & X2 & X3).
    split; [exact X1|]. split; [exact X2|].
    pose proof (layer_chain p SK BK LK own) as LC. rewrite Q0, Q3 in LC.
    split.
    + rewrite X3. apply LC; [exact Hl|exact Hc|exact PL].
    + intros M1 S1 HIn Eq. destruct (HS M1 S1 HIn) as [cf HP].
      destruct (C37_what_one_time_keys_sign p cf SK M1 S1 HP layer Hl) as [_ H37]. unfold digest, pk_seed, sk_seed in H37. rewrite Q2, Q0, Q3, Eq in H37.
      pose proof (layer_chain p SK BK LK S1) as LC1. rewrite Q0, Q3 in LC1. apply LC1; [exact Hl|exact Hc|exact H37].
Qed.
End Forgery.

(** Before anything has been signed *)
Theorem C42_nothing_signed : forall p SKseed SKprf PKseed SK PK,
  slh_keygen_internal (slh_of p) SKseed SKprf PKseed = (SK, PK) ->
  is_bytes SKseed -> is_bytes SKprf -> is_bytes PKseed ->
  len SKseed = p_n (slh_of p) -> len SKprf = p_n (slh_of p) -> len PKseed = p_n (slh_of p) ->
  forall cfg c m0 msg M pk fs mv os c',
  ps_enabled cfg p = true -> wf_ctx cfg c -> verify_init_ok cfg m0 msg M p pk PK -> feeds_ok p pk PK msg M [] fs ->
  calls cfg (verify_history m0 msg (len M) p pk fs ++ [(mv, Verify)]) c = Ok (os ++ [Verdict 1], c') ->
  let S := all_fed fs in
  collision (slh_of p) PK M S M (own_signature (slh_of p) SK M (part_R (slh_of p) S)) \/
  reveals_earlier_value p PKseed SKseed PK [] M S \/
  reveals_new_secret p PKseed SKseed PK [] M S.
Proof.
  intros p SKseed SKprf PKseed SK PK HK B1 B2 B3 L1 L2 L3 cfg c m0 msg M pk fs mv os c' on W HI HF HC S.
  destruct (C42_what_a_forgery_implies p SKseed SKprf PKseed SK PK HK B1 B2 B3 L1 L2 L3 [] ltac:(intros M1 S1 []) cfg c m0 msg M pk fs mv os c' on W HI HF HC)
    as [C|[C|[_ [C|C]]]]; [left; exact C|right; left; exact C|right; right; exact C|].
  destruct (par_pos p) as (Pk & _). destruct (C 0 ltac:(lia)) as (M1 & S1 & [] & _).
Qed.

(** ** The hypotheses can be met, and the cases occur *)
(** Any string that Algorithm 20 accepts is accepted in a session *)
Lemma session_exists p PK M S : is_bytes PK -> len PK = 2 * p_n (slh_of p) -> is_bytes M -> len M < 2 ^ 60 -> is_bytes S ->
  slh_verify_internal (slh_of p) M S PK = true ->
  exists c m0 msg pk fs mv os c', ps_enabled full_cfg p = true /\ wf_ctx full_cfg c /\ verify_init_ok full_cfg m0 msg M p pk PK /\ feeds_ok p pk PK msg M [] fs /\
  calls full_cfg (verify_history m0 msg (len M) p pk fs ++ [(mv, Verify)]) c = Ok (os ++ [Verdict 1], c') /\ all_fed fs = S.
Proof.
  intros BP LP BM LM BS V. pose proof (nbnd p) as Nb.
  pose proof (mem_of_holds 0 (PK ++ M) (bytes_app _ _ BP BM)) as H. set (m := mem_of 0 (PK ++ M)) in *.
  assert (H1 : holds m 0 PK).
  { pose proof (holds_slice _ _ _ 0 (len PK) H ltac:(lia) ltac:(lia) ltac:(rewrite len_app; unfold len; lia)) as X. rewrite Z.add_0_r in X.
    rewrite slice_app_l in X by (first [lia|apply Z.le_refl]). rewrite (slice_all PK (len PK) eq_refl) in X. exact X. }
  assert (H2 : holds m (len PK) M).
  { pose proof (holds_slice _ _ _ (len PK) (len M) H ltac:(lia) ltac:(unfold len; lia) ltac:(rewrite len_app; lia)) as X. rewrite Z.add_0_l in X.
    rewrite slice_app_r in X by (change (@zlen Z) with len; lia). change (@zlen Z) with len in X. rewrite Z.sub_diag in X. rewrite (slice_all M (len M) eq_refl) in X. exact X. }
  pose proof (sig_len p PK M S V) as LS.
  assert (L32 : len S < 2 ^ 32).
  { change (len S) with (zlen S). rewrite LS. clear. destruct p; reflexivity. }
  set (fs := [Feed m S]).
  assert (HI : verify_init_ok full_cfg m (len PK) M p 0 PK) by (split; [exact H1|]; split; [exact LP|]; change (addresses (platform_of full_cfg)) with (2 ^ 64); split; [lia|]; split; [exact BM|lia]).
  assert (HF : feeds_ok p 0 PK (len PK) M [] fs).
  { cbn [feeds_ok fs fd_mem fd_chunk]. split; [exact H1|]. split; [exact BS|]. split; [exact L32|]. split; [intros _; exact H2|exact I]. }
  assert (EF : all_fed fs = S) by (unfold all_fed; cbn [fs map concat fd_chunk]; apply app_nil_r).
  destruct (C05_accepts_exactly_FIPS205 full_cfg p (zero_ctx full_cfg (the_ps full_cfg p)) m (len PK) M 0 PK fs m (full_on p) (zero_wf _ _) HI HF) as (os & v & c' & E & V' & V'').
  rewrite EF in V'. exists (zero_ctx full_cfg (the_ps full_cfg p)), m, (len PK), 0, fs, m, os, c'.
  split; [apply full_on|]. split; [apply zero_wf|]. split; [exact HI|]. split; [exact HF|]. split; [|exact EF].
  assert (Ev : v = 1).
  { apply V'. split; [|exact V]. rewrite size_sig. change (len S) with (zlen S). rewrite LS. unfold slh_sig_length. ring. }
  subst v. exact E.
Qed.
(** Any message of bytes can be signed, without randomness for instance *)
Lemma produced_exists p SK M : is_bytes SK -> len SK = 4 * p_n (slh_of p) -> is_bytes M -> len M < 2 ^ 60 ->
  exists addrnd, is_bytes addrnd /\ produced full_cfg p SK M (slh_sign_internal (slh_of p) M SK addrnd).
Proof.
  intros BK LK BM LM. pose proof (nbnd p) as Nb.
  pose proof (mem_of_holds 0 (SK ++ M) (bytes_app _ _ BK BM)) as H. set (m := mem_of 0 (SK ++ M)) in *.
  assert (H1 : holds m 0 SK).
  { pose proof (holds_slice _ _ _ 0 (len SK) H ltac:(lia) ltac:(lia) ltac:(rewrite len_app; unfold len; lia)) as X. rewrite Z.add_0_r in X.
    rewrite slice_app_l in X by (first [lia|apply Z.le_refl]). rewrite (slice_all SK (len SK) eq_refl) in X. exact X. }
  assert (H2 : holds m (len SK) M).
  { pose proof (holds_slice _ _ _ (len SK) (len M) H ltac:(lia) ltac:(unfold len; lia) ltac:(rewrite len_app; lia)) as X. rewrite Z.add_0_l in X.
    rewrite slice_app_r in X by (change (@zlen Z) with len; lia). change (@zlen Z) with len in X. rewrite Z.sub_diag in X. rewrite (slice_all M (len M) eq_refl) in X. exact X. }
  set (sz := ts_size_signature (the_ps full_cfg p)).
  assert (Sz : 0 <= sz < 2 ^ 32) by (unfold sz; clear; destruct p; split; [discriminate|reflexivity|discriminate|reflexivity|..]; first [discriminate|reflexivity]).
  set (rqs := [Req m (repeat 0 (Z.to_nat sz)) sz]).
  assert (HI : sign_init_ok m (len SK) M p 0 SK None).
  { split; [exact H1|]. split; [exact LK|]. split; [exact H2|]. split; [exact LM|exact I]. }
  assert (HR : Forall (request_ok 0 SK) rqs).
  { apply Forall_cons; [|apply Forall_nil]. split; [exact H1|]. cbn [rq_size rq_dest]. unfold len. rewrite repeat_length. lia. }
  assert (HA : sz <= asked rqs) by (unfold asked; cbn [rqs map rq_size fold_right]; lia).
  destruct (C02_signature_is_FIPS205 full_cfg p (zero_ctx full_cfg (the_ps full_cfg p)) m (len SK) M 0 SK None rqs (full_on p) (zero_wf _ _) HI HR HA) as (os & c' & E & ET).
  eexists. split; [|exists (zero_ctx full_cfg (the_ps full_cfg p)), m, (len SK), 0, None, rqs, os, c'].
  2:{ split; [apply full_on|]. split; [apply zero_wf|]. split; [exact HI|]. split; [exact HR|]. split; [exact HA|]. split; [exact E|].
      symmetry. exact ET. }
  apply (randomness_bytes None (p_n (slh_of p))); [exact I|apply slice_bytes, BK].
Qed.

(** For every key pair and message:
    - the holder of the key can make an accepted signature with any R; seen by somebody
      who knows no signature it contains a new secret;
    - there is a signing session, and its signature is covered by itself;
    - the holder can also make accepted signatures that are not [own], so one of the first two cases. *)
Theorem C42_cases_occur : forall p SKseed SKprf PKseed SK PK M R,
  slh_keygen_internal (slh_of p) SKseed SKprf PKseed = (SK, PK) ->
  is_bytes SKseed -> is_bytes SKprf -> is_bytes PKseed ->
  len SKseed = p_n (slh_of p) -> len SKprf = p_n (slh_of p) -> len PKseed = p_n (slh_of p) ->
  is_bytes M -> len M < 2 ^ 60 -> is_bytes R -> len R = p_n (slh_of p) ->
  let P := slh_of p in
  let accepted S := exists c m0 msg pk fs mv os c',
    ps_enabled full_cfg p = true /\ wf_ctx full_cfg c /\ verify_init_ok full_cfg m0 msg M p pk PK /\ feeds_ok p pk PK msg M [] fs /\
    calls full_cfg (verify_history m0 msg (len M) p pk fs ++ [(mv, Verify)]) c = Ok (os ++ [Verdict 1], c') /\ all_fed fs = S in
  let is_own S := S = own_signature P SK M (part_R P S) in
  (exists S, accepted S /\ part_R P S = R /\ is_own S /\ ~ covered p PK [] M S) /\
  (exists S, produced full_cfg p SK M S /\ accepted S /\ is_own S /\ covered p PK [(M, S)] M S) /\
  (exists S, accepted S /\ part_R P S = R /\ ~ is_own S).
Proof.
  intros p SKseed SKprf PKseed SK PK M R HK B1 B2 B3 L1 L2 L3 BM LM BR LR P accepted is_own.
  pose proof (nbnd p) as Nb. destruct (par_pos p) as (Pk & Pa & _).
  unfold slh_keygen_internal in HK. set (root := slh_root _ _ _) in HK.
  assert (KS : SK = SKseed ++ SKprf ++ PKseed ++ root) by congruence. assert (KP : PK = PKseed ++ root) by congruence.
  assert (Rt : len root = p_n P /\ is_bytes root) by (apply root_shape; assumption). destruct Rt as [Lr Br].
  assert (BK : is_bytes SK) by (rewrite KS; repeat apply bytes_app; assumption).
  assert (LK : len SK = 4 * p_n P) by (rewrite KS, !len_app; unfold P in *; lia).
  assert (BP : is_bytes PK) by (rewrite KP; apply bytes_app; assumption).
  assert (LP : len PK = 2 * p_n P) by (rewrite KP, len_app; unfold P in *; lia).
  assert (Q0 : slice SK 0 (p_n P) = SKseed).
  { rewrite KS, slice_app_l by (change (@zlen Z) with len; unfold P in *; lia). apply slice_all. exact L1. }
  assert (Q2 : skipn (Z.to_nat (2 * p_n P)) SK = PK).
  { rewrite KS, KP. rewrite app_assoc. apply skipn_app_exact. rewrite app_length. unfold P, len in *. lia. }
  assert (Q3 : slice SK (2 * p_n P) (p_n P) = PKseed).
  { unfold slice. rewrite Q2, KP. apply firstn_app_exact. unfold P, len in *. lia. }
  assert (Q4 : slice SK (3 * p_n P) (p_n P) = root).
  { unfold slice. replace (Z.to_nat (3 * p_n P)) with (Z.to_nat (2 * p_n P) + Z.to_nat (p_n P))%nat by (unfold P; lia).
    rewrite <- skipn_skipn', Q2, KP, skipn_app_exact by (unfold P, len in *; lia). apply firstn_all2. unfold len in *. lia. }
  assert (RO : slice SK (3 * p_n P) (p_n P) = slh_root P (slice SK (2 * p_n P) (p_n P)) (slice SK 0 (p_n P))) by (rewrite Q0, Q3, Q4; reflexivity).
  assert (ACC : forall S, is_bytes S -> slh_verify_internal P M S PK = true -> accepted S).
  { intros S BS V. exact (session_exists p PK M S BP LP BM LM BS V). }
  assert (PR : forall X, part_R P (R ++ X) = R).
  { intros X. unfold part_R. rewrite slice_app_l by (change (@zlen Z) with len; unfold P; lia). apply slice_all. exact LR. }
  split; [|split].
  - destruct (own_ok p SK BK LK M R RO LR BR) as [BO VO]. fold P in BO, VO. rewrite Q2 in VO.
    assert (OR : part_R P (own_signature P SK M R) = R) by apply PR.
    exists (own_signature P SK M R). split; [apply ACC; assumption|]. split; [exact OR|]. split; [unfold is_own; rewrite OR; reflexivity|].
    intros C. destruct (C 0 ltac:(lia)) as (M1 & S1 & [] & _).
  - destruct (produced_exists p SK M BK LK BM LM) as (addrnd & BA & HP).
    destruct (R_ok p SK M addrnd BK LK BM BA) as [LR' BR']. fold P in LR', BR', HP. rewrite sign_is_own in HP.
    set (R' := PRF_msg (p_hash P) (slice SK (p_n P) (p_n P)) addrnd M) in *.
    destruct (own_ok p SK BK LK M R' RO LR' BR') as [BO VO]. fold P in BO, VO. rewrite Q2 in VO.
    destruct (own_parts p SK BK LK M R' LR') as (OR & _). fold P in OR.
    exists (own_signature P SK M R'). split; [exact HP|]. split; [apply ACC; assumption|]. split; [unfold is_own; rewrite OR; reflexivity|].
    intros i Hi. exists M, (own_signature P SK M R'). split; [left; reflexivity|split; reflexivity].
  - set (k := Z.to_nat (p_k P * (1 + p_a P) * p_n P)).
    assert (Hk : 0 < p_k P * (1 + p_a P) * p_n P) by (unfold P; clear; destruct p; reflexivity).
    assert (L : forall v : Z, zlen (repeat v k) = p_k P * (1 + p_a P) * p_n P).
    { intros v. unfold zlen. rewrite repeat_length. unfold k. lia. }
    assert (B : forall v, 0 <= v < 256 -> is_bytes (repeat v k)).
    { intros v Hv. apply Forall_forall. intros x Hx. apply repeat_spec in Hx. subst x. exact Hv. }
    assert (T : forall v, 0 <= v < 256 -> accepted (made p SK M R (repeat v k)) /\ part_R P (made p SK M R (repeat v k)) = R).
    { intros v Hv. destruct (made_ok p SK BK LK RO M R (repeat v k) LR BR (L v) (B v Hv)) as [B' V']. fold P in V'. rewrite Q2 in V'.
      split; [apply ACC; assumption|]. apply PR. }
    destruct (T 0 ltac:(lia)) as [A0 R0]. destruct (T 1 ltac:(lia)) as [A1 R1].
    assert (NE : made p SK M R (repeat 0 k) <> made p SK M R (repeat 1 k)).
    { unfold made. cbv zeta. destruct k as [|k'] eqn:Ek; [unfold k in Ek; lia|]. intros E. apply app_inv_head in E. cbn [repeat app] in E. discriminate E. }
    destruct (list_eq_dec Z.eq_dec (made p SK M R (repeat 0 k)) (own_signature P SK M R)) as [E|N].
    + exists (made p SK M R (repeat 1 k)). split; [exact A1|]. split; [exact R1|]. unfold is_own. rewrite R1. intros E1. apply NE. rewrite E, <- E1. reflexivity.
    + exists (made p SK M R (repeat 0 k)). split; [exact A0|]. split; [exact R0|]. unfold is_own. rewrite R0. exact N.
Qed.
Print Assumptions C42_what_a_forgery_implies.
Print Assumptions C42_nothing_signed.
Print Assumptions C42_cases_occur.
