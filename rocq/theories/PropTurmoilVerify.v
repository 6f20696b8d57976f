(** * A public key or message that changes during a verification (C57)

    The contract of ts_update_verify asks the caller to keep the public key as it is until
    the signature is complete, and to have the message ready when the first n bytes of the
    signature are.  If the bytes at these addresses change between two calls, the verdict
    says nothing about either of the keys; but no call reads or writes anything it must not,
    every call returns, and the answers follow the same rules as ever: too few or too many
    bytes are never accepted, and an answer 0 stays. *)
From Verif Require Import Arr SpecSLH SpecApi SpecMap SpecSessions SpecTurmoil ModelParams ModelCtx ModelKeygen ModelApi
  PfApi PfKeygen PfComplete PfSession PfTurmoilVerApi PropSign PropVerify.
Ltac Zify.zify_post_hook ::= idtac.

(** C57: any session at whose beginning the public key PK is at its address, and in which
    later calls find any bytes there, and any bytes at the address of the message. *)
Theorem C57_session_with_a_changing_public_key : forall cfg p c m0 msg l pk PK fs mv,
  ps_enabled cfg p = true -> wf_ctx cfg c ->
  holds m0 pk PK -> len PK = 2 * p_n (slh_of p) ->
  0 <= msg < addresses (platform_of cfg) -> 0 <= l < addresses (platform_of cfg) -> l < 2 ^ 60 ->
  feeds_any p pk msg l 0 fs ->
  exists os v c', calls cfg (verify_history m0 msg l p pk fs ++ [(mv, Verify)]) c = Ok (Started :: os ++ [Verdict v], c') /\
    well_judged (slh_sig_length (slh_of p)) (p_n (slh_of p)) 0 true fs os v /\ wf_ctx cfg c'.
Proof.
  intros cfg p c m0 msg l pk PK fs mv on W HK LK Ha Hl Hl2 HF.
  assert (HS : step (platform_of cfg) Fresh m0 (InitVerify msg l p pk) Started (Verifying p pk PK msg l [] [] true)) by (apply s_init_verify; assumption).
  destruct (simulation cfg _ c m0 _ _ _ HS W) as (c1 & E1 & HR). cbn [Rel] in HR. apply RVer_vturmoil in HR.
  destruct (vturmoil_calls cfg p on pk msg l fs Hl2 0 true c1 HR ltac:(lia) HF) as (os & c' & v & E2 & EV & EW & W').
  exists os, v, c'. split; [|split; [exact EW|exact W']].
  assert (E3 : calls cfg (verify_history m0 msg l p pk fs) c = Ok (Started :: os, c')).
  { unfold verify_history. cbn [calls]. rewrite E1. cbn [bind]. rewrite E2. reflexivity. }
  rewrite (calls_app _ _ _ _ _ _ E3). cbn [calls call bind]. rewrite EV. reflexivity.
Qed.

(** What that means for the verdict: 1 only if exactly as many bytes were given as a
    signature has, and only if no update returned 0. *)
Lemma judged_verdict L n fs : forall fed ok os v, well_judged L n fed ok fs os v ->
  (v = 0 \/ v = 1) /\ (v = 1 -> fed + len (all_fed fs) = L /\ Forall (eq (Updated 1)) os /\ (os = [] -> ok = true)).
Proof.
  induction fs as [|f fs IH]; intros fed ok [|o os] v H; cbn [well_judged] in H; try contradiction.
  - subst v. destruct ok; cbn [andb b2z].
    + destruct (Z.eqb_spec fed L) as [->|]; cbn [b2z]; (split; [auto|]); [|discriminate]. intros _. split; [cbn; lia|]. split; [constructor|auto].
    + split; [auto|discriminate].
  - cbv zeta in H. destruct H as (r & -> & H0 & _ & _ & _ & H). destruct (IH _ _ _ _ H) as [D HV]. split; [exact D|]. intros Ev. destruct (HV Ev) as (HL & HO & HE).
    assert (Er : r = true).
    { destruct os as [|o' os]; [auto|]. destruct r; [reflexivity|]. exfalso.
      destruct fs as [|f' fs]; cbn [well_judged] in H; [contradiction|]. destruct H as (r' & -> & H1 & _). rewrite (H1 eq_refl) in HO. inversion HO. discriminate. }
    subst r. split; [|split; [constructor; [reflexivity|exact HO]|discriminate]].
    unfold all_fed in *. cbn [map concat]. rewrite len_app. lia.
Qed.
Theorem C57_never_accepts_a_wrong_length : forall cfg p c m0 msg l pk PK fs mv,
  ps_enabled cfg p = true -> wf_ctx cfg c ->
  holds m0 pk PK -> len PK = 2 * p_n (slh_of p) ->
  0 <= msg < addresses (platform_of cfg) -> 0 <= l < addresses (platform_of cfg) -> l < 2 ^ 60 ->
  feeds_any p pk msg l 0 fs ->
  exists os v c', calls cfg (verify_history m0 msg l p pk fs ++ [(mv, Verify)]) c = Ok (Started :: os ++ [Verdict v], c') /\
    (v = 0 \/ v = 1) /\
    (v = 1 -> len (all_fed fs) = ts_size_signature (the_ps cfg p) /\ Forall (eq (Updated 1)) os).
Proof.
  intros cfg p c m0 msg l pk PK fs mv on W HK LK Ha Hl Hl2 HF.
  destruct (C57_session_with_a_changing_public_key cfg p c m0 msg l pk PK fs mv on W HK LK Ha Hl Hl2 HF) as (os & v & c' & E & EW & _).
  exists os, v, c'. split; [exact E|]. destruct (judged_verdict _ _ _ _ _ _ _ EW) as [D HV]. split; [exact D|]. intros Ev. destruct (HV Ev) as (HL & HO & _).
  split; [|exact HO]. rewrite size_sig. lia.
Qed.

(** The hypotheses can be met: the case of PropVerify (ex_verify_hypotheses), in which the
    key is zeroed after three bytes of the signature and the message is not where it was:
    16224 bytes come, as many as a signature has, and the update that completes it decides. *)
Definition ext_mem : memory := mem_of 2000 (repeat 0 53).
Definition ext_fs : list feed :=
  [Feed (mem_of 2000 exv_PK) [1; 2; 3]; Feed ext_mem (repeat 77 (Z.to_nat 10000)); Feed ext_mem (repeat 78 (Z.to_nat 6221))].
Example ex_turmoil_verify :
  let c := zero_ctx full_cfg (the_ps full_cfg SHAKE_192s) in
  exists v c', calls full_cfg (verify_history (mem_of 2000 exv_PK) 2048 5 SHAKE_192s 2000 ext_fs ++ [(ext_mem, Verify)]) c
    = Ok ([Started; Updated 1; Updated 1; Updated v; Verdict v], c') /\ (v = 0 \/ v = 1).
Proof.
  intros c.
  assert (B : forall v k, 0 <= v < 256 -> is_bytes (repeat v k)) by (intros v k Hv; apply Forall_forall; intros x Hx; apply repeat_spec in Hx; subst x; exact Hv).
  assert (R : forall v k, len (repeat v (Z.to_nat k)) = Z.max 0 k) by (intros; unfold len; rewrite repeat_length; lia).
  assert (H0 : holds ext_mem 2000 (repeat 0 53)) by (apply mem_of_holds, B; lia).
  assert (H1 : some_bytes ext_mem 2000 48).
  { exists (repeat 0 48). split; [reflexivity|]. rewrite <- (Z.add_0_r 2000). exact (holds_slice _ _ _ 0 48 H0 ltac:(lia) ltac:(lia) ltac:(cbv; discriminate)). }
  assert (H2 : some_bytes ext_mem 2048 5).
  { exists (repeat 0 5). split; [reflexivity|]. exact (holds_slice _ _ _ 48 5 H0 ltac:(lia) ltac:(lia) ltac:(cbv; discriminate)). }
  assert (H3 : holds (mem_of 2000 exv_PK) 2000 exv_PK) by (apply mem_of_holds, bytes_dec; reflexivity).
  pose proof (addresses_ge full_cfg) as Ag.
  destruct (C57_session_with_a_changing_public_key full_cfg SHAKE_192s c (mem_of 2000 exv_PK) 2048 5 2000 exv_PK ext_fs ext_mem eq_refl (zero_wf full_cfg _) H3 eq_refl)
    as (os & v & c' & E & EW & _); try lia.
  { cbn [ext_fs feeds_any fd_mem fd_chunk]. change (p_n (slh_of SHAKE_192s)) with 24. change (len [1; 2; 3]) with 3. rewrite !R.
    split; [exists exv_PK; split; [reflexivity|exact H3]|]. split; [apply bytes_dec; reflexivity|]. split; [lia|]. split; [lia|].
    split; [exact H1|]. split; [apply B; lia|]. split; [lia|]. split; [intros _; exact H2|].
    split; [exact H1|]. split; [apply B; lia|]. split; [lia|]. split; [lia|]. exact I. }
  change (slh_sig_length (slh_of SHAKE_192s)) with 16224 in EW. change (p_n (slh_of SHAKE_192s)) with 24 in EW.
  destruct os as [|o1 [|o2 [|o3 [|]]]]; cbn [ext_fs well_judged fd_chunk] in EW; change (len [1; 2; 3]) with 3 in EW; rewrite ?R in EW; try contradiction.
  - destruct EW as (? & _ & _ & _ & _ & _ & []).
  - destruct EW as (? & _ & _ & _ & _ & _ & ? & _ & _ & _ & _ & _ & []).
  - destruct EW as (r1 & -> & _ & A1 & _ & _ & r2 & -> & _ & A2 & _ & _ & r3 & -> & _ & _ & _ & _ & Ev).
    assert (Q1 : r1 = true) by (clear - A1; apply A1; [reflexivity|lia]).
    assert (Q2 : r2 = true) by (clear - A2 Q1; apply A2; [exact Q1|lia]).
    assert (Q3 : v = b2z r3).
    { clear - Ev. destruct (Z.eqb_spec (0 + 3 + Z.max 0 10000 + Z.max 0 6221) 16224) as [_|X]; [|lia]. rewrite Bool.andb_true_r in Ev. exact Ev. }
    clear - E Q1 Q2 Q3. subst r1 r2 v. exists (b2z r3), c'. split; [exact E|]. destruct r3; cbn; auto.
  - destruct EW as (? & _ & _ & _ & _ & _ & ? & _ & _ & _ & _ & _ & ? & _ & _ & _ & _ & _ & []).
Qed.

Print Assumptions C57_session_with_a_changing_public_key.
Print Assumptions C57_never_accepts_a_wrong_length.
