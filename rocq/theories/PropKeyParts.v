(** * Only parts of the keys are needed (C58) *)
From Verif Require Import Arr SpecSLH SpecApi SpecMap SpecSessions SpecKeyParts ModelParams ModelCtx ModelSphincs ModelApi PfApi PfComplete PfSession
  PropSign PropVerify PropLifetimes PfKeyParts PfKeyPartsApi.
Ltac Zify.zify_post_hook ::= idtac.

(** C58, signing: without SK.seed in ts_init_sign, and without SK.prf, PK.root and (where
    it is kept) PK.seed in ts_sign, the signature is the same. *)
Theorem C58_signing_needs_these_parts : forall cfg p c m0 msg M sk SK f rqs,
  ps_enabled cfg p = true -> wf_ctx cfg c ->
  sign_init_parts m0 msg M p sk SK f -> requests_parts cfg p sk SK 0 rqs ->
  exists c', calls cfg (sign_history m0 msg (len M) p sk f rqs) c
             = Ok (Started :: sign_answers (signature p M SK f) rqs, c').
Proof.
  intros cfg p c m0 msg M sk SK f rqs on W HI HR. pose proof HI as (BS & LS & _ & HM & LM & Hf).
  destruct (parts_init_sign cfg p m0 msg M sk SK f c on W HI) as (c1 & E1 & R1).
  assert (HL : len (signature p M SK f) = slh_sig_length (slh_of p)).
  { pose proof (mem_of_holds sk SK BS) as H1.
    set (m1 := mem_of sk (SK ++ M)). assert (B : is_bytes (SK ++ M)) by (apply Forall_app; split; [exact BS|apply HM]).
    assert (H2 : holds m1 sk (SK ++ M)) by (apply mem_of_holds, B).
    assert (HS : exists msg1, sign_init_ok m1 msg1 M p sk SK f).
    { exists (sk + len SK). split; [|split; [exact LS|split; [|split; [exact LM|exact Hf]]]].
      - replace SK with (slice (SK ++ M) 0 (len SK)); [rewrite <- (Z.add_0_r sk) at 1|].
        + apply holds_slice; [exact H2|lia|unfold len; lia|rewrite len_app; unfold len; lia].
        + unfold slice, len. change (Z.to_nat 0) with 0%nat. cbn [skipn]. rewrite Nat2Z.id, firstn_app, firstn_all, Nat.sub_diag, firstn_O, app_nil_r. reflexivity.
      - replace M with (slice (SK ++ M) (len SK) (len M)) at 1.
        + apply holds_slice; [exact H2|unfold len; lia|unfold len; lia|rewrite len_app; lia].
        + unfold slice, len. rewrite !Nat2Z.id, skipn_app, skipn_all, Nat.sub_diag. cbn [skipn app]. apply firstn_all. }
    destruct HS as (msg1 & HS). apply (signature_len _ _ _ _ _ _ _ HS). }
  destruct (parts_sign cfg p sk SK rqs BS LS _ 0 c1 ltac:(lia) ltac:(rewrite HL; lia) R1 HR) as (c' & E2).
  exists c'. unfold sign_history. cbn [calls]. rewrite E1. cbn [bind]. rewrite E2. reflexivity.
Qed.

(** C58, verification *)
Theorem C58_verification_needs_these_parts : forall cfg p c m0 msg M pk PK fs,
  ps_enabled cfg p = true -> wf_ctx cfg c ->
  verify_init_parts cfg m0 msg M p pk PK -> feeds_parts cfg p pk PK msg M 0 fs ->
  exists c', calls cfg (verify_history m0 msg (len M) p pk fs) c
             = Ok (Started :: verify_answers (slh_of p) M PK [] true fs, c') /\
    forall mv, call cfg mv Verify c' = Ok (Verdict (b2z (slh_verify_internal (slh_of p) M (all_fed fs) PK)), c').
Proof.
  intros cfg p c m0 msg M pk PK fs on W HI HF. pose proof HI as (BP & LP & _ & Ha & BM & HM1 & HM2).
  destruct (parts_init_verify cfg p m0 msg M pk PK c on W HI) as (c1 & E1 & R1).
  pose proof (honest_need cfg p pk PK msg M fs BP LP [] HF) as HN. change (len []) with 0 in HN.
  assert (HI' : verify_init_ok cfg (mem_of pk PK) msg M p pk PK).
  { split; [apply mem_of_holds, BP|]. split; [exact LP|]. split; [exact Ha|]. split; [exact BM|]. split; [exact HM1|exact HM2]. }
  destruct (steps_verify_need cfg Fresh (mem_of pk PK) msg M p pk PK _ on HI' HN) as (M1 & fed1 & ok1 & HS & HV & _).
  unfold verify_history in HS. inversion HS as [|? ? ? ? a1 ? ? ? S1 S2]; subst. rewrite honest_answers in S2. rewrite honest_fed in HV.
  inversion S1; subst.
  assert (PK0 = PK) as -> by (eapply holds_inj; [eassumption|apply mem_of_holds, BP|congruence]).
  destruct (parts_calls cfg p pk PK msg M fs BP LP [] [] true c1 _ _ HF R1 S2) as (c' & E2 & HR).
  exists c'. split.
  - unfold verify_history. cbn [calls]. rewrite E1. cbn [bind]. rewrite E2. reflexivity.
  - intros mv. destruct (simulation cfg _ c' mv Verify _ _ (s_verify _ mv p pk PK msg (len M) M1 fed1 ok1) HR) as (c2 & E3 & _).
    rewrite HV in E3. cbn [call] in *. assert (c2 = c') by congruence. subst c2. exact E3.
Qed.

(** ** Cases that meet the hypotheses *)
(** SHA2-128f: ts_init_sign is called while SK.seed is not there at all, ts_sign while only
    SK.seed is; 36 bytes go beyond the first block *)
Definition exp_rqs : list request := [Req (mem_of 1000 (firstn 16 ex_SK)) (repeat 0 40) 36; Req nowhere (repeat 0 40) 12].
Example ex_parts_sign :
  sign_init_parts (mem_of 1016 (skipn 16 (ex_SK ++ ex_M))) 1064 ex_M SHA2_128f 1000 ex_SK ex_rng /\
  requests_parts full_cfg SHA2_128f 1000 ex_SK 0 exp_rqs.
Proof.
  destruct ex_sign_hypotheses as (_ & _ & (_ & _ & _ & _ & HR) & _).
  assert (BS : is_bytes ex_SK) by (apply bytes_dec; reflexivity).
  split.
  - split; [exact BS|]. split; [reflexivity|].
    assert (H : holds (mem_of 1016 (skipn 16 (ex_SK ++ ex_M))) 1016 (skipn 16 (ex_SK ++ ex_M))) by (apply mem_of_holds, bytes_dec; reflexivity).
    split; [exact (holds_slice _ _ _ 0 48 H ltac:(lia) ltac:(lia) ltac:(cbv; discriminate))|].
    split; [exact (holds_slice _ _ _ 48 5 H ltac:(lia) ltac:(lia) ltac:(cbv; discriminate))|]. split; [reflexivity|exact HR].
  - cbn [requests_parts exp_rqs rq_mem rq_size rq_dest]. change (seed_kept full_cfg SHA2_128f) with true.
    change (p_n (slh_of SHA2_128f)) with 16. change (slh_sig_length (slh_of SHA2_128f)) with 17088.
    change (Z.min (0 + 36) 17088) with 36. change (Z.min (36 + 12) 17088) with 48. change ((0 + 16 - 1) / 16) with 0. change ((36 + 16 - 1) / 16) with 3.
    assert (R : len (repeat 0 40) = 40) by reflexivity. rewrite R.
    split; [intros _; split; [|discriminate]|]. { exact (mem_of_holds 1000 (firstn 16 ex_SK) ltac:(apply bytes_dec; reflexivity)). }
    split; [lia|]. split; [lia|]. split; [lia|]. split; [lia|]. split; [lia|exact I].
Qed.
(** SHA2-192s: ts_init_verify sees PK.seed only; the first block is completed with both
    parts and the message; then nothing is readable; the end comes with PK.root only *)
Definition exp_fs : list feed :=
  [Feed nowhere [1; 2; 3]; Feed exv_mem (repeat 77 (Z.to_nat 5000)); Feed nowhere (repeat 79 (Z.to_nat 5000));
   Feed (mem_of 2024 (skipn 24 exv_PK)) (repeat 78 (Z.to_nat 6221))].
Example ex_parts_verify :
  verify_init_parts full_cfg (mem_of 2000 (firstn 24 exv_PK)) 2048 ex_M SHA2_192s 2000 exv_PK /\
  feeds_parts full_cfg SHA2_192s 2000 exv_PK 2048 ex_M 0 exp_fs /\ len (all_fed exp_fs) = slh_sig_length (slh_of SHA2_192s).
Proof.
  assert (BM : is_bytes ex_M) by (apply bytes_dec; reflexivity).
  assert (BP : is_bytes exv_PK) by (apply bytes_dec; reflexivity).
  pose proof (addresses_ge full_cfg) as A.
  assert (H : holds exv_mem 2000 (exv_PK ++ ex_M)) by (apply mem_of_holds, bytes_dec; reflexivity).
  split; [|split].
  - split; [exact BP|]. split; [reflexivity|]. split; [intros _; exact (mem_of_holds 2000 (firstn 24 exv_PK) ltac:(apply bytes_dec; reflexivity))|].
    split; [lia|]. split; [exact BM|]. change (len ex_M) with 5. split; lia.
  - assert (B : forall v k, 0 <= v < 256 -> is_bytes (repeat v k)) by (intros v k Hv; apply Forall_forall; intros x Hx; apply repeat_spec in Hx; subst x; exact Hv).
    assert (R : forall v k, len (repeat v (Z.to_nat k)) = Z.max 0 k) by (intros; unfold len; rewrite repeat_length; lia).
    cbn [feeds_parts exp_fs fd_mem fd_chunk]. change (seed_kept full_cfg SHA2_192s) with true. change (p_n (slh_of SHA2_192s)) with 24.
    change (slh_sig_length (slh_of SHA2_192s)) with 16224. change (len [1; 2; 3]) with 3. rewrite !R. cbn [Z.max Z.compare Pos.compare Pos.compare_cont].
    assert (HR : part (mem_of 2024 (skipn 24 exv_PK)) 2000 exv_PK 24 24) by exact (mem_of_holds 2024 (skipn 24 exv_PK) ltac:(apply bytes_dec; reflexivity)).
    split; [lia|]. split; [lia|]. split; [discriminate|]. split; [apply bytes_dec; reflexivity|]. split; [lia|].
    split. { intros _. split; [exact (holds_slice _ _ _ 0 24 H ltac:(lia) ltac:(lia) ltac:(cbv; discriminate))|].
      split; [exact (holds_slice _ _ _ 24 24 H ltac:(lia) ltac:(lia) ltac:(cbv; discriminate))|exact (holds_slice _ _ _ 48 5 H ltac:(lia) ltac:(lia) ltac:(cbv; discriminate))]. }
    split; [lia|]. split; [discriminate|]. split; [apply B; lia|]. split; [lia|].
    split; [lia|]. split; [lia|]. split; [discriminate|]. split; [apply B; lia|]. split; [lia|].
    split; [lia|]. split; [intros _; exact HR|]. split; [discriminate|]. split; [apply B; lia|]. split; [lia|exact I].
  - unfold all_fed. cbn [map exp_fs fd_chunk concat]. rewrite !len_app. unfold len. rewrite !repeat_length. reflexivity.
Qed.

Print Assumptions C58_signing_needs_these_parts.
Print Assumptions C58_verification_needs_these_parts.
