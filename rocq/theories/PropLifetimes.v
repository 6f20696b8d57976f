(** * How long the keys have to stay readable (C40)

    ts_init_sign and ts_init_verify keep pointers to the caller's key; the calls that
    follow read it through them.  The statements here say when that can happen: only
    when a call goes on to a further block of n bytes of the signature.  The contracts
    [requests_need] and [feeds_need] are in SpecSessions.v. *)
From Verif Require Import Arr SpecSLH SpecApi SpecMap SpecSessions ModelParams ModelCtx ModelKeygen ModelSphincs ModelVerify ModelApi PfApi PfKeygen PfComplete PfSession PropSign PropVerify.
Ltac Zify.zify_post_hook ::= idtac.

Lemma L_blocks p : slh_sig_length (slh_of p) mod p_n (slh_of p) = 0 /\ p_n (slh_of p) <= slh_sig_length (slh_of p) /\ 0 < p_n (slh_of p).
Proof. destruct p; vm_compute; (split; [reflexivity|split; [discriminate|reflexivity]]). Qed.

(** [requests_need] is enough for the machine *)
Lemma have_computed n L done : 0 < n -> L mod n = 0 -> n <= L -> 0 <= done <= L ->
  done + (if L - done =? L then n else (L - done) mod n) = n * Z.max 1 ((done + n - 1) / n).
Proof.
  intros Hn HL HnL Hd. destruct (Z.eqb_spec (L - done) L) as [e|e].
  - assert (done = 0) by lia. subst done. rewrite (Z.div_small (0 + n - 1)) by lia. lia.
  - pose proof (Z.div_mod L n ltac:(lia)) as D0. rewrite HL in D0. set (K := L / n) in *.
    pose proof (Z.div_mod (done + n - 1) n ltac:(lia)) as D1. pose proof (Z.mod_pos_bound (done + n - 1) n Hn) as B1.
    set (q := (done + n - 1) / n) in *. set (t := (done + n - 1) mod n) in *.
    assert (1 <= q) by nia.
    rewrite Z.max_r by lia.
    assert (E : (L - done) mod n = n * q - done).
    { symmetry. apply (Z.mod_unique_pos _ _ (K - q)); nia. }
    lia.
Qed.
Lemma steps_requests_need en p sk SK rqs : forall S done, 0 <= done -> len S = slh_sig_length (slh_of p) - done ->
  requests_need p sk SK done rqs ->
  exists S', steps en (Signing p sk SK S) (map (fun r => (rq_mem r, Sign (rq_dest r) (rq_size r))) rqs) (sign_answers S rqs) (Signing p sk SK S').
Proof.
  destruct (L_blocks p) as (L1 & L2 & L3).
  induction rqs as [|r rqs IH]; intros S done D0 LS H; [exists S; constructor|].
  cbn [requests_need] in H. destruct H as (H1 & H2 & H3 & H4). cbn [map sign_answers].
  set (L := slh_sig_length (slh_of p)) in *. set (n := p_n (slh_of p)) in *.
  set (k := Z.to_nat (Z.min (rq_size r) (len S))).
  assert (P0 : 0 <= len S) by (unfold len; lia).
  assert (Ek : Z.min (rq_size r) (len S) = Z.of_nat k) by (unfold k; lia).
  assert (U : Z.min (done + rq_size r) L = done + Z.of_nat k) by lia.
  rewrite U in H1, H4.
  destruct (IH (skipn k S) (done + Z.of_nat k)) as (S' & HS).
  { lia. } { unfold len in *. rewrite skipn_length. lia. } { exact H4. }
  exists S'. econstructor; [|exact HS].
  assert (N : computed (slh_of p) S < Z.min (rq_size r) (len S) -> holds (rq_mem r) sk SK).
  { intros C. rewrite Ek in C. apply H1. rewrite <- (have_computed n L done) by lia. unfold computed in C. fold L in C. fold n in C. rewrite LS in C. clear - C. lia. }
  pose proof (s_sign en (rq_mem r) p sk SK S (rq_dest r) (rq_size r) N H2 H3) as X. cbv zeta in X. rewrite Ek, Nat2Z.id in X. exact X.
Qed.

(** C40, signing: the answers are those of a session in which the key stays readable. *)
Theorem C40_signing_reads_the_key_per_block : forall cfg p c m0 msg M sk SK f rqs,
  ps_enabled cfg p = true -> wf_ctx cfg c ->
  sign_init_ok m0 msg M p sk SK f -> requests_need p sk SK 0 rqs ->
  exists c', calls cfg (sign_history m0 msg (len M) p sk f rqs) c
             = Ok (Started :: sign_answers (signature p M SK f) rqs, c').
Proof.
  intros cfg p c m0 msg M sk SK f rqs on W HI HR. pose proof (signature_len _ _ _ _ _ _ _ HI) as [LS _].
  destruct (steps_requests_need (platform_of cfg) p sk SK rqs (signature p M SK f) 0) as (S' & HS); [lia|lia|exact HR|].
  assert (HS2 : steps (platform_of cfg) Fresh (sign_history m0 msg (len M) p sk f rqs)
    (Started :: sign_answers (signature p M SK f) rqs) (Signing p sk SK S')).
  { destruct HI as (H1 & H2 & H3 & H4 & H5). unfold sign_history. econstructor; [|exact HS]. eapply s_init_sign; try eassumption. reflexivity. }
  destruct (simulation_steps cfg _ _ _ _ HS2 c W) as (c' & E & _). exists c'. exact E.
Qed.

(** ... in particular, when all the bytes have been delivered the key may be erased:
    further requests, in whatever memory, return 0 and write nothing. *)
Lemma requests_need_app p sk SK rqs2 : forall rqs1 done, 0 <= done <= slh_sig_length (slh_of p) ->
  Forall (request_ok sk SK) rqs1 ->
  requests_need p sk SK (Z.min (done + asked rqs1) (slh_sig_length (slh_of p))) rqs2 ->
  requests_need p sk SK done (rqs1 ++ rqs2).
Proof.
  induction rqs1 as [|r rqs1 IH]; intros done D H1 H2.
  - cbn [app asked fold_right] in *. rewrite Z.add_0_r, Z.min_l in H2 by lia. exact H2.
  - inversion H1 as [|? ? (A1 & A2 & A3) A4]; subst. cbn [app requests_need asked fold_right] in *. fold (asked rqs1) in H2.
    assert (A0 : 0 <= asked rqs1).
    { clear - A4. induction A4 as [|r l (_ & A & _)]; cbn [asked fold_right]; [lia|]. fold (asked l). lia. }
    split; [intros _; exact A1|]. split; [exact A2|]. split; [exact A3|]. apply IH; [lia|exact A4|].
    replace (Z.min (Z.min (done + rq_size r) (slh_sig_length (slh_of p)) + asked rqs1) (slh_sig_length (slh_of p)))
      with (Z.min (done + (rq_size r + asked rqs1)) (slh_sig_length (slh_of p))) by lia. exact H2.
Qed.
Lemma requests_need_done p sk SK rqs : Forall (fun r => 0 <= rq_size r < 2 ^ 32 /\ rq_size r <= len (rq_dest r)) rqs ->
  requests_need p sk SK (slh_sig_length (slh_of p)) rqs.
Proof.
  destruct (L_blocks p) as (L1 & L2 & L3). pose proof (have_computed _ _ (slh_sig_length (slh_of p)) L3 L1 L2 ltac:(lia)) as E.
  rewrite Z.sub_diag in E. destruct (Z.eqb_spec 0 (slh_sig_length (slh_of p))) as [e|_]; [lia|]. rewrite Z.mod_0_l in E by lia.
  induction rqs as [|r rqs IH]; intros H; [exact I|]. inversion H as [|? ? (A1 & A2) A3]; subst. cbn [requests_need].
  rewrite Z.min_r by lia. rewrite <- E. split; [lia|]. split; [exact A1|]. split; [exact A2|]. apply IH, A3.
Qed.
Theorem C40_the_private_key_may_go : forall cfg p c m0 msg M sk SK f rqs rest,
  ps_enabled cfg p = true -> wf_ctx cfg c ->
  sign_init_ok m0 msg M p sk SK f -> Forall (request_ok sk SK) rqs ->
  ts_size_signature (the_ps cfg p) <= asked rqs ->
  Forall (fun r => 0 <= rq_size r < 2 ^ 32 /\ rq_size r <= len (rq_dest r)) rest ->
  exists os c', calls cfg (sign_history m0 msg (len M) p sk f (rqs ++ rest)) c
             = Ok (Started :: os ++ map (fun r => Signed 0 (rq_dest r)) rest, c') /\
             length os = length rqs /\ concat (map taken os) = signature p M SK f.
Proof.
  intros cfg p c m0 msg M sk SK f rqs rest on W HI HR HA HD. rewrite size_sig in HA.
  destruct (L_blocks p) as (L1 & L2 & L3). pose proof (signature_len _ _ _ _ _ _ _ HI) as [LS _].
  destruct (C40_signing_reads_the_key_per_block cfg p c m0 msg M sk SK f (rqs ++ rest) on W HI) as (c' & E).
  { apply requests_need_app; [lia|exact HR|]. rewrite Z.min_r by lia. apply requests_need_done, HD. }
  exists (sign_answers (signature p M SK f) rqs), c'. rewrite E. split; [|split].
  - do 3 f_equal. revert HR HA. rewrite <- LS. generalize (signature p M SK f) as S. clear - HD.
    induction rqs as [|r rqs IH]; intros S HR HA.
    + cbn [app sign_answers asked fold_right] in *. assert (S = []) by (destruct S; [reflexivity|cbn in HA; unfold len in HA; cbn [length] in HA; lia]). subst S.
      clear HA. induction HD as [|r l (A1 & A2) A3 IH]; [reflexivity|]. cbn [sign_answers map]. change (len (@nil Z)) with 0.
      rewrite Z.min_r by lia. change (Z.to_nat 0) with 0%nat. cbn [firstn skipn app Z.of_nat]. f_equal. exact IH.
    + inversion HR as [|? ? (A1 & A2 & A3) A4]; subst. cbn [app sign_answers asked fold_right] in *. fold (asked rqs) in HA. cbn [app]. f_equal. apply IH; [exact A4|].
      assert (A0 : 0 <= asked rqs).
      { clear - A4. induction A4 as [|r0 l (_ & A & _)]; cbn [asked fold_right]; [lia|]. fold (asked l). lia. }
      unfold len in *. rewrite skipn_length. lia.
  - generalize (signature p M SK f) as S. clear. induction rqs as [|r rqs IH]; intros S; [reflexivity|]. cbn [sign_answers length]. rewrite IH. reflexivity.
  - rewrite answers_taken by (eapply Forall_impl; [|exact HR]; intros r (_ & ? & ?); lia). apply firstn_all2. unfold len in LS. lia.
Qed.

(** C40, verification *)
Theorem C40_verification_reads_the_key_per_block : forall cfg p c m0 msg M pk PK fs,
  ps_enabled cfg p = true -> wf_ctx cfg c ->
  verify_init_ok cfg m0 msg M p pk PK -> feeds_need p pk PK msg M [] fs ->
  exists c', calls cfg (verify_history m0 msg (len M) p pk fs) c
             = Ok (Started :: verify_answers (slh_of p) M PK [] true fs, c') /\
    forall mv, call cfg mv Verify c' = Ok (Verdict (b2z (slh_verify_internal (slh_of p) M (all_fed fs) PK)), c').
Proof.
  intros cfg p c m0 msg M pk PK fs on W HI HF.
  destruct (steps_verify_need cfg Fresh m0 msg M p pk PK fs on HI HF) as (M1 & fed1 & ok1 & HS & HV & _).
  destruct (simulation_steps cfg _ _ _ _ HS c W) as (c' & E & HR). exists c'. split; [exact E|]. intros mv.
  destruct (simulation cfg _ c' mv Verify _ _ (s_verify _ mv p pk PK msg (len M) M1 fed1 ok1) HR) as (c2 & E2 & _).
  rewrite HV in E2. cbn [call] in *. assert (c2 = c') by congruence. subst c2. exact E2.
Qed.

(** ** Cases that meet the hypotheses.  [nowhere]: no address is readable. *)
Definition nowhere : memory := fun _ => None.
(** SHA2-128f (n = 16): ten bytes and six bytes of the first block without the key;
    twenty with it; the twelve that complete the third block without *)
Definition exl_rqs : list request :=
  [Req nowhere (repeat 0 10) 10; Req nowhere (repeat 0 10) 6; Req (mem_of 1000 ex_SK) (repeat 0 20) 20; Req nowhere (repeat 0 20) 12].
Example ex_lifetime_sign :
  sign_init_ok ex_mem 1064 ex_M SHA2_128f 1000 ex_SK ex_rng /\ requests_need SHA2_128f 1000 ex_SK 0 exl_rqs /\
  Forall (fun r => 0 <= rq_size r < 2 ^ 32 /\ rq_size r <= len (rq_dest r)) exl_rqs.
Proof.
  destruct ex_sign_hypotheses as (_ & _ & HI & _). destruct ex_holds as (_ & _ & H3). split; [exact HI|].
  cbn [exl_rqs requests_need rq_mem rq_size rq_dest].
  change (p_n (slh_of SHA2_128f)) with 16. change (slh_sig_length (slh_of SHA2_128f)) with 17088.
  change (Z.min (0 + 10) 17088) with 10. change (Z.min (10 + 6) 17088) with 16. change (Z.min (16 + 20) 17088) with 36. change (Z.min (36 + 12) 17088) with 48.
  change ((0 + 16 - 1) / 16) with 0. change ((10 + 16 - 1) / 16) with 1. change ((16 + 16 - 1) / 16) with 1. change ((36 + 16 - 1) / 16) with 3.
  assert (R : forall k, len (repeat 0 k) = Z.of_nat k) by (intros; unfold len; rewrite repeat_length; reflexivity).
  rewrite !R. split.
  - split; [lia|]. split; [lia|]. split; [lia|]. split; [lia|]. split; [lia|]. split; [lia|]. split; [intros _; exact H3|]. split; [lia|]. split; [lia|].
    split; [lia|]. split; [lia|]. split; [lia|exact I].
  - unfold exl_rqs. apply Forall_cons; [|apply Forall_cons; [|apply Forall_cons; [|apply Forall_cons; [|apply Forall_nil]]]]; cbn [rq_size rq_dest]; rewrite R; lia.
Qed.
(** SHAKE-192s (n = 24): the key is away while 3 bytes, then 5 bytes come, and while
    some bytes are added to the second block *)
Definition exl_fs : list feed :=
  [Feed nowhere [1; 2; 3]; Feed nowhere [4; 5; 6; 7; 8]; Feed exv_mem (repeat 9 20); Feed nowhere (repeat 10 19)].
Example ex_lifetime_verify :
  verify_init_ok full_cfg (mem_of 2000 exv_PK) 2048 ex_M SHAKE_192s 2000 exv_PK /\ feeds_need SHAKE_192s 2000 exv_PK 2048 ex_M [] exl_fs.
Proof.
  destruct ex_verify_hypotheses as (_ & HI & HF & _). split; [exact (HI full_cfg)|].
  cbn [feeds_ok exv_fs] in HF. destruct HF as (_ & _ & _ & _ & H1 & _ & _ & H2 & _). cbn [fd_mem fd_chunk] in *.
  cbn [feeds_need exl_fs fd_mem fd_chunk app repeat]. change (p_n (slh_of SHAKE_192s)) with 24 in *.
  split; [intros _ HX; exfalso; revert HX; cbv; discriminate|]. split; [apply bytes_dec; reflexivity|]. split; [reflexivity|]. split; [intros [_ HX]; exfalso; revert HX; cbv; auto|].
  split; [intros _ HX; exfalso; revert HX; cbv; discriminate|]. split; [apply bytes_dec; reflexivity|]. split; [reflexivity|]. split; [intros [_ HX]; exfalso; revert HX; cbv; auto|].
  split; [intros _ _; exact H1|]. split; [apply bytes_dec; reflexivity|]. split; [reflexivity|]. split; [intros _; apply H2; split; [reflexivity|rewrite len_app; unfold len; rewrite repeat_length; cbn [length]; lia]|].
  split; [intros _ HX; exfalso; revert HX; cbv; discriminate|]. split; [apply bytes_dec; reflexivity|]. split; [reflexivity|]. split; [intros [HX _]; exfalso; revert HX; cbv; discriminate|exact I].
Qed.

Print Assumptions C40_signing_reads_the_key_per_block.
Print Assumptions C40_the_private_key_may_go.
Print Assumptions C40_verification_reads_the_key_per_block.
