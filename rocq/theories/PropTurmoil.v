(** * A key that changes while a signature is being made (C56)

    The contract of ts_sign (DESIGN.md section 2) asks the caller to keep the private key
    as it is until the signature is complete.  If he does not - the key is overwritten,
    zeroed, or replaced by another one between two calls - the bytes that come out need not
    be a signature; but no call reads or writes anything it must not, every call returns, the number of bytes delivered by each call is the same as ever, the
    rest of the destination is untouched, and what was delivered before the change is
    the beginning of the right signature.  (This is about memory and sizes.  Cryptographically
    such output must not be published: a one-time key may have signed a second value.) *)
From Verif Require Import Arr SpecSLH SpecApi SpecMap SpecSessions SpecTurmoil ModelParams ModelCtx ModelKeygen ModelApi
  PfApi PfKeygen PfComplete PfSession PfTurmoilApi PropSign PropVerify.
Ltac Zify.zify_post_hook ::= idtac.

(** What is left after some requests *)
Lemma steps_requests_left cfg p sk SK rqs : forall S, Forall (request_ok sk SK) rqs ->
  exists S', steps (platform_of cfg) (Signing p sk SK S) (sign_calls rqs) (sign_answers S rqs) (Signing p sk SK S') /\
             len S' = Z.max 0 (len S - asked rqs).
Proof.
  induction rqs as [|r rqs IH]; intros S H; [exists S; split; [constructor|cbn; unfold len; lia]|].
  inversion H as [|? ? (H1 & H2 & H3) H4]; subst. cbn [sign_calls map sign_answers]. fold (sign_calls rqs).
  set (k := Z.to_nat (Z.min (rq_size r) (len S))).
  destruct (IH (skipn k S) H4) as (S' & HS & HL). exists S'.
  assert (Ek : Z.min (rq_size r) (len S) = Z.of_nat k) by (unfold k, len; lia).
  assert (A0 : 0 <= asked rqs).
  { clear - H4. induction H4 as [|? ? (? & ? & ?)]; cbn [asked fold_right]; [lia|]. fold (asked l). lia. }
  split.
  - econstructor; [|exact HS].
    pose proof (s_sign (platform_of cfg) (rq_mem r) p sk SK S (rq_dest r) (rq_size r) (fun _ => H1) H2 H3) as X. cbv zeta in X. rewrite Ek in X.
    rewrite Nat2Z.id in X. exact X.
  - rewrite HL. cbn [asked fold_right]. fold (asked rqs). clear - Ek H2 A0. unfold len in *. rewrite skipn_length. lia.
Qed.

(** C56: any session of which the first requests [rqs1] find the private key SK at its
    address and the later ones [rqs2] find any bytes there. *)
Theorem C56_session_with_a_changing_private_key : forall cfg p c m0 msg M sk SK f rqs1 rqs2,
  ps_enabled cfg p = true -> wf_ctx cfg c ->
  sign_init_ok m0 msg M p sk SK f -> Forall (request_ok sk SK) rqs1 ->
  Forall (fun r => some_bytes (rq_mem r) sk (4 * p_n (slh_of p)) /\ 0 <= rq_size r < 2 ^ 32 /\ rq_size r <= len (rq_dest r)) rqs2 ->
  exists os c', calls cfg (sign_history m0 msg (len M) p sk f (rqs1 ++ rqs2)) c
                = Ok (Started :: sign_answers (signature p M SK f) rqs1 ++ os, c') /\
    well_answered (Z.max 0 (slh_sig_length (slh_of p) - asked rqs1)) rqs2 os /\ wf_ctx cfg c'.
Proof.
  intros cfg p c m0 msg M sk SK f rqs1 rqs2 on W HI H1 H2.
  destruct (steps_requests_left cfg p sk SK rqs1 (signature p M SK f) H1) as (S' & HS & HL).
  destruct (signature_len _ _ _ _ _ _ _ HI) as [LS _]. rewrite LS in HL.
  assert (HS' : steps (platform_of cfg) Fresh (sign_history m0 msg (len M) p sk f rqs1) (Started :: sign_answers (signature p M SK f) rqs1) (Signing p sk SK S')).
  { destruct HI as (I1 & I2 & I3 & I4 & I5). unfold sign_history. econstructor; [|exact HS]. eapply s_init_sign; try eassumption. reflexivity. }
  destruct (simulation_steps cfg _ _ _ _ HS' c W) as (c1 & E1 & HR). cbn [Rel] in HR.
  apply RSign_turmoil in HR. rewrite HL in HR.
  destruct (turmoil_calls cfg p on sk rqs2 _ c1 HR H2) as (os & c' & E2 & EW & W').
  exists os, c'. split; [|split; [exact EW|exact W']].
  replace (sign_history m0 msg (len M) p sk f (rqs1 ++ rqs2)) with (sign_history m0 msg (len M) p sk f rqs1 ++ sign_calls rqs2)
    by (unfold sign_history, sign_calls; rewrite map_app; reflexivity).
  rewrite (calls_app _ _ _ _ _ _ E1), E2. reflexivity.
Qed.

(** In total: the number of bytes is that of the signature, whatever happened to the key *)
Lemma well_answered_total rqs : forall left os, 0 <= left -> Forall (fun r => 0 <= rq_size r <= len (rq_dest r)) rqs -> well_answered left rqs os ->
  len (concat (map taken os)) = Z.min left (asked rqs) /\ is_bytes (concat (map taken os)).
Proof.
  induction rqs as [|r rqs IH]; intros left [|o os] Hl HF H; cbn [well_answered] in H; try contradiction.
  - split; [cbn; lia|constructor].
  - destruct H as [(bs & L & B & ->) H]. inversion HF as [|? ? Hr HF']; subst. cbv zeta in H.
    destruct (IH (left - Z.min (rq_size r) left) os ltac:(lia) HF' H) as [IL IB].
    assert (A0 : 0 <= asked rqs).
    { clear - HF'. induction HF' as [|? ? ?]; cbn [asked fold_right]; [lia|]. fold (asked l). lia. }
    cbn [map concat taken asked fold_right]. fold (asked rqs).
    assert (Eb : firstn (Z.to_nat (Z.min (rq_size r) left)) (bs ++ skipn (Z.to_nat (Z.min (rq_size r) left)) (rq_dest r)) = bs).
    { apply firstn_app_exact. clear - L. unfold len in L. lia. }
    rewrite Eb. split.
    + rewrite PfApi.len_app, L, IL. lia.
    + apply Forall_app. split; [exact B|exact IB].
Qed.
Theorem C56_as_many_bytes_as_ever : forall cfg p c m0 msg M sk SK f rqs1 rqs2,
  ps_enabled cfg p = true -> wf_ctx cfg c ->
  sign_init_ok m0 msg M p sk SK f -> Forall (request_ok sk SK) rqs1 ->
  Forall (fun r => some_bytes (rq_mem r) sk (4 * p_n (slh_of p)) /\ 0 <= rq_size r < 2 ^ 32 /\ rq_size r <= len (rq_dest r)) rqs2 ->
  exists os c', calls cfg (sign_history m0 msg (len M) p sk f (rqs1 ++ rqs2)) c = Ok (Started :: os, c') /\
    len (concat (map taken os)) = Z.min (ts_size_signature (the_ps cfg p)) (asked (rqs1 ++ rqs2)) /\
    exists rest, concat (map taken os) = firstn (Z.to_nat (asked rqs1)) (signature p M SK f) ++ rest.
Proof.
  intros cfg p c m0 msg M sk SK f rqs1 rqs2 on W HI H1 H2.
  destruct (C56_session_with_a_changing_private_key cfg p c m0 msg M sk SK f rqs1 rqs2 on W HI H1 H2) as (os & c' & E & EW & _).
  exists (sign_answers (signature p M SK f) rqs1 ++ os), c'. split; [exact E|].
  destruct (signature_len _ _ _ _ _ _ _ HI) as [LS _].
  assert (H1' : Forall (fun r => 0 <= rq_size r <= len (rq_dest r)) rqs1) by (eapply Forall_impl; [|exact H1]; intros r (_ & ? & ?); lia).
  assert (H2' : Forall (fun r => 0 <= rq_size r <= len (rq_dest r)) rqs2) by (eapply Forall_impl; [|exact H2]; intros r (_ & ? & ?); lia).
  destruct (well_answered_total rqs2 (Z.max 0 (slh_sig_length (slh_of p) - asked rqs1)) os ltac:(lia) H2' EW) as [L2 _].
  assert (A0 : forall l, Forall (fun r => 0 <= rq_size r <= len (rq_dest r)) l -> 0 <= asked l).
  { intros l HF. induction HF as [|? ? ?]; cbn [asked fold_right]; [lia|]. fold (asked l). lia. }
  pose proof (A0 _ H1') as P1. pose proof (A0 _ H2') as P2.
  assert (EA : asked (rqs1 ++ rqs2) = asked rqs1 + asked rqs2).
  { clear. induction rqs1 as [|r l IH]; cbn [app asked fold_right]; [reflexivity|]. fold (asked (l ++ rqs2)) (asked l). rewrite IH. lia. }
  assert (ES : ts_size_signature (the_ps cfg p) = slh_sig_length (slh_of p)) by (destruct p; reflexivity).
  rewrite map_app, concat_app, answers_taken by exact H1'. split; [|eexists; reflexivity].
  rewrite PfApi.len_app, L2, EA, ES. clear - LS P1 P2. unfold len in *. rewrite firstn_length. lia.
Qed.

(** The hypotheses can be met: the case of PropSign (ex_sign_hypotheses): 100 bytes are
    taken with the right key, 20000 are asked for after the key was zeroed, and 16988 come;
    the first 100 bytes are those of the right signature. *)
Example ex_turmoil :
  let c := zero_ctx full_cfg (the_ps full_cfg SHA2_128f) in
  let r1 := Req ex_mem (repeat 0 100) 100 in
  let r2 := Req (mem_of 1000 (repeat 0 64)) (repeat 7 (Z.to_nat 20000)) 20000 in
  exists o2 bs c', calls full_cfg (sign_history ex_mem 1064 (len ex_M) SHA2_128f 1000 ex_rng [r1; r2]) c
      = Ok (Started :: sign_answers (signature SHA2_128f ex_M ex_SK ex_rng) [r1] ++ [o2], c') /\
    len bs = 16988 /\ o2 = Signed 16988 (bs ++ skipn (Z.to_nat 16988) (repeat 7 (Z.to_nat 20000))).
Proof.
  intros c r1 r2. destruct ex_sign_hypotheses as (_ & _ & HI & HR & _).
  destruct (C56_session_with_a_changing_private_key full_cfg SHA2_128f c ex_mem 1064 ex_M 1000 ex_SK ex_rng [r1] [r2] eq_refl (zero_wf full_cfg _) HI)
    as (os & c' & E & EW & _).
  - apply Forall_cons; [|constructor]. exact (Forall_inv HR).
  - apply Forall_cons; [|constructor]. split; [|split; [cbn; lia|]].
    + exists (repeat 0 64). split; [reflexivity|]. apply mem_of_holds, bytes_dec. reflexivity.
    + unfold len. cbn [rq_size rq_dest r2]. rewrite repeat_length. lia.
  - destruct os as [|o2 [|]]; cbn [well_answered] in EW; try contradiction; [|destruct EW as [_ []]].
    destruct EW as [(bs & L & _ & Eo) _].
    change (Z.min (rq_size r2) (Z.max 0 (slh_sig_length (slh_of SHA2_128f) - asked [r1]))) with 16988 in *.
    exists o2, bs, c'. split; [exact E|]. split; [exact L|exact Eo].
Qed.

Print Assumptions C56_session_with_a_changing_private_key.
Print Assumptions C56_as_many_bytes_as_ever.
