(** * Properties of signing (C02, C03, C04, C18, C19)

    Statements only; proofs are in PfApi, PfSession and PfComplete.  Sessions and
    contracts are defined in SpecSessions.v, [slh_sign_internal] in SpecSLH.v, [calls]
    (the modelled library functions, one after the other) in ModelApi.v.

    In all of these [c] is any context contents of the right shape ([wf_ctx]: the arrays
    have their declared sizes and hold bytes): the library makes no use of it. *)
From Verif Require Import Arr SpecSLH SpecApi SpecMap SpecSessions ModelParams ModelCtx ModelKeygen ModelApi PfApi PfKeygen PfComplete PfSession.
Ltac Zify.zify_post_hook ::= idtac.

Lemma randomness_bytes f n d : random_ok f n -> is_bytes d -> is_bytes (randomness f n d).
Proof.
  unfold random_ok, randomness. destruct f as [f|]; [|auto]. destruct (f n) as [ret data]. intros (H & _ & _) B. destruct (ret =? 0); assumption.
Qed.
Lemma signature_len m0 msg M p sk SK f : sign_init_ok m0 msg M p sk SK f -> len (signature p M SK f) = slh_sig_length (slh_of p) /\ is_bytes (signature p M SK f).
Proof.
  intros (H1 & H2 & H3 & H4 & H5). apply sig_shape; [apply H1|exact H2|apply H3|].
  apply randomness_bytes; [exact H5|]. apply PfSpec.slice_bytes, H1.
Qed.

(** The answers to every request of a session *)
Theorem sign_session : forall cfg p c m0 msg M sk SK f rqs,
  ps_enabled cfg p = true -> wf_ctx cfg c ->
  sign_init_ok m0 msg M p sk SK f -> Forall (request_ok sk SK) rqs ->
  exists c', calls cfg (sign_history m0 msg (len M) p sk f rqs) c
             = Ok (Started :: sign_answers (signature p M SK f) rqs, c').
Proof.
  intros cfg p c m0 msg M sk SK f rqs on W HI HR.
  destruct (steps_sign cfg Fresh m0 msg M p sk SK f rqs on HI HR) as (S' & HS).
  destruct (simulation_steps cfg _ _ _ _ HS c W) as (c' & E & _). exists c'. exact E.
Qed.

(** C02: what comes out, if at least the signature size is asked for in total, is
    slh_sign_internal of FIPS 205 with the randomness delivered, or PK.seed. *)
Theorem C02_signature_is_FIPS205 : forall cfg p c m0 msg M sk SK f rqs,
  ps_enabled cfg p = true -> wf_ctx cfg c ->
  sign_init_ok m0 msg M p sk SK f -> Forall (request_ok sk SK) rqs ->
  ts_size_signature (the_ps cfg p) <= asked rqs ->
  exists os c', calls cfg (sign_history m0 msg (len M) p sk f rqs) c = Ok (Started :: os, c') /\
    concat (map taken os) =
      slh_sign_internal (slh_of p) M SK
        (let n := p_n (slh_of p) in let PKseed := slice SK (2 * n) n in
         match f with
         | None => PKseed
         | Some g => let '(ret, data) := g n in if ret =? 0 then PKseed else data
         end).
Proof.
  intros cfg p c m0 msg M sk SK f rqs on W HI HR HA.
  destruct (sign_session cfg p c m0 msg M sk SK f rqs on W HI HR) as (c' & E).
  exists (sign_answers (signature p M SK f) rqs), c'. split; [exact E|].
  rewrite answers_taken by (eapply Forall_impl; [|exact HR]; intros r (_ & ? & ?); lia).
  change (firstn (Z.to_nat (asked rqs)) (signature p M SK f) = signature p M SK f). apply firstn_all2.
  destruct (signature_len _ _ _ _ _ _ _ HI) as [LS _].
  assert (ES : ts_size_signature (the_ps cfg p) = slh_sig_length (slh_of p)) by (destruct p; reflexivity).
  unfold len in LS. lia.
Qed.

(** C03: however the output is requested, what has been collected is the same string's
    first [asked] bytes (with any configurations on any platforms). *)
Theorem C03_chunking : forall cfg1 cfg2 p c1 c2 m1 m2 msg1 msg2 M sk1 sk2 SK f rqs1 rqs2,
  ps_enabled cfg1 p = true -> ps_enabled cfg2 p = true -> wf_ctx cfg1 c1 -> wf_ctx cfg2 c2 ->
  sign_init_ok m1 msg1 M p sk1 SK f -> sign_init_ok m2 msg2 M p sk2 SK f ->
  Forall (request_ok sk1 SK) rqs1 -> Forall (request_ok sk2 SK) rqs2 ->
  exists os1 os2 c1' c2',
    calls cfg1 (sign_history m1 msg1 (len M) p sk1 f rqs1) c1 = Ok (Started :: os1, c1') /\
    calls cfg2 (sign_history m2 msg2 (len M) p sk2 f rqs2) c2 = Ok (Started :: os2, c2') /\
    (asked rqs1 <= asked rqs2 -> exists rest, concat (map taken os2) = concat (map taken os1) ++ rest) /\
    (asked rqs1 = asked rqs2 -> concat (map taken os2) = concat (map taken os1)).
Proof.
  intros cfg1 cfg2 p c1 c2 m1 m2 msg1 msg2 M sk1 sk2 SK f rqs1 rqs2 on1 on2 W1 W2 I1 I2 R1 R2.
  destruct (sign_session cfg1 p c1 m1 msg1 M sk1 SK f rqs1 on1 W1 I1 R1) as (c1' & E1).
  destruct (sign_session cfg2 p c2 m2 msg2 M sk2 SK f rqs2 on2 W2 I2 R2) as (c2' & E2).
  exists (sign_answers (signature p M SK f) rqs1), (sign_answers (signature p M SK f) rqs2), c1', c2'.
  split; [exact E1|]. split; [exact E2|].
  assert (T : forall s rqs, Forall (request_ok s SK) rqs -> concat (map taken (sign_answers (signature p M SK f) rqs)) = firstn (Z.to_nat (asked rqs)) (signature p M SK f)).
  { intros s rqs HR. apply answers_taken. eapply Forall_impl; [|exact HR]; intros r (_ & ? & ?); lia. }
  rewrite (T sk1 rqs1 R1), (T sk2 rqs2 R2). split.
  - intros H. set (S := signature p M SK f). set (i := Z.to_nat (asked rqs1)). set (j := Z.to_nat (asked rqs2)).
    exists (skipn i (firstn j S)). rewrite <- (firstn_skipn i (firstn j S)) at 1. f_equal. rewrite firstn_firstn. f_equal. lia.
  - intros ->. reflexivity.
Qed.

(** C04: every single answer.  The request number [i] returns the minimum of what it
    asks for and what is left of ts_size_signature bytes after the requests before it;
    it writes that many bytes and leaves the rest of the destination as it was. *)
Theorem C04_return_values : forall cfg p c m0 msg M sk SK f rqs,
  ps_enabled cfg p = true -> wf_ctx cfg c ->
  sign_init_ok m0 msg M p sk SK f -> Forall (request_ok sk SK) rqs ->
  exists os c', calls cfg (sign_history m0 msg (len M) p sk f rqs) c = Ok (Started :: os, c') /\
    length os = length rqs /\
    len (concat (map taken os)) = Z.min (asked rqs) (ts_size_signature (the_ps cfg p)) /\
    forall i r, nth_error rqs i = Some r ->
      let left := Z.max 0 (ts_size_signature (the_ps cfg p) - asked (firstn i rqs)) in
      let k := Z.min (rq_size r) left in
      exists out, nth_error os i = Some (Signed k (out ++ skipn (Z.to_nat k) (rq_dest r))) /\ len out = k.
Proof.
  intros cfg p c m0 msg M sk SK f rqs on W HI HR.
  destruct (sign_session cfg p c m0 msg M sk SK f rqs on W HI HR) as (c' & E).
  exists (sign_answers (signature p M SK f) rqs), c'. split; [exact E|].
  destruct (signature_len _ _ _ _ _ _ _ HI) as [LS _].
  assert (ES : ts_size_signature (the_ps cfg p) = slh_sig_length (slh_of p)) by (destruct p; reflexivity).
  rewrite ES, <- LS. clear E HI LS ES. set (S := signature p M SK f). clearbody S.
  assert (HR' : Forall (fun r => 0 <= rq_size r <= len (rq_dest r)) rqs) by (eapply Forall_impl; [|exact HR]; intros r (_ & ? & ?); lia).
  assert (NA : forall l, Forall (fun r => 0 <= rq_size r <= len (rq_dest r)) l -> 0 <= asked l).
  { intros l H. induction H; cbn [asked fold_right]; [lia|]. fold (asked l). lia. }
  split; [|split].
  - clear. revert S. induction rqs as [|r rqs IH]; intros S; [reflexivity|]. cbn [sign_answers length]. f_equal. apply IH.
  - rewrite (answers_taken rqs S HR'). pose proof (NA rqs HR'). unfold len. rewrite firstn_length. lia.
  - clear HR. revert S. induction rqs as [|r0 rqs IH]; intros S i r Hi; [destruct i; discriminate|].
    inversion HR' as [|? ? H1 H2]; subst. cbn [sign_answers]. set (k0 := Z.to_nat (Z.min (rq_size r0) (len S))).
    destruct i as [|i].
    + cbn [nth_error] in *. injection Hi as <-. cbn [firstn]. change (asked []) with 0. rewrite Z.sub_0_r.
      assert (P0 : 0 <= len S) by (unfold len; lia). rewrite (Z.max_r 0 (len S)) by exact P0. cbv zeta. fold k0.
      exists (firstn k0 S). split; [do 2 f_equal; unfold k0; lia|]. unfold len. rewrite firstn_length. unfold k0, len in *. lia.
    + cbn [nth_error] in *. destruct (IH H2 (skipn k0 S) i r Hi) as (out & E1 & E2).
      assert (Hr : 0 <= rq_size r) by (eapply (proj1 (Forall_forall _ _) H2); eapply nth_error_In; exact Hi).
      assert (A0 : 0 <= asked (firstn i rqs)).
      { apply NA. apply Forall_forall. intros x Hx. apply (proj1 (Forall_forall _ _) H2). rewrite <- (firstn_skipn i rqs). apply in_or_app. left. exact Hx. }
      assert (EL : Z.max 0 (len (skipn k0 S) - asked (firstn i rqs)) = Z.max 0 (len S - asked (firstn (Datatypes.S i) (r0 :: rqs)))).
      { cbn [firstn asked fold_right]. fold (asked (firstn i rqs)). unfold len in *. rewrite skipn_length. unfold k0. lia. }
      cbv zeta in E1, E2 |- *. rewrite EL in E1, E2. exists out. split; [exact E1|exact E2].
Qed.

(** C04, end of stream: when as much as the signature size has been asked for, every
    further call returns 0 and leaves its destination as it was. *)
Theorem C04_end_of_stream : forall cfg p c m0 msg M sk SK f rqs r,
  ps_enabled cfg p = true -> wf_ctx cfg c ->
  sign_init_ok m0 msg M p sk SK f -> Forall (request_ok sk SK) rqs -> request_ok sk SK r ->
  ts_size_signature (the_ps cfg p) <= asked rqs ->
  exists os c', calls cfg (sign_history m0 msg (len M) p sk f (rqs ++ [r])) c = Ok (Started :: os ++ [Signed 0 (rq_dest r)], c').
Proof.
  intros cfg p c m0 msg M sk SK f rqs r on W HI HR Hr HA.
  assert (HR2 : Forall (request_ok sk SK) (rqs ++ [r])) by (apply Forall_app; split; [exact HR|constructor; [exact Hr|constructor]]).
  destruct (C04_return_values cfg p c m0 msg M sk SK f (rqs ++ [r]) on W HI HR2) as (os & c' & E & L & _ & N).
  rewrite app_length in L. cbn [length] in L.
  destruct (exists_last (l := os)) as (os1 & o & ->); [intros ->; cbn [length] in L; lia|].
  rewrite app_length in L. cbn [length] in L. exists os1, c'. rewrite E. do 3 f_equal. f_equal.
  destruct (N (length rqs) r) as (out & E1 & E2).
  { rewrite nth_error_app2, Nat.sub_diag by lia. reflexivity. }
  rewrite firstn_app, Nat.sub_diag, firstn_O, app_nil_r, firstn_all in E1, E2.
  destruct Hr as (_ & Hr & _).
  rewrite (Z.max_l 0) in E1, E2 by lia. rewrite Z.min_r in E1, E2 by lia.
  rewrite nth_error_app2 in E1 by lia. replace (length rqs - length os1)%nat with 0%nat in E1 by lia. cbn [nth_error] in E1.
  injection E1 as ->. destruct out; [|unfold len in E2; cbn [length] in E2; lia]. reflexivity.
Qed.

(** The bytes of [m] in [a, a+k) and nothing else *)
Definition only (m : memory) (a k : Z) : memory := fun x => if (a <=? x) && (x <? a + k) then m x else None.
Definition only2 (m : memory) (a k a' k' : Z) : memory := fun x => if ((a <=? x) && (x <? a + k)) || ((a' <=? x) && (x <? a' + k')) then m x else None.
Lemma only_holds m a l : holds m a l -> holds (only m a (len l)) a l.
Proof.
  intros [B H]. split; [exact B|]. intros i Hi. unfold only, len. destruct (Z.leb_spec a (a + Z.of_nat i)); [|lia].
  destruct (Z.ltb_spec (a + Z.of_nat i) (a + Z.of_nat (length l))); [|lia]. apply H, Hi.
Qed.

(** C18, signing: after ts_init_sign everything but the private key may go away: with
    only the private key readable, the calls give the same answers. *)
Theorem C18_sign_needs_only_the_private_key : forall cfg p c m0 msg M sk SK f rqs,
  ps_enabled cfg p = true -> wf_ctx cfg c ->
  sign_init_ok m0 msg M p sk SK f -> Forall (request_ok sk SK) rqs ->
  exists os c1 c2,
    calls cfg (sign_history m0 msg (len M) p sk f rqs) c = Ok (os, c1) /\
    calls cfg (sign_history m0 msg (len M) p sk f
                 (map (fun r => Req (only (rq_mem r) sk (4 * ps_n (the_ps cfg p))) (rq_dest r) (rq_size r)) rqs)) c = Ok (os, c2).
Proof.
  intros cfg p c m0 msg M sk SK f rqs on W HI HR.
  destruct (sign_session cfg p c m0 msg M sk SK f rqs on W HI HR) as (c1 & E1).
  set (g := fun r => Req (only (rq_mem r) sk (4 * ps_n (the_ps cfg p))) (rq_dest r) (rq_size r)).
  assert (HR' : Forall (request_ok sk SK) (map g rqs)).
  { apply Forall_map. eapply Forall_impl; [|exact HR]. intros r (H1 & H2 & H3). split; [|split; assumption].
    cbn [g rq_mem]. destruct HI as (_ & LK & _). assert (EN : 4 * ps_n (the_ps cfg p) = len SK) by (rewrite LK; destruct p; reflexivity).
    rewrite EN. apply only_holds, H1. }
  destruct (sign_session cfg p c m0 msg M sk SK f (map g rqs) on W HI HR') as (c2 & E2).
  exists (Started :: sign_answers (signature p M SK f) rqs), c1, c2. split; [exact E1|]. rewrite E2. do 3 f_equal.
  generalize (signature p M SK f). clear. induction rqs as [|r rqs IH]; intros S; [reflexivity|]. cbn [map sign_answers g rq_dest rq_size]. rewrite IH. reflexivity.
Qed.

(** C19: no random function, or one that reports failure, whatever it wrote: always
    the same answers, those of a signature randomised with PK.seed. *)
Theorem C19_fallback : forall cfg p c1 c2 m1 m2 msg1 msg2 M sk SK g rqs,
  ps_enabled cfg p = true -> wf_ctx cfg c1 -> wf_ctx cfg c2 ->
  sign_init_ok m1 msg1 M p sk SK None -> sign_init_ok m2 msg2 M p sk SK (Some g) ->
  fst (g (p_n (slh_of p))) = 0 ->
  Forall (request_ok sk SK) rqs ->
  exists os c1' c2',
    calls cfg (sign_history m1 msg1 (len M) p sk None rqs) c1 = Ok (Started :: os, c1') /\
    calls cfg (sign_history m2 msg2 (len M) p sk (Some g) rqs) c2 = Ok (Started :: os, c2') /\
    os = sign_answers (slh_sign_internal (slh_of p) M SK (slice SK (2 * p_n (slh_of p)) (p_n (slh_of p)))) rqs.
Proof.
  intros cfg p c1 c2 m1 m2 msg1 msg2 M sk SK g rqs on W1 W2 I1 I2 Hg HR.
  destruct (sign_session cfg p c1 m1 msg1 M sk SK None rqs on W1 I1 HR) as (c1' & E1).
  destruct (sign_session cfg p c2 m2 msg2 M sk SK (Some g) rqs on W2 I2 HR) as (c2' & E2).
  exists (sign_answers (signature p M SK None) rqs), c1', c2'. split; [exact E1|]. split; [|reflexivity].
  rewrite E2. do 3 f_equal. unfold signature, randomness. destruct (g (p_n (slh_of p))) as [ret data]. cbn [fst] in Hg. subst ret. reflexivity.
Qed.
(** ... and a successful one matters only through the n bytes it delivered. *)
Theorem C19_only_the_delivered_bytes : forall cfg p c1 c2 m1 m2 msg1 msg2 M sk SK g1 g2 rqs,
  ps_enabled cfg p = true -> wf_ctx cfg c1 -> wf_ctx cfg c2 ->
  sign_init_ok m1 msg1 M p sk SK (Some g1) -> sign_init_ok m2 msg2 M p sk SK (Some g2) ->
  fst (g1 (p_n (slh_of p))) <> 0 -> fst (g2 (p_n (slh_of p))) <> 0 ->
  snd (g1 (p_n (slh_of p))) = snd (g2 (p_n (slh_of p))) ->
  Forall (request_ok sk SK) rqs ->
  exists os c1' c2',
    calls cfg (sign_history m1 msg1 (len M) p sk (Some g1) rqs) c1 = Ok (Started :: os, c1') /\
    calls cfg (sign_history m2 msg2 (len M) p sk (Some g2) rqs) c2 = Ok (Started :: os, c2').
Proof.
  intros cfg p c1 c2 m1 m2 msg1 msg2 M sk SK g1 g2 rqs on W1 W2 I1 I2 H1 H2 HD HR.
  destruct (sign_session cfg p c1 m1 msg1 M sk SK (Some g1) rqs on W1 I1 HR) as (c1' & E1).
  destruct (sign_session cfg p c2 m2 msg2 M sk SK (Some g2) rqs on W2 I2 HR) as (c2' & E2).
  exists (sign_answers (signature p M SK (Some g1)) rqs), c1', c2'. split; [exact E1|].
  rewrite E2. do 3 f_equal. unfold signature, randomness. destruct (g1 (p_n (slh_of p))) as [r1 d1], (g2 (p_n (slh_of p))) as [r2 d2].
  cbn [fst snd] in *. subst d2. destruct (Z.eqb_spec r1 0), (Z.eqb_spec r2 0); try contradiction. reflexivity.
Qed.

(** ** A case that meets the hypotheses: SHA2-128f, a 64 byte key at 1000, a 5 byte
    message behind it, a random function that succeeds, three requests *)
Definition ex_SK : list Z := map Z.of_nat (seq 1 64).
Definition ex_M : list Z := [104; 101; 108; 108; 111].
Definition ex_mem : memory := mem_of 1000 (ex_SK ++ ex_M).
Definition ex_rng : random_fn := Some (fun m => (1, repeat 9 (Z.to_nat m))).
Definition ex_rqs : list request :=
  [Req ex_mem (repeat 0 100) 100; Req (mem_of 1000 ex_SK) (repeat 0 7) 0; Req ex_mem (repeat 1 (Z.to_nat 20000)) 20000].
Lemma bytes_dec l : forallb (fun b => (0 <=? b) && (b <? 256)) l = true -> is_bytes l.
Proof. intros H. apply Forall_forall. intros x Hx. apply (proj1 (forallb_forall _ _) H) in Hx. apply andb_prop in Hx. destruct Hx as [H1 H2]. apply Z.leb_le in H1. apply Z.ltb_lt in H2. split; assumption. Qed.
Lemma ex_holds : holds ex_mem 1000 ex_SK /\ holds ex_mem 1064 ex_M /\ holds (mem_of 1000 ex_SK) 1000 ex_SK.
Proof.
  assert (H : holds ex_mem 1000 (ex_SK ++ ex_M)) by (apply mem_of_holds, bytes_dec; reflexivity).
  split; [|split].
  - rewrite <- (Z.add_0_r 1000). exact (holds_slice _ _ _ 0 64 H ltac:(lia) ltac:(lia) ltac:(cbv; discriminate)).
  - exact (holds_slice _ _ _ 64 5 H ltac:(lia) ltac:(lia) ltac:(cbv; discriminate)).
  - apply mem_of_holds, bytes_dec. reflexivity.
Qed.
Example ex_sign_hypotheses :
  ps_enabled full_cfg SHA2_128f = true /\ wf_ctx full_cfg (zero_ctx full_cfg (the_ps full_cfg SHA2_128f)) /\
  sign_init_ok ex_mem 1064 ex_M SHA2_128f 1000 ex_SK ex_rng /\ Forall (request_ok 1000 ex_SK) ex_rqs /\
  ts_size_signature (the_ps full_cfg SHA2_128f) <= asked ex_rqs /\ ts_size_signature (the_ps full_cfg SHA2_128f) = 17088.
Proof.
  destruct ex_holds as (H1 & H2 & H3).
  split; [reflexivity|]. split; [apply zero_wf|]. split; [|split; [|split; [cbv; discriminate|reflexivity]]].
  - split; [exact H1|]. split; [reflexivity|]. split; [exact H2|]. split; [reflexivity|].
    cbn. split; [apply bytes_dec; reflexivity|]. split; [cbv; discriminate|]. intros _. reflexivity.
  - apply Forall_cons; [|apply Forall_cons; [|apply Forall_cons; [|apply Forall_nil]]].
    + split; [exact H1|]. cbn [rq_size rq_dest]. unfold len. rewrite repeat_length. lia.
    + split; [exact H3|]. cbn [rq_size rq_dest]. unfold len. rewrite repeat_length. lia.
    + split; [exact H1|]. cbn [rq_size rq_dest]. unfold len. rewrite repeat_length. lia.
Qed.

Print Assumptions C02_signature_is_FIPS205.
Print Assumptions C03_chunking.
Print Assumptions C04_return_values.
Print Assumptions C04_end_of_stream.
Print Assumptions C18_sign_needs_only_the_private_key.
Print Assumptions C19_fallback.
Print Assumptions C19_only_the_delivered_bytes.
