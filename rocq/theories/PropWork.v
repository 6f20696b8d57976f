(** * The work that the library does (C46)

    How many times each function of the parameter set is called: by ts_gen_key, by each
    call of ts_sign, by a whole signature, by a verification.  The counts are exact and
    hold for all keys, messages, random bytes, and for all ways to cut the signature into
    pieces.  SpecWork.v says what they are to be; the calls are counted in the traces of
    the watched program (LeakHash, LeakSphincs, LeakVerify), and the first part of each
    theorem says that its outcome is that of the model.

    Statements only; proofs are in the PfWork files. *)
From Verif Require Import Arr CLeak SpecSLH SpecApi SpecMap SpecSessions SpecReuse SpecForge SpecLeak SpecWork ModelParams ModelCtx ModelSphincs ModelKeygen ModelVerify ModelApi.
From Verif Require Import PfEnv PfApi PfKeygen PfComplete PfSession PropApi PropSign PropVerify PropLeak LeakSphincs LeakVerify PfLeakErase3 PfLeakErase4 PfLeakSession PfWork PfWorkSession PfWorkCheck PfWorkTotals.
Ltac Zify.zify_post_hook ::= idtac.

(** ** Key generation *)
Theorem C46_keygen_work : forall cfg p addr priv pub g m,
  ps_enabled cfg p = true -> genkey_ok p priv pub g ->
  let run := l_ts_gen_key cfg (Some (addr, priv)) pub (Some (the_ps cfg p)) (Some g) in
  result run = ts_gen_key cfg (Some (addr, priv)) pub (Some (the_ps cfg p)) (Some g) /\
  times_called m (trace run) =
    if fst (g (3 * p_n (slh_of p))) =? 0 then 0 else (prehash_bill cfg p [+] keygen_bill (slh_of p)) m.
Proof.
  intros cfg p addr priv pub g m on H run. split; [apply er_gen_key|].
  refine (proj1 (co_gen_key m cfg p addr priv pub g _ _)). rewrite er_gen_key. exact (gen_key_cases cfg p addr priv pub g on H).
Qed.
(** With a NULL argument nothing is computed *)
Theorem C46_keygen_refused : forall cfg priv pub ps g m, g = None \/ priv = None \/ ps = None ->
  let run := l_ts_gen_key cfg priv pub ps g in
  result run = ts_gen_key cfg priv pub ps g /\ times_called m (trace run) = 0.
Proof.
  intros cfg priv pub ps g m H run. split; [apply er_gen_key|]. unfold run, l_ts_gen_key, l_ts_gen_key_gen.
  destruct g as [g|], priv as [[a b]|], ps as [ps|]; try reflexivity. exfalso. destruct H as [H|[H|H]]; discriminate H.
Qed.

(** ** Signing: init and any requests.  Only the blocks that are begun are computed, and each one once *)
Theorem C46_signing_work : forall cfg p sk c m0 msg M SK f rqs m,
  ps_enabled cfg p = true -> wf_ctx cfg c -> sign_init_ok m0 msg M p sk SK f -> Forall (request_ok sk SK) rqs ->
  let PK := skipn (Z.to_nat (2 * p_n (slh_of p))) SK in
  let SIG := signature p M SK f in
  let run := l_session cfg m0 msg (len M) p sk f rqs c in
  result run = calls cfg (sign_history m0 msg (len M) p sk f rqs) c /\
  times_called m (trace run) =
    (prehash_bill cfg p [+] init_sign_bill) m +
    begun (p_n (slh_of p)) (map (fun b => sign_bill (slh_of p) PK M SIG b m) (blocks_of (slh_of p))) (asked rqs).
Proof.
  intros cfg p sk c m0 msg M SK f rqs m on W HI HR PK SIG run. split; [apply er_session|].
  destruct (sign_session cfg p c m0 msg M sk SK f rqs on W HI HR) as (d & T). rewrite <- er_session in T.
  exact (proj1 (session_works m cfg p sk c m0 msg f SK M rqs on W HI HR _ T)).
Qed.
(** A whole signature, in any number of requests *)
Theorem C46_signature_work : forall cfg p sk c m0 msg M SK f rqs m,
  ps_enabled cfg p = true -> wf_ctx cfg c -> sign_init_ok m0 msg M p sk SK f -> Forall (request_ok sk SK) rqs ->
  slh_sig_length (slh_of p) <= asked rqs ->
  let PK := skipn (Z.to_nat (2 * p_n (slh_of p))) SK in
  let steps := chain_steps (slh_of p) PK M (signature p M SK f) in
  let run := l_session cfg m0 msg (len M) p sk f rqs c in
  result run = calls cfg (sign_history m0 msg (len M) p sk f rqs) c /\
  times_called m (trace run) = (prehash_bill cfg p [+] init_sign_bill [+] signature_bill (slh_of p) steps) m /\
  0 <= steps <= 15 * (p_d (slh_of p) * wlen (slh_of p)).
Proof.
  intros cfg p sk c m0 msg M SK f rqs m on W HI HR HL PK steps run.
  destruct (C46_signing_work cfg p sk c m0 msg M SK f rqs m on W HI HR) as [X1 X2]. split; [exact X1|]. split; [|apply chain_steps_range].
  unfold run. rewrite X2. rewrite begun_all.
  - rewrite sum_sign_bill. reflexivity.
  - destruct p; cbn; lia.
  - rewrite map_length, blocks_length. exact HL.
Qed.
(** One more request: exactly the blocks that it begins *)
Lemma begun_end p g u : slh_sig_length (slh_of p) <= u -> begun (p_n (slh_of p)) (map g (blocks_of (slh_of p))) u = begun (p_n (slh_of p)) (map g (blocks_of (slh_of p))) (slh_sig_length (slh_of p)).
Proof.
  intros Hu. assert (0 < p_n (slh_of p)) by (destruct p; cbn; lia).
  rewrite !begun_all; [reflexivity|assumption|rewrite map_length, blocks_length; lia|assumption|rewrite map_length, blocks_length; lia].
Qed.
Theorem C46_each_request_work : forall cfg p sk c m0 msg M SK f rqs r m,
  ps_enabled cfg p = true -> wf_ctx cfg c -> sign_init_ok m0 msg M p sk SK f -> Forall (request_ok sk SK) rqs -> request_ok sk SK r ->
  let PK := skipn (Z.to_nat (2 * p_n (slh_of p))) SK in
  let SIG := signature p M SK f in
  let upto := begun (p_n (slh_of p)) (map (fun b => sign_bill (slh_of p) PK M SIG b m) (blocks_of (slh_of p))) in
  exists os d,
    calls cfg (sign_history m0 msg (len M) p sk f rqs) c = Ok (Started :: os, d) /\
    let run := l_ts_sign cfg (rq_mem r) (rq_dest r) (rq_size r) d in
    result run = ts_sign cfg (rq_mem r) (rq_dest r) (rq_size r) d /\
    times_called m (trace run) = upto (asked rqs + rq_size r) - upto (asked rqs).
Proof.
  intros cfg p sk c m0 msg M SK f rqs r m on W IO RQ HR PK SIG up.
  destruct (sign_session cfg p c m0 msg M sk SK f rqs on W IO RQ) as (d & T).
  exists (sign_answers (signature p M SK f) rqs), d. split; [exact T|]. intros run. split; [apply er_sign|].
  destruct (RS_init cfg p sk c m0 msg f SK M on W IO) as (e & E & Q).
  assert (C : calls cfg (map (fun r => (rq_mem r, Sign (rq_dest r) (rq_size r))) rqs) e = Ok (sign_answers (signature p M SK f) rqs, d)).
  { unfold sign_history in T. cbn [calls call] in T. rewrite E in T. cbn [bind] in T.
    destruct (calls cfg (map _ rqs) e) as [[os y]|]; [|discriminate]. cbn [bind] in T. injection T as -> ->. reflexivity. }
  pose proof (RS_calls cfg p sk _ _ _ _ _ _ _ _ Q RQ C) as X.
  rewrite (gots_answers sk SK rqs _ RQ), (proj1 (signature_len _ _ _ _ _ _ _ IO)), Z.add_0_l in X.
  assert (RQ' : Forall (request_ok sk SK) (rqs ++ [r])) by (apply Forall_app; split; [exact RQ|constructor; [exact HR|constructor]]).
  destruct (sign_session cfg p c m0 msg M sk SK f (rqs ++ [r]) on W IO RQ') as (d' & T').
  unfold sign_history in T'. cbn [calls call] in T'. rewrite E in T'. cbn [bind] in T'. rewrite map_app, (PropVerify.calls_app cfg _ _ _ _ _ C) in T'. cbn [bind] in T'.
  cbn [map calls call] in T'. assert (XX : exists x, result run = Ok x).
  { unfold run. rewrite er_sign. destruct (ts_sign cfg (rq_mem r) (rq_dest r) (rq_size r) d) as [x|]; [exists x; reflexivity|]. cbn [bind] in T'. discriminate. }
  destruct XX as (x & XX). destruct HR as (K & Hz & _). pose proof (asked_nonneg sk _ _ RQ) as A.
  assert (Lp : 0 <= slh_sig_length (slh_of p)) by (destruct p; cbn; lia).
  destruct (RS_work m cfg p sk SK M SIG _ d _ _ _ X K Hz ltac:(lia) _ XX) as [Y _]. unfold run in *. rewrite Y. unfold signing. fold PK. fold up.
  destruct (Z.le_gt_cases (asked rqs) (slh_sig_length (slh_of p))) as [Hle|Hgt]; [rewrite Z.min_l by exact Hle; reflexivity|].
  rewrite Z.min_r by lia. unfold up.
  rewrite (begun_end p _ (slh_sig_length _ + rq_size r)), (begun_end p _ (asked rqs + rq_size r)), (begun_end p _ (asked rqs)) by lia. lia.
Qed.

(** ** Verification: only blocks that are complete are looked at, and each one once; after
    the end, or after a failure, nothing is computed any more.  Whether the bytes are a
    signature makes no difference; [tail] are any bytes that might have come (the blocks
    that are complete do not depend on them). *)
Theorem C46_verification_work : forall cfg p c m0 msg M pk PK fs tail m,
  ps_enabled cfg p = true -> wf_ctx cfg c -> verify_init_ok cfg m0 msg M p pk PK -> feeds_need p pk PK msg M [] fs ->
  is_bytes tail -> slh_sig_length (slh_of p) <= len (all_fed fs ++ tail) ->
  let run := l_verify_session cfg m0 msg (len M) p pk fs c in
  result run = calls cfg (verify_history m0 msg (len M) p pk fs) c /\
  times_called m (trace run) =
    prehash_bill cfg p m +
    SpecWork.complete (p_n (slh_of p)) (map (fun b => verify_bill (slh_of p) PK M (all_fed fs ++ tail) b m) (blocks_of (slh_of p))) (len (all_fed fs)).
Proof.
  intros cfg p c m0 msg M pk PK fs tail m on W HI HF Bt LS run. split; [apply er_verify_session|].
  destruct (steps_verify_need cfg Fresh m0 msg M p pk PK fs on HI HF) as (M1 & fed1 & ok1 & S & _).
  destruct (simulation_steps cfg _ _ _ _ S c W) as (c' & EQ & _). rewrite <- er_verify_session in EQ.
  exact (proj1 (co_verify_session m cfg p c m0 msg M pk PK tail fs on W HI HF Bt LS _ EQ)).
Qed.
(** At least as many bytes as a signature has: valid or not, too long or not *)
Theorem C46_whole_verification_work : forall cfg p c m0 msg M pk PK fs m,
  ps_enabled cfg p = true -> wf_ctx cfg c -> verify_init_ok cfg m0 msg M p pk PK -> feeds_need p pk PK msg M [] fs ->
  slh_sig_length (slh_of p) <= len (all_fed fs) ->
  let steps := chain_steps (slh_of p) PK M (all_fed fs) in
  let run := l_verify_session cfg m0 msg (len M) p pk fs c in
  result run = calls cfg (verify_history m0 msg (len M) p pk fs) c /\
  times_called m (trace run) = (prehash_bill cfg p [+] check_bill (slh_of p) steps) m /\
  0 <= steps <= 15 * (p_d (slh_of p) * wlen (slh_of p)).
Proof.
  intros cfg p c m0 msg M pk PK fs m on W HI HF LS steps run.
  destruct (C46_verification_work cfg p c m0 msg M pk PK fs [] m on W HI HF ltac:(constructor) ltac:(rewrite app_nil_r; exact LS)) as [X1 X2].
  split; [exact X1|]. split; [|apply chain_steps_range]. unfold run. rewrite X2, app_nil_r, complete_all.
  - rewrite sum_verify_bill. reflexivity.
  - destruct p; cbn; lia.
  - rewrite map_length, blocks_length. exact LS.
Qed.

(** ** Numbers.  Calls of f, prf and next_t for key pairs; for signatures without the
    chain steps; at most, for verification *)
Example numbers_128f : let P := slh_of SHA2_128f in
  map (keygen_bill P) [prf; f; init_t; next_t; final_t] = [280; 4200; 15; 294; 15] /\
  map (signature_bill P 0) [prf; f; init_t; next_t; final_t] = [9075; 94512; 2409; 10659; 2410] /\
  map (check_bill P 0) [prf; f; init_t; next_t; final_t] = [0; 11583; 287; 1331; 287].
Proof. vm_compute. repeat split. Qed.
Example numbers_256s : let P := slh_of SHAKE_256s in
  map (keygen_bill P) [prf; f; init_t; next_t; final_t] = [17152; 257280; 511; 17662; 511] /\
  map (signature_bill P 0) [prf; f; init_t; next_t; final_t] = [498222; 2418688; 364514; 862170; 364515] /\
  map (check_bill P 0) [prf; f; init_t; next_t; final_t] = [0; 8062; 381; 1302; 381].
Proof. vm_compute. repeat split. Qed.

(** The hypotheses can be met: a session of PropLeak (ex_sessions_hypotheses) that asks
    for the first 20 bytes of a signature, then for 12.  It computes the randomiser, the
    digest, the first FORS secret, and the leaf above it: 2 calls of prf, 1 of f. *)
Example ex_two_requests : forall m,
  let c := zero_ctx full_cfg (the_ps full_cfg SHA2_128f) in
  let run := l_session full_cfg ex_mem 1064 (len ex_M) SHA2_128f 1000 ex_rng (ex_two ex_mem) c in
  result run = calls full_cfg (sign_history ex_mem 1064 (len ex_M) SHA2_128f 1000 ex_rng (ex_two ex_mem)) c /\
  times_called m (trace run) = (one prehash [+] one prf_msg [+] one hash_msg [+] one init_t [+] 2 [*] one prf [+] one f) m.
Proof.
  intros m c run. destruct ex_sessions_hypotheses as (_ & _ & HI & _ & HR & _).
  pose proof (C46_signing_work full_cfg SHA2_128f 1000 c ex_mem 1064 ex_M ex_SK ex_rng (ex_two ex_mem) m eq_refl (zero_wf full_cfg _) HI HR) as X.
  cbv zeta in X. destruct X as [X1 X2]. split; [exact X1|]. unfold run. rewrite X2. change (p_n (slh_of SHA2_128f)) with 16. change (asked (ex_two ex_mem)) with 32.
  unfold begun. rewrite (PfWorkSign.pre_sum (fun i => 16 * Z.of_nat i <? 32) _ _ 2).
  - cbn [PfWorkSign.pre]. set (g := fun b => sign_bill _ _ _ _ b m).
    change (nth 0 (map g (blocks_of (slh_of SHA2_128f))) 0) with 0. change (nth 1 (map g (blocks_of (slh_of SHA2_128f))) 0) with (one prf m + (one prf m + one f m)).
    change (prehash_bill full_cfg SHA2_128f) with (one prehash). unfold init_sign_bill, SpecWork.plus, times. ring.
  - intros i. rewrite Z.ltb_lt. lia.
  - intros i Hi. apply nth_overflow, Hi.
Qed.

Print Assumptions C46_keygen_work.
Print Assumptions C46_keygen_refused.
Print Assumptions C46_signing_work.
Print Assumptions C46_signature_work.
Print Assumptions C46_each_request_work.
Print Assumptions C46_verification_work.
Print Assumptions C46_whole_verification_work.
