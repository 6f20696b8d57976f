(** * How often the compression functions run (C51)

    Almost all time is spent in the compression functions of SHA-256 and SHA-512 and in the
    permutation of SHAKE256.  How often each of them runs is said exactly, for key
    generation, for each call of ts_sign, for a whole signature and for verification, for
    all keys, messages, random bytes, and all ways to cut the signature into pieces.
    SpecBlocks.v says what the numbers are to be; the runs are counted in the traces of the
    watched program (LeakSha2, LeakFips202), and the first part of each theorem says that
    its outcome is that of the model.  The last theorems are about TS_SHA2_OPTIMIZATION:
    tune.h says that "it approximately halves the signing time", and that "it doesn't speed
    SHAKE parameter set at all".

    Statements only; proofs are in the PfBlk files. *)
From Verif Require Import Arr CLeak SpecSLH SpecApi SpecMap SpecSessions SpecReuse SpecForge SpecLeak SpecWork SpecBlocks ModelParams ModelCtx ModelSphincs ModelKeygen ModelVerify ModelApi.
From Verif Require Import PfEnv PfApi PfKeygen PfComplete PfSession PropApi PropSign PropVerify PropLeak LeakSphincs LeakVerify PfLeakErase3 PfLeakErase4 PfLeakSession PfWork PfWorkSession PfWorkCheck PfWorkTotals PropWork.
From Verif Require Import PfBlkSha PfBlkHash PfBlk PfBlkSession PfBlkTotals PfBlkCheck.
Ltac Zify.zify_post_hook ::= idtac.

(** ** Key generation *)
Theorem C51_keygen_runs : forall cfg p addr priv pub g q,
  ps_enabled cfg p = true -> genkey_ok p priv pub g ->
  let run := l_ts_gen_key cfg (Some (addr, priv)) pub (Some (the_ps cfg p)) (Some g) in
  result run = ts_gen_key cfg (Some (addr, priv)) pub (Some (the_ps cfg p)) (Some g) /\
  times_run q (trace run) =
    if fst (g (3 * p_n (slh_of p))) =? 0 then 0 else prehash_runs cfg p q + keygen_runs cfg p q.
Proof.
  intros cfg p addr priv pub g q on H run. split; [apply er_gen_key|].
  refine (proj1 (tk_gen_key q cfg p addr priv pub g on _ _)). rewrite er_gen_key. exact (gen_key_cases cfg p addr priv pub g on H).
Qed.
(** With a NULL argument nothing is computed *)
Theorem C51_keygen_refused : forall cfg priv pub ps g q, g = None \/ priv = None \/ ps = None ->
  let run := l_ts_gen_key cfg priv pub ps g in
  result run = ts_gen_key cfg priv pub ps g /\ times_run q (trace run) = 0.
Proof.
  intros cfg priv pub ps g q H run. split; [apply er_gen_key|]. unfold run, l_ts_gen_key, l_ts_gen_key_gen.
  destruct g as [g|], priv as [[a b]|], ps as [ps|]; try reflexivity. exfalso. destruct H as [H|[H|H]]; discriminate H.
Qed.

(** ** Signing: init and any requests.  Only the blocks that are begun are computed, and each one once *)
Theorem C51_signing_runs : forall cfg p sk c m0 msg M SK f rqs q,
  ps_enabled cfg p = true -> wf_ctx cfg c -> sign_init_ok m0 msg M p sk SK f -> Forall (request_ok sk SK) rqs ->
  let PK := skipn (Z.to_nat (2 * p_n (slh_of p))) SK in
  let SIG := signature p M SK f in
  let run := l_session cfg m0 msg (len M) p sk f rqs c in
  result run = calls cfg (sign_history m0 msg (len M) p sk f rqs) c /\
  times_run q (trace run) =
    prehash_runs cfg p q + init_sign_runs cfg p (len M) q +
    begun (p_n (slh_of p)) (map (fun b => sign_runs cfg p PK M SIG q b) (blocks_of (slh_of p))) (asked rqs).
Proof.
  intros cfg p sk c m0 msg M SK f rqs q on W HI HR PK SIG run. split; [apply er_session|].
  destruct (sign_session cfg p c m0 msg M sk SK f rqs on W HI HR) as (d & T). rewrite <- er_session in T.
  exact (proj1 (session_runs q cfg p sk c m0 msg f SK M rqs on W HI HR _ T)).
Qed.
(** A whole signature, in any number of requests *)
Theorem C51_signature_runs : forall cfg p sk c m0 msg M SK f rqs q,
  ps_enabled cfg p = true -> wf_ctx cfg c -> sign_init_ok m0 msg M p sk SK f -> Forall (request_ok sk SK) rqs ->
  slh_sig_length (slh_of p) <= asked rqs ->
  let PK := skipn (Z.to_nat (2 * p_n (slh_of p))) SK in
  let steps := chain_steps (slh_of p) PK M (signature p M SK f) in
  let run := l_session cfg m0 msg (len M) p sk f rqs c in
  result run = calls cfg (sign_history m0 msg (len M) p sk f rqs) c /\
  times_run q (trace run) = prehash_runs cfg p q + init_sign_runs cfg p (len M) q + signature_runs cfg p steps q /\
  0 <= steps <= 15 * (p_d (slh_of p) * wlen (slh_of p)).
Proof.
  intros cfg p sk c m0 msg M SK f rqs q on W HI HR HL PK steps run.
  destruct (C51_signing_runs cfg p sk c m0 msg M SK f rqs q on W HI HR) as [X1 X2]. split; [exact X1|]. split; [|apply chain_steps_range].
  unfold run. rewrite X2. rewrite begun_all.
  - apply (f_equal2 Z.add eq_refl), sum_sign_runs.
  - destruct p; cbn; lia.
  - rewrite map_length, blocks_length. exact HL.
Qed.
(** One more request: exactly the blocks that it begins *)
Theorem C51_each_request_runs : forall cfg p sk c m0 msg M SK f rqs r q,
  ps_enabled cfg p = true -> wf_ctx cfg c -> sign_init_ok m0 msg M p sk SK f -> Forall (request_ok sk SK) rqs -> request_ok sk SK r ->
  let PK := skipn (Z.to_nat (2 * p_n (slh_of p))) SK in
  let SIG := signature p M SK f in
  let upto := begun (p_n (slh_of p)) (map (fun b => sign_runs cfg p PK M SIG q b) (blocks_of (slh_of p))) in
  exists os d,
    calls cfg (sign_history m0 msg (len M) p sk f rqs) c = Ok (Started :: os, d) /\
    let run := l_ts_sign cfg (rq_mem r) (rq_dest r) (rq_size r) d in
    result run = ts_sign cfg (rq_mem r) (rq_dest r) (rq_size r) d /\
    times_run q (trace run) = upto (asked rqs + rq_size r) - upto (asked rqs).
Proof.
  intros cfg p sk c m0 msg M SK f rqs r q on W IO RQ HR PK SIG up.
  destruct (sign_session cfg p c m0 msg M sk SK f rqs on W IO RQ) as (d & T).
  exists (sign_answers (signature p M SK f) rqs), d. split; [exact T|]. intros run. split; [apply er_sign|].
  destruct (RS_init cfg p sk c m0 msg f SK M on W IO) as (e & E & Q).
  assert (C : calls cfg (map (fun r => (rq_mem r, Sign (rq_dest r) (rq_size r))) rqs) e = Ok (sign_answers (signature p M SK f) rqs, d)).
  { unfold sign_history in T. cbn [calls call] in T. rewrite E in T. cbn [bind] in T.
    destruct (calls cfg (map _ rqs) e) as [[os y]|]; [|discriminate]. cbn [bind] in T. injection T as -> ->. reflexivity. }
  pose proof (RS_calls cfg p sk _ _ _ _ _ _ _ _ Q RQ C) as X.
  rewrite (gots_answers sk SK rqs _ RQ), (proj1 (signature_len _ _ _ _ _ _ _ IO)), Z.add_0_l in X.
  assert (RQ' : Forall (request_ok sk SK) (rqs ++ [r])) by (apply Forall_app; split; [exact RQ|constructor; [exact HR|constructor]]).
  destruct (sign_session cfg p c m0 msg M sk SK f (rqs ++ [r]) on W IO RQ') as (d' & T').
  unfold sign_history in T'. cbn [calls call] in T'. rewrite E in T'. cbn [bind] in T'. rewrite map_app, (PropVerify.calls_app cfg _ _ _ _ _ C) in T'. cbn [bind] in T'.
  cbn [map calls call] in T'. assert (XX : exists x, result run = Ok x).
  { unfold run. rewrite er_sign. destruct (ts_sign cfg (rq_mem r) (rq_dest r) (rq_size r) d) as [x|]; [exists x; reflexivity|]. cbn [bind] in T'. discriminate. }
  destruct XX as (x & XX). destruct HR as (K & Hz & _). pose proof (asked_nonneg sk _ _ RQ) as A.
  assert (Lp : 0 <= slh_sig_length (slh_of p)) by (destruct p; cbn; lia).
  destruct (RS_runs q cfg p sk SK M SIG _ d _ _ _ X K Hz ltac:(lia) _ XX) as [Y _]. unfold run in *. rewrite Y. unfold signing_runs. fold PK. fold up.
  destruct (Z.le_gt_cases (asked rqs) (slh_sig_length (slh_of p))) as [Hle|Hgt]; [rewrite Z.min_l by exact Hle; reflexivity|].
  rewrite Z.min_r by lia. unfold up.
  rewrite (begun_end p _ (slh_sig_length _ + rq_size r)), (begun_end p _ (asked rqs + rq_size r)), (begun_end p _ (asked rqs)) by lia. lia.
Qed.

(** ** Verification: only blocks that are complete are looked at, and each one once; after
    the end, or after a failure, nothing is computed any more.  Whether the bytes are a
    signature makes no difference; [tail] are any bytes that might have come (the blocks
    that are complete do not depend on them). *)
Theorem C51_verification_runs : forall cfg p c m0 msg M pk PK fs tail q,
  ps_enabled cfg p = true -> wf_ctx cfg c -> verify_init_ok cfg m0 msg M p pk PK -> feeds_need p pk PK msg M [] fs ->
  is_bytes tail -> slh_sig_length (slh_of p) <= len (all_fed fs ++ tail) ->
  let run := l_verify_session cfg m0 msg (len M) p pk fs c in
  result run = calls cfg (verify_history m0 msg (len M) p pk fs) c /\
  times_run q (trace run) =
    prehash_runs cfg p q +
    SpecWork.complete (p_n (slh_of p)) (map (fun b => verify_runs cfg p PK M (all_fed fs ++ tail) q b) (blocks_of (slh_of p))) (len (all_fed fs)).
Proof.
  intros cfg p c m0 msg M pk PK fs tail q on W HI HF Bt LS run. split; [apply er_verify_session|].
  destruct (steps_verify_need cfg Fresh m0 msg M p pk PK fs on HI HF) as (M1 & fed1 & ok1 & S & _).
  destruct (simulation_steps cfg _ _ _ _ S c W) as (c' & EQ & _). rewrite <- er_verify_session in EQ.
  exact (proj1 (tk_verify_session q cfg p c m0 msg M pk PK tail fs on W HI HF Bt LS _ EQ)).
Qed.
(** At least as many bytes as a signature has: valid or not, too long or not *)
Theorem C51_whole_verification_runs : forall cfg p c m0 msg M pk PK fs q,
  ps_enabled cfg p = true -> wf_ctx cfg c -> verify_init_ok cfg m0 msg M p pk PK -> feeds_need p pk PK msg M [] fs ->
  slh_sig_length (slh_of p) <= len (all_fed fs) ->
  let steps := chain_steps (slh_of p) PK M (all_fed fs) in
  let run := l_verify_session cfg m0 msg (len M) p pk fs c in
  result run = calls cfg (verify_history m0 msg (len M) p pk fs) c /\
  times_run q (trace run) = prehash_runs cfg p q + check_runs cfg p (len M) steps q /\
  0 <= steps <= 15 * (p_d (slh_of p) * wlen (slh_of p)).
Proof.
  intros cfg p c m0 msg M pk PK fs q on W HI HF LS steps run.
  destruct (C51_verification_runs cfg p c m0 msg M pk PK fs [] q on W HI HF ltac:(constructor) ltac:(rewrite app_nil_r; exact LS)) as [X1 X2].
  split; [exact X1|]. split; [|apply chain_steps_range]. unfold run. rewrite X2, app_nil_r, complete_all.
  - apply (f_equal2 Z.add eq_refl), sum_verify_runs.
  - destruct p; cbn; lia.
  - rewrite map_length, blocks_length. exact LS.
Qed.


(** ** TS_SHA2_OPTIMIZATION *)
Section Opt.
Variables (cfg1 cfg2 : config) (p : ps_name).
Hypothesis H1 : cfg_sha2_opt cfg1 = true.
Hypothesis H2 : cfg_sha2_opt cfg2 = false.
Definition without : config := mkConfig true true true true true false 0 true true true.
Lemma same_saved cfg cfg' : cfg_sha2_opt cfg = cfg_sha2_opt cfg' -> saved cfg p = saved cfg' p.
Proof. unfold saved. intros ->. reflexivity. Qed.
Lemma same_keygen cfg cfg' q : cfg_sha2_opt cfg = cfg_sha2_opt cfg' ->
  prehash_runs cfg p q = prehash_runs cfg' p q /\ keygen_runs cfg p q = keygen_runs cfg' p q /\ begun_runs cfg p 0 q = begun_runs cfg' p 0 q /\
  forall s, signature_runs cfg p s q = signature_runs cfg' p s q.
Proof.
  intros E. unfold signature_runs, keygen_runs, subtree_runs, ots_key_runs, fors_leaf_runs, H_runs, F_runs, begun_runs, PRF_runs, T_runs, prehash_runs.
  rewrite (same_saved cfg cfg' E), E. auto.
Qed.
Lemma sig_linear cfg s q : signature_runs cfg p s q = signature_runs cfg p 0 q + s * F_runs cfg p q.
Proof. unfold signature_runs. ring. Qed.
End Opt.

(** The cost of a key pair *)
Lemma halves_keygen cfg1 cfg2 p : is_sha2 p = true -> cfg_sha2_opt cfg1 = true -> cfg_sha2_opt cfg2 = false ->
  let t1 := sha2_runs (fun q => prehash_runs cfg1 p q + keygen_runs cfg1 p q) in
  let t2 := sha2_runs (fun q => prehash_runs cfg2 p q + keygen_runs cfg2 p q) in
  198 * t1 <= 100 * t2 /\ t2 <= 2 * t1.
Proof.
  intros S H1 H2 t1 t2. subst t1 t2. unfold sha2_runs.
  assert (E1 : cfg_sha2_opt cfg1 = cfg_sha2_opt full_cfg) by exact H1. assert (E2 : cfg_sha2_opt cfg2 = cfg_sha2_opt without) by exact H2.
  destruct (same_keygen p cfg1 full_cfg sha256_compression E1) as (-> & -> & _). destruct (same_keygen p cfg1 full_cfg sha512_compression E1) as (-> & -> & _).
  destruct (same_keygen p cfg2 without sha256_compression E2) as (-> & -> & _). destruct (same_keygen p cfg2 without sha512_compression E2) as (-> & -> & _).
  destruct p; try discriminate S; vm_compute; split; discriminate.
Qed.
(** The cost of a signature *)
Lemma msg_runs_range p L : is_sha2 p = true -> 0 <= L -> 
  0 <= sha2_runs (fun q => PRF_msg_runs p L q + H_msg_runs p L q) <= 2 * (L / 64) + 18.
Proof.
  intros S HL. unfold sha2_runs, PRF_msg_runs, H_msg_runs, hashed, of_, digest_bytes.
  destruct p; try discriminate S; change (wide _) with sha256_compression || change (wide _) with sha512_compression; cbn [rate padding slh_of p_n Z.eqb Pos.eqb];
    try change ((49 - 1) / (64 / 2) + 1) with 2; try change ((49 - 1) / (128 / 2) + 1) with 1; change (64 / 2) with 32; change (128 / 2) with 64.
  all: match goal with |- context [p_n ?x] => let v := eval vm_compute in (p_n x) in change (p_n x) with v end; dlia.
Qed.
Lemma halves_signing cfg1 cfg2 p L s : is_sha2 p = true -> cfg_sha2_opt cfg1 = true -> cfg_sha2_opt cfg2 = false ->
  0 <= L <= 100000 -> 0 <= s ->
  let t1 := sha2_runs (fun q => prehash_runs cfg1 p q + init_sign_runs cfg1 p L q + signature_runs cfg1 p s q) in
  let t2 := sha2_runs (fun q => prehash_runs cfg2 p q + init_sign_runs cfg2 p L q + signature_runs cfg2 p s q) in
  195 * t1 <= 100 * t2 /\ t2 <= 2 * t1.
Proof.
  intros S H1 H2 HL Hs t1 t2. subst t1 t2. pose proof (msg_runs_range p L S ltac:(lia)) as R. unfold sha2_runs, init_sign_runs in *.
  assert (L / 64 <= 1563) by dlia.
  assert (E1 : cfg_sha2_opt cfg1 = cfg_sha2_opt full_cfg) by exact H1. assert (E2 : cfg_sha2_opt cfg2 = cfg_sha2_opt without) by exact H2.
  destruct (same_keygen p cfg1 full_cfg sha256_compression E1) as (-> & _ & -> & A1). destruct (same_keygen p cfg1 full_cfg sha512_compression E1) as (-> & _ & -> & A2).
  destruct (same_keygen p cfg2 without sha256_compression E2) as (-> & _ & -> & A3). destruct (same_keygen p cfg2 without sha512_compression E2) as (-> & _ & -> & A4).
  rewrite A1, A2, A3, A4. rewrite !(sig_linear p _ s). clear - R S Hs H.
  set (a := PRF_msg_runs p L sha256_compression) in *. set (b := PRF_msg_runs p L sha512_compression) in *.
  set (c := H_msg_runs p L sha256_compression) in *. set (d := H_msg_runs p L sha512_compression) in *. clearbody a b c d.
  repeat match goal with |- context [signature_runs ?x ?y 0 ?z] => let v := fresh "v" in pose (v := signature_runs x y 0 z); fold v
         | |- context [prehash_runs ?x ?y ?z] => let v := fresh "v" in pose (v := prehash_runs x y z); fold v
         | |- context [begun_runs ?x ?y 0 ?z] => let v := fresh "v" in pose (v := begun_runs x y 0 z); fold v
         | |- context [F_runs ?x ?y ?z] => let v := fresh "v" in pose (v := F_runs x y z); fold v end.
  destruct p; try discriminate S; 
   repeat match goal with v := _ |- _ => vm_compute in v; subst v end; lia.
Qed.

(** "Approximately halves the signing time": between 1.95 and 2 times the runs for a
    signature, messages of up to 100000 bytes (each block of a longer one adds the same to
    both); between 1.98 and 2 times the runs for a key pair. *)
Theorem C51_optimisation_halves_keygen : forall cfg1 cfg2 p addr1 addr2 priv1 priv2 pub1 pub2 g,
  is_sha2 p = true -> cfg_sha2_opt cfg1 = true -> cfg_sha2_opt cfg2 = false ->
  ps_enabled cfg1 p = true -> ps_enabled cfg2 p = true -> genkey_ok p priv1 pub1 g -> genkey_ok p priv2 pub2 g -> fst (g (3 * p_n (slh_of p))) <> 0 ->
  let run1 := l_ts_gen_key cfg1 (Some (addr1, priv1)) pub1 (Some (the_ps cfg1 p)) (Some g) in
  let run2 := l_ts_gen_key cfg2 (Some (addr2, priv2)) pub2 (Some (the_ps cfg2 p)) (Some g) in
  let with_ := sha2_runs (fun q => times_run q (trace run1)) in
  let without := sha2_runs (fun q => times_run q (trace run2)) in
  198 * with_ <= 100 * without /\ without <= 2 * with_.
Proof.
  intros cfg1 cfg2 p a1 a2 r1 r2 b1 b2 g S H1 H2 on1 on2 G1 G2 NZ run1 run2. apply Z.eqb_neq in NZ.
  assert (A : forall q, times_run q (trace run1) = prehash_runs cfg1 p q + keygen_runs cfg1 p q) by (intros q; unfold run1, run2; rewrite (proj2 (C51_keygen_runs cfg1 p a1 r1 b1 g q on1 G1)), NZ; reflexivity).
  assert (B : forall q, times_run q (trace run2) = prehash_runs cfg2 p q + keygen_runs cfg2 p q) by (intros q; unfold run1, run2; rewrite (proj2 (C51_keygen_runs cfg2 p a2 r2 b2 g q on2 G2)), NZ; reflexivity).
  clearbody run1 run2. unfold sha2_runs. rewrite !A, !B. exact (halves_keygen cfg1 cfg2 p S H1 H2).
Qed.
Theorem C51_optimisation_halves_signing : forall cfg1 cfg2 p sk1 sk2 c1 c2 m1 m2 msg1 msg2 M SK f rqs1 rqs2,
  is_sha2 p = true -> cfg_sha2_opt cfg1 = true -> cfg_sha2_opt cfg2 = false -> len M <= 100000 ->
  ps_enabled cfg1 p = true -> wf_ctx cfg1 c1 -> sign_init_ok m1 msg1 M p sk1 SK f -> Forall (request_ok sk1 SK) rqs1 -> slh_sig_length (slh_of p) <= asked rqs1 ->
  ps_enabled cfg2 p = true -> wf_ctx cfg2 c2 -> sign_init_ok m2 msg2 M p sk2 SK f -> Forall (request_ok sk2 SK) rqs2 -> slh_sig_length (slh_of p) <= asked rqs2 ->
  let with_ := sha2_runs (fun q => times_run q (trace (l_session cfg1 m1 msg1 (len M) p sk1 f rqs1 c1))) in
  let without := sha2_runs (fun q => times_run q (trace (l_session cfg2 m2 msg2 (len M) p sk2 f rqs2 c2))) in
  195 * with_ <= 100 * without /\ without <= 2 * with_.
Proof.
  intros cfg1 cfg2 p sk1 sk2 c1 c2 m1 m2 a1 a2 M SK f r1 r2 S H1 H2 HL on1 W1 I1 F1 L1 on2 W2 I2 F2 L2.
  set (run1 := l_session cfg1 m1 a1 (len M) p sk1 f r1 c1). set (run2 := l_session cfg2 m2 a2 (len M) p sk2 f r2 c2).
  pose proof (fun q => C51_signature_runs cfg1 p sk1 c1 m1 a1 M SK f r1 q on1 W1 I1 F1 L1) as A. pose proof (fun q => C51_signature_runs cfg2 p sk2 c2 m2 a2 M SK f r2 q on2 W2 I2 F2 L2) as B.
  cbv zeta in A, B. fold run1 in A. fold run2 in B. set (s := chain_steps _ _ _ _) in A, B.
  assert (Hs : 0 <= s) by apply (A sha256_compression). clearbody run1 run2 s.
  unfold sha2_runs. rewrite !(proj1 (proj2 (A _))), !(proj1 (proj2 (B _))). apply (halves_signing cfg1 cfg2 p (len M) s S H1 H2); [unfold len in *; lia|exact Hs].
Qed.
(** "It doesn't speed SHAKE parameter set at all": no option of tune.h changes the number
    of permutations *)
Lemma shake_same cfg1 cfg2 p : is_sha2 p = false -> forall q,
  prehash_runs cfg1 p q = prehash_runs cfg2 p q /\ keygen_runs cfg1 p q = keygen_runs cfg2 p q /\ begun_runs cfg1 p 0 q = begun_runs cfg2 p 0 q /\
  forall s, signature_runs cfg1 p s q = signature_runs cfg2 p s q.
Proof.
  intros S q. unfold signature_runs, keygen_runs, subtree_runs, ots_key_runs, fors_leaf_runs, H_runs, F_runs, begun_runs, PRF_runs, T_runs, prehash_runs, saved.
  rewrite S, !andb_false_r. auto.
Qed.
Theorem C51_shake_no_speedup : forall cfg1 cfg2 p sk1 sk2 c1 c2 m1 m2 msg1 msg2 M SK f rqs1 rqs2 q,
  is_sha2 p = false ->
  ps_enabled cfg1 p = true -> wf_ctx cfg1 c1 -> sign_init_ok m1 msg1 M p sk1 SK f -> Forall (request_ok sk1 SK) rqs1 -> slh_sig_length (slh_of p) <= asked rqs1 ->
  ps_enabled cfg2 p = true -> wf_ctx cfg2 c2 -> sign_init_ok m2 msg2 M p sk2 SK f -> Forall (request_ok sk2 SK) rqs2 -> slh_sig_length (slh_of p) <= asked rqs2 ->
  times_run q (trace (l_session cfg1 m1 msg1 (len M) p sk1 f rqs1 c1)) = times_run q (trace (l_session cfg2 m2 msg2 (len M) p sk2 f rqs2 c2)).
Proof.
  intros cfg1 cfg2 p sk1 sk2 c1 c2 m1 m2 a1 a2 M SK f r1 r2 q S on1 W1 I1 F1 L1 on2 W2 I2 F2 L2.
  rewrite (proj1 (proj2 (C51_signature_runs cfg1 p sk1 c1 m1 a1 M SK f r1 q on1 W1 I1 F1 L1))), (proj1 (proj2 (C51_signature_runs cfg2 p sk2 c2 m2 a2 M SK f r2 q on2 W2 I2 F2 L2))).
  unfold init_sign_runs. destruct (shake_same cfg1 cfg2 p S q) as (-> & _ & -> & A). rewrite A. reflexivity.
Qed.

(** ** Numbers.  Runs of SHA-256 and SHA-512 for key pairs; for signatures without the
    chain steps and the message; with and without the optimisation *)
Example numbers_128f :
  map (fun c => sha2_runs (fun q => prehash_runs c SHA2_128f q + keygen_runs c SHA2_128f q)) [full_cfg; without] = [4568; 9062] /\
  map (fun c => sha2_runs (fun q => prehash_runs c SHA2_128f q + signature_runs c SHA2_128f 0 q)) [full_cfg; without] = [107590; 213585].
Proof. vm_compute. split; reflexivity. Qed.
Example numbers_256s :
  map (fun q => keygen_runs full_cfg SHA2_256s q) [sha256_compression; sha512_compression] = [274432; 4863] /\
  map (fun q => keygen_runs full_cfg SHAKE_256s q) [sha256_compression; sha512_compression; keccak_permutation] = [0; 0; 279039].
Proof. vm_compute. split; reflexivity. Qed.

(** The hypotheses can be met: the session of PropWork (ex_two_requests) that asks for the
    first 20 bytes of a signature, then for 12.  One run for the state that is saved; four
    for PRF_msg; one for the message and two for each of the two blocks of MGF1 in H_msg; then
    two calls of PRF and one of F, each a single run. *)
Example ex_two_runs :
  let c := zero_ctx full_cfg (the_ps full_cfg SHA2_128f) in
  let run := l_session full_cfg ex_mem 1064 (len ex_M) SHA2_128f 1000 ex_rng (ex_two ex_mem) c in
  result run = calls full_cfg (sign_history ex_mem 1064 (len ex_M) SHA2_128f 1000 ex_rng (ex_two ex_mem)) c /\
  times_run sha256_compression (trace run) = 13 /\ times_run sha512_compression (trace run) = 0.
Proof.
  intros c run. destruct ex_sessions_hypotheses as (_ & _ & HI & _ & HR & _).
  pose proof (fun q => C51_signing_runs full_cfg SHA2_128f 1000 c ex_mem 1064 ex_M ex_SK ex_rng (ex_two ex_mem) q eq_refl (zero_wf full_cfg _) HI HR) as X.
  cbv zeta in X. change (p_n (slh_of SHA2_128f)) with 16 in X. change (asked (ex_two ex_mem)) with 32 in X.
  fold run in X. split; [exact (proj1 (X sha256_compression))|]. assert (X' := fun q => proj2 (X q)). clear X HI HR. clearbody run. rewrite (X' sha256_compression), (X' sha512_compression). clear X'.
  set (PK := skipn _ _). set (SIG := signature _ _ _ _). clearbody PK SIG.
  assert (Y : forall q, begun 16 (map (fun b => sign_runs full_cfg SHA2_128f PK ex_M SIG q b) (blocks_of (slh_of SHA2_128f))) 32 = PRF_runs full_cfg SHA2_128f q + fors_leaf_runs full_cfg SHA2_128f q).
  { intros q. unfold begun. rewrite (PfWorkSign.pre_sum (fun i => 16 * Z.of_nat i <? 32) _ _ 2).
    - cbn [PfWorkSign.pre]. set (g := fun b => sign_runs _ _ _ _ _ q b).
      change (nth 0 (map g (blocks_of (slh_of SHA2_128f))) 0) with 0. change (nth 1 (map g (blocks_of (slh_of SHA2_128f))) 0) with (g (FewTimeSecret 0)). unfold g. cbn [sign_runs]. ring.
    - intros i. rewrite Z.ltb_lt. lia.
    - intros i Hi. apply nth_overflow, Hi. }
  rewrite !Y. vm_compute. split; reflexivity.
Qed.

(** The case of PropSign (ex_sign_hypotheses: SHA2-128f, a whole signature in three
    requests), in two configurations *)
Example ex_halves :
  let c cfg := zero_ctx cfg (the_ps cfg SHA2_128f) in
  let t cfg := sha2_runs (fun q => times_run q (trace (l_session cfg ex_mem 1064 (len ex_M) SHA2_128f 1000 ex_rng ex_rqs (c cfg)))) in
  195 * t full_cfg <= 100 * t without /\ t without <= 2 * t full_cfg.
Proof.
  intros c t. destruct ex_sign_hypotheses as (_ & _ & HI & HR & HL & _).
  exact (C51_optimisation_halves_signing full_cfg without SHA2_128f 1000 1000 (c full_cfg) (c without) ex_mem ex_mem 1064 1064 ex_M ex_SK ex_rng ex_rqs ex_rqs
    eq_refl eq_refl eq_refl ltac:(cbv; discriminate) eq_refl (zero_wf full_cfg _) HI HR HL eq_refl (zero_wf without _) HI HR HL).
Qed.

Print Assumptions C51_keygen_runs.
Print Assumptions C51_keygen_refused.
Print Assumptions C51_signing_runs.
Print Assumptions C51_signature_runs.
Print Assumptions C51_each_request_runs.
Print Assumptions C51_verification_runs.
Print Assumptions C51_whole_verification_runs.
Print Assumptions C51_optimisation_halves_keygen.
Print Assumptions C51_optimisation_halves_signing.
Print Assumptions C51_shake_no_speedup.
