(** * How long one call can take (C55)

    Signatures are streamed: ts_sign and ts_update_verify are called again and again with
    small pieces.  A device that does so (an HSM with a watchdog, say) depends on no single
    call taking long.  C51 says how often the hash primitives run for each block; here is
    what one call can take at most, for all keys, messages, histories and sizes.
    SpecLatency.v has the figures.  Statements; more of the proofs is in PfLatency.v. *)
From Verif Require Import Arr CLeak SpecSLH SpecApi SpecMap SpecSessions SpecReuse SpecForge SpecLeak SpecWork SpecBlocks SpecLatency ModelParams ModelCtx ModelSphincs ModelKeygen ModelVerify ModelApi.
From Verif Require Import PfEnv PfApi PfKeygen PfComplete PfSession PropApi PropSign PropVerify PropLeak PropLifetimes LeakSphincs LeakVerify PfLeakErase4 PfLeakSession PfWorkCheck PfWorkTotals PropWork PropBlocks PfLatency.
Ltac Zify.zify_post_hook ::= idtac.

Lemma each_request cfg p sk c m0 msg M SK f rqs r :
  ps_enabled cfg p = true -> wf_ctx cfg c -> sign_init_ok m0 msg M p sk SK f -> Forall (request_ok sk SK) rqs -> request_ok sk SK r ->
  let PK := skipn (Z.to_nat (2 * p_n (slh_of p))) SK in
  let SIG := signature p M SK f in
  let upto q := begun (p_n (slh_of p)) (map (fun b => sign_runs cfg p PK M SIG q b) (blocks_of (slh_of p))) in
  exists os d,
    calls cfg (sign_history m0 msg (len M) p sk f rqs) c = Ok (Started :: os, d) /\
    let run := l_ts_sign cfg (rq_mem r) (rq_dest r) (rq_size r) d in
    result run = ts_sign cfg (rq_mem r) (rq_dest r) (rq_size r) d /\
    forall q, times_run q (trace run) = upto q (asked rqs + rq_size r) - upto q (asked rqs).
Proof.
  intros on W IO RQ HR PK SIG up.
  destruct (C51_each_request_runs cfg p sk c m0 msg M SK f rqs r sha256_compression on W IO RQ HR) as (os & d & E & R & _).
  exists os, d. split; [exact E|]. split; [exact R|]. intros q.
  destruct (C51_each_request_runs cfg p sk c m0 msg M SK f rqs r q on W IO RQ HR) as (os' & d' & E' & _ & T).
  rewrite E in E'. assert (d = d') as <- by congruence. exact T.
Qed.
Lemma time_ext w x y : (forall q, x q = y q) -> time w x = time w y.
Proof. intros H. unfold time. rewrite !H. reflexivity. Qed.
Lemma time_sub w x y : time w (fun q => x q - y q) = time w x - time w y.
Proof. unfold time. ring. Qed.

(** C55, signing: a call of ts_sign for [s] bytes takes no longer than half a key
    generation for each n bytes asked for. *)
Theorem C55_signing_latency : forall cfg p sk c m0 msg M SK f rqs r w,
  ps_enabled cfg p = true -> wf_ctx cfg c -> sign_init_ok m0 msg M p sk SK f ->
  Forall (request_ok sk SK) rqs -> request_ok sk SK r -> plausible w ->
  exists os d,
    calls cfg (sign_history m0 msg (len M) p sk f rqs) c = Ok (Started :: os, d) /\
    let run := l_ts_sign cfg (rq_mem r) (rq_dest r) (rq_size r) d in
    result run = ts_sign cfg (rq_mem r) (rq_dest r) (rq_size r) d /\
    2 * time w (fun q => times_run q (trace run)) <=
      pieces (p_n (slh_of p)) (rq_size r) * time w (twice_sign_latency cfg p).
Proof.
  intros cfg p sk c m0 msg M SK f rqs r w on W IO RQ HR Hw.
  destruct (each_request cfg p sk c m0 msg M SK f rqs r on W IO RQ HR) as (os & d & E & R & T). exists os, d. split; [exact E|]. split; [exact R|].
  rewrite (time_ext w _ _ T), time_sub, !time_begun.
  set (g := fun b => time w _). set (xs := map g (blocks_of (slh_of p))).
  assert (D : forall u, begun (p_n (slh_of p)) (map (fun b => 2 * g b) (blocks_of (slh_of p))) u = 2 * begun (p_n (slh_of p)) xs u).
  { intros u. unfold begun, xs. rewrite !map_length. rewrite <- sum_scale. apply sum_ext. intros i Hi. apply in_seq in Hi.
    destruct (blocks_of (slh_of p)) as [|b0 bs]; [cbn in Hi; lia|]. rewrite !(nth_map0 _ _ b0) by lia. destruct (_ <? u); lia. }
  rewrite Z.mul_sub_distr_l, <- !D.
  apply begun_step.
  - destruct p; cbn; lia.
  - apply HR.
  - pose proof (sign_block_time cfg p [] [] [] w TheRandomiser Hw (or_introl eq_refl)) as X. unfold time in X at 1. cbn [sign_runs] in X. lia.
  - intros x Hx. apply in_map_iff in Hx. destruct Hx as (b & <- & Hb). exact (sign_block_time cfg p _ M _ w b Hw Hb).
Qed.
Print Assumptions C55_signing_latency.

(** The figure is reached, in every layer: a call for one to n bytes that begins the last
    node of an authentication path. *)
Theorem C55_signing_latency_reached : forall cfg p l, ps_enabled cfg p = true -> 0 <= l < p_d (slh_of p) ->
  exists u, 0 <= u < slh_sig_length (slh_of p) /\
  forall sk c m0 msg M SK f rqs r w, wf_ctx cfg c -> sign_init_ok m0 msg M p sk SK f ->
  Forall (request_ok sk SK) rqs -> request_ok sk SK r -> asked rqs = u -> 0 < rq_size r <= p_n (slh_of p) ->
  exists os d,
    calls cfg (sign_history m0 msg (len M) p sk f rqs) c = Ok (Started :: os, d) /\
    let run := l_ts_sign cfg (rq_mem r) (rq_dest r) (rq_size r) d in
    result run = ts_sign cfg (rq_mem r) (rq_dest r) (rq_size r) d /\
    2 * time w (fun q => times_run q (trace run)) = time w (twice_sign_latency cfg p).
Proof.
  intros cfg p l on Hl. pose proof (k_range p) as K.
  assert (Hin : In (TreePath l (p_h' (slh_of p) - 1)) (blocks_of (slh_of p))).
  { assert (U : forall a x, 0 <= x < a -> In x (upto a)). { intros a x H. unfold upto. apply in_map_iff. exists (Z.to_nat x). split; [lia|]. apply in_seq. lia. }
    unfold blocks_of. right. apply in_or_app. right. apply in_flat_map. exists l. split; [apply U; exact Hl|]. apply in_or_app. right. apply in_map, U. lia. }
  destruct (In_nth _ _ TheRandomiser Hin) as (i & Hi & Hn).
  exists (p_n (slh_of p) * Z.of_nat i). pose proof (n_range p) as N. split.
  { pose proof (blocks_length p) as B. clear - B Hi N. assert (Z.of_nat i < Z.of_nat (length (blocks_of (slh_of p)))) by lia. nia. }
  intros sk c m0 msg M SK f rqs r w W IO RQ HR Hu Hs.
  destruct (each_request cfg p sk c m0 msg M SK f rqs r on W IO RQ HR) as (os & d & E & R & T). exists os, d. split; [exact E|]. split; [exact R|].
  rewrite (time_ext w _ _ T), time_sub, !time_begun, Hu. rewrite begun_one by (try rewrite map_length; lia).
  rewrite (nth_map0 _ _ TheRandomiser) by exact Hi. rewrite Hn. cbn [sign_runs]. unfold time. rewrite <- !twice_tree. ring.
Qed.
Print Assumptions C55_signing_latency_reached.

(** C55, verification: a call of ts_update_verify takes no longer than one chain and three
    hashes for each n bytes it is given; the call in which the first n bytes are complete
    computes the message digest in addition. *)
Lemma need_prefix p pk PK msg M fd fs : forall fed, feeds_need p pk PK msg M fed (fs ++ [fd]) -> feeds_need p pk PK msg M fed fs /\ is_bytes (fd_chunk fd).
Proof.
  induction fs as [|f fs IH]; intros fed H; cbn [app feeds_need] in H |- *; destruct H as (H1 & H2 & H3 & H4 & H5); [split; [exact I|exact H2]|].
  destruct (IH _ H5) as [X Y]. split; [|exact Y]. split; [exact H1|]. split; [exact H2|]. split; [exact H3|]. split; [exact H4|exact X].
Qed.
Theorem C55_verification_latency : forall cfg p c m0 msg M pk PK fs fd q,
  ps_enabled cfg p = true -> wf_ctx cfg c -> verify_init_ok cfg m0 msg M p pk PK -> feeds_need p pk PK msg M [] (fs ++ [fd]) ->
  let n := p_n (slh_of p) in
  let before := len (all_fed fs) in
  let size := len (fd_chunk fd) in
  exists os d,
    calls cfg (verify_history m0 msg (len M) p pk fs) c = Ok (Started :: os, d) /\
    let run := l_ts_update_verify cfg (fd_mem fd) (fd_chunk fd) size d in
    result run = ts_update_verify cfg (fd_mem fd) (fd_chunk fd) size d /\
    times_run q (trace run) <=
      pieces n size * check_latency cfg p q +
      (if (before <? n) && (n <=? before + size) then first_check_latency cfg p (len M) q else 0).
Proof.
  intros cfg p c m0 msg M pk PK fs fd q on W HI HF n before size.
  destruct (need_prefix _ _ _ _ _ _ _ _ HF) as [HF0 Bc].
  destruct (steps_verify_need cfg Fresh m0 msg M p pk PK fs on HI HF0) as (M1 & fed1 & ok1 & S1 & _).
  destruct (simulation_steps cfg _ _ _ _ S1 c W) as (d & E1 & _).
  destruct (steps_verify_need cfg Fresh m0 msg M p pk PK (fs ++ [fd]) on HI HF) as (M2 & fed2 & ok2 & S2 & _).
  destruct (simulation_steps cfg _ _ _ _ S2 c W) as (d2 & E2 & _).
  exists (verify_answers (slh_of p) M PK [] true fs), d. split; [exact E1|]. intros run. split; [apply er_update_verify|].
  assert (Y : exists y, ts_update_verify cfg (fd_mem fd) (fd_chunk fd) (zlen (fd_chunk fd)) d = Ok y).
  { unfold verify_history, feed_calls in E1, E2. rewrite map_app, app_comm_cons in E2. rewrite (PropVerify.calls_app cfg _ _ _ _ _ E1) in E2. cbn [map calls call] in E2.
    destruct (ts_update_verify cfg (fd_mem fd) (fd_chunk fd) (zlen (fd_chunk fd)) d) as [y|]; [exists y; reflexivity|]. cbn [bind] in E2. discriminate. }
  pose proof (er_verify_session cfg m0 msg (len M) p pk fs c) as R1. rewrite E1 in R1.
  pose proof (session_snoc cfg m0 msg (len M) p pk fd q fs c _ d R1 Y) as SN.
  set (tail := repeat 0 (Z.to_nat (slh_sig_length (slh_of p)))).
  assert (Bt : is_bytes tail) by apply PfGlueSha.zeros_bytes'.
  assert (LL : 0 <= slh_sig_length (slh_of p)) by (destruct p; cbn; lia).
  assert (Lt : slh_sig_length (slh_of p) <= len tail) by (unfold tail, len; rewrite repeat_length; lia).
  assert (EA : all_fed (fs ++ [fd]) = all_fed fs ++ fd_chunk fd).
  { unfold all_fed. rewrite map_app, concat_app. cbn [map concat]. rewrite app_nil_r. reflexivity. }
  destruct (C51_verification_runs cfg p c m0 msg M pk PK fs (fd_chunk fd ++ tail) q on W HI HF0) as [_ T1].
  { apply PfIter.bytes_app; assumption. }
  { rewrite !len_app. unfold len in *. lia. }
  destruct (C51_verification_runs cfg p c m0 msg M pk PK (fs ++ [fd]) tail q on W HI HF Bt) as [_ T2].
  { rewrite !len_app. unfold len in *. lia. }
  rewrite EA, <- app_assoc in T2. unfold run. change (l_ts_update_verify cfg (fd_mem fd) (fd_chunk fd) size d) with (l_ts_update_verify cfg (fd_mem fd) (fd_chunk fd) (zlen (fd_chunk fd)) d).
  set (tr := times_run q (trace (l_ts_update_verify cfg (fd_mem fd) (fd_chunk fd) (zlen (fd_chunk fd)) d))) in *.
  rewrite T1, T2, len_app in SN. fold before in SN. fold size in SN.
  set (S := all_fed fs ++ fd_chunk fd ++ tail) in *.
  change (blocks_of (slh_of p)) with (TheRandomiser :: tl (blocks_of (slh_of p))) in SN. cbn [map] in SN.
  pose proof (n_range p) as N. fold n in SN, N.
  assert (0 <= before /\ 0 <= size) as [Hb Hz] by (unfold before, size, len; lia).
  pose proof (PRF_nonneg cfg p q) as H1. pose proof (T_nonneg cfg p 2 q ltac:(lia)) as H2.
  pose proof (complete_step n (verify_runs cfg p PK M S q TheRandomiser) (map (fun b => verify_runs cfg p PK M S q b) (tl (blocks_of (slh_of p)))) before size (check_latency cfg p q)
    ltac:(lia) Hz Hb ltac:(unfold check_latency, F_runs, H_runs; lia)) as X.
  assert (X' := X (fun x Hx => match proj1 (in_map_iff _ _ _) Hx with ex_intro _ b (conj e h) => eq_ind _ (fun x => x <= _) (check_block_runs cfg p PK M S q b h) _ e end)). clear X.
  cbn [verify_runs] in X'. change (Z.of_nat (length M)) with (len M) in X'. change (H_msg_runs p (len M) q + begun_runs cfg p 0 q) with (first_check_latency cfg p (len M) q) in X'.
  assert (F0 : 0 <= first_check_latency cfg p (len M) q).
  { unfold first_check_latency. pose proof (begun_nonneg cfg p 0 q ltac:(lia)). enough (0 <= H_msg_runs p (len M) q) by lia.
    unfold H_msg_runs. apply of_nonneg. assert (0 <= len M) by (unfold len; lia). fold n.
    pose proof (fun q => hashed_pos q (3 * n + len M) ltac:(lia)) as A. pose proof (fun q => hashed_pos q (2 * n + rate q / 2 + 4)) as B.
    destruct (wide p).
    - specialize (A sha256_compression). specialize (B sha256_compression). change (rate sha256_compression / 2) with 32 in *. change ((digest_bytes - 1) / 32 + 1) with 2. specialize (B ltac:(lia)). lia.
    - specialize (A sha512_compression). specialize (B sha512_compression). change (rate sha512_compression / 2) with 64 in *. change ((digest_bytes - 1) / 64 + 1) with 1. specialize (B ltac:(lia)). lia.
    - specialize (A keccak_permutation). change ((digest_bytes - 1) / 136) with 0. lia. }
  rewrite Z.max_r in X' by exact F0.
  change (verify_runs cfg p PK M S q TheRandomiser) with (first_check_latency cfg p (len M) q) in SN. lia.
Qed.
Print Assumptions C55_verification_latency.

(** ** Numbers: for SHA2-128f with the optimisation, a byte of signature takes at most 2284
    compressions (half of the 4567 of a key pair, rounded up), a byte of a signature that is
    checked at most 18; for SHAKE-256s 139520 and 18 permutations. *)
Example numbers_latency :
  (twice_sign_latency full_cfg SHA2_128f sha256_compression = 2 * 2284 /\ check_latency full_cfg SHA2_128f sha256_compression = 18) /\
  (twice_sign_latency full_cfg SHAKE_256s keccak_permutation = 2 * 139520 /\ check_latency full_cfg SHAKE_256s keccak_permutation = 18).
Proof. vm_compute. repeat split; reflexivity. Qed.

(** The hypotheses can be met: the case of PropSign (ex_sign_hypotheses), a first
    request of 17 bytes, with a SHA-512 compression twice as slow as a SHA-256
    compression *)
Example ex_latency :
  let c := zero_ctx full_cfg (the_ps full_cfg SHA2_128f) in
  let w q := match q with sha256_compression => 1 | sha512_compression => 2 | keccak_permutation => 3 end in
  let r := Req ex_mem (repeat 0 17) 17 in
  exists os d, calls full_cfg (sign_history ex_mem 1064 (len ex_M) SHA2_128f 1000 ex_rng []) c = Ok (Started :: os, d) /\
    time w (fun q => times_run q (trace (l_ts_sign full_cfg ex_mem (repeat 0 17) 17 d))) <= 2 * 2284.
Proof.
  intros c w r. destruct ex_sign_hypotheses as (_ & _ & HI & _).
  assert (Hr : request_ok 1000 ex_SK r).
  { split; [|split; [cbn; lia|cbn; reflexivity]]. apply HI. }
  destruct (C55_signing_latency full_cfg SHA2_128f 1000 c ex_mem 1064 ex_M ex_SK ex_rng [] r w eq_refl (zero_wf full_cfg _) HI (Forall_nil _) Hr) as (os & d & E & _ & T).
  { split; [intros []; cbn; lia|cbn; lia]. }
  exists os, d. split; [exact E|]. cbn [r rq_mem rq_dest rq_size] in T. change (pieces (p_n (slh_of SHA2_128f)) 17) with 2 in T.
  assert (V : time w (twice_sign_latency full_cfg SHA2_128f) = 2 * 2284) by (vm_compute; reflexivity). rewrite V in T. lia.
Qed.
(** ... the one of PropLifetimes (SHAKE-192s): 8 bytes were given, 20 follow; the first
    block is complete, and the digest of 5 bytes of message takes one permutation *)
Example ex_latency_verify :
  let fs := [Feed nowhere [1; 2; 3]; Feed nowhere [4; 5; 6; 7; 8]] in
  let c := zero_ctx full_cfg (the_ps full_cfg SHAKE_192s) in
  exists os d, calls full_cfg (verify_history (mem_of 2000 exv_PK) 2048 (len ex_M) SHAKE_192s 2000 fs) c = Ok (Started :: os, d) /\
    times_run keccak_permutation (trace (l_ts_update_verify full_cfg exv_mem (repeat 9 20) 20 d)) <= 19.
Proof.
  intros fs c. destruct ex_lifetime_verify as [HI HF]. unfold exl_fs in HF. change [Feed nowhere [1; 2; 3]; Feed nowhere [4; 5; 6; 7; 8]; Feed exv_mem (repeat 9 20); Feed nowhere (repeat 10 19)]
    with ((fs ++ [Feed exv_mem (repeat 9 20)]) ++ [Feed nowhere (repeat 10 19)]) in HF. apply need_prefix in HF. destruct HF as [HF _].
  destruct (C55_verification_latency full_cfg SHAKE_192s c _ 2048 ex_M 2000 exv_PK fs _ keccak_permutation eq_refl (zero_wf full_cfg _) HI HF) as (os & d & E & _ & T).
  exists os, d. split; [exact E|]. cbn [fd_mem fd_chunk] in T. change (len (repeat 9 20)) with 20 in T. etransitivity; [exact T|]. vm_compute. discriminate.
Qed.
