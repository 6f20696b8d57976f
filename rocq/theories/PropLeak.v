(** * Secrets do not steer the library (C43, C44, C45)

    What an observer can tell who sees the control flow of the library and the positions
    of its memory accesses, but no data.  CLeak.v defines such a trace; LeakSha2,
    LeakFips202, LeakHash and LeakSphincs are the model again, function by function, with
    the trace; the first part of each theorem says that it is the same program: its
    outcome is that of the model.  SpecLeak.v says what signing may show.

    Statements only; proofs are in the PfLeak files. *)
From Verif Require Import Arr CLeak SpecSLH SpecApi SpecMap SpecSessions SpecReuse SpecForge SpecLeak ModelParams ModelCtx ModelSphincs ModelKeygen ModelApi.
From Verif Require Import PfEnv PfApi PfKeygen PfComplete PfSession PropApi PropSign LeakSphincs PfLeakErase3 PfLeakHash PfLeakInit PfLeakSign PfLeakSession.
Ltac Zify.zify_post_hook ::= idtac.

Lemma named_cons cfg p : consistent (the_ps cfg p).
Proof. destruct p; exact I. Qed.
Lemma named_n cfg p : ps_n (the_ps cfg p) = p_n (slh_of p) /\ 0 <= ps_n (the_ps cfg p) < 2 ^ 63.
Proof. destruct p; cbn; lia. Qed.
Lemma eqb_iff a b : (a = 0 <-> b = 0) -> (a =? 0) = (b =? 0).
Proof. intros H. destruct (Z.eqb_spec a 0), (Z.eqb_spec b 0); tauto. Qed.

(** The blocks make up the signature *)
Lemma blocks_length p : p_n (slh_of p) * Z.of_nat (length (blocks_of (slh_of p))) = slh_sig_length (slh_of p).
Proof. destruct p; vm_compute; reflexivity. Qed.
Lemma blocks_end p b : slh_sig_length (slh_of p) <= p_n (slh_of p) * Z.of_nat b -> (length (blocks_of (slh_of p)) <= b)%nat.
Proof.
  rewrite <- blocks_length. intros H. assert (0 < p_n (slh_of p)) by (destruct p; cbn; lia).
  apply Z.mul_le_mono_pos_l in H; [lia|assumption].
Qed.

(** C43: two key generations with the same parameter set, the private key at the same
    address, a public key buffer in both or in none, and generators that both succeed or
    both fail, cannot be told apart: not by the random bytes, and not by what was in the
    buffers. *)
Theorem C43_keygen_shows_nothing : forall cfg p addr priv1 priv2 pub1 pub2 g1 g2,
  ps_enabled cfg p = true -> genkey_ok p priv1 pub1 g1 -> genkey_ok p priv2 pub2 g2 ->
  (pub1 = None <-> pub2 = None) -> answer_alike (Some g1) (Some g2) (3 * p_n (slh_of p)) ->
  let run1 := l_ts_gen_key cfg (Some (addr, priv1)) pub1 (Some (the_ps cfg p)) (Some g1) in
  let run2 := l_ts_gen_key cfg (Some (addr, priv2)) pub2 (Some (the_ps cfg p)) (Some g2) in
  result run1 = ts_gen_key cfg (Some (addr, priv1)) pub1 (Some (the_ps cfg p)) (Some g1) /\
  result run2 = ts_gen_key cfg (Some (addr, priv2)) pub2 (Some (the_ps cfg p)) (Some g2) /\
  trace run1 = trace run2.
Proof.
  intros cfg p addr priv1 priv2 pub1 pub2 g1 g2 on H1 H2 Hp Hg run1 run2.
  split; [apply er_gen_key|]. split; [apply er_gen_key|].
  assert (S : sim any run1 run2).
  { unfold run1, run2, l_ts_gen_key. eapply sim_bind.
    - cbn [option_map]. apply sim_gen_key; [apply named_cons|apply named_n| |].
      + destruct pub1, pub2; cbn; auto; exfalso; [destruct Hp as [_ Hp]|destruct Hp as [Hp _]]; discriminate (Hp eq_refl).
      + cbn [fst]. rewrite (proj1 (named_n cfg p)). apply eqb_iff, Hg.
    - intros [x1 []] [x2 []] _ _ _. apply sim_ret. exact I. }
  eapply S; unfold run1, run2; rewrite er_gen_key; [exact (gen_key_cases cfg p addr priv1 pub1 g1 on H1)|exact (gen_key_cases cfg p addr priv2 pub2 g2 on H2)].
Qed.

(** C44: neither do two calls of ts_init_sign show anything about the private key, the
    message, the random bytes or what was in the context: only where key and message are,
    the length of the message, and whether there is a random function that succeeds. *)
Lemma init_any cfg p sk msg l c1 c2 m1 m2 f1 f2 : answer_alike f1 f2 (p_n (slh_of p)) -> l < 2 ^ 60 ->
  sim any (l_ts_init_sign cfg m1 c1 msg l (the_ps cfg p) sk f1) (l_ts_init_sign cfg m2 c2 msg l (the_ps cfg p) sk f2).
Proof.
  intros Hf Hl. unfold l_ts_init_sign. eapply sim_bind.
  - apply sim_init_sign; [apply named_n| |lia]. unfold gens. destruct f1, f2; cbn [option_map answer_alike] in *; try contradiction; [|exact I].
    cbn [fst]. rewrite (proj1 (named_n cfg p)). apply eqb_iff, Hf.
  - intros [x1 []] [x2 []] _ _ _. apply sim_ret. exact I.
Qed.
Theorem C44_init_sign_shows_nothing : forall cfg p sk msg c1 c2 m1 m2 M1 M2 SK1 SK2 f1 f2,
  ps_enabled cfg p = true -> wf_ctx cfg c1 -> wf_ctx cfg c2 ->
  sign_init_ok m1 msg M1 p sk SK1 f1 -> sign_init_ok m2 msg M2 p sk SK2 f2 ->
  len M1 = len M2 -> answer_alike f1 f2 (p_n (slh_of p)) ->
  let run1 := l_ts_init_sign cfg m1 c1 msg (len M1) (the_ps cfg p) sk f1 in
  let run2 := l_ts_init_sign cfg m2 c2 msg (len M2) (the_ps cfg p) sk f2 in
  result run1 = ts_init_sign cfg m1 c1 msg (len M1) (the_ps cfg p) sk f1 /\
  result run2 = ts_init_sign cfg m2 c2 msg (len M2) (the_ps cfg p) sk f2 /\
  trace run1 = trace run2.
Proof.
  intros cfg p sk msg c1 c2 m1 m2 M1 M2 SK1 SK2 f1 f2 on W1 W2 I1 I2 HL Hf run1 run2.
  split; [apply er_init_sign|]. split; [apply er_init_sign|].
  destruct (RS_init cfg p sk c1 m1 msg f1 SK1 M1 on W1 I1) as (d1 & E1 & _). destruct (RS_init cfg p sk c2 m2 msg f2 SK2 M2 on W2 I2) as (d2 & E2 & _).
  assert (Hl : len M1 < 2 ^ 60) by apply I1.
  rewrite <- er_init_sign in E1. rewrite <- er_init_sign in E2.
  assert (S : sim any run1 run2) by (unfold run1, run2; rewrite <- HL; apply init_any; assumption).
  eapply S; [exact E1|exact E2].
Qed.

(** C45: a whole signing session.  Two sessions with the key and the message at the same
    addresses, messages of one length and requests of the same sizes cannot be told
    apart if the public views agree on the blocks that are made: left or right at each
    node of the authentication paths, and the number of steps in each chain. *)
Theorem C45_signing_shows_only_the_public_view : forall cfg p sk msg c1 c2 m1 m2 M1 M2 SK1 SK2 f1 f2 rqs1 rqs2,
  ps_enabled cfg p = true -> wf_ctx cfg c1 -> wf_ctx cfg c2 ->
  sign_init_ok m1 msg M1 p sk SK1 f1 -> sign_init_ok m2 msg M2 p sk SK2 f2 ->
  Forall (request_ok sk SK1) rqs1 -> Forall (request_ok sk SK2) rqs2 ->
  len M1 = len M2 -> answer_alike f1 f2 (p_n (slh_of p)) -> map rq_size rqs1 = map rq_size rqs2 ->
  let PK SK := skipn (Z.to_nat (2 * p_n (slh_of p))) SK in
  same_view (slh_of p) 0 (asked rqs1) (PK SK1) M1 (signature p M1 SK1 f1) (PK SK2) M2 (signature p M2 SK2 f2) ->
  let run1 := l_session cfg m1 msg (len M1) p sk f1 rqs1 c1 in
  let run2 := l_session cfg m2 msg (len M2) p sk f2 rqs2 c2 in
  result run1 = calls cfg (sign_history m1 msg (len M1) p sk f1 rqs1) c1 /\
  result run2 = calls cfg (sign_history m2 msg (len M2) p sk f2 rqs2) c2 /\
  trace run1 = trace run2.
Proof.
  intros cfg p sk msg c1 c2 m1 m2 M1 M2 SK1 SK2 f1 f2 rqs1 rqs2 on W1 W2 I1 I2 R1 R2 HL Hf Hs PK HV run1 run2.
  split; [apply er_session|]. split; [apply er_session|].
  destruct (RS_init cfg p sk c1 m1 msg f1 SK1 M1 on W1 I1) as (d1 & E1 & Q1). destruct (RS_init cfg p sk c2 m2 msg f2 SK2 M2 on W2 I2) as (d2 & E2 & Q2).
  assert (Hl : len M1 < 2 ^ 60) by apply I1.
  destruct (sign_session cfg p c1 m1 msg M1 sk SK1 f1 rqs1 on W1 I1 R1) as (e1 & T1). destruct (sign_session cfg p c2 m2 msg M2 sk SK2 f2 rqs2 on W2 I2 R2) as (e2 & T2).
  rewrite <- er_session in T1. rewrite <- er_session in T2.
  assert (S : sim any run1 run2); [|exact (proj1 (S _ _ T1 T2))].
  unfold run1, run2, l_session. rewrite <- HL.
  eapply sim_bind; [apply init_any; assumption|]. intros x1 x2 X1 X2 _.
  rewrite er_init_sign, E1 in X1. rewrite er_init_sign, HL, E2 in X2. injection X1 as <-. injection X2 as <-.
  eapply sim_bind; [apply (RS_requests cfg p sk _ _ _ _ _ _ _ _ 0 _ _ Q1 Q2 R1 R2 Hs HV)|].
  intros [os1 y1] [os2 y2] _ _ _. apply sim_ret. exact I.
Qed.
(** In particular: if public key, message and signature are the same, nothing else matters *)
Theorem C45_public_data_fix_the_trace : forall cfg p sk msg c1 c2 m1 m2 M SK1 SK2 f1 f2 rqs1 rqs2,
  ps_enabled cfg p = true -> wf_ctx cfg c1 -> wf_ctx cfg c2 ->
  sign_init_ok m1 msg M p sk SK1 f1 -> sign_init_ok m2 msg M p sk SK2 f2 ->
  Forall (request_ok sk SK1) rqs1 -> Forall (request_ok sk SK2) rqs2 ->
  answer_alike f1 f2 (p_n (slh_of p)) -> map rq_size rqs1 = map rq_size rqs2 ->
  let PK SK := skipn (Z.to_nat (2 * p_n (slh_of p))) SK in
  PK SK1 = PK SK2 -> signature p M SK1 f1 = signature p M SK2 f2 ->
  trace (l_session cfg m1 msg (len M) p sk f1 rqs1 c1) = trace (l_session cfg m2 msg (len M) p sk f2 rqs2 c2).
Proof.
  intros cfg p sk msg c1 c2 m1 m2 M SK1 SK2 f1 f2 rqs1 rqs2 on W1 W2 I1 I2 R1 R2 Hf Hs PK EPK ES.
  assert (HV : same_view (slh_of p) 0 (asked rqs1) (PK SK1) M (signature p M SK1 f1) (PK SK2) M (signature p M SK2 f2)) by (intros b _; rewrite EPK, ES; reflexivity).
  exact (proj2 (proj2 (C45_signing_shows_only_the_public_view cfg p sk msg c1 c2 m1 m2 M M SK1 SK2 f1 f2 rqs1 rqs2 on W1 W2 I1 I2 R1 R2 eq_refl Hf Hs HV))).
Qed.
(** A single request: it does not matter how the bytes before it were requested, and only
    the blocks that this request makes can be seen *)
Theorem C45_each_request : forall cfg p sk msg1 msg2 c1 c2 m1 m2 M1 M2 SK1 SK2 f1 f2 rqs1 rqs2 r1 r2,
  ps_enabled cfg p = true -> wf_ctx cfg c1 -> wf_ctx cfg c2 ->
  sign_init_ok m1 msg1 M1 p sk SK1 f1 -> sign_init_ok m2 msg2 M2 p sk SK2 f2 ->
  Forall (request_ok sk SK1) rqs1 -> Forall (request_ok sk SK2) rqs2 -> request_ok sk SK1 r1 -> request_ok sk SK2 r2 ->
  asked rqs1 = asked rqs2 -> rq_size r1 = rq_size r2 ->
  let PK SK := skipn (Z.to_nat (2 * p_n (slh_of p))) SK in
  same_view (slh_of p) (asked rqs1) (asked rqs1 + rq_size r1)
    (PK SK1) M1 (signature p M1 SK1 f1) (PK SK2) M2 (signature p M2 SK2 f2) ->
  exists os1 os2 d1 d2,
    calls cfg (sign_history m1 msg1 (len M1) p sk f1 rqs1) c1 = Ok (Started :: os1, d1) /\
    calls cfg (sign_history m2 msg2 (len M2) p sk f2 rqs2) c2 = Ok (Started :: os2, d2) /\
    let run1 := l_ts_sign cfg (rq_mem r1) (rq_dest r1) (rq_size r1) d1 in
    let run2 := l_ts_sign cfg (rq_mem r2) (rq_dest r2) (rq_size r2) d2 in
    result run1 = ts_sign cfg (rq_mem r1) (rq_dest r1) (rq_size r1) d1 /\
    result run2 = ts_sign cfg (rq_mem r2) (rq_dest r2) (rq_size r2) d2 /\
    trace run1 = trace run2.
Proof.
  intros cfg p sk msg1 msg2 c1 c2 m1 m2 M1 M2 SK1 SK2 f1 f2 rqs1 rqs2 r1 r2 on W1 W2 I1 I2 R1 R2 H1 H2 Ha Hs PK HV.
  destruct (sign_session cfg p c1 m1 msg1 M1 sk SK1 f1 rqs1 on W1 I1 R1) as (d1 & T1). destruct (sign_session cfg p c2 m2 msg2 M2 sk SK2 f2 rqs2 on W2 I2 R2) as (d2 & T2).
  exists (sign_answers (signature p M1 SK1 f1) rqs1), (sign_answers (signature p M2 SK2 f2) rqs2), d1, d2.
  split; [exact T1|]. split; [exact T2|]. split; [apply er_sign|]. split; [apply er_sign|].
  assert (K : forall c m msg M SK f rqs r d, wf_ctx cfg c -> sign_init_ok m msg M p sk SK f -> Forall (request_ok sk SK) rqs -> request_ok sk SK r ->
    calls cfg (sign_history m msg (len M) p sk f rqs) c = Ok (Started :: sign_answers (signature p M SK f) rqs, d) ->
    RS cfg p sk SK M (signature p M SK f) (Z.min (asked rqs) (slh_sig_length (slh_of p))) d /\
    exists x, result (l_ts_sign cfg (rq_mem r) (rq_dest r) (rq_size r) d) = Ok x).
  { intros c m msg M SK f rqs r d W IO RQ HR TT.
    destruct (RS_init cfg p sk c m msg f SK M on W IO) as (e & E & Q).
    assert (C : calls cfg (map (fun r => (rq_mem r, Sign (rq_dest r) (rq_size r))) rqs) e = Ok (sign_answers (signature p M SK f) rqs, d)).
    { unfold sign_history in TT. cbn [calls call] in TT. rewrite E in TT. cbn [bind] in TT.
      destruct (calls cfg (map _ rqs) e) as [[os y]|]; [|discriminate]. cbn [bind] in TT. injection TT as -> ->. reflexivity. }
    pose proof (RS_calls cfg p sk _ _ _ _ _ _ _ _ Q RQ C) as X.
    rewrite (gots_answers sk SK rqs _ RQ), (proj1 (signature_len _ _ _ _ _ _ _ IO)), Z.add_0_l in X. split; [exact X|].
    assert (RQ' : Forall (request_ok sk SK) (rqs ++ [r])) by (apply Forall_app; split; [exact RQ|constructor; [exact HR|constructor]]).
    destruct (sign_session cfg p c m msg M sk SK f (rqs ++ [r]) on W IO RQ') as (d' & T').
    unfold sign_history in T'. cbn [calls call] in T'. rewrite E in T'. cbn [bind] in T'. rewrite map_app, (PropVerify.calls_app cfg _ _ _ _ _ C) in T'. cbn [bind] in T'.
    cbn [map calls call] in T'. rewrite er_sign. destruct (ts_sign cfg (rq_mem r) (rq_dest r) (rq_size r) d) as [x|]; [exists x; reflexivity|].
    cbn [bind] in T'. discriminate. }
  destruct (K _ _ _ _ _ _ _ _ _ W1 I1 R1 H1 T1) as (Q1 & x1 & X1). destruct (K _ _ _ _ _ _ _ _ _ W2 I2 R2 H2 T2) as (Q2 & x2 & X2).
  rewrite <- Ha in Q2. rewrite <- Hs in *.
  assert (N1 : 0 <= asked rqs1) by (eapply asked_nonneg, R1).
  destruct (Z.le_gt_cases (asked rqs1) (slh_sig_length (slh_of p))) as [Hle|Hgt].
  - rewrite Z.min_l in Q1, Q2 by exact Hle.
    refine (proj1 (RS_sign cfg p sk _ _ _ _ _ _ _ _ _ _ _ _ _ _ Q1 Q2 (proj1 H1) (proj1 H2) (proj1 (proj2 H1)) HV x1 x2 X1 X2)).
  - (* at the end: no block is made *)
    rewrite Z.min_r in Q1, Q2 by lia.
    refine (proj1 (RS_sign cfg p sk _ _ _ _ _ _ _ _ _ _ _ _ _ _ Q1 Q2 (proj1 H1) (proj1 H2) (proj1 (proj2 H1)) _ x1 x2 X1 X2)).
    intros b Hb. rewrite !nth_overflow; [reflexivity| |]; unfold view; rewrite map_length; apply blocks_end; lia.
Qed.

(** The hypotheses can be met: two keys, messages, randomisers, and requests for the first
    two blocks, of which the views are the same *)
Definition ex_SK2 : list Z := map Z.of_nat (seq 101 64).
Definition ex_M2 : list Z := [87; 111; 114; 108; 100].
Definition ex_mem2 : memory := mem_of 1000 (ex_SK2 ++ ex_M2).
Definition ex_rng2 : random_fn := Some (fun m => (1, repeat 77 (Z.to_nat m))).
Definition ex_two (m : memory) : list request := [Req m (repeat 0 20) 20; Req m (repeat 0 12) 12].
Lemma ex_holds2 : holds ex_mem2 1000 ex_SK2 /\ holds ex_mem2 1064 ex_M2.
Proof.
  assert (H : holds ex_mem2 1000 (ex_SK2 ++ ex_M2)) by (apply mem_of_holds, bytes_dec; reflexivity).
  split.
  - exact (holds_slice _ _ _ 0 64 H ltac:(lia) ltac:(lia) ltac:(cbv; discriminate)).
  - exact (holds_slice _ _ _ 64 5 H ltac:(lia) ltac:(lia) ltac:(cbv; discriminate)).
Qed.
Example ex_sessions_hypotheses :
  let c := zero_ctx full_cfg (the_ps full_cfg SHA2_128f) in
  ex_SK <> ex_SK2 /\ ex_M <> ex_M2 /\
  sign_init_ok ex_mem 1064 ex_M SHA2_128f 1000 ex_SK ex_rng /\ sign_init_ok ex_mem2 1064 ex_M2 SHA2_128f 1000 ex_SK2 ex_rng2 /\
  Forall (request_ok 1000 ex_SK) (ex_two ex_mem) /\ Forall (request_ok 1000 ex_SK2) (ex_two ex_mem2) /\
  len ex_M = len ex_M2 /\ answer_alike ex_rng ex_rng2 16 /\ map rq_size (ex_two ex_mem) = map rq_size (ex_two ex_mem2) /\
  forall PK1 PK2 S1 S2, same_view (slh_of SHA2_128f) 0 (asked (ex_two ex_mem)) PK1 ex_M S1 PK2 ex_M2 S2.
Proof.
  intros c. destruct ex_holds as (H1 & H2 & _). destruct ex_holds2 as (K1 & K2).
  split; [discriminate|]. split; [discriminate|].
  split; [split; [exact H1|split; [reflexivity|split; [exact H2|split; [reflexivity|]]]]; cbn; split; [apply bytes_dec; reflexivity|split; [cbv; discriminate|intros _; reflexivity]]|].
  split; [split; [exact K1|split; [reflexivity|split; [exact K2|split; [reflexivity|]]]]; cbn; split; [apply bytes_dec; reflexivity|split; [cbv; discriminate|intros _; reflexivity]]|].
  split; [apply Forall_cons; [|apply Forall_cons; [|apply Forall_nil]]; (split; [exact H1|]); split; [split; [discriminate|reflexivity]|discriminate|split; [discriminate|reflexivity]|discriminate]|].
  split; [apply Forall_cons; [|apply Forall_cons; [|apply Forall_nil]]; (split; [exact K1|]); split; [split; [discriminate|reflexivity]|discriminate|split; [discriminate|reflexivity]|discriminate]|].
  split; [reflexivity|]. split; [cbn; lia|]. split; [reflexivity|].
  intros PK1 PK2 S1 S2 b Hb. change (0 <= 16 * Z.of_nat b < 32) in Hb. destruct b as [|[|b]]; [reflexivity|reflexivity|lia].
Qed.
Example ex_keygen_hypotheses :
  genkey_ok SHAKE_256f (repeat 0 (Z.to_nat 128)) None (fun k => (1, repeat 5 (Z.to_nat k))) /\
  genkey_ok SHAKE_256f (repeat 9 (Z.to_nat 128)) None (fun k => (7, map Z.of_nat (seq 0 (Z.to_nat k)))) /\
  answer_alike (Some (fun k => (1, repeat 5 (Z.to_nat k)))) (Some (fun k => (7, map Z.of_nat (seq 0 (Z.to_nat k))))) (3 * 32).
Proof.
  split; [|split; [|cbn; lia]].
  - split; [apply bytes_dec; reflexivity|]. split; [cbv; discriminate|]. split; [exact I|]. cbn [random_ok].
    split; [apply bytes_dec; reflexivity|]. split; [cbv; discriminate|]. intros _. reflexivity.
  - split; [apply bytes_dec; reflexivity|]. split; [cbv; discriminate|]. split; [exact I|]. cbn [random_ok].
    split; [apply bytes_dec; reflexivity|]. split; [cbv; discriminate|]. intros _. reflexivity.
Qed.

Print Assumptions C43_keygen_shows_nothing.
Print Assumptions C44_init_sign_shows_nothing.
Print Assumptions C45_signing_shows_only_the_public_view.
Print Assumptions C45_public_data_fix_the_trace.
Print Assumptions C45_each_request.
