(** * What the known answer tests do (C49)

    [test_one_512], [run_512] (test_sha512.c), [test_one_shake], [run_shake] (test_shake.c),
    [kat_one], [test_testvector] (test_testvector.c) and their tables: ModelKat.v. *)
From Coq Require Import String.
From Verif Require Import Arr SpecSha2 SpecKeccak SpecSLH SpecMap SpecApi SpecSessions ModelParams ModelCtx ModelSha256 ModelSha512 ModelFips202
  ModelSphincs ModelVerify ModelKeygen ModelApi ModelTest ModelKat PfHashSessions PfShake
  Sessions PfIter PfSpec PfApi PfKeygen PfComplete PfSession PfForge PfTest PfKat PropSign PropVerify PropApi PropBinding PropTest.
From Verif Require PfSha256 PfSha512.
Ltac Zify.zify_post_hook ::= idtac.
Local Open Scope string_scope.
Local Open Scope list_scope.
Local Open Scope Z_scope.

(** ** test_sha512.c *)
(** One vector: whatever the uninitialised context holds, and whatever memset leaves in
    it, the test ends, and it succeeds exactly if the expected result is SHA-512 of the
    message (FIPS 180-4). *)
Theorem C49_test_sha512 : forall le ctx filled message expected,
  is_bytes message -> len message < 2 ^ 31 -> len expected = 64 -> wf512 ctx -> (forall b, wf512 (filled b)) ->
  exists r, test_one_512 le ctx filled expected message (len message) = Ok r /\ (r = 0 \/ r = 1) /\
    (r = 1 <-> expected = sha2 SHA512 message).
Proof. intros le ctx filled message expected BM HL LE W WF. exact (test_one_512_ok le message expected BM HL LE ctx filled W WF). Qed.
(** A whole table *)
Theorem C49_run_sha512 : forall le ctxs filled vectors,
  Forall (fun v => is_bytes (fst v) /\ len (fst v) < 2 ^ 31 /\ len (snd v) = 64) vectors ->
  (forall i, wf512 (ctxs i)) -> (forall b, wf512 (filled b)) ->
  exists r, run_512 le ctxs filled vectors = Ok r /\ (r = 0 \/ r = 1) /\
    (r = 1 <-> Forall (fun v => snd v = sha2 SHA512 (fst v)) vectors).
Proof.
  intros le ctxs filled vectors HV W WF. induction HV as [|[M E] vs (B & L1 & L2) HV IH].
  - exists 1. split; [reflexivity|]. split; [auto|]. split; [constructor|reflexivity].
  - cbn [fst snd] in *. cbn [run_512]. change (@zlen Z) with len.
    destruct (C49_test_sha512 le (ctxs (List.length vs)) filled M E B L1 L2 (W _) WF) as (r & E1 & R1 & P1). rewrite E1. cbn [bind].
    destruct R1 as [-> | ->]; cbn [Z.eqb].
    + exists 0. split; [reflexivity|]. split; [auto|]. split; [discriminate|]. intros X. apply P1, (Forall_inv X).
    + destruct IH as (r & E2 & R2 & P2). exists r. split; [exact E2|]. split; [exact R2|]. rewrite P2. split.
      * intros X. constructor; [apply P1; reflexivity|exact X].
      * intros X. exact (Forall_inv_tail X).
Qed.

(** ** test_shake.c *)
(** One vector.  (With an empty message it would succeed without comparing anything; the
    table has none.) *)
Theorem C49_test_shake : forall opt ctx message expected,
  is_bytes message -> 1 <= len message < 2 ^ 31 -> len expected < 2 ^ 31 -> List.length ctx = 26%nat ->
  exists r, test_one_shake opt ctx expected (len expected) message (len message) = Ok r /\ (r = 0 \/ r = 1) /\
    (r = 1 <-> expected = shake256 message (len expected)).
Proof. intros opt ctx message expected BM HL HM W. exact (test_one_shake_ok opt message expected BM (proj2 HL) HM ctx W (proj1 HL)). Qed.
Theorem C49_run_shake : forall opt ctxs vectors,
  Forall (fun v => is_bytes (fst v) /\ 1 <= len (fst v) < 2 ^ 31 /\ len (snd v) < 2 ^ 31) vectors ->
  (forall i, List.length (ctxs i) = 26%nat) ->
  exists r, run_shake opt ctxs vectors = Ok r /\ (r = 0 \/ r = 1) /\
    (r = 1 <-> Forall (fun v => snd v = shake256 (fst v) (len (snd v))) vectors).
Proof.
  intros opt ctxs vectors HV W. induction HV as [|[M E] vs (B & L1 & L2) HV IH].
  - exists 1. split; [reflexivity|]. split; [auto|]. split; [constructor|reflexivity].
  - cbn [fst snd] in *. cbn [run_shake]. change (@zlen Z) with len.
    destruct (C49_test_shake opt (ctxs (List.length vs)) M E B L1 L2 (W _)) as (r & E1 & R1 & P1). rewrite E1. cbn [bind].
    destruct R1 as [-> | ->]; cbn [Z.eqb].
    + exists 0. split; [reflexivity|]. split; [auto|]. split; [discriminate|]. intros X. apply P1, (Forall_inv X).
    + destruct IH as (r & E2 & R2 & P2). exists r. split; [exact E2|]. split; [exact R2|]. rewrite P2. split.
      * intros X. constructor; [apply P1; reflexivity|exact X].
      * intros X. exact (Forall_inv_tail X).
Qed.

(** ** test_testvector.c *)
(** What a vector claims: from the bytes 0, 1, 2, ... the public key is made, and the
    signature of "abc" with the given randomness has the given SHA-256 hash. *)
Definition claim_holds (p : ps_name) (v : kat) : Prop :=
  let n := p_n (slh_of p) in
  let key := key_from p (map Z.of_nat (seq 0 (Z.to_nat (3 * n)))) in
  firstn (Z.to_nat (2 * n)) (kat_public_key v) = snd key /\
  kat_hash_sig v = sha2 SHA256 (slh_sign_internal (slh_of p) [97; 98; 99] (fst key) (firstn (Z.to_nat n) (kat_optrand v))).
(** The arrays have the declared sizes *)
Definition vector_ok (v : kat) : Prop :=
  len (kat_public_key v) = 64 /\ is_bytes (kat_optrand v) /\ len (kat_optrand v) = 32 /\ len (kat_hash_sig v) = 32.
Definition locals_ok (cfg : config) (u : locals) : Prop :=
  is_bytes (s256_x (l_hash_ctx u)) /\ List.length (s256_x (l_hash_ctx u)) = 64%nat /\ wf_ctx cfg (l_verify_ctx u) /\ (forall i, len (l_buffers u i) = 42).
(** The names *)
Definition names : list (string * ps_name) :=
  [("sha2_128s_simple", SHA2_128s); ("sha2_128f_simple", SHA2_128f); ("sha2_192s_simple", SHA2_192s);
   ("sha2_192f_simple", SHA2_192f); ("sha2_256s_simple", SHA2_256s); ("sha2_256f_simple", SHA2_256f);
   ("shake_128s_simple", SHAKE_128s); ("shake_128f_simple", SHAKE_128f); ("shake_192s_simple", SHAKE_192s);
   ("shake_192f_simple", SHAKE_192f); ("shake_256s_simple", SHAKE_256s); ("shake_256f_simple", SHAKE_256f)].

Theorem C49_lookup : forall s p, lookup_parameter_set s = Some p <-> In (s, p) names.
Proof.
  intros s p. split.
  - unfold lookup_parameter_set.
    repeat (match goal with |- (if String.eqb ?a ?b then _ else _) = _ -> _ => destruct (String.eqb_spec a b) as [->|_]; [intros [= <-]; cbn; tauto|] end).
    discriminate.
  - intros H. cbn [names In] in H.
    repeat (destruct H as [H|H]; [injection H as <- <-; reflexivity|]). contradiction.
Qed.

Lemma fixed_bytes k : 0 <= k <= 96 -> snd (fixed_rand k) = map Z.of_nat (seq 0 (Z.to_nat k)).
Proof.
  intros Hk. cbn [fixed_rand snd]. apply map_ext_in. intros i Hi. apply in_seq in Hi. apply Z.mod_small. lia.
Qed.
Lemma fixed_ok k : 0 <= k -> is_bytes (snd (fixed_rand k)) /\ len (snd (fixed_rand k)) = k.
Proof.
  intros Hn. cbn [fixed_rand snd]. split; [|unfold len; rewrite map_length, seq_length; lia].
  apply Forall_forall. intros x Hx. apply in_map_iff in Hx. destruct Hx as (i & <- & _). apply Z.mod_pos_bound. lia.
Qed.

Section Loop.
Variables (cfg : config) (p : ps_name).
Hypothesis on : ps_enabled cfg p = true.
Variables (m : memory) (pk msg sk : Z) (PK M SK : list Z).
Hypothesis HI : verify_init_ok cfg m msg M p pk PK.
Hypothesis HM : holds m msg M.
Hypothesis HS : holds m sk SK.
Variable sigma : list Z.
Hypothesis Bs : is_bytes sigma.
Hypothesis Ls : len sigma = slh_sig_length (slh_of p).
Hypothesis Good : slh_verify_internal (slh_of p) M sigma PK = true.
Variable buffers : nat -> list Z.
Hypothesis HB : forall i, len (buffers i) = 42.
Variable c0 : ts_context.
Hypothesis W0 : wf_ctx cfg c0.
Local Notation at_fed fs c := (exists os, calls cfg (verify_history m msg (len M) p pk fs) c0 = Ok (os, c)).
Local Notation mine := (map (Feed m)).
Local Notation rep := (PfSha256.rep SHA256).

Lemma kat_loop_ok : forall fuel rem ks c h v, Rel cfg (Signing p sk SK rem) c -> concat ks ++ rem = sigma -> rep h (concat ks) ->
  Forall is_bytes ks -> Forall (fun k => len k < 2 ^ 32) ks -> at_fed (mine ks) v -> len rem < Z.of_nat fuel ->
  exists h' v', kat_loop cfg fuel buffers m c h v = Ok (true, h', v') /\ rep h' sigma /\ ts_verify v' = 1.
Proof using on HI HM HS Bs Ls Good HB W0.
  induction fuel as [|fuel IH]; intros rem ks c h v HR EC RH B1 B2 A HF; [unfold len in HF; lia|]. cbn [kat_loop].
  set (k := Z.min 42 (len rem)).
  assert (ST : step (platform_of cfg) (Signing p sk SK rem) m (Sign (buffers fuel) 42) (Signed k (firstn (Z.to_nat k) rem ++ skipn (Z.to_nat k) (buffers fuel)))
     (Signing p sk SK (skipn (Z.to_nat k) rem))) by (apply s_sign; [intros _; exact HS|lia|rewrite HB; lia]).
  destruct (simulation cfg _ c m _ _ _ ST HR) as (c' & E & HR'). cbn [call] in E.
  destruct (ts_sign cfg m (buffers fuel) 42 c) as [[[r d] c2]|]; cbn [bind] in E |- *; [|discriminate]. assert (EJ := ok_inj' _ _ E).
  assert (Er : r = k) by congruence. assert (Ed : d = firstn (Z.to_nat k) rem ++ skipn (Z.to_nat k) (buffers fuel)) by congruence.
  assert (Ec : c2 = c') by congruence. rewrite Er, Ed, Ec. clear E EJ Er Ed Ec r d c2 ST.
  assert (0 <= len rem) by (unfold len; lia).
  destruct (Z.eqb_spec k 0) as [K0|K0].
  { exists h, v. split; [reflexivity|]. assert (rem = []) as -> by (destruct rem; [reflexivity|unfold k, len in K0; cbn [List.length] in K0; lia]).
    rewrite app_nil_r in EC. rewrite EC in RH. split; [exact RH|].
    destruct (at_wf cfg p on m pk msg PK M HI HM c0 ks v W0 B1 B2 A) as [_ V]. rewrite V, EC, Good. reflexivity. }
  assert (Hk : 0 < k <= 42 /\ k <= len rem) by (unfold k in *; lia).
  set (K := firstn (Z.to_nat k) rem). assert (LK : List.length K = Z.to_nat k) by (unfold K; rewrite firstn_length; unfold len in Hk; lia).
  pose proof (HB fuel) as HBf.
  rewrite rd_range_ok by (unfold zlen; try rewrite app_length, LK; lia). cbn [skipn Z.to_nat bind]. rewrite firstn_app_exact by exact LK.
  assert (Brem : is_bytes rem) by (rewrite <- EC in Bs; apply Forall_app in Bs; apply Bs).
  assert (BK : is_bytes K) by (apply Forall_firstn', Brem).
  destruct (PfSha256.update_spec SHA256 PfSha256.SHA256_is (cfg_le cfg) h _ K RH BK) as (h1 & E1 & RH1). rewrite E1. cbn [bind].
  assert (LC : len (concat ks) + len rem = len sigma) by (rewrite <- EC, len_app; reflexivity).
  destruct (feed1 cfg p on m pk msg PK M HI HM c0 ks K v W0 B1 B2 BK ltac:(unfold len; lia) A ltac:(lia)) as (v1 & E2 & A2).
  replace (len K) with k in E2 by (unfold len; lia). rewrite E2. cbn [bind].
  assert (SP : concat (ks ++ [K]) = concat ks ++ K) by (rewrite concat_app; cbn [concat]; rewrite app_nil_r; reflexivity).
  assert (ER : rem = K ++ skipn (Z.to_nat k) rem) by (symmetry; apply firstn_skipn).
  assert (R1 : (if len (concat ks ++ K) <? slh_sig_length (slh_of p) then true else slh_verify_internal (slh_of p) M (concat ks ++ K) PK) = true).
  { destruct (Z.ltb_spec (len (concat ks ++ K)) (slh_sig_length (slh_of p))) as [|Hg]; [reflexivity|].
    assert (Lr : len (skipn (Z.to_nat k) rem) = 0).
    { rewrite len_app in Hg. assert (XX := f_equal len ER). rewrite len_app in XX. assert (0 <= len (skipn (Z.to_nat k) rem)) by (unfold len; lia). lia. }
    destruct (skipn (Z.to_nat k) rem) as [|x t] eqn:ET; [|unfold len in Lr; cbn [List.length] in Lr; lia]. rewrite app_nil_r in ER.
    rewrite <- ER, EC. exact Good. }
  rewrite R1. cbn [b2z Z.eqb Pos.eqb negb].
  apply (IH (skipn (Z.to_nat k) rem) (ks ++ [K])); [exact HR'| | | | |exact A2|].
  - rewrite SP, <- app_assoc, <- ER. exact EC.
  - rewrite SP. exact RH1.
  - apply Forall_app; split; [exact B1|constructor; [exact BK|constructor]].
  - apply Forall_app; split; [exact B2|constructor; [unfold len; lia|constructor]].
  - unfold len in *. rewrite skipn_length. lia.
Qed.
End Loop.

(** One vector: the test ends, whatever the uninitialised data are, and it succeeds exactly
    if the set's name is known and what the vector claims is true of FIPS 205.  (That the
    made signature verifies is never the reason of a failure.) *)
Theorem C49_vector : forall cfg block e u v p,
  lookup_parameter_set (kat_name v) = Some p -> ps_enabled cfg p = true ->
  surroundings_ok cfg block e -> locals_ok cfg u -> vector_ok v ->
  exists r, kat_one cfg e u v = Ok r /\ (r = 0 \/ r = 1) /\ (r = 1 <-> claim_holds p v).
Proof.
  intros cfg block e u v p EL on (Bpriv & Lpriv & Bpub & Lpub & HV & Am & _ & Wc & WF & HM) (U1 & U2 & U3 & U4) (V1 & V2 & V3 & V4).
  pose proof (nbnd p) as Nb. pose proof (L_range p) as LR. set (n := p_n (slh_of p)) in *.
  destruct (fixed_ok (3 * n) ltac:(lia)) as [Bd Ld]. unfold claim_holds. fold n. cbv zeta. rewrite <- (fixed_bytes (3 * n)) by lia.
  set (d := snd (fixed_rand (3 * n))) in *.
  destruct (key_from_ok p d Bd Ld) as (BSK & LSK & BPK & LPK).
  set (SK := fst (key_from p d)) in *. set (PK := snd (key_from p d)) in *. fold n in LSK, LPK.
  assert (GK : genkey_ok p (e_private_key e) (Some (e_public_key e)) fixed_rand).
  { split; [exact Bpriv|]. split; [fold n; lia|]. split; [fold n; lia|]. cbn [random_ok]. fold n. rewrite (surjective_pairing (fixed_rand (3 * n))). fold d. split; [exact Bd|]. split; [lia|intros _; exact Ld]. }
  pose proof (gen_key_cases cfg p (e_sk e) (e_private_key e) (Some (e_public_key e)) fixed_rand on GK) as EK. cbv zeta in EK. fold n in EK.
  change (fst (fixed_rand (3 * n))) with 1 in EK. fold d in EK. cbn [Z.eqb] in EK.
  change (slh_keygen_internal (slh_of p) (slice d 0 n) (slice d n n) (slice d (2 * n) n)) with (key_from p d) in EK.
  rewrite (surjective_pairing (key_from p d)) in EK. fold SK PK in EK. cbn [option_map] in EK.
  set (priv := SK ++ _) in EK. set (pub := PK ++ _) in EK.
  assert (Bp1 : is_bytes priv) by (apply bytes_app; [exact BSK|apply Forall_skipn', Bpriv]).
  assert (Lp1 : len priv <= 128) by (unfold priv; rewrite len_app; unfold len in *; rewrite skipn_length; lia).
  assert (Bp2 : is_bytes pub) by (apply bytes_app; [exact BPK|apply Forall_skipn', Bpub]).
  assert (Lp2 : len pub = 64) by (unfold pub; rewrite len_app; unfold len in *; rewrite skipn_length; lia).
  destruct (HV priv pub Bp1 Lp1 Bp2 ltac:(lia)) as (H1 & H2 & H3 & _). apply holds_app_l in H1, H2.
  set (m := e_view e priv pub) in *.
  set (f := optrand_rng (kat_optrand v)).
  assert (EO : randomness (Some f) n (slice SK (2 * n) n) = firstn (Z.to_nat n) (kat_optrand v)).
  { reflexivity. }
  assert (RO : random_ok (Some f) n).
  { cbn [random_ok]. unfold f, optrand_rng. split; [apply Forall_firstn', V2|]. split; [unfold len in *; rewrite firstn_length; lia|]. intros _. unfold len in *. rewrite firstn_length. lia. }
  assert (SI : sign_init_ok m (e_message e) message p (e_sk e) SK (Some f)) by (split; [exact H1|]; split; [exact LSK|]; split; [exact H3|]; split; [reflexivity|exact RO]).
  destruct (signature_len _ _ _ _ _ _ _ SI) as [LSg BSg].
  assert (ESg : signature p message SK (Some f) = slh_sign_internal (slh_of p) [97; 98; 99] SK (firstn (Z.to_nat n) (kat_optrand v))).
  { unfold signature. fold n. cbv zeta. rewrite EO. reflexivity. }
  rewrite <- ESg. set (sigma := signature p message SK (Some f)) in *.
  assert (KF : slh_keygen_internal (slh_of p) (slice d 0 n) (slice d n n) (slice d (2 * n) n) = (SK, PK)) by (change (key_from p d = (SK, PK)); apply surjective_pairing).
  assert (SLn : forall i, 0 <= i <= 2 -> len (slice d (i * n) n) = n) by (intros i Hi; apply slice_zlen; [nia|lia|change (@zlen Z) with len; nia]).
  assert (OKV : slh_verify_internal (slh_of p) message sigma PK = true).
  { pose proof (SLn 0 ltac:(lia)) as S0. pose proof (SLn 1 ltac:(lia)) as S1. pose proof (SLn 2 ltac:(lia)) as S2. rewrite Z.mul_0_l in S0. rewrite Z.mul_1_l in S1.
    set (s0 := repeat 0 (Z.to_nat (slh_sig_length (slh_of p)))). assert (Ls0 : len s0 = slh_sig_length (slh_of p)) by (unfold s0, len; rewrite repeat_length; lia).
    set (rq := Req m s0 (slh_sig_length (slh_of p))).
    assert (RQ : Forall (request_ok (e_sk e) SK) [rq]) by (constructor; [|constructor]; split; [exact H1|]; cbn [rq_size rq_dest rq]; lia).
    assert (AS : ts_size_signature (the_ps cfg p) <= asked [rq]) by (rewrite size_sig; unfold asked, rq; cbn [fold_right rq_size]; rewrite Z.add_0_r; apply Z.le_refl).
    destruct (sign_session cfg p (e_ctx e) m (e_message e) message (e_sk e) SK (Some f) [rq] on Wc SI RQ) as (c1 & ES).
    destruct (honest_valid cfg p _ _ _ SK PK KF S0 S1 S2 message (e_ctx e) m (e_message e) (e_sk e) (Some f) [rq] _ c1 on Wc SI RQ AS ES) as (_ & _ & HVf).
    cbn [map taken concat sign_answers rq_size rq_dest rq app] in HVf. fold sigma in HVf. rewrite LSg, Z.min_r in HVf by lia. rewrite app_nil_r in HVf.
    rewrite Nat2Z.id, firstn_app_exact in HVf by (rewrite firstn_length; unfold len in LSg; lia). rewrite firstn_all2 in HVf by (unfold len in LSg; lia). exact HVf. }
  unfold kat_one. rewrite EL. cbv zeta. rewrite EK. cbn [bind Z.eqb]. fold m f.
  assert (SZ : ts_size_signature (the_ps cfg p) = slh_sig_length (slh_of p)) by apply size_sig. rewrite SZ.
  assert (SP : ts_size_public_key (the_ps cfg p) = 2 * n) by (unfold n; clear; destruct p; reflexivity). rewrite SP.
  rewrite same_ok by lia. cbn [bind]. unfold pub at 1. rewrite firstn_app_exact by (unfold len in LPK; lia).
  destruct (eqb (firstn (Z.to_nat (2 * n)) (kat_public_key v)) PK) eqn:EG; cbn [negb].
  2:{ exists 0. split; [reflexivity|]. split; [auto|]. split; [discriminate|]. intros [X _]. rewrite (proj2 (eqb_true _ _) X) in EG. discriminate. }
  apply eqb_true in EG. change 3 with (len message).
  assert (ST : step (platform_of cfg) Fresh m (InitSign (e_message e) (len message) p (e_sk e) (Some f)) Started (Signing p (e_sk e) SK sigma)).
  { apply s_init_sign; [exact on|exact H1|exact LSK|exact H3|reflexivity|reflexivity|exact RO]. }
  destruct (simulation cfg _ (e_ctx e) m _ _ _ ST Wc) as (c1 & E1 & HR). cbn [call] in E1.
  destruct (ts_init_sign cfg m (e_ctx e) (e_message e) (len message) (the_ps cfg p) (e_sk e) (Some f)) as [c2|]; cbn [bind] in E1 |- *; [|discriminate].
  assert (EJ := ok_inj' _ _ E1). assert (Ec : c2 = c1) by congruence. rewrite Ec. clear E1 EJ Ec c2.
  assert (I1 : verify_init_ok cfg m (e_message e) message p (e_pk e) PK).
  { pose proof (addresses_ge cfg). split; [exact H2|]; split; [exact LPK|]; split; [exact Am|]; split; [apply bytes_dec; reflexivity|]; change (len message) with 3; lia. }
  destruct (start cfg p on m (e_pk e) (e_message e) PK message I1 (l_verify_ctx u) U3) as (v1 & E2 & A2). rewrite E2. cbn [bind].
  pose proof (PfSha256.repx_init SHA256 PfSha256.SHA256_is (l_hash_ctx u) U1 U2) as R0.
  destruct (kat_loop_ok cfg p on m (e_pk e) (e_message e) (e_sk e) PK message SK I1 H3 H1 sigma BSg LSg OKV (l_buffers u) U4 (l_verify_ctx u) U3
     (S (Z.to_nat (slh_sig_length (slh_of p)))) sigma [] c1 (ts_SHA256_init (l_hash_ctx u)) v1 HR eq_refl R0 (Forall_nil _) (Forall_nil _) A2 ltac:(rewrite LSg; lia)) as (h2 & v2 & E3 & RH & EV).
  rewrite E3. cbn [bind negb].
  destruct (PfSha256.final_trunc_spec SHA256 PfSha256.SHA256_is (cfg_le cfg) h2 sigma 8 RH ltac:(rewrite LSg; lia) ltac:(lia)) as (h3 & E4 & _).
  unfold ts_SHA256_final. change 32 with (4 * Z.of_nat 8) at 1. rewrite E4. cbn [bind].
  assert (L256 : List.length (sha2 SHA256 sigma) = 32%nat) by apply sha256_length.
  rewrite firstn_all2 by (rewrite L256; cbn; lia).
  rewrite same_ok by (unfold len in *; lia). cbn [bind]. change (Z.to_nat 32) with 32%nat. rewrite !firstn_all2 by (unfold len in *; lia).
  destruct (eqb (kat_hash_sig v) (sha2 SHA256 sigma)) eqn:EH; cbn [negb].
  - apply eqb_true in EH. rewrite EV. cbn [Z.eqb Pos.eqb negb]. exists 1. split; [reflexivity|]. split; [auto|]. split; [intros _; split; assumption|reflexivity].
  - exists 0. split; [reflexivity|]. split; [auto|]. split; [discriminate|]. intros [_ X]. rewrite (proj2 (eqb_true _ _) X) in EH. discriminate.
Qed.
(** An unknown name is a failure *)
Theorem C49_unknown_name : forall cfg e u v, lookup_parameter_set (kat_name v) = None -> kat_one cfg e u v = Ok 0.
Proof. intros cfg e u v H. unfold kat_one. rewrite H. reflexivity. Qed.

(** A whole table, when all parameter sets are compiled in *)
Theorem C49_test_testvector : forall cfg block es us vectors,
  (forall p, ps_enabled cfg p = true) -> (forall i, surroundings_ok cfg block (es i)) -> (forall i, locals_ok cfg (us i)) ->
  Forall vector_ok vectors ->
  exists r, test_testvector cfg es us vectors = Ok r /\ (r = 0 \/ r = 1) /\
    (r = 1 <-> Forall (fun v => exists p, In (kat_name v, p) names /\ claim_holds p v) vectors).
Proof.
  intros cfg block es us vectors on HE HU HV. induction HV as [|v vs V1 HV IH].
  - exists 1. split; [reflexivity|]. split; [auto|]. split; [constructor|reflexivity].
  - cbn [test_testvector].
    assert (X : exists r, kat_one cfg (es (List.length vs)) (us (List.length vs)) v = Ok r /\ (r = 0 \/ r = 1) /\ (r = 1 <-> exists p, In (kat_name v, p) names /\ claim_holds p v)).
    { destruct (lookup_parameter_set (kat_name v)) as [p|] eqn:EL.
      - destruct (C49_vector cfg block (es (List.length vs)) (us (List.length vs)) v p EL (on p) (HE _) (HU _) V1) as (r & E & R & P). exists r. split; [exact E|]. split; [exact R|].
        rewrite P. split; [intros Q; exists p; split; [apply C49_lookup; exact EL|exact Q]|]. intros (q & Q1 & Q2). apply C49_lookup in Q1. assert (q = p) as <- by congruence. exact Q2.
      - exists 0. split; [apply C49_unknown_name, EL|]. split; [auto|]. split; [discriminate|]. intros (q & Q1 & _). apply C49_lookup in Q1. congruence. }
    destruct X as (r & E1 & R1 & P1). rewrite E1. cbn [bind]. destruct R1 as [-> | ->]; cbn [Z.eqb].
    + exists 0. split; [reflexivity|]. split; [auto|]. split; [discriminate|]. intros X. apply P1, (Forall_inv X).
    + destruct IH as (r & E2 & R2 & P2). exists r. split; [exact E2|]. split; [exact R2|]. rewrite P2. split.
      * intros X. constructor; [apply P1; reflexivity|exact X].
      * intros X. exact (Forall_inv_tail X).
Qed.

(** ** The tables of the repository *)
(** test_sha512.c and test_shake.c succeed, in every configuration, whatever the
    uninitialised data are.  (The specifications are evaluated on the vectors; that the
    program agrees with them is the theorems above.) *)
Theorem C49_sha512_table : forall le ctxs filled, (forall i, wf512 (ctxs i)) -> (forall b, wf512 (filled b)) ->
  run_512 le ctxs filled vectors_512 = Ok 1.
Proof.
  intros le ctxs filled W WF.
  assert (T : Forall (fun v => snd v = sha2 SHA512 (fst v)) vectors_512).
  { assert (X : forallb (fun v => eqb (snd v) (sha2 SHA512 (fst v))) vectors_512 = true) by (vm_compute; reflexivity).
    apply Forall_forall. intros v Hv. apply eqb_true. exact (proj1 (forallb_forall _ _) X v Hv). }
  assert (S : Forall (fun v => is_bytes (fst v) /\ len (fst v) < 2 ^ 31 /\ len (snd v) = 64) vectors_512).
  { assert (X : forallb (fun v => forallb (fun b => (0 <=? b) && (b <? 256)) (fst v) && (len (fst v) <? 2 ^ 31) && (len (snd v) =? 64)) vectors_512 = true) by (vm_compute; reflexivity).
    apply Forall_forall. intros v Hv. pose proof (proj1 (forallb_forall _ _) X v Hv) as Y. apply andb_prop in Y. destruct Y as [Y Y3]. apply andb_prop in Y. destruct Y as [Y1 Y2].
    split; [exact (bytes_dec _ Y1)|]. split; [apply Z.ltb_lt, Y2|apply Z.eqb_eq, Y3]. }
  destruct (C49_run_sha512 le ctxs filled vectors_512 S W WF) as (r & E & _ & P). rewrite E. f_equal. apply P, T.
Qed.
(* SHAKE256 of FIPS 202 is defined on bits; it is evaluated through the program, which
   computes it *)
Definition by_session (v : list Z * list Z) : list Z :=
  match shake256_session 1 (repeat 0 26) [fst v] [len (snd v)] with Ok (outs, _) => concat outs | UB _ => [] end.
Lemma by_session_ok v : is_bytes (fst v) -> len (fst v) < 2 ^ 31 -> by_session v = shake256 (fst v) (len (snd v)).
Proof.
  intros B L. destruct (shake256_session_ok 1 (repeat 0 26) [fst v] [len (snd v)]) as (outs & s' & E & _ & C).
  - reflexivity.
  - constructor; [exact B|constructor].
  - constructor; [lia|constructor].
  - constructor; [unfold len; lia|constructor].
  - unfold by_session. rewrite E, C. cbn [concat fold_right]. rewrite app_nil_r, Z.add_0_r. reflexivity.
Qed.
Theorem C49_shake_table : forall opt ctxs, (forall i, List.length (ctxs i) = 26%nat) ->
  run_shake opt ctxs vectors_shake = Ok 1.
Proof.
  intros opt ctxs W.
  assert (S : Forall (fun v => is_bytes (fst v) /\ 1 <= len (fst v) < 2 ^ 31 /\ len (snd v) < 2 ^ 31) vectors_shake).
  { assert (X : forallb (fun v => forallb (fun b => (0 <=? b) && (b <? 256)) (fst v) && (1 <=? len (fst v)) && (len (fst v) <? 2 ^ 31) && (len (snd v) <? 2 ^ 31)) vectors_shake = true) by (vm_compute; reflexivity).
    apply Forall_forall. intros v Hv. pose proof (proj1 (forallb_forall _ _) X v Hv) as Y. apply andb_prop in Y. destruct Y as [Y Y3]. apply andb_prop in Y. destruct Y as [Y Y2]. apply andb_prop in Y. destruct Y as [Y1 Y0].
    split; [exact (bytes_dec _ Y1)|]. split; [split; [apply Z.leb_le, Y0|apply Z.ltb_lt, Y2]|apply Z.ltb_lt, Y3]. }
  assert (T : Forall (fun v => snd v = shake256 (fst v) (len (snd v))) vectors_shake).
  { assert (X : forallb (fun v => eqb (snd v) (by_session v)) vectors_shake = true) by (vm_compute; reflexivity).
    apply Forall_forall. intros v Hv. destruct (proj1 (Forall_forall _ _) S v Hv) as (S1 & S2 & S3).
    rewrite <- by_session_ok by (first [exact S1|lia]). apply eqb_true. exact (proj1 (forallb_forall _ _) X v Hv). }
  destruct (C49_run_shake opt ctxs vectors_shake S W) as (r & E & _ & P). rewrite E. f_equal. apply P, T.
Qed.
(** The table of test_testvector.c has a vector for each parameter set, in arrays of the
    declared sizes: the test ends, and it succeeds exactly if FIPS 205 has these answers. *)
Theorem C49_testvector_table : forall cfg block es us,
  (forall p, ps_enabled cfg p = true) -> (forall i, surroundings_ok cfg block (es i)) -> (forall i, locals_ok cfg (us i)) ->
  exists r, test_testvector cfg es us testvectors = Ok r /\ (r = 0 \/ r = 1) /\
    (r = 1 <-> forall p, exists v s, In v testvectors /\ In (s, p) names /\ kat_name v = s /\ claim_holds p v).
Proof.
  intros cfg block es us on HE HU.
  assert (S : Forall vector_ok testvectors).
  { assert (X : forallb (fun v => (len (kat_public_key v) =? 64) && forallb (fun b => (0 <=? b) && (b <? 256)) (kat_optrand v) && (len (kat_optrand v) =? 32) && (len (kat_hash_sig v) =? 32)) testvectors = true) by (vm_compute; reflexivity).
    apply Forall_forall. intros v Hv. pose proof (proj1 (forallb_forall _ _) X v Hv) as Y. apply andb_prop in Y. destruct Y as [Y Y3]. apply andb_prop in Y. destruct Y as [Y Y2]. apply andb_prop in Y. destruct Y as [Y1 Y0].
    split; [apply Z.eqb_eq, Y1|]. split; [exact (bytes_dec _ Y0)|]. split; [apply Z.eqb_eq, Y2|apply Z.eqb_eq, Y3]. }
  destruct (C49_test_testvector cfg block es us testvectors on HE HU S) as (r & E & R & P). exists r. split; [exact E|]. split; [exact R|]. rewrite P. clear.
  assert (N : forall v1 v2, In v1 testvectors -> In v2 testvectors -> kat_name v1 = kat_name v2 -> v1 = v2).
  { intros v1 v2 H1 H2 H.
    assert (D : NoDup (map kat_name testvectors)) by (apply (NoDup_count_occ' string_dec); intros x Hx; cbn [testvectors map kat_name In] in Hx; repeat (destruct Hx as [<-|Hx]; [vm_compute; reflexivity|]); contradiction).
    apply (In_nth _ _ v1) in H1. apply (In_nth _ _ v1) in H2. destruct H1 as (i & Hi & E1). destruct H2 as (j & Hj & E2).
    assert (i = j) as ->; [|congruence]. apply (proj1 (NoDup_nth (map kat_name testvectors) (kat_name v1)) D); [rewrite map_length; exact Hi|rewrite map_length; exact Hj|].
    rewrite !map_nth, E1, E2. exact H. }
  split.
  - intros H p.
    assert (A : forall s, In (s, p) names -> In s (map kat_name testvectors)) by (intros s Hs; cbn [names In] in Hs; repeat (destruct Hs as [Hs|Hs]; [injection Hs as <- <-; cbn [testvectors map kat_name In]; tauto|]); contradiction).
    assert (B : exists s, In (s, p) names) by (destruct p; eexists; cbn; intuition reflexivity).
    destruct B as (s & Hs). pose proof (A s Hs) as Hin. apply in_map_iff in Hin. destruct Hin as (v & Hn & Hv). exists v, s. split; [exact Hv|]. split; [exact Hs|]. split; [exact Hn|].
    destruct (proj1 (Forall_forall _ _) H v Hv) as (q & Q1 & Q2). rewrite Hn in Q1. apply C49_lookup in Q1, Hs. assert (q = p) as <- by congruence. exact Q2.
  - intros H. apply Forall_forall. intros v Hv.
    assert (A : exists p, In (kat_name v, p) names) by (cbn [testvectors In] in Hv; repeat (destruct Hv as [<-|Hv]; [eexists; cbn; intuition reflexivity|]); contradiction).
    destruct A as (p & Hp). exists p. split; [exact Hp|]. destruct (H p) as (v' & s & H1 & H2 & H3 & H4).
    assert (ES : s = kat_name v).
    { clear - Hp H2. cbn [names In] in Hp, H2. 
      repeat (destruct Hp as [Hp|Hp]; [assert (EP := f_equal snd Hp); cbn [snd] in EP; rewrite <- EP in H2; assert (EN := f_equal fst Hp); cbn [fst] in EN; rewrite <- EN;
        repeat (destruct H2 as [H2|H2]; [first [discriminate|(assert (X := f_equal fst H2); cbn [fst] in X; symmetry; exact X)]|]); contradiction|]). contradiction. }
    rewrite <- (N v' v H1 Hv); [exact H4|congruence].
Qed.

(** ** The hypotheses can be met *)
Definition ex_512 : sha512_ctx := mkSha512 (repeat 1 8) 5 7 (repeat 42 128).
Example ex_wf512 : wf512 ex_512.
Proof. split; [reflexivity|]. split; [apply bytes_dec; reflexivity|reflexivity]. Qed.
Example ex_sha512_table : run_512 false (fun _ => ex_512) (fun _ => ex_512) vectors_512 = Ok 1.
Proof. apply C49_sha512_table; intros; apply ex_wf512. Qed.
(** a wrong answer is noticed *)
Example ex_sha512_wrong : run_512 true (fun _ => ex_512) (fun _ => ex_512) [([97; 98; 99], repeat 0 64)] = Ok 0.
Proof.
  destruct (C49_run_sha512 true (fun _ => ex_512) (fun _ => ex_512) [([97; 98; 99], repeat 0 64)]) as (r & E & R & P).
  - constructor; [|constructor]. split; [apply bytes_dec; reflexivity|]. split; reflexivity.
  - intros _; apply ex_wf512.
  - intros _; apply ex_wf512.
  - destruct R as [-> | ->]; [exact E|]. exfalso. pose proof (Forall_inv (proj1 P eq_refl)) as X. cbn [fst snd] in X. apply eqb_true in X. revert X. vm_compute. discriminate.
Qed.
Example ex_shake_table : run_shake 1 (fun _ => repeat 3 26) vectors_shake = Ok 1.
Proof. apply C49_shake_table. reflexivity. Qed.
Definition ex_locals (cfg : config) : locals := Locals (mkSha256 (repeat 1 8) 5 7 (repeat 42 64)) (zero_ctx cfg (the_ps cfg SHA2_128s)) (fun _ => repeat 7 42).
Example ex_locals_ok : forall cfg, locals_ok cfg (ex_locals cfg).
Proof. intros cfg. split; [apply bytes_dec; reflexivity|]. split; [reflexivity|]. split; [apply zero_wf|]. intros i; reflexivity. Qed.
Example ex_testvector : exists r, test_testvector full_cfg (fun _ => ex_surroundings full_cfg SHA2_128s 0) (fun _ => ex_locals full_cfg) testvectors = Ok r.
Proof.
  destruct (C49_testvector_table full_cfg 0 (fun _ => ex_surroundings full_cfg SHA2_128s 0) (fun _ => ex_locals full_cfg) full_on) as (r & E & _).
  - intros _. apply ex_surroundings_ok. lia.
  - intros _. apply ex_locals_ok.
  - exists r. exact E.
Qed.

Print Assumptions C49_test_sha512.
Print Assumptions C49_run_sha512.
Print Assumptions C49_test_shake.
Print Assumptions C49_run_shake.
Print Assumptions C49_lookup.
Print Assumptions C49_vector.
Print Assumptions C49_unknown_name.
Print Assumptions C49_test_testvector.
Print Assumptions C49_sha512_table.
Print Assumptions C49_shake_table.
Print Assumptions C49_testvector_table.
