(** * Properties of whole histories (C01, C11 - C16, C24, C26, C36)

    The abstract machine ([step], [allowed]) is SpecApi.v; [wcalls] runs the modelled
    library functions on any number of contexts (ModelApi.v). *)
From Verif Require Import Arr SpecSLH SpecApi SpecMap SpecSessions ModelParams ModelCtx ModelSphincs ModelVerify ModelKeygen ModelApi PfApi PfApi2 PfKeygen PfComplete PfSession PropSign PropVerify.
Ltac Zify.zify_post_hook ::= idtac.

(** The machine is a function, defined exactly where the contract is met. *)
Theorem machine_total : forall en a m act, allowed en a m act <-> exists o a', step en a m act o a'.
Proof. intros. symmetry. apply step_allowed. Qed.
Theorem machine_deterministic : forall en a m act o1 a1 o2 a2,
  step en a m act o1 a1 -> step en a m act o2 a2 -> o1 = o2 /\ a1 = a2.
Proof. exact step_det. Qed.

(** ** C14, C15: histories that keep the contract *)

(** [keeps cfg w h]: starting with the contexts in the states [w], every call of [h] is
    allowed when its turn comes. *)
Inductive keeps (cfg : config) : world astate -> list (nat * memory * action) -> Prop :=
| keeps_nil w : keeps cfg w []
| keeps_cons w i m act h : allowed (platform_of cfg) (w i) m act ->
    (forall o a, step (platform_of cfg) (w i) m act o a -> keeps cfg (set i a w) h) -> keeps cfg w ((i, m, act) :: h).

(** Every call sequence that keeps the contract, on any number of contexts with any
    initial contents, under every configuration, for all keys, messages and (possibly
    malicious) signatures: every call returns ([Ok]); no access outside an array or to
    unreadable memory, no shift out of range, no overflow, no endless loop ([UB]).  The
    results are those of the abstract machine, and the contexts keep their shape. *)
Theorem C14_C15_every_history_is_defined : forall cfg h cw,
  (forall i, wf_ctx cfg (cw i)) -> keeps cfg (fun _ => Fresh) h ->
  exists os cw', wcalls cfg h cw = Ok (os, cw') /\ (forall i, wf_ctx cfg (cw' i)) /\
    exists w', wsteps (platform_of cfg) (fun _ => Fresh) h os w'.
Proof.
  intros cfg h cw W HK.
  assert (G : forall w, keeps cfg w h -> exists os w', wsteps (platform_of cfg) w h os w').
  { clear. intros w HK. induction HK as [w|w i m act h HA HN IH]; [exists [], w; constructor|].
    apply step_allowed in HA. destruct HA as (o & a & S). destruct (IH o a S) as (os & w' & S').
    exists (o :: os), w'. econstructor; eassumption. }
  destruct (G _ HK) as (os & w' & S). destruct (simulation_wsteps cfg _ _ _ _ S cw W) as (cw' & E & HR).
  exists os, cw'. split; [exact E|]. split; [intros i; eapply Rel_wf, HR|]. exists w'. exact S.
Qed.

(** ** C13: the previous contents of a context do not matter *)
Definition is_init (act : action) : Prop := match act with InitSign _ _ _ _ _ | InitVerify _ _ _ _ => True | _ => False end.

(** What follows an init call, for two contexts with any contents (garbage, or left from
    an earlier operation of either kind): the same observations. *)
Theorem C13_any_previous_contents : forall cfg c1 c2 m act h os a,
  wf_ctx cfg c1 -> wf_ctx cfg c2 -> is_init act ->
  steps (platform_of cfg) Fresh ((m, act) :: h) os a ->
  exists c1' c2', calls cfg ((m, act) :: h) c1 = Ok (os, c1') /\ calls cfg ((m, act) :: h) c2 = Ok (os, c2').
Proof.
  intros cfg c1 c2 m act h os a W1 W2 _ S.
  destruct (simulation_steps cfg _ _ _ _ S c1 W1) as (c1' & E1 & _). destruct (simulation_steps cfg _ _ _ _ S c2 W2) as (c2' & E2 & _). eauto.
Qed.
(** In particular after any earlier history on the same context. *)
Theorem C13_reuse : forall cfg c h0 os0 a0 m act h os a c',
  wf_ctx cfg c -> wf_ctx cfg c' -> is_init act ->
  steps (platform_of cfg) Fresh h0 os0 a0 -> steps (platform_of cfg) Fresh ((m, act) :: h) os a ->
  exists c1 c2, calls cfg (h0 ++ (m, act) :: h) c = Ok (os0 ++ os, c1) /\ calls cfg ((m, act) :: h) c' = Ok (os, c2).
Proof.
  intros cfg c h0 os0 a0 m act h os a c' W W' _ S0 S.
  destruct (simulation_steps cfg _ _ _ _ S0 c W) as (c0 & E0 & R0). pose proof (Rel_wf cfg _ _ R0) as W0.
  destruct (simulation_steps cfg _ _ _ _ S c0 W0) as (c1 & E1 & _). destruct (simulation_steps cfg _ _ _ _ S c' W') as (c2 & E2 & _).
  exists c1, c2. split; [|exact E2]. rewrite (calls_app _ _ _ _ _ _ E0), E1. reflexivity.
Qed.

(** ** C16: contexts of the wrong kind.  For every context that a history has left set up
    for verification (signing), and every argument: *)
Theorem C16_sign_on_verify_context : forall cfg c h os p pk PK msg l M fed ok,
  wf_ctx cfg c -> steps (platform_of cfg) Fresh h os (Verifying p pk PK msg l M fed ok) ->
  exists c', calls cfg h c = Ok (os, c') /\ forall m dest sz, ts_sign cfg m dest sz c' = Ok (0, dest, c').
Proof.
  intros cfg c h os p pk PK msg l M fed ok W S. destruct (simulation_steps cfg _ _ _ _ S c W) as (c' & E & HR).
  exists c'. split; [exact E|]. intros m dest sz. destruct (ver_state cfg _ _ _ _ _ _ _ _ _ HR) as [V _]. unfold ts_sign.
  destruct (Z.leb_spec ts_verify_state (c_state c')); [|lia]. rewrite Bool.orb_true_r. reflexivity.
Qed.
Theorem C16_verify_on_sign_context : forall cfg c h os p sk SK rem,
  wf_ctx cfg c -> steps (platform_of cfg) Fresh h os (Signing p sk SK rem) ->
  exists c', calls cfg h c = Ok (os, c') /\
    (forall m chunk k, ts_update_verify cfg m chunk k c' = Ok (0, c')) /\ ts_verify c' = 0.
Proof.
  intros cfg c h os p sk SK rem W S. destruct (simulation_steps cfg _ _ _ _ S c W) as (c' & E & HR).
  exists c'. split; [exact E|]. pose proof (sign_state cfg _ _ _ _ _ HR) as V. split.
  - intros m chunk k. unfold ts_update_verify. destruct (Z.leb_spec (c_state c') ts_verify_state); [|lia]. reflexivity.
  - unfold ts_verify. destruct (Z.eqb_spec (c_state c') ts_verify_success) as [e|]; [rewrite e in V; exfalso; clear - V; unfold ts_verify_state, ts_verify_success in V; lia|]. reflexivity.
Qed.

(** ** C26, C24: configurations, including the platform (byte order, size of pointers,
    alignment) *)
(** The calls possible on both platforms *)
Definition both (cfg1 cfg2 : config) : platform :=
  mkPlatform (fun p => ps_enabled cfg1 p = true /\ ps_enabled cfg2 p = true) (Z.min (addresses (platform_of cfg1)) (addresses (platform_of cfg2))).
Theorem C26_configurations_agree : forall cfg1 cfg2 cw1 cw2 h os w',
  (forall i, wf_ctx cfg1 (cw1 i)) -> (forall i, wf_ctx cfg2 (cw2 i)) ->
  wsteps (both cfg1 cfg2) (fun _ => Fresh) h os w' ->
  exists cw1' cw2', wcalls cfg1 h cw1 = Ok (os, cw1') /\ wcalls cfg2 h cw2 = Ok (os, cw2').
Proof.
  intros cfg1 cfg2 cw1 cw2 h os w' W1 W2 S.
  destruct (simulation_wsteps cfg1 _ _ _ _ (wsteps_mono (both cfg1 cfg2) (platform_of cfg1) _ _ _ _ (fun p H => proj1 H) (Z.le_min_l _ _) S) cw1 W1) as (cw1' & E1 & _).
  destruct (simulation_wsteps cfg2 _ _ _ _ (wsteps_mono (both cfg1 cfg2) (platform_of cfg2) _ _ _ _ (fun p H => proj2 H) (Z.le_min_r _ _) S) cw2 W2) as (cw2' & E2 & _).
  eauto.
Qed.

(** Contract of key generation for the arrays and the random function *)
Definition genkey_ok (p : ps_name) (priv : list Z) (pub : option (list Z)) (g : Z -> Z * list Z) : Prop :=
  let n := p_n (slh_of p) in
  is_bytes priv /\ 4 * n <= len priv /\ match pub with Some b => 2 * n <= len b | None => True end /\ random_ok (Some g) (3 * n).

Lemma gen_key_cases cfg p addr priv pub g : ps_enabled cfg p = true -> genkey_ok p priv pub g ->
  let n := p_n (slh_of p) in
  let ret := fst (g (3 * n)) in let data := snd (g (3 * n)) in
  ts_gen_key cfg (Some (addr, priv)) pub (Some (the_ps cfg p)) (Some g) =
  Ok (if ret =? 0 then (0, Some (data ++ skipn (length data) priv), pub)
      else let '(SK, PK) := slh_keygen_internal (slh_of p) (slice data 0 n) (slice data n n) (slice data (2 * n) n) in
        (1, Some (SK ++ skipn (Z.to_nat (4 * n)) priv), option_map (fun b => PK ++ skipn (Z.to_nat (2 * n)) b) pub)).
Proof.
  intros on (H1 & H2 & H3 & H4) n ret data. fold n in H2, H3, H4. cbn [random_ok] in H4. unfold ret, data. destruct (g (3 * n)) as [r d] eqn:EG. destruct H4 as (H4 & H5 & H6).
  cbn [fst snd]. apply (gen_key_ok cfg p on addr priv pub g H1 H2 H3 r d EG H4 H5 H6).
Qed.

Theorem C26_keygen_agrees : forall cfg1 cfg2 p addr1 addr2 priv pub g,
  ps_enabled cfg1 p = true -> ps_enabled cfg2 p = true -> genkey_ok p priv pub g ->
  exists r, ts_gen_key cfg1 (Some (addr1, priv)) pub (Some (the_ps cfg1 p)) (Some g) = Ok r /\
            ts_gen_key cfg2 (Some (addr2, priv)) pub (Some (the_ps cfg2 p)) (Some g) = Ok r.
Proof.
  intros cfg1 cfg2 p addr1 addr2 priv pub g on1 on2 H. eexists. split; [apply gen_key_cases; assumption|apply gen_key_cases; assumption].
Qed.

(** C24: the configurations that differ in TS_SHA2_OPTIMIZATION only *)
Definition with_sha2_opt (b : bool) (cfg : config) : config :=
  mkConfig (cfg_shake cfg) (cfg_sha2 cfg) (cfg_L5 cfg) (cfg_L3 cfg) (cfg_S cfg) b (cfg_shake_opt cfg) (cfg_le cfg) (cfg_ptr64 cfg) (cfg_al64 cfg).
Theorem C24_midstate_optimisation : forall cfg cw0 cw1 h os w',
  (forall i, wf_ctx (with_sha2_opt false cfg) (cw0 i)) -> (forall i, wf_ctx (with_sha2_opt true cfg) (cw1 i)) ->
  wsteps (platform_of cfg) (fun _ => Fresh) h os w' ->
  exists cw0' cw1', wcalls (with_sha2_opt false cfg) h cw0 = Ok (os, cw0') /\ wcalls (with_sha2_opt true cfg) h cw1 = Ok (os, cw1').
Proof.
  intros cfg cw0 cw1 h os w' W0 W1 S. eapply C26_configurations_agree; [exact W0|exact W1|].
  eapply wsteps_mono; [| |exact S]; [intros p H; split; destruct p; exact H|]. apply Z.min_glb; apply Z.le_refl.
Qed.
Theorem C24_keygen : forall cfg p addr priv pub g,
  ps_enabled cfg p = true -> genkey_ok p priv pub g ->
  ts_gen_key (with_sha2_opt false cfg) (Some (addr, priv)) pub (Some (the_ps (with_sha2_opt false cfg) p)) (Some g) =
  ts_gen_key (with_sha2_opt true cfg) (Some (addr, priv)) pub (Some (the_ps (with_sha2_opt true cfg) p)) (Some g).
Proof.
  intros cfg p addr priv pub g on H.
  assert (on' : forall b, ps_enabled (with_sha2_opt b cfg) p = true) by (intros b; destruct p; exact on).
  rewrite (gen_key_cases (with_sha2_opt false cfg) p addr priv pub g (on' false) H), (gen_key_cases (with_sha2_opt true cfg) p addr priv pub g (on' true) H).
  reflexivity.
Qed.

(** ** C11: a successful key generation *)
Theorem C11_keygen_is_FIPS205 : forall cfg p addr priv pub g,
  ps_enabled cfg p = true -> genkey_ok p priv pub g ->
  let n := p_n (slh_of p) in let data := snd (g (3 * n)) in
  fst (g (3 * n)) <> 0 ->
  let '(SK, PK) := slh_keygen_internal (slh_of p) (slice data 0 n) (slice data n n) (slice data (2 * n) n) in
  ts_gen_key cfg (Some (addr, priv)) pub (Some (the_ps cfg p)) (Some g)
    = Ok (1, Some (SK ++ skipn (Z.to_nat (4 * n)) priv), option_map (fun b => PK ++ skipn (Z.to_nat (2 * n)) b) pub) /\
  len SK = ts_size_private_key (the_ps cfg p) /\ len PK = ts_size_public_key (the_ps cfg p) /\
  firstn (Z.to_nat (3 * n)) SK = data /\ PK = skipn (Z.to_nat (2 * n)) SK.
Proof.
  intros cfg p addr priv pub g on HG n data Hr.
  pose proof (gen_key_cases cfg p addr priv pub g on HG) as X. cbv zeta in X. fold n in X. fold data in X.
  destruct (Z.eqb_spec (fst (g (3 * n))) 0); [contradiction|].
  destruct HG as (H1 & H2 & H3 & H4). fold n in H2, H3, H4. cbn [random_ok] in H4. unfold data in *. destruct (g (3 * n)) as [r d]. cbn [fst snd] in *. destruct H4 as (H4 & H5 & H6).
  specialize (H6 Hr). unfold slh_keygen_internal in *.
  assert (Nb : 16 <= n <= 32) by (unfold n; destruct p; cbn; lia).
  set (priv1 := d ++ repeat 0 (Z.to_nat n)).
  assert (L1 : 4 * n <= len priv1) by (unfold priv1; rewrite len_app; unfold len in *; rewrite repeat_length; lia).
  assert (B1 : is_bytes priv1) by (apply PfIter.bytes_app; [exact H4|apply PfGlueSha.zeros_bytes']).
  destruct (gen_root_priv cfg p on 0 priv1 B1 L1) as (_ & LR & _). fold n in LR.
  assert (S1 : forall o, 0 <= o -> o + n <= 3 * n -> slice priv1 o n = slice d o n).
  { intros o A1 A2. apply PfSpec.slice_app_l; [lia|lia|]. change (@zlen Z) with len. lia. }
  rewrite (S1 0), (S1 (2 * n)) in LR by lia.
  assert (SZ : forall o, 0 <= o -> o + n <= 3 * n -> len (slice d o n) = n).
  { intros o A1 A2. apply PfSpec.slice_zlen; [lia|lia|]. change (@zlen Z) with len. lia. }
  assert (ES : slice d 0 n ++ slice d n n ++ slice d (2 * n) n = d).
  { unfold slice. rewrite <- (firstn_skipn (Z.to_nat n) d) at 4. f_equal.
    rewrite <- (firstn_skipn (Z.to_nat n) (skipn (Z.to_nat n) d)) at 2. f_equal. rewrite skipn_skipn'.
    replace (Z.to_nat n + Z.to_nat n)%nat with (Z.to_nat (2 * n)) by lia. apply firstn_all2. rewrite skipn_length. unfold len in *. lia. }
  split; [exact X|]. assert (En : ps_n (the_ps cfg p) = n) by (unfold n; destruct p; reflexivity).
  split; [unfold ts_size_private_key; rewrite En, !len_app, (SZ 0), (SZ n), (SZ (2 * n)), LR by lia; lia|].
  split; [unfold ts_size_public_key; rewrite En, len_app, (SZ (2 * n)), LR by lia; lia|].
  split.
  - rewrite !app_assoc. rewrite <- (app_assoc (slice d 0 n)). rewrite ES. apply firstn_app_exact. unfold len in *. lia.
  - rewrite app_assoc. symmetry. apply skipn_app_exact. rewrite app_length. pose proof (SZ 0 ltac:(lia) ltac:(lia)). pose proof (SZ n ltac:(lia) ltac:(lia)). unfold len in *. lia.
Qed.

(** ** C12: when it returns 0, and what it leaves alone then *)
Theorem C12_keygen_failure : forall cfg p priv pub ps rng,
  (match priv, ps, rng with
   | Some (_, b), Some q, Some g => q = the_ps cfg p /\ ps_enabled cfg p = true /\ genkey_ok p b pub g
   | _, _, _ => True
   end) ->
  exists ret priv' pub', ts_gen_key cfg priv pub ps rng = Ok (ret, priv', pub') /\
    (ret = 0 <-> priv = None \/ ps = None \/ match rng with None => True | Some g => fst (g (3 * p_n (slh_of p))) = 0 /\ priv <> None /\ ps <> None end) /\
    (ret = 0 \/ ret = 1) /\
    (ret = 0 -> pub' = pub) /\
    (* the private key array is touched only by the random function *)
    (ret = 0 -> priv = None \/ ps = None \/ rng = None -> priv' = option_map snd priv).
Proof.
  intros cfg p priv pub ps rng H.
  destruct rng as [g|]; [|exists 0, (option_map snd priv), pub; split; [reflexivity|]; split; [tauto|]; split; [auto|]; split; auto].
  destruct priv as [[addr b]|]; [|exists 0, None, pub; split; [reflexivity|]; split; [tauto|]; split; [auto|]; split; auto].
  destruct ps as [q|]; [|exists 0, (Some b), pub; split; [reflexivity|]; split; [tauto|]; split; [auto|]; split; auto].
  destruct H as (-> & on & HG).
  pose proof (gen_key_cases cfg p addr b pub g on HG) as X. cbv zeta in X. rewrite X.
  destruct (Z.eqb_spec (fst (g (3 * p_n (slh_of p)))) 0) as [Er|Er].
  - eexists _, _, _. split; [reflexivity|]. split; [|split; [auto|split; [auto|]]].
    + split; [intros _; right; right; split; [exact Er|split; discriminate]|reflexivity].
    + intros _ [HX|[HX|HX]]; discriminate.
  - destruct (slh_keygen_internal _ _ _ _) as [SK PK]. eexists _, _, _. split; [reflexivity|]. split; [|split; [auto|split; discriminate]].
    split; [discriminate|]. intros [HX|[HX|[HX _]]]; [discriminate|discriminate|contradiction].
Qed.

(** ** C01: everything that is signed with a generated key verifies.  The three
    operations may run under three different configurations (on three machines). *)
Lemma answers_valid P M PK S fs : 0 < p_n P -> len S = slh_sig_length P -> slh_verify_internal P M S PK = true -> forall fed, fed ++ all_fed fs = S ->
  verify_answers P M PK fed true fs = map (fun _ => Updated 1) fs.
Proof.
  intros Pn LS HV. induction fs as [|f fs IH]; intros fed H; [reflexivity|]. cbn [verify_answers map].
  change (all_fed (f :: fs)) with (fd_chunk f ++ all_fed fs) in H. rewrite app_assoc in H. specialize (IH _ H).
  assert (LH : len (fed ++ fd_chunk f) + len (all_fed fs) = slh_sig_length P) by (rewrite <- LS, <- H, (len_app (fed ++ fd_chunk f)); reflexivity).
  assert (0 <= len (all_fed fs)) by (unfold len; lia). set (fed' := fed ++ fd_chunk f) in *. cbn [andb].
  destruct (Z.ltb_spec (len fed') (slh_sig_length P)); [rewrite IH; reflexivity|].
  assert (Z0 : all_fed fs = []) by (apply length_zero_iff_nil; unfold len in *; lia). rewrite Z0, app_nil_r in H.
  destruct (Z.ltb_spec (len fed) (slh_sig_length P)); [rewrite H in IH; rewrite H, HV; cbn [b2z]; rewrite IH; reflexivity|].
  destruct (Z.ltb_spec (len fed') (slh_sig_length P + p_n P)); [rewrite IH; reflexivity|lia].
Qed.

Theorem C01_signatures_verify : forall cfgK cfgS cfgV p,
  ps_enabled cfgK p = true -> ps_enabled cfgS p = true -> ps_enabled cfgV p = true ->
  (* key generation *)
  forall addr priv pub g SK PK, genkey_ok p priv (Some pub) g ->
  len priv = ts_size_private_key (the_ps cfgK p) -> len pub = ts_size_public_key (the_ps cfgK p) ->
  ts_gen_key cfgK (Some (addr, priv)) (Some pub) (Some (the_ps cfgK p)) (Some g) = Ok (1, Some SK, Some PK) ->
  (* signing *)
  forall c m0 msg M sk f rqs, wf_ctx cfgS c ->
  sign_init_ok m0 msg M p sk SK f -> Forall (request_ok sk SK) rqs ->
  ts_size_signature (the_ps cfgS p) <= asked rqs ->
  exists os c1, calls cfgS (sign_history m0 msg (len M) p sk f rqs) c = Ok (Started :: os, c1) /\
  (* verifying what was collected *)
  forall c' m' msg' pk fs mv, wf_ctx cfgV c' ->
  verify_init_ok cfgV m' msg' M p pk PK -> feeds_ok p pk PK msg' M [] fs ->
  concat (map fd_chunk fs) = concat (map taken os) ->
  exists c2, calls cfgV (verify_history m' msg' (len M) p pk fs ++ [(mv, Verify)]) c'
             = Ok (Started :: map (fun _ => Updated 1) fs ++ [Verdict 1], c2).
Proof.
  intros cfgK cfgS cfgV p onK onS onV addr priv pub g SK PK HG Lpriv Lpub HGen c m0 msg M sk f rqs W HI HR HA.
  destruct (C02_signature_is_FIPS205 cfgS p c m0 msg M sk SK f rqs onS W HI HR HA) as (os & c1 & E1 & ET).
  exists os, c1. split; [exact E1|]. intros c' m' msg' pk fs mv W' HI' HF HE. rewrite ET in HE. clear ET E1.
  match type of HE with _ = slh_sign_internal _ _ _ ?r => set (rnd := r) in * end.
  assert (BR : is_bytes rnd).
  { change rnd with (randomness f (p_n (slh_of p)) (slice SK (2 * p_n (slh_of p)) (p_n (slh_of p)))). destruct HI as (A1 & A2 & A3 & A4 & A5).
    apply randomness_bytes; [exact A5|apply PfSpec.slice_bytes, A1]. }
  (* the keys belong together *)
  pose proof (gen_key_cases cfgK p addr priv (Some pub) g onK HG) as X. cbv zeta in X. rewrite X in HGen. clear X.
  set (n := p_n (slh_of p)) in *. set (d := snd (g (3 * n))) in *.
  destruct (Z.eqb_spec (fst (g (3 * n))) 0) as [Er|Er]; [discriminate|].
  pose proof (C11_keygen_is_FIPS205 cfgK p addr priv (Some pub) g onK HG) as Y. cbv zeta in Y. fold n in Y. fold d in Y. specialize (Y Er).
  destruct (slh_keygen_internal (slh_of p) (slice d 0 n) (slice d n n) (slice d (2 * n) n)) as [SK0 PK0] eqn:EK.
  destruct Y as (_ & Y1 & Y2 & Y3 & Y4). assert (En : ps_n (the_ps cfgK p) = n) by (unfold n; destruct p; reflexivity).
  unfold ts_size_private_key, ts_size_public_key in *. rewrite En in *.
  assert (ESK : SK = SK0) by (rewrite skipn_all2 in HGen by (unfold len in *; lia); rewrite app_nil_r in HGen; congruence).
  assert (EPK : PK = PK0) by (cbn [option_map] in HGen; rewrite (skipn_all2 pub) in HGen by (unfold len in *; lia); rewrite app_nil_r in HGen; congruence).
  rewrite <- ESK in Y1, Y3, Y4, EK. rewrite <- EPK in Y2, Y4, EK. clear ESK EPK HGen.
  assert (Nb : 16 <= n <= 32) by (unfold n; destruct p; cbn; lia).
  assert (S1 : forall o, 0 <= o -> o + n <= 3 * n -> slice SK o n = slice d o n).
  { intros o A1 A2. rewrite <- Y3. unfold slice. rewrite skipn_firstn_comm, firstn_firstn. f_equal. lia. }
  assert (ROOT : slice SK (3 * n) n = slh_root (slh_of p) (slice SK (2 * n) n) (slice SK 0 n)).
  { rewrite (S1 (2 * n)), (S1 0) by lia. unfold slh_keygen_internal in EK. set (rt := slh_root _ _ _) in *. 
    assert (EP2 : PK = slice d (2 * n) n ++ rt) by congruence. unfold slice. replace (Z.to_nat (3 * n)) with (Z.to_nat (2 * n) + Z.to_nat n)%nat by lia.
    rewrite <- skipn_skipn'. rewrite <- Y4, EP2. rewrite skipn_app_exact.
    - apply firstn_all2. rewrite EP2, len_app in Y2. destruct HG as (_ & _ & _ & G4). cbn [random_ok] in G4. fold n in G4. unfold d in *. destruct (g (3 * n)) as [r0 d0]. cbn [fst snd] in *.
      assert (L2 : len (slice d0 (2 * n) n) = n) by (apply PfSpec.slice_zlen; [lia|lia|]; change (@zlen Z) with len; lia). unfold len in *. lia.
    - rewrite EP2, len_app in Y2. destruct HG as (_ & _ & _ & G4). cbn [random_ok] in G4. fold n in G4. unfold d in *. destruct (g (3 * n)) as [r0 d0]. cbn [fst snd] in *.
      assert (L2 : len (slice d0 (2 * n) n) = n) by (apply PfSpec.slice_zlen; [lia|lia|]; change (@zlen Z) with len; lia). unfold len in *. lia. }
  destruct HI as (A1 & A2 & A3 & A4 & A5).
  pose proof (complete p SK (proj1 A1) A2 M rnd (proj1 A3) BR ROOT) as HV. fold n in HV. rewrite <- Y4 in HV.
  destruct (sig_shape p SK (proj1 A1) A2 M rnd (proj1 A3) BR) as [LS _]. rewrite <- HE in HV, LS. fold (all_fed fs) in HV, LS.
  destruct (verify_session cfgV p c' m' msg' M pk PK fs onV W' HI' HF) as (c2 & E2 & V2). exists c2.
  rewrite (calls_app _ _ _ _ _ _ E2). cbn [calls]. rewrite V2, HV. cbn [bind app b2z]. do 4 f_equal.
  apply (answers_valid (slh_of p) M PK (all_fed fs)); [fold n; lia|exact LS|exact HV|reflexivity].
Qed.

(** ** C36: interleaving *)
Definition mine (i : nat) (h : list (nat * memory * action)) : list (memory * action) :=
  flat_map (fun '(j, m, act) => if Nat.eqb j i then [(m, act)] else []) h.
Fixpoint mine_obs (i : nat) (h : list (nat * memory * action)) (os : list obs) : list obs :=
  match h, os with
  | (j, _, _) :: h, o :: os => if Nat.eqb j i then o :: mine_obs i h os else mine_obs i h os
  | _, _ => []
  end.
(** In any interleaved history each context sees what it would see alone. *)
Theorem C36_as_if_alone : forall cfg h cw os cw', wcalls cfg h cw = Ok (os, cw') ->
  forall i, calls cfg (mine i h) (cw i) = Ok (mine_obs i h os, cw' i).
Proof.
  intros cfg h. induction h as [|[[j m] act] h IH]; intros cw os cw' H i; cbn [wcalls] in H.
  - injection H as <- <-. reflexivity.
  - destruct (call cfg m act (cw j)) as [[o c]|] eqn:EC; cbn [bind] in H; [|discriminate].
    destruct (wcalls cfg h (set j c cw)) as [[os1 cw1]|] eqn:EW; cbn [bind] in H; [|discriminate]. injection H as <- <-.
    specialize (IH _ _ _ EW i). cbn [mine flat_map mine_obs]. fold (mine i h). unfold set in IH. rewrite (Nat.eqb_sym i j) in IH.
    destruct (Nat.eqb_spec j i) as [e|]; [|exact IH]. subst j. cbn [app calls]. rewrite EC. cbn [bind]. rewrite IH. reflexivity.
Qed.
(** Conversely every interleaving of histories that work alone works, with those results. *)
Theorem C36_any_interleaving : forall cfg h cw (each : nat -> list obs * ts_context),
  (forall i, calls cfg (mine i h) (cw i) = Ok (each i)) ->
  exists os cw', wcalls cfg h cw = Ok (os, cw') /\ forall i, mine_obs i h os = fst (each i) /\ cw' i = snd (each i).
Proof.
  intros cfg h. induction h as [|[[j m] act] h IH]; intros cw each H; cbn [wcalls].
  - exists [], cw. split; [reflexivity|]. intros i. specialize (H i). cbn [mine flat_map calls] in H. injection H as H. rewrite <- H. auto.
  - pose proof (H j) as Hj. cbn [mine flat_map] in Hj. rewrite Nat.eqb_refl in Hj. fold (mine j h) in Hj. cbn [app calls] in Hj.
    destruct (call cfg m act (cw j)) as [[o c]|]; cbn [bind] in *; [|discriminate].
    destruct (calls cfg (mine j h) c) as [[osj cj]|] eqn:EJ; cbn [bind] in Hj; [|discriminate].
    destruct (IH (set j c cw) (fun i => if Nat.eqb i j then (osj, cj) else each i)) as (os & cw' & E & HE).
    { intros i. unfold set. destruct (Nat.eqb_spec i j) as [e|e]; [subst i; exact EJ|]. specialize (H i). cbn [mine flat_map] in H.
      rewrite Nat.eqb_sym in H. destruct (Nat.eqb_spec i j); [contradiction|]. exact H. }
    rewrite E. cbn [bind]. exists (o :: os), cw'. split; [reflexivity|]. intros i. specialize (HE i). cbn [mine_obs]. rewrite Nat.eqb_sym.
    destruct (Nat.eqb_spec i j) as [e|e]; [|exact HE]. subst i. destruct HE as [HE1 HE2]. injection Hj as Hj. rewrite <- Hj, HE1, HE2. auto.
Qed.

(** ** Cases that meet the hypotheses *)
(** Two contexts used alternately, one signing and one verifying: a history that keeps
    the contract. *)
Definition ex_world : list (nat * memory * action) :=
  [(0%nat, ex_mem, InitSign 1064 5 SHA2_128f 1000 ex_rng);
   (1%nat, exv_mem, InitVerify 2048 5 SHAKE_192s 2000);
   (0%nat, mem_of 1000 ex_SK, Sign (repeat 0 50) 50);
   (1%nat, mem_of 2000 exv_PK, UpdateVerify [1; 2; 3]);
   (1%nat, mem_of 0 [], Sign [] 7);
   (0%nat, mem_of 0 [], Verify)].
Example ex_keeps : keeps full_cfg (fun _ => Fresh) ex_world.
Proof.
  destruct ex_holds as (H1 & H2 & H3).
  assert (HV : holds exv_mem 2000 (exv_PK ++ ex_M)) by (apply mem_of_holds, bytes_dec; reflexivity).
  assert (HV1 : holds exv_mem 2000 exv_PK).
  { rewrite <- (Z.add_0_r 2000). exact (holds_slice _ _ _ 0 48 HV ltac:(lia) ltac:(lia) ltac:(cbv; discriminate)). }
  assert (HV3 : holds (mem_of 2000 exv_PK) 2000 exv_PK) by (apply mem_of_holds, bytes_dec; reflexivity).
  destruct ex_sign_hypotheses as (_ & _ & (_ & L1 & _ & _ & R1) & _).
  apply keeps_cons.
  { cbn [allowed]. split; [reflexivity|]. split; [exists ex_SK; auto|]. split; [exists ex_M; auto|]. split; [lia|exact R1]. }
  intros o a S. inversion S; subst. clear S.
  match goal with H : holds _ 1000 ?K, L : len ?K = _ |- _ => assert (K = ex_SK) by (apply (holds_inj _ _ _ _ H H1); rewrite L, L1; reflexivity); subst K end.
  apply keeps_cons.
  { cbn [allowed set]. split; [reflexivity|]. split; [exists exv_PK; split; [exact HV1|reflexivity]|]. pose proof (addresses_ge full_cfg). split; [lia|split; lia]. }
  intros o a S. inversion S; subst. clear S.
  match goal with H : holds _ 2000 ?K, L : len ?K = _ |- _ => assert (K = exv_PK) by (apply (holds_inj _ _ _ _ H HV1); rewrite L; reflexivity); subst K end.
  apply keeps_cons.
  { cbn [allowed set Nat.eqb]. split; [intros _; exact H3|]. split; [lia|]. reflexivity. }
  intros o a S. cbn [set Nat.eqb] in S. inversion S; subst. clear S.
  apply keeps_cons.
  { cbn [allowed set Nat.eqb]. split; [intros _; exact HV3|]. split; [apply bytes_dec; reflexivity|]. split; [reflexivity|]. intros [_ HX]. exfalso. exact (HX eq_refl). }
  intros o a S. cbn [set Nat.eqb] in S. inversion S; subst. clear S.
  apply keeps_cons; [exact I|].
  intros o a S. cbn [set Nat.eqb] in S. inversion S; subst. clear S.
  apply keeps_cons; [cbn [allowed set Nat.eqb]; discriminate|].
  intros o a S. apply keeps_nil.
Qed.
Example ex_genkey : genkey_ok SHAKE_256f (repeat 0 (Z.to_nat 128)) (Some (repeat 0 (Z.to_nat 64))) (fun k => (1, repeat 5 (Z.to_nat k))) /\
  fst ((fun k => (1, repeat 5 (Z.to_nat k))) (3 * p_n (slh_of SHAKE_256f))) <> 0.
Proof.
  split; [|discriminate]. split; [apply bytes_dec; reflexivity|]. split; [cbv; discriminate|]. split; [cbv; discriminate|].
  cbn [random_ok]. split; [apply bytes_dec; reflexivity|]. split; [cbv; discriminate|reflexivity].
Qed.

Print Assumptions machine_total.
Print Assumptions machine_deterministic.
Print Assumptions C14_C15_every_history_is_defined.
Print Assumptions C13_any_previous_contents.
Print Assumptions C13_reuse.
Print Assumptions C16_sign_on_verify_context.
Print Assumptions C16_verify_on_sign_context.
Print Assumptions C26_configurations_agree.
Print Assumptions C26_keygen_agrees.
Print Assumptions C24_midstate_optimisation.
Print Assumptions C24_keygen.
Print Assumptions C11_keygen_is_FIPS205.
Print Assumptions C12_keygen_failure.
Print Assumptions C01_signatures_verify.
Print Assumptions C36_as_if_alone.
Print Assumptions C36_any_interleaving.
