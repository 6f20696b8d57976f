(** * What the measurement programs report (C59)

    [init_stack], [measure_stack] (stack.c), [ramspace] (ramspace.c), [ramspace_builds]
    (ramspace.py): ModelMeasure.v.  [depth], [only_top], [reached]: SpecMeasure.v. *)
From Verif Require Import Arr SpecSLH SpecMap SpecForge SpecBinding SpecTest SpecApi SpecSessions SpecMeasure ModelParams ModelCtx ModelSphincs ModelVerify ModelKeygen ModelApi ModelTest ModelMeasure
  PfIter PfSpec PfApi PfKeygen PfComplete PfSession PfForge PfForge2 PfUses PfEUF PfBind PfTest PropParams PropSign PropVerify PropApi PropForge PropBinding PropTest.
Ltac Zify.zify_post_hook ::= idtac.
Local Opaque STACK_N.

(** ** Lemmas *)
Lemma depth_unique before after u v : depth before after u -> depth before after v -> u = v.
Proof.
  intros (U & (_ & OU) & RU) (V & (_ & OV) & RV).
  destruct (Z.lt_trichotomy u v) as [L | [E | L]]; [|exact E|]; exfalso.
  - destruct RV as [-> | [_ R]]; [lia|]. apply R, OU. lia.
  - destruct RU as [-> | [_ R]]; [lia|]. apply R, OV. lia.
Qed.
Lemma fill_loop : forall n i (a b : list Z), zlen a = i -> length b = n ->
  for_loop n i (fun i array => wr array i PATTERN) (a ++ b) = Ok (a ++ repeat PATTERN n).
Proof.
  induction n as [|n IH]; intros i a b La Lb; cbn [for_loop repeat].
  - destruct b; [reflexivity|discriminate].
  - destruct b as [|x b]; [discriminate|]. unfold wr, zlen in *.
    rewrite app_length. cbn [length]. replace ((0 <=? i) && (i <? Z.of_nat (length a + S (length b)))) with true by (symmetry; apply andb_true_iff; lia).
    cbn [bind]. subst i. rewrite Nat2Z.id. 
    replace (firstn (length a) (a ++ x :: b)) with a by (rewrite firstn_app, Nat.sub_diag, firstn_all; cbn; rewrite app_nil_r; reflexivity).
    replace (skipn (S (length a)) (a ++ x :: b)) with b by (rewrite skipn_app, skipn_all2 by lia; replace (S (length a) - length a)%nat with 1%nat by lia; reflexivity).
    specialize (IH (Z.of_nat (length a) + 1) (a ++ [PATTERN]) b). rewrite <- !app_assoc in IH. apply IH; [rewrite app_length; cbn; lia|cbn [length] in Lb; lia].
Qed.
Lemma scan_spec : forall n i array, 0 <= i -> length array = (Z.to_nat i + n)%nat ->
  exists j, scan n i array = Ok j /\ i <= j <= i + Z.of_nat n /\
    (forall k, i <= Z.of_nat k < j -> nth_error array k = Some PATTERN) /\
    (j < i + Z.of_nat n -> nth_error array (Z.to_nat j) <> Some PATTERN).
Proof.
  induction n as [|n IH]; intros i array Hi L.
  - exists i. split; [reflexivity|]. split; [lia|]. split; intros; lia.
  - cbn [scan]. unfold rd. replace (0 <=? i) with true by (symmetry; lia).
    destruct (nth_error array (Z.to_nat i)) as [b|] eqn:E; [|apply nth_error_None in E; lia]. cbn [bind].
    destruct (b =? PATTERN) eqn:EB; cbn [negb].
    + apply Z.eqb_eq in EB. destruct (IH (i + 1) array ltac:(lia) ltac:(lia)) as (j & ES & B & A & N).
      exists j. split; [exact ES|]. split; [lia|]. split; [|intros; apply N; lia].
      intros k Hk. destruct (Z.eq_dec (Z.of_nat k) i) as [K|K]; [|apply A; lia]. subst i. rewrite Nat2Z.id in E. congruence.
    + exists i. split; [reflexivity|]. split; [lia|]. split; [intros; lia|]. intros _. rewrite E. apply Z.eqb_neq in EB. congruence.
Qed.
Lemma nth_repeat' (b : Z) n i : (i < n)%nat -> nth_error (repeat b n) i = Some b.
Proof. revert i. induction n as [|n IH]; intros [|i] H; cbn; try lia; [reflexivity|apply IH; lia]. Qed.

Lemma measurement : forall N place (routine : list Z -> list Z) fresh, 0 <= N < 2 ^ 32 -> fresh = filled_with PATTERN N ->
  len place = N -> len (routine fresh) = N ->
  exists u, depth fresh (routine fresh) u /\
    (place <- for_loop (Z.to_nat N) 0 (fun i array => wr array i PATTERN) place ;; i <- scan (Z.to_nat N) 0 (routine place) ;; Ok (u32 (N - i))) = Ok u.
Proof.
  intros N place routine fresh HN EF L LR. unfold len in L, LR.
  rewrite (fill_loop _ 0 [] place eq_refl) by lia. cbn [app bind].
  change (repeat PATTERN (Z.to_nat N)) with (filled_with PATTERN N). rewrite <- EF. set (after := routine fresh) in *.
  assert (LF : length fresh = Z.to_nat N) by (subst fresh; apply repeat_length).
  destruct (scan_spec (Z.to_nat N) 0 after ltac:(lia) ltac:(lia)) as (j & E & B & A & Hn). rewrite E. cbn [bind].
  exists (N - j). split.
  - unfold depth, only_top, reached. rewrite LF. replace (Z.of_nat (Z.to_nat N)) with N in * by lia.
    split; [lia|]. split; [split; [lia|]|].
    + intros i Hi. rewrite A by lia. symmetry. subst fresh. apply nth_repeat'. lia.
    + destruct (Z.eq_dec j N) as [->|NJ]; [left; lia|right]. split; [lia|].
      replace (N - (N - j)) with j by lia. subst fresh. unfold filled_with. rewrite nth_repeat' by lia. apply Hn. lia.
  - f_equal. unfold u32. apply Z.mod_small. lia.
Qed.

(** ** The theorems *)

(** The place as [init_stack] leaves it: 10000 bytes 'x' *)
Definition fresh_place : list Z := filled_with 120 10000.

(** Whatever was on the stack and whatever the routine does to it, the two functions of
    stack.c report the depth to which the routine changed it ... *)
Theorem C59_measurement : forall (place : list Z) (routine : list Z -> list Z),
  len place = 10000 -> len (routine fresh_place) = 10000 ->
  exists u, depth fresh_place (routine fresh_place) u /\
    (place <- init_stack place ;; measure_stack (routine place)) = Ok u.
Proof.
  intros place routine L LR. destruct (measurement STACK_N place routine fresh_place) as (u & D & E); [split; [discriminate|reflexivity]|reflexivity|exact L|exact LR|].
  exists u. split; [exact D|]. unfold init_stack, measure_stack. rewrite E. reflexivity.
Qed.
(** ... which is never more than the routine used, and no less if the lowest byte that it
    used was not left as 'x' *)
Theorem C59_no_more_than_used : forall (place : list Z) (routine : list Z -> list Z) used,
  len place = 10000 -> 0 <= used <= 10000 -> only_top used fresh_place (routine fresh_place) ->
  exists u, (place <- init_stack place ;; measure_stack (routine place)) = Ok u /\ 0 <= u <= used /\
    (reached used fresh_place (routine fresh_place) -> u = used).
Proof.
  intros place routine used L HU O.
  assert (LF : Z.of_nat (length fresh_place) = 10000) by (unfold fresh_place, filled_with; rewrite repeat_length; reflexivity).
  destruct (C59_measurement place routine L) as (u & (B & OT & R) & E). { destruct O as [O _]. unfold len. rewrite O. exact LF. }
  exists u. split; [exact E|]. rewrite LF in B. split.
  - split; [lia|]. destruct R as [-> | [_ R]]; [lia|]. destruct (Z.le_gt_cases u used) as [H|H]; [exact H|]. exfalso. apply R. apply O. rewrite LF. lia.
  - intros [_ R']. destruct (Z.lt_trichotomy u used) as [H | [H | H]]; [|exact H|].
    + exfalso. apply R'. apply OT. rewrite LF. lia.
    + destruct R as [-> | [_ R]]; [lia|]. exfalso. apply R. apply O. rewrite LF. lia.
Qed.

(** What the processor and compiler must provide: each of the three places has 10000 bytes
    before and after *)
Definition processor_ok (pr : processor) : Prop :=
  len (p_before_keygen pr) = 10000 /\ len (p_keygen pr fresh_place) = 10000 /\
  len (p_before_sig pr) = 10000 /\ len (p_sig pr fresh_place) = 10000 /\
  len (p_before_ver pr) = 10000 /\ len (p_ver pr fresh_place) = 10000.
(** The same surroundings, but with the malloc of get_space2.c failing *)
Definition out_of_memory (e : surroundings) : surroundings :=
  Surroundings (e_private_key e) (e_public_key e) (e_sk e) (e_pk e) (e_message e) (e_wrong_message e) (e_view e) (e_ctx e) (e_filled e) None.

Lemma place_space place routine : len place = 10000 -> len (routine fresh_place) = 10000 ->
  exists u pl, depth fresh_place (routine fresh_place) u /\ init_stack place = Ok pl /\ measure_stack (routine pl) = Ok u.
Proof.
  intros A B. destruct (C59_measurement place routine A B) as (u & D & E). exists u.
  destruct (init_stack place) as [pl|]; cbn [bind] in E; [|discriminate]. exists pl. auto.
Qed.
Lemma private_out cfg p e r priv pub : ps_enabled cfg p = true -> is_bytes (e_private_key e) -> len (e_private_key e) = 128 ->
  ts_gen_key cfg (Some (e_sk e, e_private_key e)) None (Some (the_ps cfg p)) (Some fake_rand1) = Ok (r, priv, pub) -> exists q, priv = Some q.
Proof.
  intros on S1 S2 EK.
  destruct (fake_ok1 (3 * p_n (slh_of p))) as [Bd Ld]; [pose proof (nbnd p); lia|].
  assert (GK : genkey_ok p (e_private_key e) None fake_rand1).
  { pose proof (nbnd p). split; [exact S1|]. split; [lia|]. split; [exact I|]. cbn [random_ok].
    rewrite (surjective_pairing (fake_rand1 (3 * p_n (slh_of p)))). split; [exact Bd|]. split; [cbn [fst fake_rand1]; lia|intros _; exact Ld]. }
  pose proof (gen_key_cases cfg p (e_sk e) (e_private_key e) None fake_rand1 on GK) as EK2. cbv zeta in EK2. rewrite EK in EK2. clear -EK2.
  destruct priv as [q|]; [exists q; reflexivity|exfalso].
  destruct (fst (fake_rand1 (3 * p_n (slh_of p))) =? 0); [assert (H := ok_inj' _ _ EK2); congruence|].
  destruct (slh_keygen_internal _ _ _ _) as [a b]. assert (H := ok_inj' _ _ EK2). congruence.
Qed.
Lemma keygen_space cfg p pr sk : ps_enabled cfg p = true -> processor_ok pr ->
  exists u, depth fresh_place (p_keygen pr fresh_place) u /\ measured_keygen_space cfg pr sk (the_ps cfg p) = Ok u.
Proof.
  intros on (A & B & _). destruct (place_space _ (p_keygen pr) A B) as (u & pl & D & E1 & E2). exists u. split; [exact D|].
  unfold measured_keygen_space. rewrite E1, (C48_run_keygen cfg p sk on). cbn [bind]. exact E2.
Qed.
Lemma sig_space cfg p pr e ctx c fuel : ps_enabled cfg p = true -> processor_ok pr ->
  surroundings_ok cfg (slh_sig_length (slh_of p)) e -> wf_ctx cfg ctx -> slh_sig_length (slh_of p) < Z.of_nat fuel ->
  exists u, depth fresh_place (p_sig pr fresh_place) u /\ measured_sig_space cfg pr fuel e (the_ps cfg p) ctx c = Ok u.
Proof.
  intros on (_ & _ & A & B & _) S W F. destruct (place_space _ (p_sig pr) A B) as (u & pl & D & E1 & E2). exists u. split; [exact D|].
  pose proof (C48_get_sig_space cfg p e ctx c fuel on S W F) as G. cbv zeta in G.
  set (sg := slh_sign_internal _ _ _ _) in G.
  unfold measured_sig_space. unfold get_sig_space in G.
  destruct (ts_gen_key cfg (Some (e_sk e, e_private_key e)) None (Some (the_ps cfg p)) (Some fake_rand1)) as [[[r priv] pub]|] eqn:EK; cbn [bind] in G |- *; [|discriminate].
  destruct (private_out cfg p e r priv pub on (proj1 S) (proj1 (proj2 S)) EK) as [q ->]. rewrite E1. cbn [bind].
  rewrite G. cbn [bind]. exact E2.
Qed.
Lemma ver_space cfg p pr e ctx : ps_enabled cfg p = true -> processor_ok pr ->
  surroundings_ok cfg (slh_sig_length (slh_of p)) e -> wf_ctx cfg ctx ->
  (exists u, depth fresh_place (p_ver pr fresh_place) u /\ measured_ver_space cfg pr e (the_ps cfg p) ctx = Ok u) /\
  measured_ver_space cfg pr (out_of_memory e) (the_ps cfg p) ctx = Ok 0.
Proof.
  intros on (_ & _ & _ & _ & A & B) S W. destruct (place_space _ (p_ver pr) A B) as (u & pl & D & E1 & E2).
  pose proof (C48_get_ver_space cfg p e ctx on S W) as G. unfold get_ver_space in G. split.
  - exists u. split; [exact D|]. unfold measured_ver_space.
    destruct (get_sig_and_public_key cfg e (the_ps cfg p) (e_message e) 3) as [[sig pub]|]; cbn [bind] in G |- *; [|discriminate].
    destruct sig as [sig|]; [|discriminate]. cbv zeta in G |- *.
    rewrite E1. cbn [bind].
    destruct (run_verify cfg (e_view e [] pub) ctx (the_ps cfg p) (e_pk e) (e_message e) 3 sig (ts_size_signature (the_ps cfg p))) as [s|]; cbn [bind] in G |- *; [|discriminate].
    assert (Es : s = 1) by congruence. rewrite Es, E2. reflexivity.
  - unfold measured_ver_space. unfold get_sig_and_public_key in G |- *. cbn [out_of_memory e_sk e_private_key e_public_key e_message e_malloc].
    destruct (ts_gen_key cfg (Some (e_sk e, e_private_key e)) (Some (e_public_key e)) (Some (the_ps cfg p)) (Some fake_rand2)) as [[[r priv] pub]|]; cbn [bind] in G |- *; [|discriminate].
    destruct priv, pub; cbn [bind]; reflexivity.
Qed.

(** ramspace: one line of ramspace.out, with the size of the context and the three depths;
    the last one is *FAILED* only if there was no memory for the signature (below), or the
    place was not changed at all *)
Theorem C59_ramspace : forall cfg p argc argv file fopen pr fuel e_sig e_ver sk ctx_sig ctx_ver c,
  ps_enabled cfg p = true -> 1 <= argc -> nth_error argv 1 = Some (Some file) -> fopen file = true -> processor_ok pr ->
  surroundings_ok cfg (slh_sig_length (slh_of p)) e_sig -> surroundings_ok cfg (slh_sig_length (slh_of p)) e_ver ->
  wf_ctx cfg ctx_sig -> wf_ctx cfg ctx_ver -> slh_sig_length (slh_of p) < Z.of_nat fuel ->
  exists keygen sig ver,
    depth fresh_place (p_keygen pr fresh_place) keygen /\ depth fresh_place (p_sig pr fresh_place) sig /\ depth fresh_place (p_ver pr fresh_place) ver /\
    ramspace cfg argc argv fopen pr fuel e_sig e_ver sk ctx_sig ctx_ver c p =
      Ok (0, [Name p; Number (SIZEOF_TS_CONTEXT cfg); Number keygen; Number sig; if ver =? 0 then Failed else Number ver; Newline]) /\
    ramspace cfg argc argv fopen pr fuel e_sig (out_of_memory e_ver) sk ctx_sig ctx_ver c p =
      Ok (0, [Name p; Number (SIZEOF_TS_CONTEXT cfg); Number keygen; Number sig; Failed; Newline]).
Proof.
  intros cfg p argc argv file fopen pr fuel e_sig e_ver sk ctx_sig ctx_ver c on HA HV HO HP S1 S2 W1 W2 F.
  destruct (keygen_space cfg p pr sk on HP) as (k & DK & EK). destruct (sig_space cfg p pr e_sig ctx_sig c fuel on HP S1 W1 F) as (s & DS & ES).
  destruct (ver_space cfg p pr e_ver ctx_ver on HP S2 W2) as [(v & DV & EV) EO].
  exists k, s, v. split; [exact DK|]. split; [exact DS|]. split; [exact DV|].
  unfold ramspace. replace (argc <? 1) with false by (symmetry; lia). unfold rd. cbn [Z.leb Z.compare]. change (Z.to_nat 1) with 1%nat. rewrite HV. cbn [bind]. rewrite HO. cbn [negb].
  rewrite EK, ES, EV, EO. cbn [bind]. split; reflexivity.
Qed.
(** If the file cannot be opened nothing is measured and the exit status says so *)
Theorem C59_cannot_open : forall cfg p argc argv file fopen pr fuel e_sig e_ver sk ctx_sig ctx_ver c,
  1 <= argc -> nth_error argv 1 = Some (Some file) -> fopen file = false ->
  ramspace cfg argc argv fopen pr fuel e_sig e_ver sk ctx_sig ctx_ver c p = Ok (1, []).
Proof.
  intros until c. intros HA HV HO. unfold ramspace. replace (argc <? 1) with false by (symmetry; lia). unfold rd. cbn [Z.leb Z.compare]. change (Z.to_nat 1) with 1%nat. rewrite HV. cbn [bind]. rewrite HO. reflexivity.
Qed.
(** Without an argument the program opens a null pointer (a finding: the test is argc < 1) *)
Theorem C59_no_argument : forall cfg p program fopen pr fuel e_sig e_ver sk ctx_sig ctx_ver c,
  ramspace cfg 1 [Some program; None] fopen pr fuel e_sig e_ver sk ctx_sig ctx_ver c p = UB BadPointer.
Proof. reflexivity. Qed.

(** ramspace.py: twelve builds, one for each parameter set, each with that parameter set in
    it and the context of the documented size *)
Theorem C59_table : forall le,
  (forall p, exists! cfg, In (cfg, p) (ramspace_builds le true true)) /\
  length (ramspace_builds le true true) = 12%nat /\
  forall cfg p, In (cfg, p) (ramspace_builds le true true) -> cfg = minimal p le /\ ps_enabled cfg p = true /\ SIZEOF_TS_CONTEXT cfg = documented_size p.
Proof.
  intros le.
  assert (M : forall cfg p, In (cfg, p) (ramspace_builds le true true) -> cfg = minimal p le).
  { intros cfg p H. cbv [ramspace_builds flat_map map app dflags parm_set Z.eqb Pos.eqb In] in H.
    repeat (destruct H as [H|H]; [injection H as <- <-; reflexivity|]). contradiction. }
  split; [|split; [reflexivity|]].
  - intros p. exists (minimal p le). split; [|intros x H; symmetry; apply M, H].
    destruct p; cbv [ramspace_builds flat_map map app dflags parm_set Z.eqb Pos.eqb In]; cbn [negb]; auto 20.
  - intros cfg p H. specialize (M cfg p H). split; [exact M|]. subst cfg. apply C34_documented_sizes.
Qed.

(** ** The hypotheses can be met: routines that write zeros on 700, 1200 and 900 bytes of stack *)
Definition uses (u : Z) (place : list Z) : list Z := firstn (Z.to_nat (10000 - u)) place ++ repeat 0 (Z.to_nat u).
Definition ex_processor : processor := Processor (repeat 1 (Z.to_nat 10000)) (uses 700) (repeat 2 (Z.to_nat 10000)) (uses 1200) (repeat 3 (Z.to_nat 10000)) (uses 900).
Lemma fresh_len : length fresh_place = Z.to_nat 10000. Proof. apply repeat_length. Qed.
Lemma uses_len u : 0 <= u <= 10000 -> length (uses u fresh_place) = Z.to_nat 10000.
Proof. intros H. unfold uses. rewrite app_length, firstn_length, fresh_len, repeat_length. lia. Qed.
Lemma uses_depth u : 0 < u <= 10000 -> depth fresh_place (uses u fresh_place) u.
Proof.
  intros H. pose proof fresh_len as F. unfold depth, only_top, reached. rewrite F, uses_len by lia. replace (Z.of_nat (Z.to_nat 10000)) with 10000 by lia.
  split; [lia|]. split; [split; [reflexivity|]|right; split; [lia|]].
  - intros i Hi. unfold uses. rewrite nth_error_app1 by (rewrite firstn_length, F; lia).
    rewrite <- (firstn_skipn (Z.to_nat (10000 - u)) fresh_place) at 2. rewrite nth_error_app1 by (rewrite firstn_length, F; lia). reflexivity.
  - unfold uses. rewrite nth_error_app2 by (rewrite firstn_length, F; lia). rewrite firstn_length, F.
    replace (Z.to_nat (10000 - u) - Nat.min (Z.to_nat (10000 - u)) (Z.to_nat 10000))%nat with 0%nat by lia.
    rewrite nth_repeat' by lia. unfold fresh_place, filled_with. rewrite nth_repeat' by lia. congruence.
Qed.
Example ex_processor_ok : processor_ok ex_processor.
Proof.
  unfold processor_ok. cbn [p_before_keygen p_keygen p_before_sig p_sig p_before_ver p_ver ex_processor]. unfold len. rewrite !uses_len by lia. rewrite !repeat_length. lia.
Qed.
Example ex_ramspace : forall cfg p, ps_enabled cfg p = true ->
  let e := ex_surroundings cfg p (slh_sig_length (slh_of p)) in let ctx := zero_ctx cfg (the_ps cfg p) in
  ramspace cfg 2 [Some []; Some [114]; None] (fun _ => true) ex_processor (Z.to_nat (slh_sig_length (slh_of p) + 1)) e e 3000 ctx ctx 0 p =
    Ok (0, [Name p; Number (SIZEOF_TS_CONTEXT cfg); Number 700; Number 1200; Number 900; Newline]).
Proof.
  intros cfg p on e ctx. pose proof (L_range p) as LR.
  assert (S : surroundings_ok cfg (slh_sig_length (slh_of p)) e) by (apply ex_surroundings_ok; lia).
  assert (W : wf_ctx cfg ctx) by apply zero_wf.
  destruct (C59_ramspace cfg p 2 [Some []; Some [114]; None] [114] (fun _ => true) ex_processor (Z.to_nat (slh_sig_length (slh_of p) + 1)) e e 3000 ctx ctx 0
    on ltac:(lia) eq_refl eq_refl ex_processor_ok S S W W ltac:(lia)) as (k & s & v & DK & DS & DV & E & _).
  assert (K : k = 700) by exact (depth_unique _ _ _ _ DK (uses_depth 700 ltac:(lia))).
  assert (SS : s = 1200) by exact (depth_unique _ _ _ _ DS (uses_depth 1200 ltac:(lia))).
  assert (V : v = 900) by exact (depth_unique _ _ _ _ DV (uses_depth 900 ltac:(lia))).
  rewrite K, SS, V in E. exact E.
Qed.

Print Assumptions C59_measurement.
Print Assumptions C59_no_more_than_used.
Print Assumptions C59_ramspace.
Print Assumptions C59_cannot_open.
Print Assumptions C59_no_argument.
Print Assumptions C59_table.
