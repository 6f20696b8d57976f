(** * What a finished signing context still holds (C53)

    The library erases nothing.  The theorem accounts for the places of the context that
    held key material while signing: after the last byte of a signature has been taken,
    both hash iterators, the two hash buffers and the bytes at the start of the scratch
    area hold values of the top tree only: public values, the same for every message
    except for the number of a leaf and of one of two nodes. *)
From Verif Require Import Arr SpecSLH SpecApi SpecMap SpecSessions SpecResidue ModelParams ModelCtx ModelKeygen ModelApi.
From Verif Require Import PfEnv PfGlue PfCtx PfPaths PfSpec PfSign PfApi PfSession PfKeygen PfComplete PropSign.
Ltac Zify.zify_post_hook ::= idtac.

Section S.
Variable cfg : config.
Local Notation pf := (platform_of cfg).

(** A run from which everything has been taken is one that has finished *)
Lemma rsign_done p sk SK c : RSign cfg p sk SK [] c ->
  let P := slh_of p in let n := p_n P in
  is_bytes SK /\ len SK = 4 * n /\
  exists E, KE cfg p (sk + 2 * n) (slice SK (2 * n) n) E /\ sk_at E (slice SK 0 n) /\
  exists md T l, 0 <= T < 2 ^ (p_h P - p_h' P) /\ 0 <= l < 2 ^ p_h' P /\ good E c /\
    c_state c = ts_done /\ Fin E (slice SK 0 n) md T l c.
Proof.
  intros (HB & HL & E & HE & md & T & l & s & B & o & [HT HT'] & Hl & HR & He) P n.
  split; [exact HB|]. split; [exact HL|].
  assert (HM : holds (mem_of sk SK) sk SK) by (apply mem_of_holds; exact HB).
  pose proof HE as (Ec & Ep & Epk & Es). destruct (KE_facts _ _ _ _ _ HE) as (En & EP & Nb).
  change (p_n (slh_of p)) with n in *.
  assert (Hld : load (mem_of sk SK) (e_pk E) (p_n (slh_of (e_p E))) = Ok (e_seed E)).
  { rewrite Ep, Epk, Es. fold P. fold n. apply load_slice; [exact HM|lia|lia|lia]. }
  pose proof (at_run_remem E (mem_of sk SK) Hld _ _ _ _ _ _ _ _ HR) as HR'.
  set (E' := remem E (mem_of sk SK) Hld) in *.
  exists E'. split; [exact HE|].
  assert (Hsk : sk_at E' (slice SK 0 n)).
  { unfold sk_at. change (e_mem E') with (mem_of sk SK). change (e_pk E') with (e_pk E). change (e_n E') with (e_n E). rewrite Epk, En. fold P. fold n.
    replace (sk + 2 * n - 2 * n) with (sk + 0) by lia. split; [apply load_slice; [exact HM|lia|lia|lia]|].
    unfold str_ok. change (e_n E') with (e_n E). rewrite En. split; [apply slice_zlen; [lia|lia|]; rewrite zlen_len; lia|apply slice_bytes, HB]. }
  split; [exact Hsk|]. exists md, T, l. split; [split; [apply HT|exact HT']|]. split; [exact Hl|].
  assert (s = DN).
  { destruct (sst_eq_DN s) as [|N]; [assumption|exfalso].
    destruct HR' as [HI _ _ _ _]. destruct HI as (_ & HRg & _).
    pose proof (out_zlen E' (slice SK 0 n) Hsk md T l s HRg) as (OL & _ & O1). specialize (O1 N).
    unfold rest in He. apply app_eq_nil in He. destruct He as [_ He].
    change (out E' (slice SK 0 n) md T l s) with (out E (slice SK 0 n) md T l s) in OL. fold n in He. rewrite He in OL. pose proof (n_bounds E').
    change (zlen (@nil Z)) with 0 in OL. nia. }
  subst s. destruct HR' as [(G & _ & HI) _ _ _ _]. split; [exact G|]. exact HI.
Qed.

(** Where a session ends *)
Lemma steps_requests_end p sk SK rqs : forall S, Forall (request_ok sk SK) rqs ->
  steps pf (Signing p sk SK S) (map (fun r => (rq_mem r, Sign (rq_dest r) (rq_size r))) rqs) (sign_answers S rqs)
    (Signing p sk SK (skipn (Z.to_nat (asked rqs)) S)).
Proof.
  induction rqs as [|r rqs IH]; intros S H; [constructor|].
  inversion H as [|? ? (H1 & H2 & H3) H4]; subst. cbn [map sign_answers].
  set (k := Z.to_nat (Z.min (rq_size r) (len S))).
  assert (A0 : 0 <= asked rqs).
  { clear - H4. induction H4 as [|x l (_ & ? & _) ? IH]; cbn [asked fold_right]; [lia|]. fold (asked l). lia. }
  pose proof (IH (skipn k S) H4) as HS.
  replace (skipn (Z.to_nat (asked (r :: rqs))) S) with (skipn (Z.to_nat (asked rqs)) (skipn k S)).
  2:{ rewrite skipn_skipn'. cbn [asked fold_right]. fold (asked rqs). unfold k, len.
      destruct (Z.le_gt_cases (rq_size r) (Z.of_nat (length S))).
      - f_equal. lia.
      - rewrite !skipn_all2 by lia. reflexivity. }
  assert (Ek : Z.min (rq_size r) (len S) = Z.of_nat k) by (unfold k, len; lia).
  econstructor; [|exact HS].
  pose proof (s_sign pf (rq_mem r) p sk SK S (rq_dest r) (rq_size r) (fun _ => H1) H2 H3) as X. cbv zeta in X. rewrite Ek in X.
  rewrite Nat2Z.id in X. exact X.
Qed.
End S.

Lemma buf_firstn b v n c : buf_is b v c -> length v = n -> firstn n (buf_of b c) = v.
Proof. intros (t & ->) <-. apply firstn_app_exact. reflexivity. Qed.

(** C53: when at least the whole signature has been asked for, nothing in the hash
    iterators, the block buffers and the head of the scratch area depends on the secret
    key except through values of the top tree of the hypertree that anybody can know
    or that signatures contain:
    - the buffer of tree hashing holds the root of the top tree, which is PK.root;
    - the buffer of the current signature block holds one of the two nodes below it;
    - the small iterator holds what computing that root from the two nodes below it left;
    - the large iterator holds what compressing the WOTS+ public key of one leaf of the
      top tree left, and the scratch area starts with the last chain end of that key. *)
Theorem C53_finished_signing_residue : forall cfg p c m0 msg M sk SK f rqs,
  ps_enabled cfg p = true -> wf_ctx cfg c ->
  sign_init_ok m0 msg M p sk SK f -> Forall (request_ok sk SK) rqs ->
  ts_size_signature (the_ps cfg p) <= asked rqs ->
  exists os c', calls cfg (sign_history m0 msg (len M) p sk f rqs) c = Ok (Started :: os, c') /\
    let P := slh_of p in
    let n := p_n P in
    let SKseed := slice SK 0 n in
    let PKseed := slice SK (2 * n) n in
    let node z i := top_node P PKseed SKseed z i in
    let held s := firstn (Z.to_nat n) s in
    (held (c_auth_path_buffer c') = node (p_h' P) 0) /\
    (exists b, (b = 0 \/ b = 1) /\ held (c_buffer c') = node (p_h' P - 1) b) /\
    T_leaves cfg p PKseed (mkADRS (p_d P - 1) 0 TREE 0 (p_h' P) 0)
      (node (p_h' P - 1) 0 ++ node (p_h' P - 1) 1) (c_small_iter c') /\
    (exists leaf, 0 <= leaf < 2 ^ p_h' P /\
       T_leaves cfg p PKseed (mkADRS (p_d P - 1) 0 WOTS_PK leaf 0 0)
         (concat (top_chain_ends P PKseed SKseed leaf)) (c_big_iter c') /\
       held (c_x c') = last (top_chain_ends P PKseed SKseed leaf) []).
Proof.
  intros cfg p c m0 msg M sk SK f rqs on W HI HR HA.
  assert (ES : ts_size_signature (the_ps cfg p) = slh_sig_length (slh_of p)) by (destruct p; reflexivity).
  destruct (signature_len _ _ _ _ _ _ _ HI) as [LS _].
  pose proof HI as (H1 & H2 & H3 & H4 & H5).
  pose proof (steps_requests_end cfg p sk SK rqs (signature p M SK f) HR) as HS.
  rewrite (skipn_all2 (signature p M SK f)) in HS by (unfold len in LS; lia).
  assert (HS' : steps (platform_of cfg) Fresh (sign_history m0 msg (len M) p sk f rqs)
     (Started :: sign_answers (signature p M SK f) rqs) (Signing p sk SK [])).
  { unfold sign_history. econstructor; [|exact HS]. eapply s_init_sign; try eassumption. reflexivity. }
  destruct (simulation_steps cfg _ _ _ _ HS' c W) as (c' & EQ & HRel). cbn [Rel] in HRel.
  exists (sign_answers (signature p M SK f) rqs), c'. split; [exact EQ|]. clear EQ HS HS'.
  destruct (rsign_done cfg p sk SK c' HRel) as (HB & HL & E & HE & Hsk & md & T & l & HT & Hl & G & _ & HF). clear HRel.
  destruct HE as (Ec & Ep & Ek & Esd).
  assert (EP : e_P E = slh_of p) by (unfold e_P; rewrite Ep; reflexivity).
  assert (En : e_n E = p_n (slh_of p)) by (unfold e_n; rewrite EP; reflexivity).
  set (P := slh_of p) in *. set (n := p_n P) in *. intros _P _n SKseed PKseed node held. subst _P _n.
  pose proof (n_bounds E) as Hn. rewrite En in Hn. pose proof (mh_bounds E) as Hm. pose proof (d_bounds E) as Hd. pose proof (h_eq E) as Hh.
  rewrite EP in Hm, Hd, Hh.
  assert (Et : tr E T (p_d P - 1) = 0).
  { unfold tr. rewrite EP. apply Z.div_small. replace (p_h' P * (p_d P - 1)) with (p_h P - p_h' P) by (rewrite Hh; ring). exact HT. }
  assert (EA : treeA E T (p_d P - 1) = top_ADRS P) by (unfold treeA, top_ADRS; rewrite Et; reflexivity).
  unfold Fin in HF. rewrite EP, EA, Et, Esd in HF. cbv zeta in HF.
  change (slice SK 0 n) with SKseed in *. change (slice SK (2 * n) n) with PKseed in *.
  destruct HF as (F1 & F2 & F3 & leaf & Fl & F4 & F5).
  assert (Lh : forall b v, str_ok E v -> buf_is b v c' -> held (buf_of b c') = v).
  { intros b v Hv Hb. apply buf_firstn; [exact Hb|]. destruct Hv as [Hv _]. rewrite En in Hv. unfold zlen in Hv. lia. }
  unfold spent in F3, F4. rewrite Ec, Ep in F3, F4. rewrite Esd in F3, F4.
  split; [|split; [|split]].
  - refine (Lh BufAuth _ _ F2). rewrite <- Esd, <- EP. apply xmss_node_ok, Hsk.
  - exists (Z.lxor (lf E T l (p_d P - 1) / 2 ^ (p_h' P - 1)) 1).
    pose proof (lf_range E T l (p_d P - 1)) as LR. rewrite EP in LR. specialize (LR Hl).
    assert (Q : 0 <= lf E T l (p_d P - 1) / 2 ^ (p_h' P - 1) < 2).
    { split; [apply Z.div_pos; [lia|apply Z.pow_pos_nonneg; lia]|]. apply Z.div_lt_upper_bound; [apply Z.pow_pos_nonneg; lia|].
      rewrite Z.mul_comm, <- Z.pow_succ_r by lia. replace (Z.succ (p_h' P - 1)) with (p_h' P) by lia. lia. }
    set (q := lf E T l (p_d P - 1) / 2 ^ (p_h' P - 1)) in *.
    assert (Hq : q = 0 \/ q = 1) by lia.
    split; [destruct Hq as [-> | ->]; [right|left]; reflexivity|].
    assert (Hem : emit E SKseed md T l (MK (p_d P - 1) (p_h' P - 1)) = node (p_h' P - 1) (Z.lxor q 1)).
    { cbn [emit]. unfold hauth, xauth. rewrite EA, EP, Esd. reflexivity. }
    rewrite Hem in F1. refine (Lh BufBuffer _ _ F1). unfold node, top_node. rewrite <- Esd, <- EP. apply xmss_node_ok, Hsk.
  - exact F3.
  - exists leaf. split; [exact Fl|]. split.
    + unfold top_chain_ends. rewrite <- flat_map_concat_map. unfold wots_end in F4. rewrite EP, Esd in F4. exact F4.
    + assert (Ew : wlen P = (wlen P - 1) + 1) by lia.
      unfold top_chain_ends.
      assert (Hw : 1 <= wlen P) by (pose proof (wlen_eq E) as Q; rewrite EP in Q; lia).
      rewrite upto_zrange, Ew, zrange_snoc, map_app by lia. cbn [map]. rewrite last_last.
      unfold wots_end in F5. rewrite EP, Esd in F5. refine (Lh BufMerkle _ _ F5).
      rewrite <- Esd, <- EP. apply chain_ok. apply wots_sk_ok, Hsk.
Qed.
Print Assumptions C53_finished_signing_residue.

(** With a key that slh_keygen_internal makes, the tree buffer holds the PK.root of the key *)
Corollary C53_buffer_is_PK_root : forall cfg p c m0 msg M sk f rqs SKseed SKprf PKseed SK PK,
  let n := p_n (slh_of p) in
  ps_enabled cfg p = true -> wf_ctx cfg c ->
  len SKseed = n -> len SKprf = n -> len PKseed = n ->
  slh_keygen_internal (slh_of p) SKseed SKprf PKseed = (SK, PK) ->
  sign_init_ok m0 msg M p sk SK f -> Forall (request_ok sk SK) rqs ->
  ts_size_signature (the_ps cfg p) <= asked rqs ->
  exists os c', calls cfg (sign_history m0 msg (len M) p sk f rqs) c = Ok (Started :: os, c') /\
    firstn (Z.to_nat n) (c_auth_path_buffer c') = slice PK n n.
Proof.
  intros cfg p c m0 msg M sk f rqs SKseed SKprf PKseed SK PK n on W L1 L2 L3 HK HI HR HA.
  destruct (C53_finished_signing_residue cfg p c m0 msg M sk SK f rqs on W HI HR HA) as (os & c' & EQ & H & _).
  exists os, c'. split; [exact EQ|]. fold n in H. rewrite H. clear H EQ.
  assert (Hn : 0 <= n) by (unfold n; destruct p; discriminate).
  assert (LK : len SK = 4 * n) by apply HI.
  unfold slh_keygen_internal in HK. set (rt := slh_root (slh_of p) PKseed SKseed) in *.
  assert (EK : SK = SKseed ++ SKprf ++ PKseed ++ rt /\ PK = PKseed ++ rt) by (split; congruence). destruct EK as [-> ->].
  assert (Lr : len rt = n) by (unfold len in *; rewrite !app_length in LK; lia).
  assert (S1 : slice (SKseed ++ SKprf ++ PKseed ++ rt) 0 n = SKseed).
  { unfold slice. cbn [skipn Z.to_nat]. apply firstn_app_exact. unfold len in L1. lia. }
  assert (S2 : slice (SKseed ++ SKprf ++ PKseed ++ rt) (2 * n) n = PKseed).
  { unfold slice. rewrite !app_assoc, <- (app_assoc (SKseed ++ SKprf)). rewrite skipn_app.
    rewrite (skipn_all2 (SKseed ++ SKprf)) by (rewrite app_length; unfold len in *; lia).
    replace (Z.to_nat (2 * n) - length (SKseed ++ SKprf))%nat with 0%nat by (rewrite app_length; unfold len in *; lia).
    cbn [skipn app]. apply firstn_app_exact. unfold len in L3. lia. }
  assert (S3 : slice (PKseed ++ rt) n n = rt).
  { unfold slice. rewrite skipn_app, skipn_all2 by (unfold len in L3; lia).
    replace (Z.to_nat n - length PKseed)%nat with 0%nat by (unfold len in L3; lia). cbn [skipn app]. apply firstn_all2. unfold len in Lr. lia. }
  rewrite S1, S2, S3. reflexivity.
Qed.
Print Assumptions C53_buffer_is_PK_root.

(** What the small iterator holds after signing depends on SK.seed and PK.seed only:
    not on the message, the randomness, SK.prf, the requests or what the context held
    before.  The iterator is compared as the hash object it stores. *)
Definition same_hash_object (cfg : config) (p : ps_name) (a b : list Z) : Prop :=
  match T_base p with
  | on_shake256 => exists o, get_shake (cfg_le cfg) a = Ok o /\ get_shake (cfg_le cfg) b = Ok o
  | on_sha256 => exists o, get_sha256 (cfg_le cfg) a = Ok o /\ get_sha256 (cfg_le cfg) b = Ok o
  | on_sha512 => exists o, get_sha512 cfg a = Ok o /\ get_sha512 cfg b = Ok o
  end.
Lemma T_leaves_unique cfg p s A M a b : T_leaves cfg p s A M a -> T_leaves cfg p s A M b -> same_hash_object cfg p a b.
Proof.
  unfold T_leaves, same_hash_object. cbv zeta. destruct (T_base p); intros (oa & Ga & Ha) (ob & Gb & Hb); exists oa; (split; [exact Ga|]); rewrite Gb; f_equal; symmetry.
  - destruct (Ha (repeat 0 26) eq_refl) as (a1 & a2 & a3 & da & A1 & A2 & A3 & A4).
    destruct (Hb (repeat 0 26) eq_refl) as (b1 & b2 & b3 & db & B1 & B2 & B3 & B4).
    rewrite A1 in B1. apply PfResidue.ok_inj_ in B1. subst b1. rewrite A2 in B2. apply PfResidue.ok_inj_ in B2. subst b2.
    rewrite A3 in B3. apply PfResidue.ok_inj_ in B3. subst b3. rewrite A4 in B4. apply PfResidue.ok_inj_ in B4. exact (f_equal snd B4).
  - set (z := ModelSha256.mkSha256 (repeat 0 8) 0 0 (repeat 0 64)).
    assert (Bz : is_bytes (ModelSha256.s256_x z)) by (apply bytes_dec; reflexivity).
    destruct (Ha z eq_refl eq_refl Bz) as (a1 & da & A1 & A2). destruct (Hb z eq_refl eq_refl Bz) as (b1 & db & B1 & B2).
    rewrite A1 in B1. apply PfResidue.ok_inj_ in B1. subst b1. rewrite A2 in B2. apply PfResidue.ok_inj_ in B2. exact (f_equal snd B2).
  - set (z := ModelSha512.mkSha512 (repeat 0 8) 0 0 (repeat 0 128)).
    assert (Bz : is_bytes (ModelSha512.s512_x z)) by (apply bytes_dec; reflexivity).
    destruct (Ha z eq_refl eq_refl Bz) as (a1 & da & A1 & A2). destruct (Hb z eq_refl eq_refl Bz) as (b1 & db & B1 & B2).
    rewrite A1 in B1. apply PfResidue.ok_inj_ in B1. subst b1. rewrite A2 in B2. apply PfResidue.ok_inj_ in B2. exact (f_equal snd B2).
Qed.
Theorem C53_same_for_every_message : forall cfg p c1 c2 m1 m2 msg1 msg2 M1 M2 sk1 sk2 SK1 SK2 f1 f2 rqs1 rqs2,
  let n := p_n (slh_of p) in
  ps_enabled cfg p = true -> wf_ctx cfg c1 -> wf_ctx cfg c2 ->
  sign_init_ok m1 msg1 M1 p sk1 SK1 f1 -> Forall (request_ok sk1 SK1) rqs1 ->
  sign_init_ok m2 msg2 M2 p sk2 SK2 f2 -> Forall (request_ok sk2 SK2) rqs2 ->
  ts_size_signature (the_ps cfg p) <= asked rqs1 -> ts_size_signature (the_ps cfg p) <= asked rqs2 ->
  slice SK1 0 n = slice SK2 0 n -> slice SK1 (2 * n) n = slice SK2 (2 * n) n ->
  exists os1 os2 c1' c2',
    calls cfg (sign_history m1 msg1 (len M1) p sk1 f1 rqs1) c1 = Ok (Started :: os1, c1') /\
    calls cfg (sign_history m2 msg2 (len M2) p sk2 f2 rqs2) c2 = Ok (Started :: os2, c2') /\
    firstn (Z.to_nat n) (c_auth_path_buffer c1') = firstn (Z.to_nat n) (c_auth_path_buffer c2') /\
    same_hash_object cfg p (c_small_iter c1') (c_small_iter c2').
Proof.
  intros cfg p c1 c2 m1 m2 msg1 msg2 M1 M2 sk1 sk2 SK1 SK2 f1 f2 rqs1 rqs2 n on W1 W2 I1 R1 I2 R2 A1 A2 E1 E2.
  destruct (C53_finished_signing_residue cfg p c1 m1 msg1 M1 sk1 SK1 f1 rqs1 on W1 I1 R1 A1) as (os1 & c1' & Q1 & X1 & _ & Y1 & _).
  destruct (C53_finished_signing_residue cfg p c2 m2 msg2 M2 sk2 SK2 f2 rqs2 on W2 I2 R2 A2) as (os2 & c2' & Q2 & X2 & _ & Y2 & _).
  fold n in X1, X2, Y1, Y2. rewrite E1, E2 in X1, Y1.
  exists os1, os2, c1', c2'. split; [exact Q1|]. split; [exact Q2|]. split; [rewrite X1, X2; reflexivity|].
  exact (T_leaves_unique _ _ _ _ _ _ _ Y1 Y2).
Qed.
Print Assumptions C53_same_for_every_message.

(** The hypotheses are met: a whole SHA2-128f signature in three requests *)
Example ex_residue : exists os c',
  calls full_cfg (sign_history ex_mem 1064 (len ex_M) SHA2_128f 1000 ex_rng ex_rqs) (zero_ctx full_cfg (the_ps full_cfg SHA2_128f)) = Ok (Started :: os, c') /\
  firstn 16 (c_auth_path_buffer c') = top_node (slh_of SHA2_128f) (slice ex_SK 32 16) (slice ex_SK 0 16) 3 0.
Proof.
  destruct ex_sign_hypotheses as (on & W & HI & HR & HA & _).
  destruct (C53_finished_signing_residue full_cfg SHA2_128f (zero_ctx full_cfg (the_ps full_cfg SHA2_128f)) ex_mem 1064 ex_M 1000 ex_SK ex_rng ex_rqs
    on W HI HR HA) as (os & c' & EQ & H & _).
  exists os, c'. split; [exact EQ|exact H].
Qed.
