(** * Runs of the compression functions: key generation and a signing session *)
From Verif Require Import Arr CLeak SpecSLH SpecApi ModelParams ModelCtx ModelHash ModelSphincs ModelApi SpecMap SpecSessions PfGlueSha PfIter PfEnv PfAdr PfGlue PfMsg PfCtx PfTree PfPaths PfBits PfWots PfSpec PfSign PfApi PfKeygen PfComplete SpecReuse SpecForge SpecLeak PfReuse.
From Verif Require Import LeakSha2 LeakHash LeakSphincs PfLeakErase3 PfLeakShake PfLeakSign PfLeakView PfLeakSession SpecWork PfWorkSilent PfWork PfWorkSign PfWorkSession.
From Verif Require Import SpecBlocks PfBlkSha PfBlkHash PfBlk PfBlkSign.
Ltac Zify.zify_post_hook ::= idtac.

Section Init.
Variable q : primitive.
Variable cfg : config.
Variable mem : memory.
Variable p : ps_name.
Hypothesis on : ps_enabled cfg p = true.
Local Notation ps := (the_ps cfg p).

Lemma tk_prehash c : c_ps c = ps -> takes q (prehash_runs cfg p q) (fr true c) (l_call_compute_prehash cfg mem c).
Proof.
  intros Hp. unfold l_call_compute_prehash, prehash_runs. destruct (cfg_sha2_opt cfg) eqn:O; [|apply tk_ret, fr_refl].
  assert (En : ps_n (c_ps c) = p_n (slh_of p)) by (rewrite Hp; apply b_ps_n, on). pose proof (b_n cfg p on) as Hn.
  destruct (kinds cfg p on) as [(_ & _ & S & _ & _ & _ & _ & _ & _ & _ & _ & K) | [(W & N & S & _ & _ & _ & _ & _ & _ & _ & K) | (W & N & S & _ & _ & _ & _ & _ & _ & _ & K)]];
    rewrite Hp, S, ?(K O); cbn [andb].
  - rewrite K. apply tk_tick; [exact I|]. apply tk_ret, fr_refl.
  - apply tk_tick; [exact I|]. apply tk_tick; [exact I|]. rewrite W, N, orb_diag. eapply tk_weak; [eapply tk_eq; [apply (tk_L1_prehash q cfg mem (p_n (slh_of p))); [lia|exact En]|]|intros d _ [_ F]; exact F].
    unfold of_. rewrite Z.eqb_sym. reflexivity.
  - apply tk_tick; [exact I|]. apply tk_tick; [exact I|]. rewrite W, N. eapply tk_weak; [eapply tk_eq; [apply (tk_L35_prehash q cfg mem (p_n (slh_of p))); [lia|exact En]|]|intros d _ [_ F]; exact F].
    unfold of_. destruct q; reflexivity.
Qed.

Lemma sq_convert_bit s : still (l_convert_bit s).
Proof. destruct s as [[[? ?] ?] ?]. unfold l_convert_bit. stl. Qed.
Hint Resolve sq_convert_bit : sq.
Lemma sq_extract h o k : still (l_extract_int_from_hash h o k).
Proof. unfold l_extract_int_from_hash. stl. Qed.
Hint Resolve sq_extract : sq.
Lemma sq_convert h c : still (l_ts_convert_message_hash_to_hypertree_position cfg h c).
Proof.
  unfold l_ts_convert_message_hash_to_hypertree_position. cbv zeta. apply still_bind.
  - apply still_for. intros i [[[? ?] ?] ?]. stl.
  - intros [[[? ?] ?] ?]. stl.
Qed.
(** what it does to the parameter set *)
Lemma post_for {S} (Q : S -> Prop) k : forall i (b : Z -> S -> leaky S) s, Q s -> (forall j s, Q s -> post Q (b j s)) -> post Q (l_for k i b s).
Proof.
  induction k as [|k IH]; intros i b s Hs H; cbn [l_for].
  - intros a E. rewrite result_tick in E. apply ok_inj in E. subst a. exact Hs.
  - intros a E. rewrite result_tick in E. revert a E. apply (post_bind2 Q Q); [apply H, Hs|]. intros a Ha. apply IH; assumption.
Qed.
Lemma convert_ps h c h' c' : result (l_ts_convert_message_hash_to_hypertree_position cfg h c) = Ok (h', c') -> c_ps c' = c_ps c.
Proof.
  assert (X : post (fun y => c_ps (snd y) = c_ps c) (l_ts_convert_message_hash_to_hypertree_position cfg h c)).
  { unfold l_ts_convert_message_hash_to_hypertree_position. cbv zeta. eapply (post_bind2 (fun y => c_ps (snd y) = c_ps c)).
    - apply post_for; [reflexivity|]. intros j [[[mh o] bs] d] Hd. cbn [snd] in Hd. apply post_bind. intros [[[mh' o'] bs'] ti]. apply post_bind. intros x. apply post_ret. exact Hd.
    - intros [[[mh o] bs] d] Hd. cbn [snd] in Hd. apply post_bind. intros [v o']. apply post_bind. intros [v' o'']. apply post_ret. exact Hd. }
  intros E. exact (X _ E).
Qed.

Lemma tk_init_sign_gen {R} c msg l sk (rng : random_generator R) r : 0 <= l < 2 ^ 62 ->
  takes q (prehash_runs cfg p q + init_sign_runs cfg p l q) (fun _ => True) (l_ts_init_sign_gen cfg mem c msg l (the_ps cfg p) sk rng r).
Proof.
  intros Hl. unfold l_ts_init_sign_gen. cbv zeta. eapply tk_bind; [apply tk_prehash; reflexivity|]. intros c1 _ F1. pose proof (f_ps _ _ _ F1) as P1. change (c_ps c1 = ps) in P1.
  unfold init_sign_runs.
  apply tk_bind0.
  { destruct rng as [g|]; [|stl]. apply still_tick; [exact I|]. destruct (g r _) as [[? ?] ?]. stl. }
  intros [[ok b] r'] _. apply tk_bind0; [stl|]. intros b2 _. apply tk_bind0; [auto with sq nocore|]. intros ms Hms. apply tk_bind0; [auto with sq nocore|]. intros o _.
  apply len_load in Hms; [|lia]. rewrite <- Z.add_assoc. rewrite <- Hms in Hl |- *. clear Hms l.
  eapply tk_bind; [apply (tk_prf_msg cfg p on q mem); [exact P1|lia]|]. intros [rand c2] _ [it Hit]. cbn [snd] in Hit. apply tk_bind0; [unfold l_put_buf; stl|]. intros c3 E3.
  assert (P3 : c_ps c3 = ps). { unfold l_put_buf in E3. rewrite result_bind in E3. destruct (result (l_wr_range _ _ _)) as [bf|]; [|discriminate E3]. apply ok_inj in E3. subst c3 c2. exact P1. }
  eapply tk_bind; [apply (tk_hash_msg cfg p on q mem); [exact P3|lia|reflexivity]|]. intros [mh c4] _ [it4 H4]. cbn [snd] in H4. apply tk_bind0; [auto with sq nocore|]. intros h _. apply tk_bind0; [auto with sq nocore|]. intros h2 _.
  apply tk_bind0; [apply sq_convert|]. intros [h3 c5] E5. apply convert_ps in E5. rewrite H4 in E5. change (c_ps c5 = c_ps c3) in E5. rewrite P3 in E5.
  eapply tk_eq; [eapply (tk_bind q 0 (begun_runs cfg p 0 q + 0))|lia].
  { apply (tk_fors_root_adr cfg q false false). }
  intros c6 _ F6. pose proof (fb_ps _ _ _ _ F6) as P6. change (c_ps c6 = c_ps c5) in P6. rewrite E5 in P6.
  eapply tk_bind; [apply (tk_big_init cfg p on q mem false), P6|]. intros c7 _ _. apply tk_ret. exact I.
Qed.
Lemma tk_init_sign c msg l sk f : 0 <= l < 2 ^ 62 ->
  takes q (prehash_runs cfg p q + init_sign_runs cfg p l q) (fun _ => True) (l_ts_init_sign cfg mem c msg l (the_ps cfg p) sk f).
Proof.
  intros Hl. unfold l_ts_init_sign. rewrite <- (Z.add_0_r (prehash_runs cfg p q + _)). eapply tk_bind; [apply tk_init_sign_gen, Hl|].
  intros [c1 u] _ _. apply tk_ret. exact I.
Qed.

(** ** Key generation *)
Lemma tk_gen_root addr : ps_merkle_h (the_ps cfg p) = p_h' (slh_of p) -> 0 <= p_h' (slh_of p) <= 31 ->
  takes q (prehash_runs cfg p q + keygen_runs cfg p q) (fun _ => True) (l_gen_root cfg mem addr (the_ps cfg p)).
Proof.
  intros Hh Bh. unfold l_gen_root. cbv zeta. eapply tk_bind; [apply tk_prehash; reflexivity|]. intros c1 _ F1.
  pose proof (f_ps _ _ _ F1) as P1. change (c_ps c1 = the_ps cfg p) in P1.
  set (c2 := set_merkle_level 0 _). assert (P2 : c_ps c2 = the_ps cfg p) by exact P1. assert (M2 : c_merkle_level c2 = 0) by reflexivity. clearbody c2.
  eapply tk_eq.
  - eapply tk_bind; [apply (tk_wots_leaf cfg p on q mem), P2|]. intros c3 _ F3.
    assert (P3 : c_ps c3 = the_ps cfg p) by (rewrite (fb_ps _ _ _ _ F3); exact P2).
    assert (M3 : c_merkle_level c3 = 0) by (rewrite (f_ml _ _ _ (b_fr _ _ _ _ F3)); exact M2).
    eapply tk_bind.
    + (* the level is a function of the pass: carry it in the invariant *)
      apply (tk_for q (fun j => 2 ^ j * (ots_key_runs cfg p q + H_runs cfg p q)) (fun j c => c_ps c = the_ps cfg p /\ c_merkle_level c = j)); [auto|].
      intros j c Hj [Hp Hl]. rewrite Hh in Hj. eapply tk_weak.
      * eapply tk_eq; [apply (tk_path cfg p on q mem (l_ts_wots_leaf cfg mem) (ots_key_runs cfg p q) _ _ c j false); [lia|exact Hl|exact Hp|intros i d Hd; apply (tk_wots_leaf cfg p on q mem), Hd]|].
        cbv beta. rewrite Z.pow_add_r by lia. ring.
      * intros d _ F. split; [rewrite (fb_ps _ _ _ _ F); exact Hp|]. rewrite (f_ml _ _ _ (b_fr _ _ _ _ F)). cbn [c_merkle_level set_merkle_level]. unfold u8. apply Z.mod_small. lia.
    + intros c4 _ _. apply tk_still; [auto with sq nocore|]. intros; exact I.
  - cbv beta. rewrite Hh, Z2Nat.id by lia. rewrite Z.add_0_l, Z.pow_0_r. unfold keygen_runs, subtree_runs. ring.
Qed.
End Init.

(** ** A session *)
Section Session.
Variable q : primitive.
Variable cfg : config.
Variable p : ps_name.
Variable sk : Z.
Local Notation P := (slh_of p).
Local Notation n := (p_n (slh_of p)).
Definition signing_runs (SK M SIG : list Z) (u : Z) : Z :=
  begun n (map (fun x => sign_runs cfg p (skipn (Z.to_nat (2 * n)) SK) M SIG q x) (blocks_of P)) u.

Lemma RS_runs SK M SIG t c mem dest sz : RS cfg p sk SK M SIG t c -> holds mem sk SK -> 0 <= sz < 2 ^ 32 -> 0 <= t ->
  takes q (signing_runs SK M SIG (t + sz) - signing_runs SK M SIG t)
    (fun x => RS cfg p sk SK M SIG (t + fst (fst x)) (snd x) /\ 0 <= fst (fst x) <= sz /\
       (fst (fst x) = sz \/ forall u, t + fst (fst x) <= u -> signing_runs SK M SIG u = signing_runs SK M SIG (t + fst (fst x))))
    (l_ts_sign cfg mem dest sz c).
Proof.
  intros R K Hsz Ht.
  destruct (RS_env _ _ _ _ _ _ _ _ _ R K) as (E & b & B & o & Ec & Ep & Epk & Em & EP & En & Nb & Es & HE & Hsk & HR & Ht1 & Hz1).
  destruct R as (BK & LK & LM & HT & HL & _). cbv zeta in *.
  set (D := digest_of P (skipn (Z.to_nat (2 * n)) SK) M SIG) in *.
  assert (Q : forall u, 0 <= u -> signing_runs SK M SIG u = WR q E (slice SK 0 n) (idx_tree_of P D) (idx_leaf_of P D) u).
  { intros u Hu. unfold signing_runs. pose proof (begun_R E (slice SK 0 n) D q (skipn (Z.to_nat (2 * n)) SK) M SIG u Hu) as X.
    rewrite EP, En, Es, Ec, Ep in X. apply X, LM. }
  pose proof (r_rng _ _ _ _ _ _ _ _ _ HR) as O1. rewrite En in O1.
  pose proof (state_range _ _ _ _ _ _ _ (r_inv _ _ _ _ _ _ _ _ _ HR)) as Q1.
  unfold l_ts_sign. apply tk_if; intros X.
  { exfalso. destruct (Z.leb_spec (c_state c) ts_sign_state), (Z.leb_spec ts_verify_state (c_state c)); cbn in X; discriminate || lia. }
  assert (HL' : 0 <= idx_leaf_of P D < 2 ^ p_h' (e_P E)) by (rewrite EP; exact HL).
  pose proof (tk_sign_loop q E _ Hsk _ _ _ HT HL' (2 * Z.to_nat sz + 2) dest 0 sz b o B c HR Hsz) as PL.
  rewrite Ec, Em, En, Ht1 in PL. specialize (PL ltac:(intros E0 Nz; elim Nz; apply Hz1, E0)).
  eapply tk_eq; [eapply tk_bind; [exact PL|]|].
  - intros [[m1 e1] c1] _ (b' & o' & Y & A2 & A4 & A5 & A6 & A7). cbn [fst snd] in *. rewrite En in *. apply tk_ret. cbn [fst snd].
    unfold u32. rewrite Z.mod_small by lia. rewrite Ht1 in A4.
    assert (Hz' : o' = 0 -> b' = 0%nat) by (intros E0; destruct A6 as [A6|(-> & ->)]; [lia|apply Hz1, E0]).
    split; [|split; [lia|]].
    + split; [exact BK|]. split; [exact LK|]. cbv zeta. split; [exact LM|]. split; [exact HT|]. split; [exact HL|].
      exists E. split; [exact HE|]. exists b', Y, o'. split; [exact A2|]. split; [exact A4|exact Hz'].
    + destruct A7 as [->|[A7 A8]]; [left; lia|right]. intros u Hu. rewrite !Q by lia. rewrite <- A4 in *.
      rewrite <- (Z.sub_add (n * Z.of_nat b' + o') u), Z.add_comm.
      rewrite (R_DN q E _ _ _ b') by (try exact A7; rewrite ?En; lia).
      rewrite <- (Z.add_0_r (n * Z.of_nat b' + o')). rewrite (R_DN q E _ _ _ b') by (try exact A7; rewrite ?En; lia). reflexivity.
  - rewrite !Q by lia. pose proof (R_at q E (slice SK 0 n) (idx_tree_of P D) (idx_leaf_of P D) b o) as X2. rewrite En, Ht1 in X2.
    rewrite X2 by assumption. lia.
Qed.
Lemma RS_runss SK M SIG rqs : forall t c, RS cfg p sk SK M SIG t c -> 0 <= t -> Forall (request_ok sk SK) rqs ->
  takes q (signing_runs SK M SIG (t + asked rqs) - signing_runs SK M SIG t) (fun _ => True) (l_requests cfg rqs c).
Proof.
  induction rqs as [|r rqs IH]; intros t c R Ht F; cbn [l_requests asked fold_right].
  { eapply tk_eq; [apply tk_ret; exact I|]. rewrite Z.add_0_r. lia. }
  fold (asked rqs). pose proof (Forall_inv F) as (K & Hz & L). apply Forall_inv_tail in F. pose proof (asked_nonneg sk _ _ F) as A.
  intros x Hx. rewrite result_bind in Hx. destruct (result (l_ts_sign cfg (rq_mem r) (rq_dest r) (rq_size r) c)) as [[[k d] c1]|] eqn:ES; [|discriminate].
  cbn [bind] in Hx. destruct (RS_runs SK M SIG t c _ _ _ R K Hz Ht _ ES) as [T1 (R1 & B1 & D1)]. cbn [fst snd] in *.
  specialize (IH (t + k) c1 R1 ltac:(lia) F). rewrite result_bind in Hx.
  destruct (result (l_requests cfg rqs c1)) as [[os c2]|] eqn:EC; [|discriminate]. destruct (IH _ EC) as [T2 _].
  split; [|exact I]. unfold trace, lbind. unfold result in ES, EC. rewrite ES. cbn [fst snd]. rewrite EC. cbn [fst lret].
  rewrite app_nil_r, run_app. unfold trace in T1, T2. rewrite T1, T2.
  destruct D1 as [->|D1]; [rewrite Z.add_assoc; lia|].
  rewrite (D1 (t + k + asked rqs)) by lia. rewrite (D1 (t + rq_size r)) by lia. rewrite (D1 (t + (rq_size r + asked rqs))) by lia. lia.
Qed.
Lemma session_runs c m0 msg f SK M rqs : ps_enabled cfg p = true -> wf_ctx cfg c -> sign_init_ok m0 msg M p sk SK f -> Forall (request_ok sk SK) rqs ->
  takes q (prehash_runs cfg p q + init_sign_runs cfg p (len M) q + signing_runs SK M (signature p M SK f) (asked rqs)) (fun _ => True)
    (l_session cfg m0 msg (len M) p sk f rqs c).
Proof.
  intros on W0 HI F. destruct (RS_init cfg p sk c m0 msg f SK M on W0 HI) as (c1 & E1 & R1).
  unfold l_session. eapply tk_eq; [eapply (tk_bind q _ (signing_runs SK M (signature p M SK f) (asked rqs) + 0)); [apply (tk_init_sign q cfg m0 p on); destruct HI as (_ & _ & _ & HM & _); unfold len in *; lia|]|lia].
  intros c2 E2 _. rewrite er_init_sign, E1 in E2. apply ok_inj in E2. subst c2.
  eapply tk_bind.
  - eapply tk_eq; [apply (RS_runss SK M (signature p M SK f) rqs 0 c1 R1); [lia|exact F]|].
    rewrite Z.add_0_l. assert (X : signing_runs SK M (signature p M SK f) 0 = 0).
    { unfold signing_runs, begun. apply sum_zero. intros i. destruct (Z.ltb_spec (n * Z.of_nat i) 0) as [Y|Y]; [|reflexivity].
      exfalso. assert (0 < n) by (destruct p; cbn; lia). nia. }
    lia.
  - intros [os c2] _ _. apply tk_ret. exact I.
Qed.
End Session.
