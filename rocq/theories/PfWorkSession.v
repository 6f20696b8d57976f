(** * Counting calls: key generation and a signing session *)
From Verif Require Import Arr CLeak SpecSLH SpecApi ModelParams ModelCtx ModelHash ModelSphincs ModelApi SpecMap SpecSessions PfGlueSha PfIter PfEnv PfAdr PfGlue PfMsg PfCtx PfTree PfPaths PfBits PfWots PfSpec PfSign PfApi PfKeygen PfComplete SpecReuse SpecForge SpecLeak PfReuse.
From Verif Require Import LeakSha2 LeakHash LeakSphincs PfLeakErase3 PfLeakShake PfLeakSign PfLeakView PfLeakSession SpecWork PfWorkSilent PfWork PfWorkSign.
Ltac Zify.zify_post_hook ::= idtac.

Lemma fr_prehash256 x a c : fr x c (set_prehash_sha256 a c). Proof. apply mkFr; reflexivity. Qed.
Lemma fr_prehash512 x a c : fr x c (set_prehash_sha512 a c). Proof. apply mkFr; reflexivity. Qed.
Lemma fr_key x a c : fr x c (set_public_key a c). Proof. apply mkFr; reflexivity. Qed.

Lemma sum_zero (g : nat -> Z) l : (forall i, g i = 0) -> sum (map g l) = 0.
Proof. intros H. unfold sum. induction l as [|i l IH]; [reflexivity|]. cbn [map fold_right]. rewrite IH, H. reflexivity. Qed.

Section Init.
Variable m : member.
Variable cfg : config.
Variable mem : memory.

Lemma post_bind2 {A B} (Q : A -> Prop) (R : B -> Prop) (x : leaky A) g : post Q x -> (forall a, Q a -> post R (g a)) -> post R (lbind x g).
Proof.
  intros H K b E. rewrite result_bind in E. destruct (result x) as [a|] eqn:Ex; [|discriminate]. cbn [bind] in E. exact (K a (H a Ex) b E).
Qed.
Lemma post_L1 c : post (fr true c) (l_ts_sha2_L1_prehash cfg mem c).
Proof.
  unfold l_ts_sha2_L1_prehash. cbv zeta. repeat (apply post_bind; intros ?). apply post_ret.
  eapply fr_trans; [apply fr_small|apply fr_prehash256].
Qed.
Lemma post_L35 c : post (fr true c) (l_ts_sha2_L35_prehash cfg mem c).
Proof.
  unfold l_ts_sha2_L35_prehash. eapply post_bind2; [apply post_L1|]. intros d F. cbv zeta. repeat (apply post_bind; intros ?). apply post_ret.
  eapply fr_trans; [exact F|]. eapply fr_trans; [apply fr_small|apply fr_prehash512].
Qed.
Lemma co_prehash p c : c_ps c = the_ps cfg p -> costs m (prehash_bill cfg p m) (fr true c) (l_call_compute_prehash cfg mem c).
Proof.
  intros Hp. unfold l_call_compute_prehash, prehash_bill. destruct (cfg_sha2_opt cfg) eqn:O; [|apply costs_ret, fr_refl].
  rewrite Hp. cbn [andb].
  assert (X : match ps_compute_prehash (the_ps cfg p) with None => is_sha2 p = false | Some _ => is_sha2 p = true end)
    by (destruct p; cbn; rewrite ?O; reflexivity).
  destruct (ps_compute_prehash (the_ps cfg p)) as [[|]|]; rewrite X.
  - apply costs_tick; [exact I|]. apply (costs_jump m prehash); [reflexivity|apply si_ts_sha2_L1_prehash|exact (post_L1 c)].
  - apply costs_tick; [exact I|]. apply (costs_jump m prehash); [reflexivity|apply si_ts_sha2_L35_prehash|exact (post_L35 c)].
  - apply costs_tick; [exact I|]. apply costs_ret, fr_refl.
Qed.

Lemma si_convert_bit s : silent (l_convert_bit s).
Proof. destruct s as [[[? ?] ?] ?]. unfold l_convert_bit. sil. Qed.
Hint Resolve si_convert_bit : si.
Lemma si_extract h o k : silent (l_extract_int_from_hash h o k).
Proof. unfold l_extract_int_from_hash. sil. Qed.
Hint Resolve si_extract : si.
Lemma si_convert h c : silent (l_ts_convert_message_hash_to_hypertree_position cfg h c).
Proof.
  unfold l_ts_convert_message_hash_to_hypertree_position. cbv zeta. apply silent_bind.
  - apply silent_for. intros i [[[? ?] ?] ?]. sil.
  - intros [[[? ?] ?] ?]. sil.
Qed.

Lemma co_init_sign_gen {R} c msg l p sk (rng : random_generator R) r :
  costs m (prehash_bill cfg p m + init_sign_bill m) (fun _ => True) (l_ts_init_sign_gen cfg mem c msg l (the_ps cfg p) sk rng r).
Proof.
  unfold l_ts_init_sign_gen. cbv zeta. eapply costs_bind; [apply (co_prehash p); reflexivity|]. intros c1 _ _.
  unfold init_sign_bill, plus.
  apply costs_bind0.
  { destruct rng as [g|]; [|sil]. apply silent_tick; [exact I|]. destruct (g r _) as [[? ?] ?]. sil. }
  intros [[ok b] r'] _. apply costs_bind0; [sil|]. intros b2 _. apply costs_bind0; [auto with si nocore|]. intros ms _. apply costs_bind0; [auto with si nocore|]. intros o _.
  rewrite <- Z.add_assoc. eapply costs_bind; [apply co_prf_msg|]. intros [rand c2] _ _. apply costs_bind0; [auto with si nocore|]. intros c3 _.
  eapply costs_bind; [apply co_hash_msg|]. intros [mh c4] _ _. apply costs_bind0; [auto with si nocore|]. intros h _. apply costs_bind0; [auto with si nocore|]. intros h2 _.
  apply costs_bind0; [apply si_convert|]. intros [h3 c5] _. rewrite <- (Z.add_0_l (one init_t m)).
  eapply costs_bind; [apply (co_fors_root_adr m cfg false)|]. intros c6 _ _. rewrite <- (Z.add_0_r (one init_t m)).
  eapply costs_bind; [apply (co_big_init m cfg mem false)|]. intros c7 _ _. apply costs_ret. exact I.
Qed.
Lemma co_init_sign c msg l p sk f :
  costs m (prehash_bill cfg p m + init_sign_bill m) (fun _ => True) (l_ts_init_sign cfg mem c msg l (the_ps cfg p) sk f).
Proof.
  unfold l_ts_init_sign. rewrite <- (Z.add_0_r (prehash_bill cfg p m + _)). eapply costs_bind; [apply co_init_sign_gen|].
  intros [c1 u] _ _. apply costs_ret. exact I.
Qed.

(** ** Key generation *)
Lemma co_gen_root p addr : ps_n (the_ps cfg p) = p_n (slh_of p) -> ps_merkle_h (the_ps cfg p) = p_h' (slh_of p) -> 0 <= p_h' (slh_of p) <= 31 -> 0 <= p_n (slh_of p) ->
  wlen (slh_of p) = 2 * p_n (slh_of p) + 3 ->
  costs m (prehash_bill cfg p m + keygen_bill (slh_of p) m) (fun _ => True) (l_gen_root cfg mem addr (the_ps cfg p)).
Proof.
  intros Hn Hh Bh Bn Hw. unfold l_gen_root. cbv zeta. eapply costs_bind; [apply (co_prehash p); reflexivity|]. intros c1 _ F1.
  pose proof (f_ps _ _ _ F1) as P1. change (c_ps c1 = the_ps cfg p) in P1.
  assert (K : forall b i c, c_ps c = the_ps cfg p -> costs m (ots_key_bill (slh_of p) m) (fr false c) (l_ts_wots_leaf cfg mem b i c)).
  { intros b i c Hc. eapply costs_eq; [apply (co_wots_leaf m cfg mem b i c _ Hc); lia|]. unfold ots_key_bill, SpecWork.plus, times. rewrite Hn, Hw. ring. }
  set (c2 := set_merkle_level 0 _). assert (P2 : c_ps c2 = the_ps cfg p) by exact P1. assert (M2 : c_merkle_level c2 = 0) by reflexivity. clearbody c2.
  eapply costs_eq.
  - eapply costs_bind; [apply K, P2|]. intros c3 _ F3.
    assert (P3 : c_ps c3 = the_ps cfg p) by (rewrite (f_ps _ _ _ F3); exact P2).
    assert (M3 : c_merkle_level c3 = 0) by (rewrite (f_ml _ _ _ F3); exact M2).
    eapply costs_bind.
    + (* the level is a function of the pass: carry it in the invariant *)
      apply (costs_for_lvl m (fun j => 2 ^ j * (ots_key_bill (slh_of p) m + H_bill m)) (fun j c => c_ps c = the_ps cfg p /\ c_merkle_level c = j)); [auto|].
      intros j c Hj [Hp Hl]. rewrite Hh in Hj. eapply costs_weak.
      * eapply costs_eq; [apply (co_path m cfg mem (l_ts_wots_leaf cfg mem) (ots_key_bill (slh_of p) m) _ _ c j (the_ps cfg p)); [lia|exact Hl|exact Hp|intros i d Hd; apply K, Hd]|].
        cbv beta. rewrite Z.pow_add_r by lia. ring.
      * intros d _ F. split; [rewrite (f_ps _ _ _ F); exact Hp|]. rewrite (f_ml _ _ _ F). cbn [c_merkle_level set_merkle_level]. unfold u8. apply Z.mod_small. lia.
    + intros c4 _ _. apply costs_silent; [auto with si nocore|]. intros; exact I.
  - cbv beta. rewrite Hh, Z2Nat.id by lia. rewrite Z.add_0_l, Z.pow_0_r. unfold keygen_bill, subtree_bill, SpecWork.plus, times. ring.
Qed.
End Init.

(** ** A session *)
Section Session.
Variable m : member.
Variable cfg : config.
Variable p : ps_name.
Variable sk : Z.
Local Notation P := (slh_of p).
Local Notation n := (p_n (slh_of p)).
Definition signing (SK M SIG : list Z) (u : Z) : Z :=
  begun n (map (fun x => sign_bill P (skipn (Z.to_nat (2 * n)) SK) M SIG x m) (blocks_of P)) u.

Lemma RS_work SK M SIG t c mem dest sz : RS cfg p sk SK M SIG t c -> holds mem sk SK -> 0 <= sz < 2 ^ 32 -> 0 <= t ->
  costs m (signing SK M SIG (t + sz) - signing SK M SIG t)
    (fun x => RS cfg p sk SK M SIG (t + fst (fst x)) (snd x) /\ 0 <= fst (fst x) <= sz /\
       (fst (fst x) = sz \/ forall u, t + fst (fst x) <= u -> signing SK M SIG u = signing SK M SIG (t + fst (fst x))))
    (l_ts_sign cfg mem dest sz c).
Proof.
  intros R K Hsz Ht.
  destruct (RS_env _ _ _ _ _ _ _ _ _ R K) as (E & b & B & o & Ec & Ep & Epk & Em & EP & En & Nb & Es & HE & Hsk & HR & Ht1 & Hz1).
  destruct R as (BK & LK & LM & HT & HL & _). cbv zeta in *.
  set (D := digest_of P (skipn (Z.to_nat (2 * n)) SK) M SIG) in *.
  assert (Q : forall u, 0 <= u -> signing SK M SIG u = W m E (slice SK 0 n) (idx_tree_of P D) (idx_leaf_of P D) u).
  { intros u Hu. unfold signing. pose proof (begun_W E (slice SK 0 n) D m (skipn (Z.to_nat (2 * n)) SK) M SIG u Hu) as X.
    rewrite EP, En, Es in X. apply X, LM. }
  pose proof (r_rng _ _ _ _ _ _ _ _ _ HR) as O1. rewrite En in O1.
  pose proof (state_range _ _ _ _ _ _ _ (r_inv _ _ _ _ _ _ _ _ _ HR)) as Q1.
  unfold l_ts_sign. apply costs_if; intros X.
  { exfalso. destruct (Z.leb_spec (c_state c) ts_sign_state), (Z.leb_spec ts_verify_state (c_state c)); cbn in X; discriminate || lia. }
  assert (HL' : 0 <= idx_leaf_of P D < 2 ^ p_h' (e_P E)) by (rewrite EP; exact HL).
  pose proof (co_sign_loop m E _ Hsk _ _ _ HT HL' (2 * Z.to_nat sz + 2) dest 0 sz b o B c HR Hsz) as PL.
  rewrite Ec, Em, En, Ht1 in PL. specialize (PL ltac:(intros E0 Nz; elim Nz; apply Hz1, E0)).
  eapply costs_eq; [eapply costs_bind; [exact PL|]|].
  - intros [[m1 e1] c1] _ (b' & o' & Y & A2 & A4 & A5 & A6 & A7). cbn [fst snd] in *. rewrite En in *. apply costs_ret. cbn [fst snd].
    unfold u32. rewrite Z.mod_small by lia. rewrite Ht1 in A4.
    assert (Hz' : o' = 0 -> b' = 0%nat) by (intros E0; destruct A6 as [A6|(-> & ->)]; [lia|apply Hz1, E0]).
    split; [|split; [lia|]].
    + split; [exact BK|]. split; [exact LK|]. cbv zeta. split; [exact LM|]. split; [exact HT|]. split; [exact HL|].
      exists E. split; [exact HE|]. exists b', Y, o'. split; [exact A2|]. split; [exact A4|exact Hz'].
    + destruct A7 as [->|[A7 A8]]; [left; lia|right]. intros u Hu. rewrite !Q by lia. rewrite <- A4 in *.
      rewrite <- (Z.sub_add (n * Z.of_nat b' + o') u), Z.add_comm.
      rewrite (W_DN m E _ _ _ b') by (try exact A7; rewrite ?En; lia).
      rewrite <- (Z.add_0_r (n * Z.of_nat b' + o')). rewrite (W_DN m E _ _ _ b') by (try exact A7; rewrite ?En; lia). reflexivity.
  - rewrite !Q by lia. pose proof (W_at m E (slice SK 0 n) (idx_tree_of P D) (idx_leaf_of P D) b o) as X2. rewrite En, Ht1 in X2.
    rewrite X2 by assumption. lia.
Qed.
Lemma RS_works SK M SIG rqs : forall t c, RS cfg p sk SK M SIG t c -> 0 <= t -> Forall (request_ok sk SK) rqs ->
  costs m (signing SK M SIG (t + asked rqs) - signing SK M SIG t) (fun _ => True) (l_requests cfg rqs c).
Proof.
  induction rqs as [|r rqs IH]; intros t c R Ht F; cbn [l_requests asked fold_right].
  { eapply costs_eq; [apply costs_ret; exact I|]. rewrite Z.add_0_r. lia. }
  fold (asked rqs). pose proof (Forall_inv F) as (K & Hz & L). apply Forall_inv_tail in F. pose proof (asked_nonneg sk _ _ F) as A.
  intros x Hx. rewrite result_bind in Hx. destruct (result (l_ts_sign cfg (rq_mem r) (rq_dest r) (rq_size r) c)) as [[[k d] c1]|] eqn:ES; [|discriminate].
  cbn [bind] in Hx. destruct (RS_work SK M SIG t c _ _ _ R K Hz Ht _ ES) as [T1 (R1 & B1 & D1)]. cbn [fst snd] in *.
  specialize (IH (t + k) c1 R1 ltac:(lia) F). rewrite result_bind in Hx.
  destruct (result (l_requests cfg rqs c1)) as [[os c2]|] eqn:EC; [|discriminate]. destruct (IH _ EC) as [T2 _].
  split; [|exact I]. unfold trace, lbind. unfold result in ES, EC. rewrite ES. cbn [fst snd]. rewrite EC. cbn [fst lret].
  rewrite app_nil_r, called_app. unfold trace in T1, T2. rewrite T1, T2.
  destruct D1 as [->|D1]; [rewrite Z.add_assoc; lia|].
  rewrite (D1 (t + k + asked rqs)) by lia. rewrite (D1 (t + rq_size r)) by lia. rewrite (D1 (t + (rq_size r + asked rqs))) by lia. lia.
Qed.
Lemma session_works c m0 msg f SK M rqs : ps_enabled cfg p = true -> wf_ctx cfg c -> sign_init_ok m0 msg M p sk SK f -> Forall (request_ok sk SK) rqs ->
  costs m (prehash_bill cfg p m + init_sign_bill m + signing SK M (signature p M SK f) (asked rqs)) (fun _ => True)
    (l_session cfg m0 msg (len M) p sk f rqs c).
Proof.
  intros on W0 HI F. destruct (RS_init cfg p sk c m0 msg f SK M on W0 HI) as (c1 & E1 & R1).
  unfold l_session. eapply costs_eq; [eapply (costs_bind m _ (signing SK M (signature p M SK f) (asked rqs) + 0)); [apply (co_init_sign m)|]|lia].
  intros c2 E2 _. rewrite er_init_sign, E1 in E2. apply ok_inj in E2. subst c2.
  eapply costs_bind.
  - eapply costs_eq; [apply (RS_works SK M (signature p M SK f) rqs 0 c1 R1); [lia|exact F]|].
    rewrite Z.add_0_l. assert (X : signing SK M (signature p M SK f) 0 = 0).
    { unfold signing, begun. apply sum_zero. intros i. destruct (Z.ltb_spec (n * Z.of_nat i) 0) as [Y|Y]; [|reflexivity].
      exfalso. assert (0 < n) by (destruct p; cbn; lia). nia. }
    lia.
  - intros [os c2] _ _. apply costs_ret. exact I.
Qed.
End Session.
