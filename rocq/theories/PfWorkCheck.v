(** * Counting calls: a verification session *)
From Verif Require Import Arr CLeak SpecSLH SpecApi ModelParams ModelCtx ModelHash ModelSphincs ModelVerify ModelApi SpecMap SpecSessions PfGlueSha PfIter PfEnv PfAdr PfGlue PfMsg PfCtx PfTree PfPaths PfBits PfWots PfSpec PfSign PfVerify PfApi PfSession PfKeygen PfComplete SpecReuse SpecForge SpecLeak PfReuse.
From Verif Require Import LeakSha2 LeakHash LeakSphincs LeakVerify PfLeakErase2 PfLeakErase3 PfLeakErase4 PfLeakShake PfLeakSign PfLeakView PfLeakSession SpecWork PfWorkSilent PfWork PfWorkSign PfWorkSession PfWorkVerify.
Ltac Zify.zify_post_hook ::= idtac.

(** ** The calls, watched *)
Fixpoint l_feeds (cfg : config) (fs : list feed) (c : ts_context) : leaky (list obs * ts_context) :=
  match fs with
  | [] => lret ([], c)
  | fd :: fs => ('(r, c) <- l_ts_update_verify cfg (fd_mem fd) (fd_chunk fd) (zlen (fd_chunk fd)) c ;;
                '(os, c) <- l_feeds cfg fs c ;; lret (Updated r :: os, c))%leak
  end.
Definition l_verify_session (cfg : config) (m0 : memory) (msg l : Z) (p : ps_name) (pk : Z) (fs : list feed) (c : ts_context)
  : leaky (list obs * ts_context) :=
  (c <- l_ts_init_verify cfg m0 c msg l (the_ps cfg p) pk ;;
   '(os, c) <- l_feeds cfg fs c ;; lret (Started :: os, c))%leak.
Lemma er_feeds cfg fs : forall c, result (l_feeds cfg fs c) = calls cfg (feed_calls fs) c.
Proof.
  induction fs as [|fd fs IH]; intros c; [reflexivity|]. cbn [l_feeds feed_calls map calls call]. fold (feed_calls fs).
  rewrite result_bind, er_update_verify. destruct (ts_update_verify cfg (fd_mem fd) (fd_chunk fd) (zlen (fd_chunk fd)) c) as [[r c1]|]; [|reflexivity]. cbn [bind].
  rewrite result_bind, IH. destruct (calls cfg _ c1) as [[os c2]|]; reflexivity.
Qed.
Lemma er_verify_session cfg m0 msg l p pk fs c : result (l_verify_session cfg m0 msg l p pk fs c) = calls cfg (verify_history m0 msg l p pk fs) c.
Proof.
  unfold l_verify_session, verify_history. cbn [calls call]. rewrite result_bind, er_init_verify.
  destruct (ts_init_verify cfg m0 c msg l (the_ps cfg p) pk) as [c1|]; [|reflexivity]. cbn [bind].
  rewrite result_bind, er_feeds. destruct (calls cfg _ c1) as [[os c2]|]; reflexivity.
Qed.

Section Check.
Variable mb : member.
Variable cfg : config.
Lemma co_init_verify mem c msg l p pk :
  costs mb (prehash_bill cfg p mb) (fun _ => True) (l_ts_init_verify cfg mem c msg l (the_ps cfg p) pk).
Proof.
  unfold l_ts_init_verify. cbv zeta. apply costs_bind0; [unfold l_set_verify_message; auto with si nocore|]. intros x1 _.
  apply costs_bind0; [unfold l_set_verify_len; auto with si nocore|]. intros x2 _.
  eapply costs_weak; [apply (co_prehash mb cfg mem p); reflexivity|]. intros; exact I.
Qed.

(** A chunk that completes no block, and one that comes after the end *)
Lemma co_update_small mem sg k c : 0 <= c_buffer_offset c -> 0 <= k -> c_buffer_offset c + k < ps_n (c_ps c) < 2 ^ 31 ->
  costs mb 0 (fun _ => True) (l_ts_update_verify cfg mem sg k c).
Proof.
  intros Ho Hk Hs. unfold l_ts_update_verify. apply costs_if; intros _; [apply costs_ret; exact I|].
  rewrite Nat.add_comm. cbn [l_verify_loop Nat.add]. cbv zeta. unfold u32. rewrite (Z.mod_small (ps_n _ - _)) by lia.
  eapply costs_eq; [eapply (costs_bind mb 0 0 (fun x => x = k))|reflexivity].
  { apply costs_if; intros X; apply costs_ret; [reflexivity|]. destruct (Z.ltb_spec k (ps_n (c_ps c) - c_buffer_offset c)); [discriminate|lia]. }
  intros r _ ->. apply costs_bind0; [auto with si nocore|]. intros src _. apply costs_bind0; [auto with si nocore|]. intros b _.
  rewrite (Z.mod_small (c_buffer_offset c + k)) by lia. apply costs_if; intros X; [apply costs_ret; exact I|]. destruct (Z.ltb_spec (c_buffer_offset c + k) (ps_n (c_ps c))); [discriminate|lia].
Qed.
Lemma co_update_after mem sg k c : ts_verify_success <= c_state c -> costs mb 0 (fun _ => True) (l_ts_update_verify cfg mem sg k c).
Proof.
  intros St. unfold l_ts_update_verify. apply costs_if; intros X; [apply costs_ret; exact I|].
  rewrite Nat.add_comm. cbn [l_verify_loop Nat.add]. cbv zeta.
  eapply costs_eq; [eapply (costs_bind mb 0 0 (fun _ => True))|reflexivity]; [apply costs_if; intros _; apply costs_ret; exact I|].
  intros r _ _. apply costs_bind0; [auto with si nocore|]. intros src _. apply costs_bind0; [auto with si nocore|]. intros b _.
  apply costs_if; intros Y; [apply costs_ret; exact I|].
  unfold ts_verify_success in St.
  eapply costs_eq; [eapply (costs_bind mb 0 0 (fun x => exists y, x = inr y))|reflexivity].
  - unfold l_verify_switch. cbv zeta.
    do 5 (apply costs_if; intros Z; [exfalso; clear - Z St; match type of Z with (?a =? ?b) = true => change a with (c_state c) in Z; apply Z.eqb_eq in Z; rewrite Z in St; revert St; vm_compute; intros St; apply St; reflexivity end|clear Z]).
    apply costs_ret. eexists. reflexivity.
  - intros x _ (y & ->). apply costs_ret. exact I.
Qed.

Variable p : ps_name.
Local Notation P := (slh_of p).
Local Notation n := (p_n (slh_of p)).
Local Notation L := (slh_sig_length (slh_of p)).
Definition checking (PK M S : list Z) (u : Z) : Z :=
  complete n (map (fun x => verify_bill P PK M S x mb) (blocks_of P)) u.
Lemma checking_end PK M S u : L <= u -> checking PK M S u = checking PK M S L.
Proof.
  intros Hu. unfold checking, complete. f_equal. apply map_ext_in. intros i Hi. apply in_seq in Hi. rewrite map_length in Hi.
  assert (NB : n * Z.of_nat (length (blocks_of P)) = L) by (destruct p; reflexivity).
  assert (0 < n) by (destruct p; cbn; lia).
  replace (n * (Z.of_nat i + 1) <=? u) with true by (symmetry; apply Z.leb_le; nia).
  replace (n * (Z.of_nat i + 1) <=? L) with true by (symmetry; apply Z.leb_le; nia). reflexivity.
Qed.
Lemma checking_V PK M S u E : KE cfg p (e_pk E) (slice PK 0 n) E -> 0 <= u -> checking PK M S u = V mb E S M PK u.
Proof.
  intros HE Hu. destruct (KE_facts _ _ _ _ _ HE) as (En & EP & _). rewrite <- complete_V by exact Hu. unfold checking, vxs. rewrite En, EP. reflexivity.
Qed.

Lemma co_feed pk PK ma M M0 fed fd rest c : is_bytes M -> len M < 2 ^ 60 ->
  RVer cfg p pk PK ma (len M) M0 fed true c -> (n <= len fed -> M0 = M) ->
  (completes_block P fed (fed ++ fd_chunk fd) -> holds (fd_mem fd) pk PK) -> is_bytes (fd_chunk fd) -> len (fd_chunk fd) < 2 ^ 32 ->
  (len fed < n <= len (fed ++ fd_chunk fd) -> holds (fd_mem fd) ma M) ->
  let S := fed ++ fd_chunk fd ++ rest in
  is_bytes rest -> L <= len S ->
  costs mb (checking PK M S (len (fed ++ fd_chunk fd)) - checking PK M S (len fed)) (fun _ => True)
    (l_ts_update_verify cfg (fd_mem fd) (fd_chunk fd) (zlen (fd_chunk fd)) c).
Proof.
  intros BM LM HRV HM0 HK BC LC HMs S Br LS. pose proof HRV as (BK & LK & BF & Hl & E & HE & G & HMf & HA & HS).
  pose proof HE as (Ec & Ep & Epk & Es). destruct (KE_facts _ _ _ _ _ HE) as (En & EP & Nb). pose proof (L_pos p) as Lp.
  assert (P0 : 0 <= len fed /\ 0 <= len (fd_chunk fd)) by (unfold len; lia).
  assert (Lapp : len (fed ++ fd_chunk fd) = len fed + len (fd_chunk fd)) by apply len_app.
  set (chunk := fd_chunk fd) in *. change (zlen chunk) with (len chunk).
  destruct (Z.le_gt_cases L (len fed)) as [Hge|Hlt].
  { destruct (HS Hge) as (St & _). eapply costs_eq; [apply co_update_after; rewrite St; lia|].
    rewrite (checking_end PK M S (len (fed ++ chunk))), (checking_end PK M S (len fed)) by lia. lia. }
  specialize (HA Hlt M ltac:(intros X; symmetry; apply HM0, X) BM eq_refl (chunk ++ rest) ltac:(apply bytes_app; assumption) LS).
  destruct HA as (s & o & HR & HT). change (fed ++ chunk ++ rest) with S in HR.
  assert (BS : is_bytes S) by (apply bytes_app; [|apply bytes_app]; assumption).
  assert (LP : slh_sig_length (e_P E) = L) by (rewrite EP; reflexivity).
  destruct (Z.lt_ge_cases (len fed / n) (len (fed ++ chunk) / n)) as [Hb|Hb].
  2:{ assert (Hsmall : len fed mod n + len chunk < n).
      { rewrite Lapp in Hb. clear - Hb Nb P0. pose proof (Z.div_mod (len fed) n ltac:(lia)) as D1. pose proof (Z.mod_pos_bound (len fed) n ltac:(lia)) as B1.
        pose proof (Z.div_mod (len fed + len chunk) n ltac:(lia)) as D2. pose proof (Z.mod_pos_bound (len fed + len chunk) n ltac:(lia)) as B2. nia. }
      pose proof (v_off _ _ _ _ _ _ _ _ HR) as Ho. pose proof (v_rng _ _ _ _ _ _ _ _ HR) as Hr. rewrite En in Hr.
      assert (Eo : o = len fed mod n).
      { rewrite <- HT. unfold vtot. rewrite En, Z.add_comm, Z.mod_add by lia. symmetry. apply Z.mod_small. lia. }
      assert (Epn : ps_n (c_ps c) = n) by (rewrite (ps_n_c E c G); exact En).
      eapply costs_eq; [apply co_update_small; rewrite ?Ho, ?Epn; lia|].
      assert (Q : forall u, 0 <= u -> checking PK M S u = V mb E S M PK u) by (intros u Hu; apply checking_V; [rewrite Epk; exact HE|exact Hu]).
      rewrite !Q by lia. unfold V. rewrite En.
      replace (len (fed ++ chunk) / n) with (len fed / n); [lia|]. apply Z.le_antisymm; [|lia]. rewrite Lapp. apply Z.div_le_mono; lia. }
  specialize (HK (conj Hlt Hb)).
  assert (Hld : load (fd_mem fd) (e_pk E) (p_n (slh_of (e_p E))) = Ok (e_seed E)).
  { rewrite Ep, Epk, Es. rewrite <- (Z.add_0_r pk). apply load_slice; [exact HK|lia|lia|lia]. }
  set (E' := remem E (fd_mem fd) Hld). apply (at_vrun_remem E (fd_mem fd) Hld) in HR. change (remem E (fd_mem fd) Hld) with E' in HR. change (vtot E s o) with (vtot E' s o) in HT.
  assert (Hroot : root_at E' (slice PK n n)).
  { unfold root_at. change (e_mem E') with (fd_mem fd). change (e_pk E') with (e_pk E). change (e_n E') with (e_n E). rewrite Epk, En.
    split; [apply load_slice; [exact HK|lia|lia|lia]|].
    unfold str_ok. change (e_n E') with (e_n E). rewrite En. split; [apply slice_zlen; [lia|lia|]; rewrite zlen_len; lia|apply slice_bytes, HK]. }
  assert (Nn : e_n E' = n) by exact En.
  unfold l_ts_update_verify. apply costs_if; intros X.
  { exfalso. destruct HR as [(_ & _ & HI) _ _ _]. destruct s; destruct HI as [St _]; rewrite St in X; discriminate X. }
  assert (Q : forall u, 0 <= u -> checking PK M S u = V mb E' S M PK u).
  { intros u Hu. apply checking_V; [|exact Hu]. change (e_pk E') with (e_pk E). rewrite Epk. exact HE. }
  rewrite !Q, Lapp by lia. rewrite <- HT.
  change cfg with cfg. replace cfg with (e_cfg E') by exact Ec. change (fd_mem fd) with (e_mem E').
  apply (co_verify_loop mb E' S M (slice PK n n) PK) with (maddr := ma).
  - rewrite Nn. symmetry. exact Es.
  - rewrite Nn. reflexivity.
  - exact BS.
  - change (zlen S) with (len S). change (e_P E') with (e_P E). rewrite LP. exact LS.
  - split; [exact BM|exact LM].
  - exact (proj2 Hroot).
  - exact HR.
  - rewrite HT, Nn. intros H1 H2. split; [|exact Hroot]. apply holds_load, HMs. lia.
  - intros _. exact Hroot.
  - lia.
  - lia.
  - rewrite HT. change (e_P E') with (e_P E). rewrite LP. intros i k Hi Hk Hik _. rewrite Z.add_0_l.
    unfold S. change (len fed) with (zlen fed). rewrite slice_app_r by lia. replace (zlen fed + i - zlen fed) with i by lia.
    change (len chunk) with (zlen chunk) in *. rewrite slice_app_l by lia. rewrite rd_range_ok by lia. reflexivity.
Qed.

Lemma co_failed fs : forall c, c_state c = ts_verify_fail -> costs mb 0 (fun _ => True) (l_feeds cfg fs c).
Proof.
  induction fs as [|fd fs IH]; intros c St; cbn [l_feeds]; [apply costs_ret; exact I|].
  eapply costs_eq; [eapply (costs_bind mb 0 (0 + 0) (fun x => snd x = c))|lia].
  - intros x Hx. destruct (co_update_after (fd_mem fd) (fd_chunk fd) (zlen (fd_chunk fd)) c ltac:(rewrite St; unfold ts_verify_success, ts_verify_fail; lia) x Hx) as [T _]. split; [exact T|].
    rewrite er_update_verify in Hx. unfold ts_update_verify in Hx. rewrite St in Hx. apply ok_inj in Hx. subst x. reflexivity.
  - intros [r c1] _ Ec. cbn [snd] in Ec. subst c1. eapply costs_bind; [apply IH, St|intros [os c2] _ _; apply costs_ret; exact I].
Qed.
Lemma co_feeds pk PK msg M tail fs : is_bytes M -> len M < 2 ^ 60 -> is_bytes tail -> forall fed M0 ok c,
  RVer cfg p pk PK msg (len M) M0 fed ok c -> (n <= len fed -> M0 = M) -> (ok = false -> L <= len fed) ->
  (ok = true -> feeds_need p pk PK msg M fed fs) -> L <= len (fed ++ all_fed fs ++ tail) ->
  costs mb (checking PK M (fed ++ all_fed fs ++ tail) (len (fed ++ all_fed fs)) - checking PK M (fed ++ all_fed fs ++ tail) (len fed)) (fun _ => True)
    (l_feeds cfg fs c).
Proof.
  intros BM LM Bt. induction fs as [|fd fs IH]; intros fed M0 ok c HRV HM0 Hok HF LS.
  { cbn [l_feeds]. eapply costs_eq; [apply costs_ret; exact I|]. change (all_fed []) with (@nil Z). rewrite app_nil_r. lia. }
  change (all_fed (fd :: fs)) with (fd_chunk fd ++ all_fed fs) in *. rewrite <- app_assoc in *.
  pose proof (L_pos p) as Lp. assert (Np : 16 <= n <= 32) by (destruct p; cbn; lia).
  cbn [l_feeds].
  destruct ok.
  - destruct (HF eq_refl) as (H1 & H2 & H3 & H4 & H5).
    assert (H1' : completes_block P fed (fed ++ fd_chunk fd) -> holds (fd_mem fd) pk PK) by (intros [? ?]; apply H1; assumption).
    set (S := fed ++ fd_chunk fd ++ all_fed fs ++ tail) in *.
    assert (BR : is_bytes (all_fed fs ++ tail)).
    { apply bytes_app; [|exact Bt]. clear - H5. revert H5. generalize (fed ++ fd_chunk fd) as g. induction fs as [|h fs IH]; intros g H; [constructor|].
      destruct H as (_ & H & _ & _ & H'). change (all_fed (h :: fs)) with (fd_chunk h ++ all_fed fs). apply bytes_app; [exact H|eapply IH, H']. }
    pose proof (co_feed pk PK msg M M0 fed fd (all_fed fs ++ tail) c BM LM HRV HM0 H1' H2 H3 H4 BR LS) as CF. fold S in CF.
    set (fed' := fed ++ fd_chunk fd) in *.
    assert (Lf : len fed' = len fed + len (fd_chunk fd)) by apply len_app.
    assert (P0 : 0 <= len (fd_chunk fd) /\ 0 <= len fed) by (unfold len; lia).
    set (M' := if (len fed <? n) && (n <=? len fed') then M else M0).
    assert (EM' : n <= len fed' -> M' = M).
    { intros Hge. unfold M'. destruct (Z.ltb_spec (len fed) n), (Z.leb_spec n (len fed')); cbn [andb]; try lia; try reflexivity. apply HM0. assumption. }
    assert (HMR : message_read P (fd_mem fd) msg (len M) fed fed' M0 M').
    { unfold message_read, M'. destruct (Z.ltb_spec (len fed) n), (Z.leb_spec n (len fed')); cbn [andb]; try reflexivity.
      split; [apply H4; split; assumption|reflexivity]. }
    set (r := update_result P M' PK fed fed').
    assert (X : exists c', ts_update_verify cfg (fd_mem fd) (fd_chunk fd) (zlen (fd_chunk fd)) c = Ok (b2z r, c') /\ RVer cfg p pk PK msg (len M) M' fed' r c').
    { destruct (Z.le_gt_cases L (len fed)).
      - apply (sim_update_done cfg p pk PK msg (len M) M0 M' fed (fd_chunk fd) c (fd_mem fd)); assumption.
      - apply (sim_update_live' cfg p pk PK msg (len M) M0 M' fed (fd_chunk fd) c (fd_mem fd)); assumption. }
    destruct X as (c' & EQ & HR').
    eapply costs_eq; [eapply (costs_bind mb _ (checking PK M S (len (fed' ++ all_fed fs)) - checking PK M S (len fed') + 0) (fun x => x = (b2z r, c')))|].
    + intros x Hx. destruct (CF x Hx) as [T _]. split; [exact T|]. rewrite er_update_verify, EQ in Hx. apply ok_inj in Hx. congruence.
    + intros x _ ->. eapply costs_bind.
      * assert (ES : S = fed' ++ all_fed fs ++ tail) by (unfold S, fed'; rewrite <- app_assoc; reflexivity). rewrite ES. apply (IH fed' M' r c' HR' EM').
        -- unfold r, update_result. destruct (Z.ltb_spec (len fed') L); [discriminate|lia].
        -- intros _. exact H5.
        -- rewrite <- ES. exact LS.
      * intros [os c2] _ _. apply costs_ret. exact I.
    + rewrite (app_assoc fed (fd_chunk fd) (all_fed fs)). fold fed'. lia.
  - specialize (Hok eq_refl). pose proof HRV as (_ & _ & _ & _ & E & _ & _ & _ & St).
    assert (A1 : len (fed ++ fd_chunk fd ++ all_fed fs) = len fed + len (fd_chunk fd) + len (all_fed fs)) by (rewrite !len_app; lia).
    assert (P0 : 0 <= len (fd_chunk fd) /\ 0 <= len (all_fed fs)) by (unfold len; lia).
    rewrite (checking_end PK M _ (len (fed ++ fd_chunk fd ++ all_fed fs))), (checking_end PK M _ (len fed)) by lia.
    eapply costs_eq; [apply (co_failed (fd :: fs) c St)|lia].
Qed.
Lemma co_verify_session c m0 msg M pk PK tail fs : ps_enabled cfg p = true -> wf_ctx cfg c -> verify_init_ok cfg m0 msg M p pk PK -> feeds_need p pk PK msg M [] fs ->
  is_bytes tail -> L <= len (all_fed fs ++ tail) ->
  costs mb (prehash_bill cfg p mb + checking PK M (all_fed fs ++ tail) (len (all_fed fs))) (fun _ => True) (l_verify_session cfg m0 msg (len M) p pk fs c).
Proof.
  intros on W (H1 & H2 & H3 & H4 & H5 & H6) HF Bt LS.
  destruct (sim_init_verify cfg Fresh c m0 msg (len M) p pk PK W on H1 H2) as (c1 & E1 & R1); [exact H3|split; [unfold len; lia|exact H5]|exact H6|].
  assert (Np : 16 <= n <= 32) by (destruct p; cbn; lia). pose proof (L_pos p) as Lp.
  assert (C0 : checking PK M (all_fed fs ++ tail) 0 = 0).
  { unfold checking, complete. apply sum_zero. intros i. destruct (Z.leb_spec (n * (Z.of_nat i + 1)) 0); [|reflexivity]. clear - H Np. exfalso. nia. }
  unfold l_verify_session. eapply costs_bind; [apply co_init_verify|].
  intros c2 E2 _. rewrite er_init_verify, E1 in E2. apply ok_inj in E2. subst c2.
  eapply costs_eq; [eapply costs_bind|].
  - apply (co_feeds pk PK msg M tail fs H4 H6 Bt [] [] true c1 R1); [change (len []) with 0; lia|discriminate|intros _; exact HF|exact LS].
  - intros [os c2] _ _. apply costs_ret. exact I.
  - cbn [app]. change (len (@nil Z)) with 0. rewrite C0. lia.
Qed.
End Check.
