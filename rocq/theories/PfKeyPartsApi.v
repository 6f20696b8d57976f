(** * Sessions in which only parts of the keys are in their place *)
From Verif Require Import Arr SpecSLH SpecApi SpecMap SpecSessions SpecKeyParts ModelParams ModelCtx ModelHash ModelSphincs ModelVerify ModelApi
  PfEnv PfGlueSha PfSpec PfSign PfVerify PfApi PfSession PropSign PropVerify PropLifetimes PfTwoMem PfKeyParts PfKeyPartsVer.
Ltac Zify.zify_post_hook ::= idtac.

Section S.
Variable cfg : config.
Variable p : ps_name.
Local Notation n := (p_n (slh_of p)).
Local Notation L := (slh_sig_length (slh_of p)).

Lemma n_range : 16 <= n <= 32.
Proof using. destruct p; vm_compute; split; discriminate. Qed.

Lemma RSign_id sk SK rem c : RSign cfg p sk SK rem c -> same_id (the_ps cfg p) (sk + 2 * n) c.
Proof using.
  intros (_ & _ & E & (E1 & E2 & E3 & _) & md & T & lf & s & B & o & _ & _ & HR & _). destruct HR as [(G & _) _ _ _ _].
  split; [rewrite (g_ps E c G); unfold e_ps; rewrite E1, E2; reflexivity|rewrite (g_pk E c G); exact E3].
Qed.

(** ts_init_sign *)
Lemma parts_init_sign m0 msg M sk SK f c : ps_enabled cfg p = true -> wf_ctx cfg c -> sign_init_parts m0 msg M p sk SK f ->
  exists c', call cfg m0 (InitSign msg (len M) p sk f) c = Ok (Started, c') /\ RSign cfg p sk SK (signature p M SK f) c'.
Proof using.
  intros on W (BS & LS & HP & HM & LM & Hf). pose proof n_range as Nb. cbv zeta in *.
  set (m' := mem_of sk (SK ++ M)).
  assert (BM : is_bytes M) by apply HM.
  assert (H' : holds m' sk (SK ++ M)) by (apply mem_of_holds, Forall_app; split; assumption).
  assert (HK' : holds m' sk SK).
  { pose proof (holds_slice _ _ _ 0 (len SK) H' ltac:(lia) ltac:(unfold len; lia)) as X. rewrite len_app in X. specialize (X ltac:(unfold len; lia)).
    rewrite Z.add_0_r in X. replace (slice (SK ++ M) 0 (len SK)) with SK in X; [exact X|].
    unfold slice, len. change (Z.to_nat 0) with 0%nat. cbn [skipn]. rewrite Nat2Z.id, firstn_app, firstn_all, Nat.sub_diag, firstn_O, app_nil_r. reflexivity. }
  assert (HM' : holds m' (sk + len SK) M).
  { pose proof (holds_slice _ _ _ (len SK) (len M) H' ltac:(unfold len; lia) ltac:(unfold len; lia)) as X. rewrite len_app in X. specialize (X ltac:(lia)).
    replace (slice (SK ++ M) (len SK) (len M)) with M in X; [exact X|].
    unfold slice, len. rewrite !Nat2Z.id, skipn_app, skipn_all, Nat.sub_diag. cbn [skipn app]. rewrite firstn_all. reflexivity. }
  assert (Part' : forall i l, 0 <= i -> 0 <= l -> i + l <= len SK -> part m' sk SK i l) by (intros; apply whole_part; assumption).
  assert (Same : forall i l, n <= i -> 0 <= l -> i + l <= len SK -> load m0 (sk + i) l = load m' (sk + i) l).
  { intros i l Hi Hl Hil. rewrite (part_load m' sk SK i l) by (try apply Part'; lia).
    apply part_load; [|lia|lia|lia]. apply (part_sub m0 sk SK n (3 * n)); [exact HP|lia|lia|lia|lia|lia|lia]. }
  assert (X : ts_init_sign cfg m0 c msg (len M) (the_ps cfg p) sk f = ts_init_sign cfg m' c (sk + len SK) (len M) (the_ps cfg p) sk f).
  { unfold ts_init_sign. rewrite (init_sign_same cfg p m0 m' (sk + 2 * n)) with (a' := sk + len SK); [reflexivity| | | | |reflexivity|].
    - apply Same; lia.
    - replace (sk + 2 * n + n) with (sk + 3 * n) by lia. apply Same; lia.
    - replace (sk + 2 * n - n) with (sk + n) by lia. apply Same; lia.
    - intros i Hi. replace (sk + 2 * n - n + i) with (sk + (n + i)) by lia. apply Same; lia.
    - rewrite (holds_load _ _ _ HM), (holds_load _ _ _ HM'). reflexivity. }
  cbn [call]. rewrite X. destruct (sim_init_sign cfg Fresh c m' (sk + len SK) (len M) p sk f SK M W on HK' LS HM' eq_refl LM Hf) as (c' & -> & HR).
  exists c'. split; [reflexivity|exact HR].
Qed.

(** ts_sign *)
Lemma parts_sign sk SK rqs : is_bytes SK -> len SK = 4 * n -> forall S done c, 0 <= done -> len S = L - done ->
  RSign cfg p sk SK S c -> requests_parts cfg p sk SK done rqs ->
  exists c', calls cfg (map (fun r => (rq_mem r, Sign (rq_dest r) (rq_size r))) rqs) c = Ok (sign_answers S rqs, c').
Proof using.
  intros BS LK. pose proof n_range as Nb. destruct (L_blocks p) as (L1 & L2 & L3).
  induction rqs as [|r rqs IH]; intros S done c D0 LS HR H; [exists c; reflexivity|].
  cbn [requests_parts] in H. destruct H as (H1 & H2 & H3 & H4). cbn [map sign_answers calls call].
  set (k := Z.to_nat (Z.min (rq_size r) (len S))).
  assert (P0 : 0 <= len S) by (unfold len; lia).
  assert (Ek : Z.min (rq_size r) (len S) = Z.of_nat k) by (unfold k; lia).
  assert (U : Z.min (done + rq_size r) L = done + Z.of_nat k) by lia.
  rewrite U in H1, H4.
  assert (X : exists m', ts_sign cfg (rq_mem r) (rq_dest r) (rq_size r) c = ts_sign cfg m' (rq_dest r) (rq_size r) c /\
     (computed (slh_of p) S < Z.min (rq_size r) (len S) -> holds m' sk SK)).
  { destruct (Z.lt_ge_cases (computed (slh_of p) S) (Z.min (rq_size r) (len S))) as [C|C].
    - assert (C' : n * Z.max 1 ((done + n - 1) / n) < done + Z.of_nat k).
      { rewrite Ek in C. rewrite <- (have_computed n L done) by lia. unfold computed in C. rewrite LS in C. clear - C.
        destruct (L - done =? L); lia. }
      destruct (H1 C') as [HA HB]. exists (mem_of sk SK). pose proof (mem_of_holds sk SK BS) as HM. split; [|intros _; exact HM].
      apply (sign_same cfg p _ _ (sk + 2 * n)); [| |eapply RSign_id; exact HR].
      + intros Hk. rewrite (part_load _ _ _ _ _ (HB Hk)) by lia. symmetry. apply load_slice; [exact HM|lia|lia|lia].
      + replace (sk + 2 * n - 2 * n) with (sk + 0) by lia. rewrite (part_load _ _ _ _ _ HA) by lia. symmetry. apply load_slice; [exact HM|lia|lia|lia].
    - exists (rq_mem r). split; [reflexivity|]. intros C'. lia. }
  destruct X as (m' & -> & HN).
  destruct (sim_sign' cfg p sk SK S c m' (rq_dest r) (rq_size r) HR HN H2 H3) as (c1 & -> & HR1). cbn [bind].
  rewrite Ek in *. rewrite Nat2Z.id in *.
  destruct (IH (skipn k S) (done + Z.of_nat k) c1) as (c' & E2); [lia| |exact HR1|exact H4|].
  { unfold len in *. rewrite skipn_length. lia. }
  exists c'. rewrite E2. reflexivity.
Qed.

(** ** Verification *)
Lemma RVer_past pk PK msg l M fed c : RVer cfg p pk PK msg l M fed true c -> n <= len fed < L -> past (the_ps cfg p) pk c.
Proof using.
  intros (BK & LK & BF & Hl & E & (E1 & E2 & E3 & _) & G & HMf & H1 & _) [Hn HL]. pose proof n_range as Nb.
  destruct (HMf Hn) as [BM LM].
  destruct (H1 HL M (fun _ => eq_refl) BM LM (repeat 0 (Z.to_nat L))) as (s & o & [HI _ HO _] & HT); [apply zeros_bytes'| |].
  { rewrite len_app. unfold len in *. rewrite repeat_length. lia. }
  split; [split; [rewrite (g_ps E c G); unfold e_ps; rewrite E1, E2; reflexivity|rewrite (g_pk E c G); exact E3]|].
  assert (En : e_n E = n) by (unfold e_n, e_P; rewrite E2; reflexivity).
  destruct HI as (_ & _ & HS). unfold vtot in HT. rewrite En in *. destruct s; cbn [vpos] in HT; [lia|..]; destruct HS as [-> _]; discriminate.
Qed.

(** ts_init_verify *)
Lemma parts_init_verify m0 msg M pk PK c : ps_enabled cfg p = true -> wf_ctx cfg c -> verify_init_parts cfg m0 msg M p pk PK ->
  exists c', call cfg m0 (InitVerify msg (len M) p pk) c = Ok (Started, c') /\ RVer cfg p pk PK msg (len M) [] [] true c'.
Proof using.
  intros on W (BP & LP & HP & Ha & BM & HM1 & HM2). pose proof n_range as Nb. cbv zeta in *.
  pose proof (mem_of_holds pk PK BP) as HM.
  assert (X : ts_init_verify cfg m0 c msg (len M) (the_ps cfg p) pk = ts_init_verify cfg (mem_of pk PK) c msg (len M) (the_ps cfg p) pk).
  { unfold ts_init_verify. cbv zeta. destruct (set_verify_message _ _ _) as [x|]; cbn [bind]; [|reflexivity].
    destruct (set_verify_len _ _ _) as [y|]; cbn [bind]; [|reflexivity]. apply (prehash_same cfg p _ _ pk); [|split; reflexivity].
    intros Hk. replace pk with (pk + 0) at 1 3 by lia. rewrite (part_load _ _ _ _ _ (HP Hk)) by lia. symmetry. apply load_slice; [exact HM|lia|lia|lia]. }
  cbn [call]. rewrite X. destruct (sim_init_verify cfg Fresh c (mem_of pk PK) msg (len M) p pk PK W on HM LP Ha) as (c' & -> & HR); [unfold len in *; lia|exact HM2|].
  exists c'. split; [reflexivity|exact HR].
Qed.

(** ts_update_verify: the memories of a session that keeps the ordinary contract *)
Fixpoint honest (pk : Z) (PK : list Z) (fed : Z) (fs : list feed) : list feed :=
  match fs with
  | [] => []
  | f :: fs =>
    let fed' := fed + len (fd_chunk f) in
    Feed (if (n <=? fed) && (fed <? L) && (fed / n <? fed' / n) then mem_of pk PK else fd_mem f) (fd_chunk f) :: honest pk PK fed' fs
  end.
Lemma honest_answers M pk PK fs : forall k fed ok, verify_answers (slh_of p) M PK fed ok (honest pk PK k fs) = verify_answers (slh_of p) M PK fed ok fs.
Proof using. induction fs as [|f fs IH]; intros k fed ok; [reflexivity|]. cbn [honest verify_answers fd_chunk]. rewrite IH. reflexivity. Qed.
Lemma honest_fed pk PK fs : forall k, all_fed (honest pk PK k fs) = all_fed fs.
Proof using. induction fs as [|f fs IH]; intros k; [reflexivity|]. unfold all_fed in *. cbn [honest map concat fd_chunk]. rewrite IH. reflexivity. Qed.
Lemma honest_need pk PK msg M fs : is_bytes PK -> len PK = 2 * n -> forall fed, feeds_parts cfg p pk PK msg M (len fed) fs ->
  feeds_need p pk PK msg M fed (honest pk PK (len fed) fs).
Proof using.
  intros BP LP. pose proof n_range as Nb. pose proof (mem_of_holds pk PK BP) as HM.
  induction fs as [|f fs IH]; intros fed H; [exact I|]. cbn [feeds_parts] in H. destruct H as (H1 & H2 & H3 & H4 & H5 & H6).
  cbn [honest feeds_need fd_chunk fd_mem]. rewrite len_app.
  assert (P0 : 0 <= len fed /\ 0 <= len (fd_chunk f)) by (unfold len; lia).
  split; [|split; [exact H4|split; [exact H5|split]]].
  - intros HL HD. destruct (Z.ltb_spec (len fed) L); [|lia]. destruct (Z.ltb_spec (len fed / n) ((len fed + len (fd_chunk f)) / n)); [|lia].
    destruct (Z.leb_spec n (len fed)) as [Hn|Hn]; cbn [andb]; [exact HM|].
    assert (Hn' : n <= len fed + len (fd_chunk f)).
    { destruct (Z.le_gt_cases n (len fed + len (fd_chunk f))) as [?|Hlt]; [assumption|]. rewrite !Z.div_small in HD by lia. lia. }
    destruct (H1 (conj Hn Hn')) as (A1 & A2 & _). unfold part in A1, A2. rewrite Z.add_0_r in A1.
    replace PK with (slice PK 0 n ++ slice PK n n).
    + apply holds_join; [exact A1|]. change (len (slice PK 0 n)) with (zlen (slice PK 0 n)). rewrite slice_zlen by (change (@zlen Z) with len; lia). exact A2.
    + unfold slice. change (Z.to_nat 0) with 0%nat. cbn [skipn]. rewrite (firstn_all2 (skipn (Z.to_nat n) PK)); [apply firstn_skipn|].
      rewrite skipn_length. unfold len in LP. lia.
  - intros Hn. destruct (Z.leb_spec n (len fed)); [lia|]. cbn [andb]. apply H1, Hn.
  - rewrite <- len_app. apply IH. rewrite len_app. exact H6.
Qed.

(** One call *)
Lemma update_parts pk PK msg l M M1 fed chunk m c c' r :
  is_bytes PK -> len PK = 2 * n -> RVer cfg p pk PK msg l M fed true c -> n <= len fed < L ->
  (L <= len fed + len chunk -> part m pk PK n n) -> (seed_kept cfg p = false -> part m pk PK 0 n) ->
  ts_update_verify cfg (mem_of pk PK) chunk (zlen chunk) c = Ok (b2z r, c') ->
  (len fed + len chunk < L -> r = true) -> RVer cfg p pk PK msg l M1 (fed ++ chunk) r c' ->
  ts_update_verify cfg m chunk (zlen chunk) c = Ok (b2z r, c').
Proof using.
  intros BP LP HR Hfed Hroot Hseed E Hr HR'. pose proof n_range as Nb. pose proof (mem_of_holds pk PK BP) as HM.
  assert (HS : seed_kept cfg p = false -> load m pk n = load (mem_of pk PK) pk n).
  { intros Hk. replace pk with (pk + 0) at 1 3 by lia. rewrite (part_load _ _ _ _ _ (Hseed Hk)) by lia. symmetry. apply load_slice; [exact HM|lia|lia|lia]. }
  destruct (v_update cfg m (mem_of pk PK) (the_ps cfg p) pk (fun i c0 => f_same cfg p m _ pk HS i c0) (fun it c0 => init_same cfg p m _ pk HS it c0)
    chunk (zlen chunk) c (RVer_past _ _ _ _ _ _ _ HR Hfed)) as [V1 V2].
  destruct (Z.le_gt_cases L (len fed + len chunk)) as [Hge|Hlt].
  - rewrite V1; [exact E|]. unfold root_same. rewrite n_of. rewrite (part_load _ _ _ _ _ (Hroot Hge)) by lia.
    symmetry. apply load_slice; [exact HM|lia|lia|lia].
  - apply V2; [exact E|]. destruct (ver_state _ _ _ _ _ _ _ _ _ _ HR') as [_ V]. apply V; [apply Hr, Hlt|]. rewrite len_app. exact Hlt.
Qed.

Lemma parts_calls pk PK msg M fs : is_bytes PK -> len PK = 2 * n -> forall M0 fed ok c os a,
  feeds_parts cfg p pk PK msg M (len fed) fs -> RVer cfg p pk PK msg (len M) M0 fed ok c ->
  steps (platform_of cfg) (Verifying p pk PK msg (len M) M0 fed ok) (feed_calls (honest pk PK (len fed) fs)) os a ->
  exists c', calls cfg (feed_calls fs) c = Ok (os, c') /\ Rel cfg a c'.
Proof using.
  intros BP LP. pose proof n_range as Nb.
  induction fs as [|f fs IH]; intros M0 fed ok c os a HP HR HS.
  - inversion HS; subst. exists c. split; [reflexivity|exact HR].
  - cbn [feeds_parts] in HP. destruct HP as (H1 & H2 & H3 & H4 & H5 & H6).
    cbn [honest feed_calls map fd_mem fd_chunk] in HS. fold (feed_calls (honest pk PK (len fed + len (fd_chunk f)) fs)) in HS.
    inversion HS as [|? ? ? o a1 ? os' ? St Ss]; subst.
    destruct (simulation cfg _ c _ _ _ _ St HR) as (c1 & EC & HR1).
    assert (EC' : call cfg (fd_mem f) (UpdateVerify (fd_chunk f)) c = Ok (o, c1) /\
      exists M1 fed1 ok1, a1 = Verifying p pk PK msg (len M) M1 fed1 ok1 /\ (ok1 = true -> fed1 = fed ++ fd_chunk f) /\ (ok1 = false -> o = Updated 0)).
    { inversion St; subst.
      - split; [|eexists _, _, _; split; [reflexivity|split; [reflexivity|]]; intros Hr; fold r; rewrite Hr; reflexivity].
        destruct (Z.leb_spec n (len fed)) as [Hn|Hn]; cbn [andb] in EC; [|exact EC].
        destruct (Z.ltb_spec (len fed) L) as [HL|HL]; cbn [andb] in EC; [|exact EC].
        destruct (Z.ltb_spec (len fed / n) ((len fed + len (fd_chunk f)) / n)) as [HD|HD]; [|exact EC].
        cbn [call] in *.
        destruct (ts_update_verify cfg (mem_of pk PK) (fd_chunk f) (zlen (fd_chunk f)) c) as [[z c2]|u] eqn:EU; cbn [bind] in EC; [|discriminate EC].
        assert (z = b2z r /\ c2 = c1) as [-> ->] by (split; congruence).
        assert (EU' : ts_update_verify cfg (fd_mem f) (fd_chunk f) (zlen (fd_chunk f)) c = Ok (b2z r, c1)).
        { apply (update_parts pk PK msg (len M) M0 M' fed (fd_chunk f) (fd_mem f) c c1 r BP LP HR (conj Hn HL)); [| |exact EU| |exact HR1].
          - intros HL'. apply H2. lia.
          - apply H3; assumption.
          - intros HL'. unfold r, update_result. rewrite len_app. destruct (Z.ltb_spec (len fed + len (fd_chunk f)) L); [reflexivity|lia]. }
        rewrite EU'. reflexivity.
      - split; [|eexists _, _, _; split; [reflexivity|split; [discriminate|reflexivity]]].
        assert (N : forall m, call cfg m (UpdateVerify (fd_chunk f)) c = Ok (Updated 0, c)).
        { intros m. cbn [call]. destruct HR as (_ & _ & _ & _ & E & _ & _ & _ & Hst). unfold ts_update_verify. rewrite Hst. reflexivity. }
        rewrite N in EC. rewrite N. exact EC. }
    destruct EC' as (EC' & M1 & fed1 & ok1 & -> & F1 & F2). cbn [Rel] in HR1.
    assert (Y : exists c', calls cfg (feed_calls fs) c1 = Ok (os', c') /\ Rel cfg a c').
    { destruct ok1.
      - rewrite (F1 eq_refl) in *. apply (IH M1 (fed ++ fd_chunk f) true c1 os' a); rewrite ?len_app; assumption.
      - assert (N : forall gs os, steps (platform_of cfg) (Verifying p pk PK msg (len M) M1 fed1 false) (feed_calls gs) os a ->
           a = Verifying p pk PK msg (len M) M1 fed1 false /\ os = map (fun _ => Updated 0) gs).
        { induction gs as [|g gs IHg]; intros os2 S2; [inversion S2; subst; split; reflexivity|]. cbn [feed_calls map] in S2. fold (feed_calls gs) in S2.
          inversion S2 as [|? ? ? ? ? ? ? ? St2 Ss2]; subst. inversion St2; subst. destruct (IHg _ Ss2) as [-> ->]. split; reflexivity. }
        destruct (N _ _ Ss) as [-> ->]. exists c1. split; [|exact HR1]. clear - HR1.
        assert (Ln : forall k, map (fun _ => Updated 0) (honest pk PK k fs) = map (fun _ => Updated 0) fs).
        { induction fs as [|g gs IHg]; intros k; [reflexivity|]. cbn [honest map]. rewrite IHg. reflexivity. }
        rewrite Ln. clear Ln. destruct HR1 as (_ & _ & _ & _ & E & _ & _ & _ & Hst).
        induction fs as [|g gs IHg]; [reflexivity|]. cbn [feed_calls map calls call]. unfold ts_update_verify at 1. rewrite Hst. cbn [orb].
        replace (ts_verify_fail <=? ts_verify_fail) with true by reflexivity. rewrite Bool.orb_true_r. cbn [bind]. fold (feed_calls gs).
        rewrite IHg. reflexivity. }
    destruct Y as (c' & EY & HA). exists c'. split; [|exact HA]. cbn [feed_calls map calls]. fold (feed_calls fs). rewrite EC'. cbn [bind]. rewrite EY. reflexivity.
Qed.
End S.
