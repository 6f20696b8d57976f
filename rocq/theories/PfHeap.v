(** * Lemmas for C54: the calls in one address space *)
From Verif Require Import Arr SpecSLH SpecMap SpecApi SpecHeap ModelParams ModelCtx ModelHash ModelSphincs ModelVerify ModelKeygen ModelApi ModelHeap.
From Verif Require Import PfEnv PfGlue PfCtx PfPaths PfAdr PfSpec PfSign PfApi PfKeygen.
Ltac Zify.zify_post_hook ::= idtac.

Definition same (m1 m2 : memory) : Prop := forall x, m1 x = m2 x.
Lemma same_refl m : same m m. Proof. intros x. reflexivity. Qed.
Lemma same_sym m1 m2 : same m1 m2 -> same m2 m1. Proof. intros H x. symmetry. apply H. Qed.
Lemma same_trans m1 m2 m3 : same m1 m2 -> same m2 m3 -> same m1 m3. Proof. intros H1 H2 x. rewrite H1. apply H2. Qed.
Lemma holds_same m1 m2 a l : same m1 m2 -> holds m1 a l -> holds m2 a l.
Proof. intros S [H1 H2]. split; [exact H1|]. intros i Hi. rewrite <- S. apply H2, Hi. Qed.
Lemma mapped_same m1 m2 a k : same m1 m2 -> mapped m1 a k -> mapped m2 a k.
Proof. intros S H x Hx. rewrite <- S. apply H, Hx. Qed.
Lemma written_same m1 m2 a l : same m1 m2 -> same (written m1 a l) (written m2 a l).
Proof. intros S x. unfold written. destruct ((a <=? x) && (x <? a + len l)); [reflexivity|apply S]. Qed.
Lemma written_in m a l x : a <= x < a + len l -> written m a l x = Some (nth (Z.to_nat (x - a)) l 0).
Proof. intros H. unfold written. destruct (Z.leb_spec a x), (Z.ltb_spec x (a + len l)); try lia. reflexivity. Qed.
Lemma written_out m a l x : ~ (a <= x < a + len l) -> written m a l x = m x.
Proof. intros H. unfold written. destruct (Z.leb_spec a x), (Z.ltb_spec x (a + len l)); try lia; reflexivity. Qed.
Lemma written_nil m a : same (written m a []) m.
Proof. intros x. apply written_out. unfold len. cbn [length]. lia. Qed.
Lemma written_app m a l1 l2 : same (written (written m a l1) (a + len l1) l2) (written m a (l1 ++ l2)).
Proof.
  intros x. destruct (Z.le_gt_cases a x); [destruct (Z.lt_ge_cases x (a + len l1)); [|destruct (Z.lt_ge_cases x (a + len l1 + len l2))]|].
  - rewrite (written_out _ (a + len l1)) by lia. rewrite !written_in by (rewrite ?len_app; unfold len in *; lia). f_equal.
    rewrite app_nth1; [reflexivity|]. unfold len in *. lia.
  - rewrite !written_in by (rewrite ?len_app; unfold len in *; lia). f_equal.
    rewrite app_nth2 by (unfold len in *; lia). f_equal. unfold len. lia.
  - rewrite !written_out by (rewrite ?len_app; unfold len in *; lia). reflexivity.
  - rewrite !written_out by (rewrite ?len_app; unfold len in *; lia). reflexivity.
Qed.
Lemma mapped_written m a l b k : mapped m b k -> mapped (written m a l) b k.
Proof. intros H x Hx. unfold written. destruct ((a <=? x) && (x <? a + len l)); [discriminate|apply H, Hx]. Qed.
Lemma mapped_sub m a k b l : mapped m a k -> a <= b -> b + l <= a + k -> mapped m b l.
Proof. intros H H1 H2 x Hx. apply H. lia. Qed.
Lemma holds_written m a l b L : apart a (len l) b (len L) -> holds m b L -> holds (written m a l) b L.
Proof.
  intros A [H1 H2]. split; [exact H1|]. intros i Hi. rewrite written_out; [apply H2, Hi|].
  intros Hx. apply (A _ Hx). unfold len. lia.
Qed.
Lemma written_holds m a l : is_bytes l -> holds (written m a l) a l.
Proof.
  intros B. split; [exact B|]. intros i Hi. rewrite written_in by (unfold len; lia). do 2 f_equal. lia.
Qed.
Lemma apart_sym a k b l : apart a k b l -> apart b l a k.
Proof. intros H x H1 H2. exact (H x H2 H1). Qed.
Lemma apart_sub a k b l a' k' : apart a k b l -> a <= a' -> a' + k' <= a + k -> apart a' k' b l.
Proof. intros H H1 H2 x Hx Hy. apply (H x); [lia|exact Hy]. Qed.

Lemma store_ok l : forall m a, mapped m a (len l) -> exists m', store m a l = Ok m' /\ same m' (written m a l).
Proof.
  induction l as [|v l IH]; intros m a H.
  { exists m. split; [reflexivity|]. apply same_sym, written_nil. }
  cbn [store]. unfold store_byte.
  assert (Ha : m a <> None) by (apply H; unfold len; cbn [length]; lia).
  destruct (m a) as [u|] eqn:Eu; [clear Ha|congruence]. cbn [bind].
  set (m1 := fun x => if x =? a then Some v else m x).
  assert (S1 : same m1 (written m a [v])).
  { intros x. unfold m1. destruct (Z.eqb_spec x a) as [->|N].
    - rewrite written_in by (unfold len; cbn [length]; lia). rewrite Z.sub_diag. reflexivity.
    - rewrite written_out by (unfold len; cbn [length]; lia). reflexivity. }
  destruct (IH m1 (a + 1)) as (m' & E & S').
  { apply (mapped_same _ _ _ _ (same_sym _ _ S1)). apply mapped_written. apply (mapped_sub _ _ _ _ _ H); unfold len; cbn [length]; lia. }
  exists m'. split; [exact E|]. apply (same_trans _ _ _ S'). apply (same_trans _ (written (written m a [v]) (a + 1) l)); [apply written_same, S1|].
  exact (written_app m a [v] l).
Qed.
(** What a store does not touch *)
Lemma store_out l : forall m a m' x, store m a l = Ok m' -> ~ (a <= x < a + len l) -> m' x = m x.
Proof.
  induction l as [|v l IH]; intros m a m' x H Hx; cbn [store] in H; [congruence|].
  unfold store_byte in H. destruct (m a); [|discriminate]. cbn [bind] in H.
  rewrite (IH _ _ _ x H) by (unfold len in *; cbn [length] in Hx; lia).
  destruct (Z.eqb_spec x a) as [->|]; [|reflexivity]. exfalso. apply Hx. unfold len. cbn [length]. lia.
Qed.

Section S.
Variable cfg : config.
Local Notation pf := (platform_of cfg).

(** ** The loop of ts_sign *)
Lemma rs_step p sk SK rem c : RSign cfg p sk SK rem c ->
  let n := p_n (slh_of p) in let o := c_buffer_offset c in
  ps_n (c_ps c) = n /\ 16 <= n <= 32 /\ 0 <= o <= n /\ n - o <= len rem /\
  (forall r, 0 <= r <= n - o -> rd_range (c_buffer c) o r = Ok (firstn (Z.to_nat r) rem) /\
     RSign cfg p sk SK (skipn (Z.to_nat r) rem) (set_buffer_offset (o + r) c)) /\
  (forall z, n - o < Z.min z (len rem) -> computed (slh_of p) rem < Z.min z (len rem)) /\
  (o = n -> rem <> [] -> forall m, holds m sk SK ->
     exists c1, sign_switch cfg m c = Ok (Some c1) /\ RSign cfg p sk SK rem c1 /\ c_buffer_offset c1 = 0) /\
  (o = n -> rem = [] -> forall m, sign_switch cfg m c = Ok None).
Proof.
  intros (BK & LK & E & HE & md & T & lf & s & B & o & HT & HL & HR & ER) n o'.
  pose proof HE as (Ec & Ep & Epk & Es). destruct (KE_facts _ _ _ _ _ HE) as (En & EP & Nb).
  subst n. set (P := slh_of p) in *. set (n := p_n P) in *.
  pose proof (r_off _ _ _ _ _ _ _ _ _ HR) as Ho. unfold o'. clear o'. rewrite Ho.
  pose proof (r_rng _ _ _ _ _ _ _ _ _ HR) as Hrg. rewrite En in Hrg.
  pose proof (r_str _ _ _ _ _ _ _ _ _ HR) as [LB BB]. rewrite En in LB.
  pose proof (r_buf _ _ _ _ _ _ _ _ _ HR) as (t & Et). cbn [buf_of] in Et.
  assert (G : good E c) by apply HR.
  (* with a memory that holds the key *)
  assert (HM : holds (mem_of sk SK) sk SK) by (apply mem_of_holds; exact BK).
  assert (LD : forall m, holds m sk SK -> load m (e_pk E) (p_n (slh_of (e_p E))) = Ok (e_seed E)).
  { intros m Hm. rewrite Ep, Epk, Es. fold P. fold n. apply load_slice; [exact Hm|lia|lia|lia]. }
  assert (KS : forall m (Hm : holds m sk SK), sk_at (remem E m (LD m Hm)) (slice SK 0 n)).
  { intros m Hm. unfold sk_at. change (e_mem (remem E m (LD m Hm))) with m. change (e_pk (remem E m (LD m Hm))) with (e_pk E).
    change (e_n (remem E m (LD m Hm))) with (e_n E). rewrite Epk, En.
    replace (sk + 2 * n - 2 * n) with (sk + 0) by lia. split; [apply load_slice; [exact Hm|lia|lia|lia]|].
    unfold str_ok. change (e_n (remem E m (LD m Hm))) with (e_n E). rewrite En. split; [apply slice_zlen; [lia|lia|]; rewrite zlen_len; lia|apply slice_bytes, BK]. }
  set (E0 := remem E (mem_of sk SK) (LD _ HM)). pose proof (KS _ HM) as K0. fold E0 in K0.
  assert (Rg : rng E s) by apply HR.
  pose proof (out_zlen E0 (slice SK 0 n) K0 md T lf s Rg) as (OL & OB & ON).
  pose proof (out_FL0_zlen E0 (slice SK 0 n) K0 md T lf) as OT.
  pose proof (out_zlen E0 (slice SK 0 n) K0 md T lf (FL 0)) as OF. destruct OF as (OF & _ & _).
  { cbn [rng]. pose proof (k_bounds E0). lia. }
  rewrite OF in OT. clear OF.
  change (left_blocks E0) with (left_blocks E) in *. change (e_n E0) with (e_n E) in *. change (e_P E0) with (e_P E) in *. rewrite En, ?EP in *.
  change (out E0 (slice SK 0 n) md T lf s) with (out E (slice SK 0 n) md T lf s) in OL.
  change (rest E (slice SK 0 n) md T lf s B o) with (skipn (Z.to_nat o) B ++ out E (slice SK 0 n) md T lf s) in ER.
  assert (LR : len rem = (n - o) + left_blocks E s * n).
  { rewrite <- ER. rewrite len_app. change (len (out E (slice SK 0 n) md T lf s)) with (zlen (out E (slice SK 0 n) md T lf s)). rewrite OL. f_equal.
    clear - LB Hrg. unfold len, zlen in *. rewrite skipn_length. lia. }
  split; [rewrite (ps_n_c E c G); exact En|]. split; [exact Nb|]. split; [exact Hrg|]. split; [nia|].
  split; [|split; [|split]].
  - intros r Hr. unfold zlen in LB. split.
    + rewrite Et, <- ER. unfold rd_range. rewrite zlen_app. unfold zlen.
      destruct (Z.leb_spec 0 o), (Z.leb_spec 0 r), (Z.leb_spec (o + r) (Z.of_nat (length B) + Z.of_nat (length t))); try lia.
      cbn [andb]. f_equal. rewrite skipn_app_le by lia. rewrite !firstn_app_le by (rewrite skipn_length; lia). reflexivity.
    + split; [exact BK|]. split; [exact LK|]. exists E. split; [exact HE|]. exists md, T, lf, s, B, (o + r).
      split; [exact HT|]. split; [exact HL|]. split.
      * destruct HR as [HI _ _ _ _]. split; [|exists t; exact Et|split; [rewrite En; unfold zlen; lia|exact BB]|reflexivity|rewrite En; lia].
        destruct HI as (_ & Rg' & HI). split; [apply good_offset; [lia|exact G]|]. split; [exact Rg'|]. destruct s; exact HI.
      * rewrite <- ER. unfold rest. rewrite skipn_app_le by (rewrite skipn_length; lia). rewrite skipn_skipn'. do 2 f_equal. lia.
  - intros z Hz. destruct (sst_eq_DN s) as [->|Ns].
    { cbn [left_blocks] in LR. lia. }
    specialize (ON Ns). assert (n - o + n <= len rem) by nia.
    assert (computed P rem <= n - o).
    { unfold computed. change (p_n P) with n. destruct (Z.eqb_spec (len rem) (slh_sig_length P)) as [Eq|Nq].
      - assert (left_blocks E s * n <= left_blocks E (FL 0) * n) by nia. lia.
      - rewrite LR. rewrite Z.add_mod, Z.mod_mul, Z.add_0_r, Z.mod_mod by lia.
        destruct (Z.eq_dec o 0) as [->|]; [rewrite Z.sub_0_r, Z.mod_same by lia; lia|]. rewrite Z.mod_small by lia. lia. }
    lia.
  - intros -> Nr m Hm.
    assert (Ns : s <> DN).
    { intros ->. apply Nr. rewrite <- ER. cbn [out]. rewrite app_nil_r. apply skipn_all2. unfold zlen in LB. lia. }
    pose proof (at_run_remem E m (LD m Hm) _ _ _ _ _ _ _ _ HR) as HR'. set (E' := remem E m (LD m Hm)) in *.
    pose proof (KS m Hm) as K'. fold E' in K'.
    assert (HL' : 0 <= lf < 2 ^ p_h' (e_P E')) by (change (e_P E') with (e_P E); rewrite EP; exact HL).
    destruct (switch_ok E' (slice SK 0 n) K' md T lf (proj1 HT) HL' s c Ns (r_inv _ _ _ _ _ _ _ _ _ HR')) as (c1 & SW & HI1 & Ho1 & HB1).
    change (e_cfg E') with (e_cfg E) in SW. change (e_mem E') with m in SW. rewrite Ec in SW.
    exists c1. split; [exact SW|]. split; [|exact Ho1].
    split; [exact BK|]. split; [exact LK|]. exists E'. split; [exact HE|].
    exists md, T, lf, (nxt E' s), (emit E' (slice SK 0 n) md T lf s), 0. split; [exact HT|]. split; [exact HL|]. split.
    + split; [exact HI1|exact HB1|apply emit_ok; [exact K'|exact Ns]|exact Ho1|change (e_n E') with (e_n E); rewrite En; lia].
    + rewrite <- ER. unfold rest. cbn [skipn Z.to_nat]. rewrite (skipn_all2 B) by (unfold zlen in LB; lia). cbn [app].
      symmetry. apply (out_nxt E' (slice SK 0 n) md T lf). exact Rg.
  - intros -> Er m. apply switch_done.
    destruct (sst_eq_DN s) as [->|Ns]; [destruct HR as [(_ & _ & HI) _ _ _ _]; apply HI|].
    exfalso. specialize (ON Ns). rewrite Er in LR. change (len []) with 0 in LR. nia.
Qed.

Lemma h_loop p sk SK fuel : forall m dest want rem c, RSign cfg p sk SK rem c ->
  0 <= want < 2 ^ 32 ->
  let n := p_n (slh_of p) in let o := c_buffer_offset c in
  2 * want + (if o =? n then 1 else 0) < Z.of_nat fuel ->
  let k := Z.min want (len rem) in
  mapped m dest k ->
  (n - o < k -> holds m sk SK /\ apart dest k sk (len SK)) ->
  exists m' c', h_sign_loop cfg fuel m dest want c = Ok (want - k, m', c') /\
    same m' (written m dest (firstn (Z.to_nat k) rem)) /\ RSign cfg p sk SK (skipn (Z.to_nat k) rem) c'.
Proof.
  induction fuel as [|fuel IH]; intros m dest want rem c HR Hw n o Hfu k Hmap Hkey; [destruct (o =? n); lia|].
  pose proof (rs_step p sk SK rem c HR) as X. cbv zeta in X. fold n o in X.
  destruct X as (Eps & Nb & Ho & Hlen & Hcopy & _ & Hsw & Hend).
  assert (Lr : 0 <= len rem) by (unfold len; lia).
  cbn [h_sign_loop]. destruct (Z.eqb_spec want 0) as [Ew|Ew].
  { assert (Ek : k = 0) by (unfold k; lia). exists m, c. rewrite Ek, Ew. change (Z.to_nat 0) with 0%nat. cbn [firstn skipn].
    split; [reflexivity|]. split; [apply same_sym, written_nil|exact HR]. }
  rewrite Eps. fold o. unfold u32. rewrite Z.mod_small by lia.
  destruct (Z.ltb_spec 0 (n - o)) as [Hlt|Hge].
  - set (r := if want <? n - o then want else n - o).
    assert (Hr : 0 < r <= n - o /\ r <= want) by (unfold r; destruct (Z.ltb_spec want (n - o)); lia).
    destruct (Hcopy r ltac:(lia)) as [-> HR1]. cbn [bind].
    assert (Ls : len (firstn (Z.to_nat r) rem) = r) by (unfold len in *; rewrite firstn_length; lia).
    destruct (store_ok (firstn (Z.to_nat r) rem) m dest) as (m1 & -> & S1).
    { rewrite Ls. apply (mapped_sub _ _ _ _ _ Hmap); unfold k; lia. }
    cbn [bind]. assert (E8 : u8 (o + r) = o + r) by (unfold u8; apply Z.mod_small; lia). rewrite E8.
    assert (L1 : len (skipn (Z.to_nat r) rem) = len rem - r) by (unfold len in *; rewrite skipn_length; lia).
    assert (Ek : k = r + Z.min (want - r) (len rem - r)) by (unfold k; lia).
    set (k1 := Z.min (want - r) (len rem - r)) in *.
    destruct (IH m1 (dest + r) (want - r) (skipn (Z.to_nat r) rem) (set_buffer_offset (o + r) c) HR1) as (m' & c' & EQ & SM & HR').
    + lia.
    + change (c_buffer_offset (set_buffer_offset (o + r) c)) with (o + r). fold n. destruct (Z.eqb_spec o n), (Z.eqb_spec (o + r) n); lia.
    + rewrite L1. fold k1. apply (mapped_same _ _ _ _ (same_sym _ _ S1)). apply mapped_written. apply (mapped_sub _ _ _ _ _ Hmap); lia.
    + rewrite L1. fold k1. change (c_buffer_offset (set_buffer_offset (o + r) c)) with (o + r). fold n. intros Hk.
      destruct (Hkey ltac:(lia)) as [H1 H2]. split.
      * apply (holds_same _ _ _ _ (same_sym _ _ S1)). apply holds_written; [|exact H1]. rewrite Ls. apply (apart_sub _ _ _ _ _ _ H2); lia.
      * apply (apart_sub _ _ _ _ _ _ H2); lia.
    + rewrite L1 in *. fold k1 in EQ, SM, HR'. exists m', c'. rewrite EQ. split; [do 3 f_equal; lia|]. split.
      * apply (same_trans _ _ _ SM). apply (same_trans _ (written (written m dest (firstn (Z.to_nat r) rem)) (dest + len (firstn (Z.to_nat r) rem)) (firstn (Z.to_nat k1) (skipn (Z.to_nat r) rem)))).
        { rewrite Ls. apply written_same, S1. }
        apply (same_trans _ _ _ (written_app m dest _ _)).
        replace (firstn (Z.to_nat k) rem) with (firstn (Z.to_nat r) rem ++ firstn (Z.to_nat k1) (skipn (Z.to_nat r) rem)); [apply same_refl|].
        rewrite Ek, Z2Nat.inj_add by lia. symmetry. rewrite <- (firstn_skipn (Z.to_nat r) rem) at 1. rewrite firstn_app.
        assert (Lf : length (firstn (Z.to_nat r) rem) = Z.to_nat r) by (unfold len in Ls; lia). rewrite Lf.
        rewrite firstn_all2 by lia. f_equal. f_equal. lia.
      * rewrite skipn_skipn' in HR'. replace (Z.to_nat k) with (Z.to_nat r + Z.to_nat k1)%nat by lia. exact HR'.
  - assert (Eo : o = n) by lia. rewrite Eo, Z.eqb_refl in Hfu.
    destruct rem as [|b rem0].
    + rewrite (Hend Eo eq_refl m). cbn [bind]. assert (Ek : k = 0) by (unfold k; change (len []) with 0; lia).
      exists m, c. rewrite Ek. change (Z.to_nat 0) with 0%nat. cbn [firstn skipn]. split; [do 3 f_equal; lia|]. split; [apply same_sym, written_nil|exact HR].
    + assert (Hk : 0 < k) by (unfold k, len; cbn [length]; lia).
      destruct (Hkey ltac:(lia)) as [HK HA].
      destruct (Hsw Eo ltac:(discriminate) m HK) as (c1 & -> & HR1 & Ho1). cbn [bind].
      destruct (IH m dest want (b :: rem0) c1 HR1 Hw) as (m' & c' & EQ & SM & HR').
      * rewrite Ho1. fold n. destruct (Z.eqb_spec 0 n); lia.
      * exact Hmap.
      * intros _. split; assumption.
      * exists m', c'. auto.
Qed.

Lemma h_sign_ok p sk SK rem c m dest sz : RSign cfg p sk SK rem c -> 0 <= sz < 2 ^ 32 ->
  let k := Z.min sz (len rem) in
  mapped m dest k -> (computed (slh_of p) rem < k -> holds m sk SK /\ apart dest k sk (len SK)) ->
  exists m' c', h_ts_sign cfg m dest sz c = Ok (k, m', c') /\
    same m' (written m dest (firstn (Z.to_nat k) rem)) /\ RSign cfg p sk SK (skipn (Z.to_nat k) rem) c'.
Proof.
  intros HR Hz k Hm Hk. unfold h_ts_sign. pose proof (sign_state cfg _ _ _ _ _ HR) as Hs.
  destruct (Z.leb_spec (c_state c) ts_sign_state), (Z.leb_spec ts_verify_state (c_state c)); try lia. cbn [orb].
  pose proof (rs_step p sk SK rem c HR) as X. cbv zeta in X. destruct X as (_ & _ & _ & _ & _ & Hc & _).
  destruct (h_loop p sk SK (2 * Z.to_nat sz + 2) m dest sz rem c HR Hz) as (m' & c' & -> & SM & HR').
  - destruct (c_buffer_offset c =? p_n (slh_of p)); lia.
  - exact Hm.
  - intros Hlt. apply Hk. apply Hc. exact Hlt.
  - cbn [bind]. exists m', c'. split; [|split; [exact SM|exact HR']].
    fold k. do 3 f_equal. unfold u32. rewrite Z.mod_small; [lia|]. unfold k, len. lia.
Qed.

(** ** Key generation *)
Section GenKey.
Variable p : ps_name.
Hypothesis on : ps_enabled cfg p = true.
Local Notation P := (slh_of p). Local Notation n := (p_n (slh_of p)).

Lemma gen_root_held m sk d : holds m sk d -> len d = 3 * n ->
  let root := slh_root P (slice d (2 * n) n) (slice d 0 n) in
  gen_root cfg m sk (the_ps cfg p) = Ok root /\ len root = n /\ is_bytes root.
Proof using on.
  intros H L root. assert (Nb : 16 <= n <= 32) by (destruct p; cbn; lia).
  assert (B : is_bytes d) by apply H.
  destruct (KE_build cfg p (sk + 2 * n) (slice d (2 * n) n) m on) as (E & HE & Em).
  { apply load_slice; [exact H|lia|lia|lia]. } { apply slice_bytes, B. }
  pose proof HE as (Ec & Ep & Epk & Es). destruct (KE_facts _ _ _ _ _ HE) as (En & EP & _).
  assert (Hsk : sk_at E (slice d 0 n)).
  { unfold sk_at. rewrite Em, Epk, En. replace (sk + 2 * n - 2 * n) with (sk + 0) by lia. split; [apply load_slice; [exact H|lia|lia|lia]|].
    unfold str_ok. rewrite En. split; [apply slice_zlen; [lia|lia|]; change (@zlen Z) with len; lia|apply slice_bytes, B]. }
  pose proof (gen_root_ok E _ Hsk) as X. unfold e_ps in X. rewrite Ec, Em, Epk, En, EP, Es, Ep in X.
  replace (sk + 2 * n - 2 * n) with sk in X by lia. split; [exact X|].
  destruct (xmss_node_ok E (slice d 0 n) (setLayerAddress (p_d P - 1) zero_ADRS) (Z.to_nat (p_h' P)) Hsk 0) as [L1 B1].
  rewrite EP, Es in L1, B1. rewrite En in L1. split; [exact L1|exact B1].
Qed.

Lemma h_gen_key_ok m sk pk f SK PK : random_ok (Some f) (3 * n) -> fst (f (3 * n)) <> 0 ->
  (let d := snd (f (3 * n)) in slh_keygen_internal P (slice d 0 n) (slice d n n) (slice d (2 * n) n) = (SK, PK)) ->
  mapped m sk (4 * n) ->
  match pk with None => True | Some pk => mapped m pk (2 * n) /\ apart pk (2 * n) sk (4 * n) end ->
  exists m', h_ts_gen_key cfg m (Some sk) pk (Some (the_ps cfg p)) (Some f) = Ok (1, m') /\
    same m' (match pk with None => written m sk SK | Some pk => written (written m sk SK) pk PK end).
Proof using on.
  intros HF Hr HK Hm Hpk. assert (Nb : 16 <= n <= 32) by (destruct p; cbn; lia).
  assert (En : ps_n (the_ps cfg p) = n) by (destruct p; reflexivity).
  unfold h_ts_gen_key. rewrite En. cbn [random_ok] in HF. destruct (f (3 * n)) as [ret d]. cbn [fst snd] in *. cbv zeta in HK.
  destruct HF as (Bd & _ & Ld). specialize (Ld Hr).
  destruct (store_ok d m sk) as (m1 & -> & S1); [apply (mapped_sub _ _ _ _ _ Hm); lia|]. cbn [bind].
  destruct (Z.eqb_spec ret 0) as [|Hne]; [contradiction|].
  assert (H1 : holds m1 sk d) by (apply (holds_same _ _ _ _ (same_sym _ _ S1)), written_holds, Bd).
  destruct (gen_root_held m1 sk d H1 Ld) as (-> & LR & BR). cbn [bind].
  set (root := slh_root P (slice d (2 * n) n) (slice d 0 n)) in *.
  replace (CONVERT_PUBLIC_KEY_TO_ROOT (CONVERT_PRIVATE_KEY_TO_PUBLIC sk n) n) with (sk + 3 * n) by (unfold CONVERT_PUBLIC_KEY_TO_ROOT, CONVERT_PRIVATE_KEY_TO_PUBLIC; lia).
  replace (CONVERT_PRIVATE_KEY_TO_PUBLIC sk n) with (sk + 2 * n) by (unfold CONVERT_PRIVATE_KEY_TO_PUBLIC; lia).
  destruct (store_ok root m1 (sk + 3 * n)) as (m2 & -> & S2).
  { apply (mapped_same _ _ _ _ (same_sym _ _ S1)). apply mapped_written. apply (mapped_sub _ _ _ _ _ Hm); lia. }
  cbn [bind].
  assert (ES : d = slice d 0 n ++ slice d n n ++ slice d (2 * n) n).
  { unfold slice. rewrite <- (firstn_skipn (Z.to_nat n) d) at 1. f_equal.
    rewrite <- (firstn_skipn (Z.to_nat n) (skipn (Z.to_nat n) d)) at 1. f_equal. rewrite skipn_skipn'.
    replace (Z.to_nat n + Z.to_nat n)%nat with (Z.to_nat (2 * n)) by lia. symmetry. apply firstn_all2. rewrite skipn_length. unfold len in *. lia. }
  unfold slh_keygen_internal in HK. fold root in HK.
  assert (EK : SK = d ++ root /\ PK = slice d (2 * n) n ++ root).
  { split; [|congruence]. rewrite ES at 1. rewrite <- !app_assoc. congruence. }
  destruct EK as [-> ->].
  assert (S2' : same m2 (written m sk (d ++ root))).
  { apply (same_trans _ _ _ S2). apply (same_trans _ (written (written m sk d) (sk + len d) root)); [rewrite Ld; apply written_same, S1|]. apply written_app. }
  destruct pk as [pk|]; [|exists m2; split; [reflexivity|exact S2']].
  destruct Hpk as [Hpm Hpa]. unfold h_memcpy.
  destruct (Z.ltb_spec pk (sk + 2 * n + 2 * n)); cbn [andb]; [destruct (Z.ltb_spec (sk + 2 * n) (pk + 2 * n))|].
  { exfalso. apply (Hpa (Z.max pk (sk + 2 * n))); lia. }
  all: assert (HS : holds m2 sk (d ++ root)) by (apply (holds_same _ _ _ _ (same_sym _ _ S2')), written_holds; apply PfIter.bytes_app; [exact Bd|exact BR]).
  all: rewrite (load_slice m2 sk (d ++ root) (2 * n) (2 * n) HS) by (rewrite ?len_app; lia); cbn [bind].
  all: assert (EP : slice (d ++ root) (2 * n) (2 * n) = slice d (2 * n) n ++ root) by
    (unfold slice; rewrite skipn_app; replace (Z.to_nat (2 * n) - length d)%nat with 0%nat by (unfold len in Ld; lia); cbn [skipn];
     rewrite firstn_app, firstn_all2 by (rewrite skipn_length; unfold len in Ld; lia);
     rewrite (firstn_all2 root) by (rewrite skipn_length; unfold len in *; lia);
     f_equal; symmetry; apply firstn_all2; rewrite skipn_length; unfold len in Ld; lia).
  all: rewrite EP; set (PK := slice d (2 * n) n ++ root) in *.
  all: assert (LP : len PK = 2 * n) by (unfold PK; rewrite len_app; unfold slice, len in *; rewrite firstn_length, skipn_length; lia).
  all: destruct (store_ok PK m2 pk) as (m3 & -> & S3);
    [rewrite LP; apply (mapped_same _ _ _ _ (same_sym _ _ S2')); apply mapped_written; exact Hpm|].
  all: cbn [bind]; exists m3; split; [reflexivity|]; apply (same_trans _ _ _ S3); apply written_same, S2'.
Qed.
Lemma h_gen_key_fails m sk pk f : random_ok (Some f) (3 * n) -> fst (f (3 * n)) = 0 -> mapped m sk (4 * n) ->
  exists m', h_ts_gen_key cfg m (Some sk) pk (Some (the_ps cfg p)) (Some f) = Ok (0, m') /\ same m' (written m sk (snd (f (3 * n)))).
Proof using.
  clear on. intros HF Hr Hm. assert (Nb : 16 <= n <= 32) by (destruct p; cbn; lia).
  assert (En : ps_n (the_ps cfg p) = n) by (destruct p; reflexivity).
  unfold h_ts_gen_key. rewrite En. cbn [random_ok] in HF. destruct (f (3 * n)) as [ret d]. cbn [fst snd] in *. subst ret. destruct HF as (_ & Ld & _).
  destruct (store_ok d m sk) as (m1 & -> & S1); [apply (mapped_sub _ _ _ _ _ Hm); lia|]. cbn [bind]. exists m1. split; [reflexivity|exact S1].
Qed.
End GenKey.

(** ** Every history *)
Lemma step_same a m1 m2 act o a' : same m1 m2 -> step pf a m1 act o a' -> step pf a m2 act o a'.
Proof.
  intros S H. destruct H; try (econstructor; fail).
  - econstructor; eauto using holds_same.
  - subst k. apply (s_sign pf m2 p sk SK rem dest sz); [|assumption|assumption]. eauto using holds_same.
  - econstructor; eauto using holds_same.
  - subst r. apply (s_update pf m2 p pk PK msg l M M' fed chunk); [eauto using holds_same|assumption|assumption|].
    unfold message_read in *. destruct ((len fed <? p_n (slh_of p)) && (p_n (slh_of p) <=? len (fed ++ chunk))); [|assumption].
    destruct H2 as [H2 H3]. split; [exact (holds_same _ _ _ _ S H2)|exact H3].
Qed.
Lemma Rel_set w cw i a c : (forall j, Rel cfg (w j) (cw j)) -> Rel cfg a c -> forall j, Rel cfg (set i a w j) (set i c cw j).
Proof. intros H HA j. unfold set. destruct (Nat.eqb j i); [exact HA|apply H]. Qed.

Lemma holds_load' m a l : holds m a l -> load m a (len l) = Ok l.
Proof.
  intros H. pose proof (load_slice m a l 0 (len l) H ltac:(lia) ltac:(unfold len; lia) ltac:(lia)) as X.
  rewrite Z.add_0_r in X. rewrite X. f_equal. unfold slice. cbn [skipn Z.to_nat]. apply firstn_all2. unfold len. lia.
Qed.

Theorem h_simulation m w c r m' w' : hstep pf m w c r m' w' -> forall mm cw, same mm m -> (forall i, Rel cfg (w i) (cw i)) ->
  exists mm' cw', h_call cfg c mm cw = Ok (r, mm', cw') /\ same mm' m' /\ forall i, Rel cfg (w' i) (cw' i).
Proof.
  intros H mm cw SM HR. pose proof (same_sym _ _ SM) as SM'.
  destruct H as [m w sk pk p f SK PK n d HK on HF Hr Hm Hpk|m w sk pk p f n HF Hr Hm|m w sk pk p f Hn|m w i msg l p sk f a HS
    |m w i p sk SK rem dest sz Ew k Hz Hm Hkey|m w i p pk PK msg l M fed ok dest sz Ew|m w i msg l p pk a HS|m w i sig chunk r a Hc HS|m w i r a HS]; cbn [h_call].
  - destruct (h_gen_key_ok p on mm sk pk f SK PK HF Hr HK) as (m' & E & S').
    { exact (mapped_same _ _ _ _ SM' Hm). }
    { destruct pk as [pk|]; [|exact I]. destruct Hpk as [A1 A2]. split; [exact (mapped_same _ _ _ _ SM' A1)|exact A2]. }
    cbn [option_map]. rewrite E. cbn [bind]. exists m', cw. split; [reflexivity|]. split; [|exact HR].
    apply (same_trans _ _ _ S'). destruct pk as [pk|]; [apply written_same|]; apply written_same, SM.
  - destruct (h_gen_key_fails p mm sk pk f HF Hr) as (m' & E & S'); [exact (mapped_same _ _ _ _ SM' Hm)|].
    cbn [option_map]. rewrite E. cbn [bind]. exists m', cw. split; [reflexivity|]. split; [|exact HR].
    apply (same_trans _ _ _ S'). apply written_same, SM.
  - exists mm, cw. split; [|split; [exact SM|exact HR]].
    unfold h_ts_gen_key. destruct f as [f|], sk as [sk|], p as [p|]; cbn [option_map]; try reflexivity. destruct Hn as [Hn|[Hn|Hn]]; discriminate Hn.
  - destruct (simulation cfg _ (cw i) _ _ _ _ (step_same _ _ mm _ _ _ SM' HS) (HR i)) as (c' & E & HR'). cbn [call] in E.
    destruct (ts_init_sign cfg mm (cw i) msg l (the_ps cfg p) sk f) as [c1|] eqn:E1; [|discriminate E]. cbn [bind] in E |- *.
    assert (c1 = c') by congruence. subst c1. exists mm, (set i c' cw). split; [reflexivity|]. split; [exact SM|]. apply Rel_set; assumption.
  - pose proof (HR i) as HRi. rewrite Ew in HRi. cbn [Rel] in HRi.
    destruct (h_sign_ok p sk SK rem (cw i) mm dest sz HRi Hz) as (m' & c' & E & S' & HR').
    { exact (mapped_same _ _ _ _ SM' Hm). }
    { intros Hk. destruct (Hkey Hk) as [A1 A2]. split; [exact (holds_same _ _ _ _ SM' A1)|exact A2]. }
    rewrite E. cbn [bind]. exists m', (set i c' cw). split; [reflexivity|]. split.
    + apply (same_trans _ _ _ S'). apply written_same, SM.
    + apply Rel_set; [exact HR|exact HR'].
  - pose proof (s_sign_verifying pf mm p pk PK msg l M fed ok [] 0) as HS. rewrite <- Ew in HS.
    destruct (simulation cfg _ (cw i) _ _ _ _ HS (HR i)) as (c' & E & HR'). cbn [call] in E.
    unfold ts_sign in E. unfold h_ts_sign. destruct ((c_state (cw i) <=? ts_sign_state) || (ts_verify_state <=? c_state (cw i))) eqn:Eq.
    + cbn [bind] in *. exists mm, (set i (cw i) cw). split; [reflexivity|]. split; [exact SM|]. intros j. unfold set. destruct (Nat.eqb_spec j i) as [->|]; apply HR.
    + exfalso. pose proof (HR i) as HRi. rewrite Ew in HRi. cbn [Rel] in HRi. clear - HRi Eq.
      apply Bool.orb_false_iff in Eq. destruct Eq as [E1 E2]. apply Z.leb_gt in E1. apply Z.leb_gt in E2.
      pose proof (ver_state cfg _ _ _ _ _ _ _ _ _ HRi). lia.
  - destruct (simulation cfg _ (cw i) _ _ _ _ (step_same _ _ mm _ _ _ SM' HS) (HR i)) as (c' & E & HR'). cbn [call] in E.
    destruct (ts_init_verify cfg mm (cw i) msg l (the_ps cfg p) pk) as [c1|] eqn:E1; [|discriminate E]. cbn [bind] in E |- *.
    assert (c1 = c') by congruence. subst c1. exists mm, (set i c' cw). split; [reflexivity|]. split; [exact SM|]. apply Rel_set; assumption.
  - destruct (simulation cfg _ (cw i) _ _ _ _ (step_same _ _ mm _ _ _ SM' HS) (HR i)) as (c' & E & HR'). cbn [call] in E.
    unfold h_ts_update_verify. rewrite (holds_load' mm sig chunk (holds_same _ _ _ _ SM' Hc)). cbn [bind].
    change (zlen chunk) with (len chunk) in E.
    destruct (ts_update_verify cfg mm chunk (len chunk) (cw i)) as [[r1 c1]|] eqn:E1; [|discriminate E]. cbn [bind] in E |- *.
    assert (c1 = c' /\ r1 = r) by (split; congruence). destruct H as [-> ->].
    exists mm, (set i c' cw). split; [reflexivity|]. split; [exact SM|]. apply Rel_set; assumption.
  - destruct (simulation cfg _ (cw i) _ _ _ _ (step_same _ _ mm _ _ _ SM' HS) (HR i)) as (c' & E & HR'). cbn [call] in E.
    assert (c' = cw i /\ ts_verify (cw i) = r) by (split; congruence). destruct H as [-> ->].
    exists mm, cw. split; [reflexivity|]. split; [exact SM|]. intros j. unfold set. destruct (Nat.eqb_spec j i) as [->|]; [exact HR'|apply HR].
Qed.
Theorem h_simulation_steps m w h rs m' w' : hsteps pf m w h rs m' w' -> forall mm cw, same mm m -> (forall i, Rel cfg (w i) (cw i)) ->
  exists mm' cw', h_run cfg h mm cw = Ok (rs, mm', cw') /\ same mm' m' /\ forall i, Rel cfg (w' i) (cw' i).
Proof.
  induction 1 as [m w|m w c r m1 w1 h rs m2 w2 H1 H2 IH]; intros mm cw SM HR.
  { exists mm, cw. split; [reflexivity|]. split; assumption. }
  destruct (h_simulation _ _ _ _ _ _ H1 mm cw SM HR) as (mm1 & cw1 & E1 & S1 & HR1).
  destruct (IH mm1 cw1 S1 HR1) as (mm2 & cw2 & E2 & S2 & HR2).
  exists mm2, cw2. cbn [h_run]. rewrite E1. cbn [bind]. rewrite E2. cbn [bind]. split; [reflexivity|]. split; assumption.
Qed.

(** ** Nothing else is written, by any run that has a defined meaning *)
Lemma rd_range_len a o k l : rd_range a o k = Ok l -> len l = k.
Proof.
  unfold rd_range. destruct (Z.leb_spec 0 o); cbn [andb]; [|discriminate]. destruct (Z.leb_spec 0 k); cbn [andb]; [|discriminate].
  destruct (Z.leb_spec (o + k) (zlen a)); [|discriminate]. intros X.
  assert (El : l = firstn (Z.to_nat k) (skipn (Z.to_nat o) a)) by congruence. subst l. unfold len, zlen in *. rewrite firstn_length, skipn_length. lia.
Qed.
Lemma load_n_len m k : forall a l, load_n m a k = Ok l -> length l = k.
Proof.
  induction k as [|k IH]; intros a l H; cbn [load_n] in H; [assert (l = []) by congruence; subst; reflexivity|].
  destruct (m a); [|discriminate]. destruct (load_n m (a + 1) k) as [l1|] eqn:E1; cbn [bind] in H; [|discriminate].
  assert (l = z :: l1) by congruence. subst l. cbn [length]. f_equal. exact (IH _ _ E1).
Qed.
Lemma h_loop_frame fuel : forall m dest want c r m' c' x, h_sign_loop cfg fuel m dest want c = Ok (r, m', c') ->
  0 <= want -> ~ (dest <= x < dest + want) -> m' x = m x.
Proof.
  induction fuel as [|fuel IH]; intros m dest want c r m' c' x H Hw Hx; cbn [h_sign_loop] in H; [discriminate|].
  destruct (Z.eqb_spec want 0); [congruence|].
  destruct (Z.ltb_spec 0 (u32 (ps_n (c_ps c) - c_buffer_offset c))).
  - set (k := if want <? u32 (ps_n (c_ps c) - c_buffer_offset c) then want else u32 (ps_n (c_ps c) - c_buffer_offset c)) in *.
    assert (Hk : 0 < k <= want) by (unfold k; destruct (Z.ltb_spec want (u32 (ps_n (c_ps c) - c_buffer_offset c))); lia).
    destruct (rd_range (c_buffer c) (c_buffer_offset c) k) as [src|] eqn:ER; cbn [bind] in H; [|discriminate].
    pose proof (rd_range_len _ _ _ _ ER) as Ls.
    destruct (store m dest src) as [m1|] eqn:ES; cbn [bind] in H; [|discriminate].
    rewrite (IH _ _ _ _ _ _ _ x H) by lia. apply (store_out _ _ _ _ _ ES). lia.
  - destruct (sign_switch cfg m c) as [[c1|]|]; cbn [bind] in H; [exact (IH _ _ _ _ _ _ _ x H Hw Hx)|congruence|discriminate].
Qed.
Lemma gen_root_len m sk ps r : gen_root cfg m sk ps = Ok r -> len r = ps_n ps.
Proof.
  unfold gen_root. intros H.
  repeat match type of H with bind ?x _ = Ok _ => destruct x; cbn [bind] in H; [|discriminate H] end.
  exact (rd_range_len _ _ _ _ H).
Qed.
Theorem h_frame c m w r m' w' x : h_call cfg c m w = Ok (r, m', w') -> sane c -> ~ may_write c x -> m' x = m x.
Proof.
  destruct c as [sk pk p f|i msg l p sk f|i dest sz|i msg l p pk|i sig l|i]; cbn [h_call sane may_write]; intros H HF Hx.
  - unfold h_ts_gen_key in H. destruct f as [f|], sk as [sk|], p as [p|]; cbn [option_map bind] in H; try congruence.
    assert (En : ps_n (the_ps cfg p) = p_n (slh_of p)) by (destruct p; reflexivity). rewrite En in H. set (n := p_n (slh_of p)) in *.
    assert (Nb : 16 <= n <= 32) by (unfold n; destruct p; cbn; lia).
    assert (X1 : ~ (sk <= x < sk + 4 * n)) by (intros Y; apply Hx; left; exists sk; auto).
    assert (X2 : forall a, pk = Some a -> ~ (a <= x < a + 2 * n)) by (intros a -> Y; apply Hx; right; exists a; auto).
    destruct (f (3 * n)) as [ret d]. cbn [snd] in HF.
    destruct (store m sk d) as [m1|] eqn:E1; cbn [bind] in H; [|discriminate].
    assert (F1 : m1 x = m x) by (apply (store_out _ _ _ _ _ E1); lia).
    destruct (ret =? 0); cbn [bind] in H; [congruence|].
    destruct (gen_root cfg m1 sk (the_ps cfg p)) as [root|] eqn:EG; cbn [bind] in H; [|discriminate].
    apply gen_root_len in EG. rewrite En in EG. fold n in EG.
    destruct (store m1 _ root) as [m2|] eqn:E2 in H; cbn [bind] in H; [|discriminate].
    assert (F2 : m2 x = m1 x).
    { apply (store_out _ _ _ _ _ E2). unfold CONVERT_PUBLIC_KEY_TO_ROOT, CONVERT_PRIVATE_KEY_TO_PUBLIC. lia. }
    destruct pk as [pk|]; cbn [bind] in H; [|congruence]. specialize (X2 pk eq_refl).
    unfold h_memcpy in H. match type of H with context [if ?b then _ else _] => destruct b end; cbn [bind] in H; [discriminate|].
    unfold load in H. destruct (Z.leb_spec 0 (2 * n)); [|lia].
    destruct (load_n m2 _ _) as [l|] eqn:EL in H; cbn [bind] in H; [|discriminate]. apply load_n_len in EL.
    destruct (store m2 pk l) as [m3|] eqn:E3; cbn [bind] in H; [|discriminate].
    assert (F3 : m3 x = m2 x) by (apply (store_out _ _ _ _ _ E3); unfold len; lia). congruence.
  - destruct (ts_init_sign _ _ _ _ _ _ _ _); cbn [bind] in H; [congruence|discriminate].
  - unfold h_ts_sign in H. destruct ((c_state (w i) <=? ts_sign_state) || (ts_verify_state <=? c_state (w i))); cbn [bind] in H; [congruence|].
    destruct (h_sign_loop cfg (2 * Z.to_nat sz + 2) m dest sz (w i)) as [[[r1 m1] c1]|] eqn:E; cbn [bind] in H; [|discriminate].
    assert (m' = m1) by congruence. subst m'. exact (h_loop_frame _ _ _ _ _ _ _ _ x E HF Hx).
  - destruct (ts_init_verify _ _ _ _ _ _ _); cbn [bind] in H; [congruence|discriminate].
  - destruct (h_ts_update_verify _ _ _ _ _) as [[r1 c1]|]; cbn [bind] in H; [congruence|discriminate].
  - congruence.
Qed.
End S.
