(** * The model refines the abstract machine of SpecApi *)
From Verif Require Import Arr SpecSLH SpecApi ModelParams ModelCtx ModelHash ModelSphincs ModelVerify ModelApi SpecMap PfGlueSha PfIter PfEnv PfAdr PfGlue PfMsg PfCtx PfTree PfPaths PfBits PfWots PfSpec PfSign PfVerify.
Ltac Zify.zify_post_hook ::= idtac.

Lemma len_app (a b : list Z) : len (a ++ b) = len a + len b.
Proof. unfold len. rewrite app_length. lia. Qed.

(** ** Memory *)
Lemma holds_load_n m l : forall a, holds m a l -> load_n m a (length l) = Ok l.
Proof.
  induction l as [|b l IH]; intros a [B H]; [reflexivity|]. cbn [length load_n].
  pose proof (H 0%nat ltac:(cbn [length]; lia)) as H0. cbn [nth Z.of_nat] in H0. rewrite Z.add_0_r in H0. rewrite H0.
  rewrite IH; [reflexivity|]. split; [inversion B; assumption|]. intros i Hi.
  pose proof (H (S i) ltac:(cbn [length]; lia)) as H1. cbn [nth] in H1. rewrite <- H1. f_equal. lia.
Qed.
Lemma holds_load m a l : holds m a l -> load m a (len l) = Ok l.
Proof. intros H. unfold load, len. destruct (Z.leb_spec 0 (Z.of_nat (length l))); [|lia]. rewrite Nat2Z.id. apply holds_load_n, H. Qed.
Lemma holds_slice m a l o k : holds m a l -> 0 <= o -> 0 <= k -> o + k <= len l -> holds m (a + o) (slice l o k).
Proof.
  intros [B H] Ho Hk Hl. split; [apply slice_bytes, B|]. unfold slice, len in *. intros i Hi.
  rewrite firstn_length, skipn_length in Hi. rewrite nth_firstn by lia. rewrite nth_skipn.
  rewrite <- H by lia. f_equal. lia.
Qed.
Lemma load_slice m a l o k : holds m a l -> 0 <= o -> 0 <= k -> o + k <= len l -> load m (a + o) k = Ok (slice l o k).
Proof.
  intros H Ho Hk Hl. pose proof (holds_load _ _ _ (holds_slice m a l o k H Ho Hk Hl)) as X. rewrite <- X. f_equal.
  symmetry. apply slice_zlen; assumption.
Qed.
Lemma holds_inj m a l l' : holds m a l -> holds m a l' -> len l = len l' -> l = l'.
Proof. intros H H' L. apply holds_load in H, H'. rewrite L in H. congruence. Qed.

Lemma mem_of_holds a l : is_bytes l -> holds (mem_of a l) a l.
Proof.
  intros B. split; [exact B|]. intros i Hi. unfold mem_of, zlen.
  destruct (Z.leb_spec a (a + Z.of_nat i)); [|lia]. destruct (Z.ltb_spec (a + Z.of_nat i) (a + Z.of_nat (length l))); [|lia]. cbn [andb].
  replace (a + Z.of_nat i - a) with (Z.of_nat i) by lia. rewrite Nat2Z.id. apply nth_error_nth'. exact Hi.
Qed.

(** ** The same run seen with another memory that still holds the key *)
Definition remem (E : env) (m : memory) (H : load m (e_pk E) (p_n (slh_of (e_p E))) = Ok (e_seed E)) : env :=
  mkEnv (e_cfg E) m (e_p E) (e_pk E) (e_seed E) (e_on E) H (e_seed_bytes E).
Lemma good_remem E m H c : good E c -> good (remem E m H) c.
Proof. intros [w s k [a b]]. apply mkGood; [exact w|exact s|exact k|]. apply mkPre; [exact a|exact b]. Qed.
Lemma at_run_remem E m H sk md T l s B o c : at_run E sk md T l s B o c -> at_run (remem E m H) sk md T l s B o c.
Proof.
  intros [(G & R & HI) HB HS HO HR]. apply mkRun; [|exact HB|exact HS|exact HO|exact HR].
  split; [apply good_remem, G|]. split; [exact R|]. destruct s; exact HI.
Qed.
Lemma at_vrun_remem E m H SIG M root ma s o c : at_vrun E SIG M root ma s o c -> at_vrun (remem E m H) SIG M root ma s o c.
Proof.
  intros [(G & R & HI) HO HR HB]. apply mkVrun; [|exact HO|exact HR|exact HB].
  split; [apply good_remem, G|]. split; [exact R|]. destruct s; exact HI.
Qed.

(** ** Relation between contexts and abstract states *)
Section Rel.
Variable cfg : config.
Definition KE (p : ps_name) (pk : Z) (seed : list Z) (E : env) : Prop :=
  e_cfg E = cfg /\ e_p E = p /\ e_pk E = pk /\ e_seed E = seed.
Local Notation enabled := (platform_of cfg).

Lemma KE_build p pk seed m (on : ps_enabled cfg p = true) : load m pk (p_n (slh_of p)) = Ok seed -> is_bytes seed ->
  exists E, KE p pk seed E /\ e_mem E = m.
Proof. intros H B. exists (mkEnv cfg m p pk seed on H B). split; [split; [|split; [|split]]; reflexivity|reflexivity]. Qed.

Definition RSign (p : ps_name) (sk : Z) (SK rem : list Z) (c : ts_context) : Prop :=
  let n := p_n (slh_of p) in
  is_bytes SK /\ len SK = 4 * n /\
  exists E, KE p (sk + 2 * n) (slice SK (2 * n) n) E /\
  exists md T l s B o, (0 <= T < 2 ^ 64 /\ T < 2 ^ (p_h (slh_of p) - p_h' (slh_of p))) /\ 0 <= l < 2 ^ p_h' (slh_of p) /\
    at_run E (slice SK 0 n) md T l s B o c /\ rest E (slice SK 0 n) md T l s B o = rem.

Definition RVer (p : ps_name) (pk : Z) (PK : list Z) (ma l : Z) (M fed : list Z) (ok : bool) (c : ts_context) : Prop :=
  let P := slh_of p in let n := p_n P in let L := slh_sig_length P in
  is_bytes PK /\ len PK = 2 * n /\ is_bytes fed /\ 0 <= l < 2 ^ 60 /\
  exists E, KE p pk (slice PK 0 n) E /\ good E c /\
  (n <= len fed -> is_bytes M /\ len M = l) /\
  if ok then
    (len fed < L -> forall M0, (n <= len fed -> M0 = M) -> is_bytes M0 -> len M0 = l ->
       forall tail, is_bytes tail -> L <= len (fed ++ tail) ->
       exists s o, at_vrun E (fed ++ tail) M0 (slice PK n n) ma s o c /\ vtot E s o = len fed) /\
    (L <= len fed -> c_state c = ts_verify_success /\ c_buffer_offset c = len fed - L /\ len fed < L + n)
  else c_state c = ts_verify_fail.

Definition Rel (a : astate) (c : ts_context) : Prop :=
  match a with
  | Fresh => wf_ctx cfg c
  | Signing p sk SK rem => RSign p sk SK rem c
  | Verifying p pk PK ma l M fed ok => RVer p pk PK ma l M fed ok c
  end.

Lemma Rel_wf a c : Rel a c -> wf_ctx cfg c.
Proof.
  destruct a as [|p sk SK rem|p pk PK ma l M fed ok]; cbn [Rel].
  - auto.
  - intros (_ & _ & E & (<- & _) & md & T & lf & s & B & o & _ & _ & HR & _). apply (g_wf E), HR.
  - intros (_ & _ & _ & _ & E & (<- & _) & G & _). apply (g_wf E), G.
Qed.

Lemma random_rng f m : random_ok f m -> rng_ok f m.
Proof. destruct f as [f|]; cbn; [|auto]. destruct (f m). auto. Qed.

Lemma sim_init_sign a c m msg l p sk f SK M : Rel a c -> ps_enabled cfg p = true ->
  holds m sk SK -> len SK = 4 * p_n (slh_of p) -> holds m msg M -> len M = l -> l < 2 ^ 60 ->
  random_ok f (p_n (slh_of p)) ->
  exists c', ts_init_sign cfg m c msg l (the_ps cfg p) sk f = Ok c' /\
   RSign p sk SK (slh_sign_internal (slh_of p) M SK
         (randomness f (p_n (slh_of p)) (slice SK (2 * p_n (slh_of p)) (p_n (slh_of p))))) c'.
Proof.
  intros HRel on HK LK HM LM Hl Hf. pose proof (Rel_wf _ _ HRel) as W.
  set (P := slh_of p) in *. set (n := p_n P) in *.
  destruct (KE_build p (sk + 2 * n) (slice SK (2 * n) n) m on) as (E & HE & Em).
  { apply load_slice; [exact HK| | |]; fold P; fold n; assert (16 <= n <= 32) by (unfold n, P; destruct p; cbn; lia); lia. }
  { apply slice_bytes, HK. }
  pose proof HE as (Ec & Ep & Epk & Es).
  assert (En : e_n E = n) by (unfold e_n, e_P; rewrite Ep; reflexivity).
  assert (EP : e_P E = P) by (unfold e_P; rewrite Ep; reflexivity).
  pose proof (n_bounds E) as Nb. rewrite En in Nb.
  assert (Sl : forall o, 0 <= o -> o + n <= 4 * n -> load m (sk + o) n = Ok (slice SK o n) /\ str_ok E (slice SK o n)).
  { intros o H1 H2. split; [apply load_slice; [exact HK|lia|lia|lia]|]. split; [rewrite En; apply slice_zlen; [lia|lia|]; rewrite zlen_len; lia|apply slice_bytes, HK]. }
  assert (Hsk : sk_at E (slice SK 0 n)).
  { unfold sk_at. rewrite Em, Epk, En. replace (sk + 2 * n - 2 * n) with (sk + 0) by lia. apply Sl; lia. }
  assert (Hprf : prf_at E (slice SK n n)).
  { unfold prf_at. rewrite Em, Epk, En. replace (sk + 2 * n - n) with (sk + n) by lia. apply Sl; lia. }
  assert (Hroot : root_at E (slice SK (3 * n) n)).
  { unfold root_at. rewrite Em, Epk, En. replace (sk + 2 * n + n) with (sk + 3 * n) by lia. apply Sl; lia. }
  assert (Mok : msg_ok M) by (split; [apply HM|rewrite zlen_len; lia]).
  assert (Hld : load (e_mem E) msg (zlen M) = Ok M) by (rewrite Em, zlen_len; apply holds_load, HM).
  assert (W' : wf_ctx (e_cfg E) c) by (rewrite Ec; exact W).
  assert (Hf' : rng_ok f (e_n E)) by (rewrite En; apply random_rng, Hf).
  pose proof (init_sign_ok E c msg M _ _ _ f W' Hsk Hprf Hroot Hld Mok Hf') as X. cbv zeta in X.
  destruct X as (c' & HI & HR & HT & HL & SR).
  unfold e_ps in HI. rewrite Ec, Em, Ep, Epk, En in HI. replace (sk + 2 * n - 2 * n) with sk in HI by lia.
  rewrite zlen_len, LM in HI. exists c'. split; [exact HI|].
  split; [apply HK|]. split; [exact LK|]. exists E. split; [exact HE|]. fold P. fold n.
  eexists _, _, _, _, _, _. split; [split; [exact HT|]|].
  { unfold idx_tree_of. rewrite <- EP, (h_div E). apply Z.mod_pos_bound, pow2_pos. pose proof (h_sub E); lia. }
  split; [rewrite <- EP; exact HL|]. split; [exact HR|].
  rewrite En, Es in *.
  rewrite <- EP. rewrite <- (whole_sig E M SK); rewrite ?En, ?Es; [reflexivity|reflexivity|exact Hsk|exact SR].
Qed.

Lemma sim_sign p sk SK rem c m dest sz : RSign p sk SK rem c -> holds m sk SK -> 0 <= sz < 2 ^ 32 -> sz <= len dest ->
  let k := Z.min sz (len rem) in
  exists c', ts_sign cfg m dest sz c = Ok (k, firstn (Z.to_nat k) rem ++ skipn (Z.to_nat k) dest, c') /\
    RSign p sk SK (skipn (Z.to_nat k) rem) c'.
Proof.
  intros (BK & LK & E & HE & md & T & lf & s & B & o & [HT HTd] & HL & HR & ER) HK Hsz Hd k.
  set (P := slh_of p) in *. set (n := p_n P) in *.
  pose proof HE as (Ec & Ep & Epk & Es).
  assert (En : e_n E = n) by (unfold e_n, e_P; rewrite Ep; reflexivity).
  assert (EP : e_P E = P) by (unfold e_P; rewrite Ep; reflexivity).
  pose proof (n_bounds E) as Nb. rewrite En in Nb.
  assert (Hld : load m (e_pk E) (p_n (slh_of (e_p E))) = Ok (e_seed E)).
  { rewrite Ep, Epk, Es. fold P. fold n. apply load_slice; [exact HK|lia|lia|lia]. }
  set (E' := remem E m Hld).
  assert (Hsk : sk_at E' (slice SK 0 n)).
  { unfold sk_at. change (e_mem E') with m. change (e_pk E') with (e_pk E). change (e_n E') with (e_n E). rewrite Epk, En.
    replace (sk + 2 * n - 2 * n) with (sk + 0) by lia. split; [apply load_slice; [exact HK|lia|lia|lia]|].
    unfold str_ok. change (e_n E') with (e_n E). rewrite En. split; [apply slice_zlen; [lia|lia|]; rewrite zlen_len; lia|apply slice_bytes, HK]. }
  assert (HL' : 0 <= lf < 2 ^ p_h' (e_P E')) by (change (e_P E') with (e_P E); rewrite EP; exact HL).
  pose proof (sign_ok E' _ Hsk md T lf HT HL' dest sz s B o c (at_run_remem E m Hld _ _ _ _ _ _ _ _ HR) Hsz Hd) as X. cbv zeta in X.
  change (rest E' (slice SK 0 n) md T lf s B o) with (rest E (slice SK 0 n) md T lf s B o) in X. rewrite ER in X.
  rewrite zlen_len in X. fold k in X. change (e_cfg E') with (e_cfg E) in X. change (e_mem E') with m in X. rewrite Ec in X.
  destruct X as (dest' & c' & s' & B' & o' & -> & EW & HR' & ER').
  exists c'. split.
  - assert (Lk : 0 <= k <= len rem) by (unfold k, len; lia).
    assert (Lf : zlen (firstn (Z.to_nat k) rem) = k) by (clear - Lk; unfold zlen, len in *; rewrite firstn_length; lia).
    rewrite wr_range_0 in EW by (rewrite Lf, zlen_len; lia).
    assert (Ed : dest' = firstn (Z.to_nat k) rem ++ skipn (length (firstn (Z.to_nat k) rem)) dest) by congruence.
    assert (Lf' : length (firstn (Z.to_nat k) rem) = Z.to_nat k) by (clear - Lf Lk; unfold zlen in Lf; lia). rewrite Ed, Lf'. reflexivity.
  - split; [exact BK|]. split; [exact LK|]. exists E'. split; [exact HE|].
    exists md, T, lf, s', B', o'. split; [split; [exact HT|exact HTd]|]. split; [exact HL|]. split; [exact HR'|exact ER'].
Qed.

Lemma KE_facts p pk seed E : KE p pk seed E -> e_n E = p_n (slh_of p) /\ e_P E = slh_of p /\ 16 <= p_n (slh_of p) <= 32.
Proof.
  intros (Ec & Ep & Epk & Es). unfold e_n, e_P. rewrite Ep. split; [reflexivity|]. split; [reflexivity|]. destruct p; cbn; lia.
Qed.
(** A request for bytes that are there already, and one at the end, read no memory. *)
Lemma switch_done m c : c_state c = ts_done -> sign_switch cfg m c = Ok None.
Proof. intros H. unfold sign_switch. rewrite H. reflexivity. Qed.
Lemma sign_loop_mem m1 m2 fuel : forall dest pos sz c,
  0 <= sz -> 0 <= c_buffer_offset c <= ps_n (c_ps c) -> ps_n (c_ps c) < 256 ->
  sz <= ps_n (c_ps c) - c_buffer_offset c \/ c_state c = ts_done ->
  sign_loop cfg m1 fuel dest pos sz c = sign_loop cfg m2 fuel dest pos sz c.
Proof.
  induction fuel as [|fuel IH]; intros dest pos sz c Hz Ho Hn H; [reflexivity|]. cbn [sign_loop].
  destruct (Z.eqb_spec sz 0) as [|N0]; [reflexivity|].
  set (n0 := ps_n (c_ps c)) in *. set (o := c_buffer_offset c) in *.
  assert (Er : u32 (n0 - o) = n0 - o) by (unfold u32; apply Z.mod_small; lia). rewrite Er.
  destruct (Z.ltb_spec 0 (n0 - o)).
  - set (r := if sz <? n0 - o then sz else n0 - o). assert (Hr : 0 < r <= n0 - o /\ r <= sz /\ (sz <= n0 - o -> r = sz)) by (unfold r; destruct (Z.ltb_spec sz (n0 - o)); lia).
    destruct (rd_range (c_buffer c) o r); cbn [bind]; [|reflexivity]. destruct (wr_range dest pos a); cbn [bind]; [|reflexivity].
    assert (Eo : u8 (o + r) = o + r) by (unfold u8; apply Z.mod_small; lia).
    apply IH; change (c_ps (set_buffer_offset (u8 (o + r)) c)) with (c_ps c); change (c_buffer_offset (set_buffer_offset (u8 (o + r)) c)) with (u8 (o + r));
      change (c_state (set_buffer_offset (u8 (o + r)) c)) with (c_state c); fold n0; rewrite ?Eo; try lia.
  - destruct H as [H|H]; [lia|]. rewrite (switch_done m1 c H), (switch_done m2 c H). cbn [bind]. reflexivity.
Qed.
Lemma sim_sign' p sk SK rem c m dest sz : RSign p sk SK rem c ->
  (computed (slh_of p) rem < Z.min sz (len rem) -> holds m sk SK) -> 0 <= sz < 2 ^ 32 -> sz <= len dest ->
  let k := Z.min sz (len rem) in
  exists c', ts_sign cfg m dest sz c = Ok (k, firstn (Z.to_nat k) rem ++ skipn (Z.to_nat k) dest, c') /\
    RSign p sk SK (skipn (Z.to_nat k) rem) c'.
Proof.
  intros HRS HK Hsz Hd k. destruct (Z.lt_ge_cases (computed (slh_of p) rem) (Z.min sz (len rem))) as [Hlt|Hge].
  { apply sim_sign; auto. }
  assert (HM : holds (mem_of sk SK) sk SK) by (apply mem_of_holds; apply HRS).
  assert (X : ts_sign cfg m dest sz c = ts_sign cfg (mem_of sk SK) dest sz c); [|rewrite X; apply sim_sign; assumption].
  clear HK. destruct HRS as (BK & LK & E & HE & md & T & lf & s & B & o & [HT HTd] & HL & HR & ER).
  pose proof HE as (Ec & Ep & Epk & Es). destruct (KE_facts _ _ _ _ HE) as (En & EP & Nb).
  set (P := slh_of p) in *. set (n := p_n P) in *.
  assert (Hld : load (mem_of sk SK) (e_pk E) (p_n (slh_of (e_p E))) = Ok (e_seed E)).
  { rewrite Ep, Epk, Es. fold P. fold n. apply load_slice; [exact HM|lia|lia|lia]. }
  set (E' := remem E (mem_of sk SK) Hld).
  assert (Hsk : sk_at E' (slice SK 0 n)).
  { unfold sk_at. change (e_mem E') with (mem_of sk SK). change (e_pk E') with (e_pk E). change (e_n E') with (e_n E). rewrite Epk, En.
    replace (sk + 2 * n - 2 * n) with (sk + 0) by lia. split; [apply load_slice; [exact HM|lia|lia|lia]|].
    unfold str_ok. change (e_n E') with (e_n E). rewrite En. split; [apply slice_zlen; [lia|lia|]; rewrite zlen_len; lia|apply slice_bytes, BK]. }
  destruct HR as [(G & R & HI) HB [HS1 HS2] HO HRg].
  assert (Epsn : ps_n (c_ps c) = n) by (rewrite (ps_n_c E c G); exact En).
  rewrite En in HRg, HS1.
  assert (R' : rng E' s) by exact R.
  destruct (out_zlen E' (slice SK 0 n) Hsk md T lf s R') as (OL & OB & ON).
  pose proof (out_FL0_zlen E' (slice SK 0 n) Hsk md T lf) as OT.
  pose proof (out_zlen E' (slice SK 0 n) Hsk md T lf (FL 0)) as OF. destruct OF as (OF & _ & _).
  { cbn [rng]. pose proof (k_bounds E'). lia. }
  rewrite OF in OT. clear OF.
  change (left_blocks E') with (left_blocks E) in *. change (e_n E') with (e_n E) in *. change (e_P E') with (e_P E) in *. rewrite En, ?EP in *.
  change (out E' (slice SK 0 n) md T lf s) with (out E (slice SK 0 n) md T lf s) in OL.
  assert (LR : len rem = (n - o) + left_blocks E s * n).
  { rewrite <- ER. unfold rest. rewrite len_app. change (len (out E (slice SK 0 n) md T lf s)) with (zlen (out E (slice SK 0 n) md T lf s)). rewrite OL. f_equal. clear - HS1 HRg. unfold len, zlen in *. rewrite skipn_length. lia. }
  assert (Q : sz <= n - o \/ s = DN).
  { destruct (sst_eq_DN s) as [->|Ns]; [right; reflexivity|left]. specialize (ON Ns).
    assert (n - o + n <= len rem) by nia.
    assert (computed P rem <= n - o).
    { unfold computed. fold n. destruct (Z.eqb_spec (len rem) (slh_sig_length P)) as [Eq|Nq].
      - assert (left_blocks E s * n <= left_blocks E (FL 0) * n) by nia. lia.
      - rewrite LR. rewrite Z.add_mod, Z.mod_mul, Z.add_0_r, Z.mod_mod by lia.
        destruct (Z.eq_dec o 0) as [->|]; [rewrite Z.sub_0_r, Z.mod_same by lia; lia|]. rewrite Z.mod_small by lia. lia. }
    lia. }
  unfold ts_sign. destruct ((c_state c <=? ts_sign_state) || (ts_verify_state <=? c_state c)); [reflexivity|].
  rewrite (sign_loop_mem m (mem_of sk SK)); [reflexivity|lia|rewrite Epsn, HO; lia|rewrite Epsn; lia|].
  rewrite Epsn, HO. destruct Q as [Q|Q]; [left; exact Q|right]. subst s. exact (proj1 HI).
Qed.

(** ** Verification *)
Lemma get_set_verify x msg l : bytes_of (SIZEOF_X cfg) x -> 0 <= msg < addresses enabled -> 0 <= l < addresses enabled -> 2 * SIZEOF_PTR cfg <= SIZEOF_X cfg ->
  exists x1 x2, set_verify_message cfg x msg = Ok x1 /\ set_verify_len cfg x1 l = Ok x2 /\ bytes_of (SIZEOF_X cfg) x2 /\
    get_verify_message cfg x2 = Ok msg /\ get_verify_len cfg x2 = Ok l.
Proof.
  intros [Lx Bx] Hm Hl Hs. cbn [platform_of addresses] in Hm, Hl.
  assert (P0 : 0 < SIZEOF_PTR cfg) by (unfold SIZEOF_PTR; destruct (cfg_ptr64 cfg); reflexivity).
  set (q := SIZEOF_PTR cfg) in *.
  unfold set_verify_message, set_verify_len, get_verify_message, get_verify_len, wr_word, rd_word. rewrite !Z.mul_0_r, !Z.add_0_r.
  assert (L8 : forall v, zlen (enc_word (cfg_le cfg) (Z.to_nat q) v) = q) by (intros; unfold zlen; rewrite enc_word_length; lia).
  assert (W1 : exists x1, wr_range x 0 (enc_word (cfg_le cfg) (Z.to_nat q) msg) = Ok x1) by (rewrite wr_range_ok by (rewrite ?L8; lia); eauto).
  destruct W1 as (x1 & W1). destruct (wr_then_rd _ _ _ _ W1) as [R1 L1].
  assert (W2 : exists x2, wr_range x1 q (enc_word (cfg_le cfg) (Z.to_nat q) l) = Ok x2) by (rewrite wr_range_ok by (rewrite ?L8; lia); eauto).
  destruct W2 as (x2 & W2). destruct (wr_then_rd _ _ _ _ W2) as [R2 L2]. rewrite L8 in R1, R2.
  exists x1, x2. split; [exact W1|]. split; [exact W2|].
  assert (Bw : forall (y y' v : list Z) oo, wr_range y oo v = Ok y' -> is_bytes y -> is_bytes v -> is_bytes y').
  { intros y y' v oo W By Bv. unfold wr_range in W. destruct ((0 <=? oo) && (oo + zlen v <=? zlen y)); [|discriminate W].
    assert (Ey : y' = firstn (Z.to_nat oo) y ++ v ++ skipn (Z.to_nat oo + length v) y) by congruence. rewrite Ey.
    apply bytes_app; [apply Forall_firstn', By|]. apply bytes_app; [exact Bv|apply Forall_skipn', By]. }
  split; [split; [lia|]|].
  - apply (Bw _ _ _ _ W2); [|apply enc_word_bytes]. apply (Bw _ _ _ _ W1); [exact Bx|apply enc_word_bytes].
  - rewrite !Z2Nat.id by lia. fold q. rewrite (wr_rd_disj _ _ _ _ 0 q 0 W2) by lia. rewrite R1, R2. cbn [bind].
    rewrite !dec_enc_word by (rewrite Z2Nat.id by lia; lia). auto.
Qed.

Lemma L_pos p : p_n (slh_of p) < slh_sig_length (slh_of p) < 2 ^ 20.
Proof. destruct p; vm_compute; split; reflexivity. Qed.

Lemma sim_init_verify a c m msg l p pk PK : Rel a c -> ps_enabled cfg p = true ->
  holds m pk PK -> len PK = 2 * p_n (slh_of p) -> 0 <= msg < addresses enabled -> 0 <= l < addresses enabled -> l < 2 ^ 60 ->
  exists c', ts_init_verify cfg m c msg l (the_ps cfg p) pk = Ok c' /\ RVer p pk PK msg l [] [] true c'.
Proof.
  intros HRel on HK LK Hmsg Hl Hl2. pose proof (Rel_wf _ _ HRel) as W.
  assert (Nb : 16 <= p_n (slh_of p) <= 32) by (destruct p; cbn; lia).
  set (P := slh_of p) in *. set (n := p_n P) in *.
  destruct (KE_build p pk (slice PK 0 n) m on) as (E & HE & Em).
  { fold P n. rewrite <- (Z.add_0_r pk). apply load_slice; [exact HK|lia|lia|lia]. }
  { apply slice_bytes, HK. }
  pose proof HE as (Ec & Ep & Epk & Es). destruct (KE_facts _ _ _ _ HE) as (En & EP & _). fold P in En, EP. fold n in En.
  unfold ts_init_verify.
  match goal with |- context [c_x ?d] => change (c_x d) with (c_x c) end.
  assert (Bx : bytes_of (SIZEOF_X cfg) (c_x c)) by (apply (wf_x _ _ W)).
  destruct (get_set_verify (c_x c) msg l Bx Hmsg Hl) as (x1 & x2 & -> & E2 & B2 & G1 & G2).
  { pose proof (x_ge_verify E) as X. rewrite Ec in X. exact X. }
  cbn [bind]. rewrite E2. cbn [bind].
  set (c1 := set_x x2 _).
  assert (PG : pregood E c1).
  { split; [|unfold e_ps; rewrite Ec, Ep; reflexivity|rewrite Epk; reflexivity]. rewrite Ec.
    destruct W; apply mkWf; try assumption; [change (0 <= 7 < 2 ^ 32); lia|change (0 <= 0 < 256); lia]. }
  destruct (prehash_ok_good E c1 PG) as (c2 & HP & G & (it & q1 & q2 & HS)). rewrite Ec, Em in HP. rewrite HP.
  exists c2. split; [reflexivity|].
  split; [apply HK|]. split; [exact LK|]. split; [constructor|]. split; [lia|]. exists E. split; [exact HE|]. split; [exact G|].
  split; [change (len []) with 0; fold P n; lia|]. pose proof (L_pos p) as Lp. fold P in Lp. fold n in Lp. fold P n.
  split; [|change (len []) with 0; lia].
  intros _ M0 _ BM LM tail Bt Lt. exists VI, 0. split; [|unfold vtot; cbn [vpos]; change (len []) with 0; lia].
  split; [|rewrite HS; reflexivity|rewrite En; lia|exists (c_buffer c2); reflexivity].
  split; [exact G|]. split; [exact I|]. split; [rewrite HS; reflexivity|].
  rewrite Ec. rewrite HS. rewrite zlen_len, LM. split; assumption.
Qed.

(** One call to update in a run that is not over *)
Lemma sim_update_live p pk PK ma l M M' fed chunk c m :
  RVer p pk PK ma l M fed true c -> holds m pk PK -> is_bytes chunk -> len chunk < 2 ^ 32 ->
  message_read (slh_of p) m ma l fed (fed ++ chunk) M M' ->
  len fed < slh_sig_length (slh_of p) ->
  let r := update_result (slh_of p) M' PK fed (fed ++ chunk) in
  exists c', ts_update_verify cfg m chunk (zlen chunk) c = Ok (b2z r, c') /\
    RVer p pk PK ma l M' (fed ++ chunk) r c'.
Proof.
  intros (BK & LK & BF & Hl & E & HE & G & HMf & HA & _) HK BC LC HMR HF r. specialize (HA HF).
  pose proof HE as (Ec & Ep & Epk & Es). destruct (KE_facts _ _ _ _ HE) as (En & EP & Nb).
  set (P := slh_of p) in *. set (n := p_n P) in *. set (L := slh_sig_length P) in *.
  assert (Lp : n < L < 2 ^ 20) by apply L_pos.
  assert (Lapp : len (fed ++ chunk) = len fed + len chunk) by apply len_app.
  assert (P0 : 0 <= len fed /\ 0 <= len chunk) by (unfold len; lia).
  assert (Hld : load m (e_pk E) (p_n (slh_of (e_p E))) = Ok (e_seed E)).
  { rewrite Ep, Epk, Es. fold P. fold n. rewrite <- (Z.add_0_r pk). apply load_slice; [exact HK|lia|lia|lia]. }
  set (E' := remem E m Hld).
  assert (HE' : KE p pk (slice PK 0 n) E') by exact HE.
  assert (Hroot : root_at E' (slice PK n n)).
  { unfold root_at. change (e_mem E') with m. change (e_pk E') with (e_pk E). change (e_n E') with (e_n E). rewrite Epk, En.
    split; [apply load_slice; [exact HK|lia|lia|lia]|].
    unfold str_ok. change (e_n E') with (e_n E). rewrite En. split; [apply slice_zlen; [lia|lia|]; rewrite zlen_len; lia|apply slice_bytes, HK]. }
  (* what the loop does, for every continuation and every message that is still possible *)
  assert (Main : forall M0 tail, (n <= len fed -> M0 = M) -> (len fed < n -> n <= len fed + len chunk -> M0 = M') ->
     is_bytes M0 -> len M0 = l -> is_bytes tail -> L <= len (fed ++ chunk ++ tail) ->
     let SIG := fed ++ chunk ++ tail in
     exists c', good E' c' /\
      (len fed + len chunk < L -> ts_update_verify cfg m chunk (zlen chunk) c = Ok (1, c') /\
         exists s o, at_vrun E' SIG M0 (slice PK n n) ma s o c' /\ vtot E' s o = len fed + len chunk) /\
      (len fed + len chunk = L -> ts_update_verify cfg m chunk (zlen chunk) c =
         Ok (if valid E' SIG M0 (slice PK n n) then (1, set_state ts_verify_success c') else (0, set_state ts_verify_fail c')) /\ c_buffer_offset c' = 0) /\
      (len fed + len chunk > L -> ts_update_verify cfg m chunk (zlen chunk) c = Ok (0, set_state ts_verify_fail c') /\ c_buffer_offset c' = 0)).
  { intros M0 tail HM1 HM2 BM LM Bt Lt SIG.
    destruct (HA M0 HM1 BM LM (chunk ++ tail)) as (s & o & HR & HT).
    { apply bytes_app; assumption. } { exact Lt. }
    fold SIG in HR. apply (at_vrun_remem E m Hld) in HR. fold E' in HR. change (vtot E s o) with (vtot E' s o) in HT.
    assert (Mok : msg_ok M0) by (split; [exact BM|rewrite zlen_len; lia]).
    assert (BSIG : is_bytes SIG) by (unfold SIG; repeat apply bytes_app; assumption).
    assert (LP : slh_sig_length (e_P E') = L) by (change (e_P E') with (e_P E); rewrite EP; reflexivity).
    assert (LSIG : slh_sig_length (e_P E') <= zlen SIG) by (rewrite LP, zlen_len; exact Lt).
    assert (Nn : e_n E' = n) by exact En.
    assert (St : ts_verify_state < c_state c < ts_verify_success).
    { destruct HR as [(_ & _ & HI) _ _ _]. destruct s; destruct HI as [-> _]; unfold ts_verify_state, ts_verify_success; cbv; split; reflexivity. }
    unfold ts_update_verify. destruct (Z.leb_spec (c_state c) ts_verify_state); [lia|].
    destruct (Z.leb_spec ts_verify_fail (c_state c)); [unfold ts_verify_fail, ts_verify_success in *; lia|]. cbn [orb].
    destruct (verify_loop_ok E' SIG M0 (slice PK n n) Mok (proj2 Hroot) BSIG LSIG ma (Z.to_nat (zlen chunk) + 2) chunk 0 (zlen chunk) s o c HR)
      as (c' & G' & C1 & C2 & C3).
    - rewrite HT. intros Hlt Hge. rewrite (zlen_len chunk) in Hge. change (e_n E') with (e_n E) in Hlt, Hge. rewrite En in Hlt, Hge. split; [|exact Hroot]. change (e_mem E') with m.
      specialize (HM2 Hlt ltac:(lia)). subst M0. unfold message_read in HMR.
      fold P in HMR. fold n in HMR. destruct (Z.ltb_spec (len fed) n); [|lia]. destruct (Z.leb_spec n (len (fed ++ chunk))); [|lia].
      cbn [andb] in HMR. rewrite zlen_len. apply holds_load, HMR.
    - intros _. exact Hroot.
    - rewrite zlen_len. lia.
    - lia.
    - rewrite HT, LP. intros i k Hi Hk Hik Hl'. change (zlen chunk) with (len chunk) in Hik. rewrite Z.add_0_l.
      unfold SIG. change (len fed) with (zlen fed). rewrite slice_app_r by lia. replace (zlen fed + i - zlen fed) with i by lia.
      change (len chunk) with (zlen chunk) in *. rewrite slice_app_l by lia. rewrite rd_range_ok by lia. reflexivity.
    - lia.
    - rewrite HT, LP in C1, C2, C3. change (zlen chunk) with (len chunk) in *. change (e_cfg E') with (e_cfg E) in C1, C2, C3. rewrite Ec in C1, C2, C3.
      change (e_mem E') with m in C1, C2, C3. exists c'. split; [exact G'|]. split; [exact C1|]. split; [exact C2|exact C3]. }
  (* the message *)
  assert (HM' : n <= len (fed ++ chunk) -> is_bytes M' /\ len M' = l).
  { intros Hge. unfold message_read in HMR. fold P in HMR. fold n in HMR. destruct (Z.ltb_spec (len fed) n); cbn [andb] in HMR.
    - destruct (Z.leb_spec n (len (fed ++ chunk))); [|lia]. split; [apply HMR|apply HMR].
    - subst M'. apply HMf. lia. }
  assert (HMM : n <= len fed -> M' = M).
  { intros Hge. unfold message_read in HMR. fold P in HMR. fold n in HMR. destruct (Z.ltb_spec (len fed) n); [lia|exact HMR]. }
  assert (EX : exists M0, (n <= len (fed ++ chunk) -> M0 = M') /\ is_bytes M0 /\ len M0 = l).
  { destruct (Z.le_gt_cases n (len (fed ++ chunk))) as [Hge|Hlt].
    - exists M'. split; [auto|]. apply HM', Hge.
    - exists (repeat 0 (Z.to_nat l)). split; [lia|]. split; [apply zeros_bytes'|]. unfold len. rewrite repeat_length. lia. }
  assert (Main' : forall M0 tail, (n <= len (fed ++ chunk) -> M0 = M') ->
     is_bytes M0 -> len M0 = l -> is_bytes tail -> L <= len (fed ++ chunk ++ tail) ->
     let SIG := fed ++ chunk ++ tail in
     exists c', good E' c' /\
      (len fed + len chunk < L -> ts_update_verify cfg m chunk (zlen chunk) c = Ok (1, c') /\
         exists s o, at_vrun E' SIG M0 (slice PK n n) ma s o c' /\ vtot E' s o = len fed + len chunk) /\
      (len fed + len chunk = L -> ts_update_verify cfg m chunk (zlen chunk) c =
         Ok (if valid E' SIG M0 (slice PK n n) then (1, set_state ts_verify_success c') else (0, set_state ts_verify_fail c')) /\ c_buffer_offset c' = 0) /\
      (len fed + len chunk > L -> ts_update_verify cfg m chunk (zlen chunk) c = Ok (0, set_state ts_verify_fail c') /\ c_buffer_offset c' = 0)).
  { intros M0 tail H1. apply Main; [|intros; apply H1; lia]. intros Hge. rewrite H1 by lia. apply HMM, Hge. }
  clear Main HA HMR. destruct EX as (M0 & HM0 & BM0 & LM0).
  set (zt := repeat 0 (Z.to_nat L)).
  assert (Lzt : len zt = L) by (unfold zt, len; rewrite repeat_length; lia).
  destruct (Main' M0 zt HM0 BM0 LM0 (zeros_bytes' _)) as (c' & G' & C1 & C2 & C3).
  { rewrite !len_app. lia. }
  unfold r, update_result. fold P. fold L. fold n. rewrite Lapp.
  assert (Wrap : forall ok c1, good E' c1 ->
     (if ok : bool then
    (len (fed ++ chunk) < L -> forall M0, (n <= len (fed ++ chunk) -> M0 = M') -> is_bytes M0 -> len M0 = l ->
       forall tail, is_bytes tail -> L <= len ((fed ++ chunk) ++ tail) ->
       exists s o, at_vrun E' ((fed ++ chunk) ++ tail) M0 (slice PK n n) ma s o c1 /\ vtot E' s o = len (fed ++ chunk)) /\
    (L <= len (fed ++ chunk) -> c_state c1 = ts_verify_success /\ c_buffer_offset c1 = len (fed ++ chunk) - L /\ len (fed ++ chunk) < L + n)
     else c_state c1 = ts_verify_fail) -> RVer p pk PK ma l M' (fed ++ chunk) ok c1).
  { intros ok c1 G1 H. split; [exact BK|]. split; [exact LK|]. split; [apply bytes_app; assumption|]. split; [exact Hl|].
    exists E'. split; [exact HE'|]. split; [exact G1|]. split; [exact HM'|exact H]. }
  destruct (Z.ltb_spec (len fed + len chunk) L) as [Hlt|Hge].
  - destruct (C1 Hlt) as [EQ _]. exists c'. split; [exact EQ|]. apply Wrap; [exact G'|]. split; [|lia].
    intros _ M1 HM1 BM1 LM1 tail Bt Lt. rewrite <- app_assoc in *.
    destruct (Main' M1 tail HM1 BM1 LM1 Bt Lt) as (c2 & _ & D1 & _).
    destruct (D1 Hlt) as [EQ2 HX]. assert (c' = c2) by congruence. subst c2. rewrite Lapp. exact HX.
  - destruct (Z.ltb_spec (len fed) L); [|lia].
    assert (M0 = M') by (apply HM0; lia). subst M0.
    assert (Gs : forall st c1, good E' c1 -> 0 <= st < 2 ^ 32 -> good E' (set_state st c1)) by (intros; apply good_state; assumption).
    destruct (Z.eq_dec (len fed + len chunk) L) as [Heq|Hne].
    + destruct (Main' M' [] (fun _ => eq_refl) BM0 LM0 ltac:(constructor)) as (c2 & G2 & _ & D2 & _).
      { rewrite app_nil_r. lia. }
      rewrite app_nil_r in D2. destruct (D2 Heq) as [EQ Off].
      pose proof (verify_spec E' (fed ++ chunk) M' (slice PK n n) PK) as VS. change (e_P E') with (e_P E) in VS.
      change (e_n E') with (e_n E) in VS. change (e_seed E') with (e_seed E) in VS. rewrite EP, En, Es in VS. specialize (VS eq_refl eq_refl).
      fold L in VS. rewrite Lapp, Heq, Z.eqb_refl in VS. cbn [andb] in VS. rewrite VS, EQ.
      destruct (valid E' (fed ++ chunk) M' (slice PK n n)).
      * eexists. split; [reflexivity|]. apply Wrap; [apply Gs; [exact G2|clear; unfold ts_verify_success; lia]|]. split; [lia|].
        intros _. split; [reflexivity|]. change (c_buffer_offset (set_state ts_verify_success c2)) with (c_buffer_offset c2). lia.
      * eexists. split; [reflexivity|]. apply Wrap; [apply Gs; [exact G2|unfold ts_verify_fail; lia]|]. reflexivity.
    + assert (Hgt : len fed + len chunk > L) by lia. destruct (C3 Hgt) as [EQ Off].
      assert (VF : slh_verify_internal P M' (fed ++ chunk) PK = false).
      { unfold slh_verify_internal. fold L. rewrite Lapp. destruct (Z.eqb_spec (len fed + len chunk) L); [lia|reflexivity]. }
      rewrite VF, EQ. eexists. split; [reflexivity|]. apply Wrap; [apply Gs; [exact G'|unfold ts_verify_fail; lia]|]. reflexivity.
Qed.

(** After a successful end *)
Lemma success_loop E c chunk m fuel pos k e : good E c -> e_cfg E = cfg -> c_state c = ts_verify_success -> c_buffer_offset c = e -> 0 <= e < e_n E ->
  is_bytes chunk -> 0 <= pos -> 0 <= k -> pos + k <= zlen chunk -> k < 2 ^ 32 ->
  exists c', good E c' /\ c_buffer_offset c' = (if e + k <? e_n E then e + k else 0) /\
    verify_loop cfg m (S fuel) chunk pos k c =
      (if e + k <? e_n E then Ok (1, c') else Ok (0, set_state ts_verify_fail c')) /\ c_state c' = ts_verify_success.
Proof.
  intros G Ec Hs Ho He BC Hp Hk Hz Hk2. pose proof (n_bounds E) as Nb. pose proof (n_max E) as Nm. rewrite Ec in Nm.
  destruct (wf_buffer _ _ (g_wf E c G)) as [Lb Bb]. rewrite Ec in Lb.
  cbn [verify_loop]. rewrite (ps_n_c E c G), Ho. unfold u32. rewrite (Z.mod_small (e_n E - e)) by lia.
  set (r := if k <? e_n E - e then k else e_n E - e).
  assert (Hr : 0 <= r <= e_n E - e /\ r <= k /\ (e + k < e_n E -> r = k) /\ (e_n E <= e + k -> r = e_n E - e)).
  { unfold r; destruct (Z.ltb_spec k (e_n E - e)); lia. }
  rewrite rd_range_ok by lia. cbn [bind]. set (src := firstn _ _).
  assert (Ls : zlen src = r) by (unfold src, zlen in *; rewrite firstn_length, skipn_length; lia).
  assert (Bs : is_bytes src) by (apply Forall_firstn', Forall_skipn', BC).
  rewrite wr_range_ok by lia. cbn [bind]. set (b1 := firstn _ _ ++ _).
  assert (Ob1 : bytes_of (TS_MAX_HASH cfg) b1).
  { split.
    - unfold b1. rewrite !zlen_app, Ls. unfold zlen in *. rewrite firstn_length, skipn_length. lia.
    - unfold b1. apply bytes_app; [apply Forall_firstn', Bb|]. apply bytes_app; [exact Bs|apply Forall_skipn', Bb]. }
  rewrite (Z.mod_small (e + r)) by lia. rewrite (Z.mod_small (k - r)) by lia.
  assert (G1 : good E (set_buffer b1 c)) by (apply good_buffer; [rewrite Ec; exact Ob1|exact G]).
  destruct (Z.ltb_spec (e + k) (e_n E)) as [Hlt|Hge].
  - destruct (Z.ltb_spec (e + r) (e_n E)); [|lia]. unfold u8. rewrite Z.mod_small by lia.
    eexists. split; [|split; [|split; [reflexivity|exact Hs]]]; [apply good_offset; [lia|exact G1]|]. cbn [c_buffer_offset set_buffer_offset]. lia.
  - destruct (Z.ltb_spec (e + r) (e_n E)); [lia|].
    exists (set_buffer_offset 0 (set_buffer b1 c)). split; [apply good_offset; [lia|exact G1]|]. split; [reflexivity|]. split; [|exact Hs].
    unfold verify_switch. change (c_state (set_buffer_offset 0 (set_buffer b1 c))) with (c_state c). rewrite Hs. reflexivity.
Qed.

Lemma sim_update_done p pk PK ma l M M' fed chunk c m :
  RVer p pk PK ma l M fed true c -> is_bytes chunk -> len chunk < 2 ^ 32 ->
  message_read (slh_of p) m ma l fed (fed ++ chunk) M M' ->
  slh_sig_length (slh_of p) <= len fed ->
  let r := update_result (slh_of p) M' PK fed (fed ++ chunk) in
  exists c', ts_update_verify cfg m chunk (zlen chunk) c = Ok (b2z r, c') /\
    RVer p pk PK ma l M' (fed ++ chunk) r c'.
Proof.
  intros (BK & LK & BF & Hl & E & HE & G & HMf & _ & HS) BC LC HMR HF r. destruct (HS HF) as (St & Off & Hlt).
  pose proof HE as (Ec & Ep & Epk & Es). destruct (KE_facts _ _ _ _ HE) as (En & EP & Nb).
  set (P := slh_of p) in *. set (n := p_n P) in *. set (L := slh_sig_length P) in *.
  assert (Lp : n < L < 2 ^ 20) by apply L_pos.
  assert (Lapp : len (fed ++ chunk) = len fed + len chunk) by apply len_app.
  assert (P0 : 0 <= len fed /\ 0 <= len chunk) by (unfold len; lia).
  assert (EM : M' = M).
  { unfold message_read in HMR. fold P in HMR. fold n in HMR. destruct (Z.ltb_spec (len fed) n); [lia|exact HMR]. }
  subst M'. unfold ts_update_verify. rewrite St. change ((ts_verify_success <=? ts_verify_state) || (ts_verify_fail <=? ts_verify_success)) with false. cbv iota.
  replace (Z.to_nat (zlen chunk) + 2)%nat with (S (Z.to_nat (zlen chunk) + 1)) by lia.
  destruct (success_loop E c chunk m (Z.to_nat (zlen chunk) + 1) 0 (zlen chunk) (len fed - L)) as (c' & G' & O' & EQ & S'); try assumption; rewrite ?En, ?zlen_len; try lia.
  change (zlen chunk) with (len chunk) in *. rewrite En in O', EQ. rewrite EQ. unfold r, update_result. fold P. fold L. fold n. rewrite Lapp.
  destruct (Z.ltb_spec (len fed + len chunk) L); [lia|]. destruct (Z.ltb_spec (len fed) L); [lia|].
  destruct (Z.ltb_spec (len fed - L + len chunk) n), (Z.ltb_spec (len fed + len chunk) (L + n)); try lia.
  - exists c'. split; [reflexivity|]. split; [exact BK|]. split; [exact LK|]. split; [apply bytes_app; assumption|]. split; [exact Hl|].
    exists E. split; [exact HE|]. split; [exact G'|]. fold P n L. rewrite Lapp. split; [intros; apply HMf; lia|]. split; [lia|]. intros _. split; [exact S'|]. split; lia.
  - eexists. split; [reflexivity|]. split; [exact BK|]. split; [exact LK|]. split; [apply bytes_app; assumption|]. split; [exact Hl|].
    exists E. split; [exact HE|]. split; [apply good_state; [unfold ts_verify_fail; lia|exact G']|]. fold P n L. rewrite Lapp. split; [intros; apply HMf; lia|]. reflexivity.
Qed.

(** A chunk that completes no block: no memory is read. *)
Lemma sim_update_live' p pk PK ma l M M' fed chunk c m :
  RVer p pk PK ma l M fed true c -> (completes_block (slh_of p) fed (fed ++ chunk) -> holds m pk PK) -> is_bytes chunk -> len chunk < 2 ^ 32 ->
  message_read (slh_of p) m ma l fed (fed ++ chunk) M M' ->
  len fed < slh_sig_length (slh_of p) ->
  let r := update_result (slh_of p) M' PK fed (fed ++ chunk) in
  exists c', ts_update_verify cfg m chunk (zlen chunk) c = Ok (b2z r, c') /\
    RVer p pk PK ma l M' (fed ++ chunk) r c'.
Proof.
  intros HRV HK BC LC HMR HF r.
  assert (Nb : 16 <= p_n (slh_of p) <= 32) by (destruct p; cbn; lia). set (n := p_n (slh_of p)) in *.
  assert (P0 : 0 <= len fed /\ 0 <= len chunk) by (unfold len; lia).
  assert (Lapp : len (fed ++ chunk) = len fed + len chunk) by apply len_app.
  destruct (Z.lt_ge_cases (len fed / n) (len (fed ++ chunk) / n)) as [Hlt|Hge].
  { apply (sim_update_live p pk PK ma l M M'); try assumption. apply HK. split; assumption. }
  assert (Hsmall : len fed mod n + len chunk < n).
  { rewrite Lapp in Hge. pose proof (Z.div_mod (len fed) n ltac:(lia)) as D1. pose proof (Z.mod_pos_bound (len fed) n ltac:(lia)) as B1.
    pose proof (Z.div_mod (len fed + len chunk) n ltac:(lia)) as D2. pose proof (Z.mod_pos_bound (len fed + len chunk) n ltac:(lia)) as B2. nia. }
  assert (Hno : (len fed <? n) && (n <=? len (fed ++ chunk)) = false).
  { destruct (Z.ltb_spec (len fed) n) as [A|A]; [|reflexivity]. cbn [andb]. rewrite Z.mod_small in Hsmall by lia. destruct (Z.leb_spec n (len (fed ++ chunk))); [lia|reflexivity]. }
  assert (BP : is_bytes PK) by apply HRV.
  assert (X : forall m', ts_update_verify cfg m chunk (zlen chunk) c = ts_update_verify cfg m' chunk (zlen chunk) c).
  { intros m'. pose proof HRV as (_ & LK & BF & Hl & E & HE & G & HMf & HA & _). pose proof HE as (Ec & Ep & Epk & Es). destruct (KE_facts _ _ _ _ HE) as (En & EP & _). fold n in En.
    assert (EX : exists M0, (n <= len fed -> M0 = M) /\ is_bytes M0 /\ len M0 = l).
    { destruct (Z.le_gt_cases n (len fed)).
      - exists M. split; [auto|]. apply HMf. assumption.
      - exists (repeat 0 (Z.to_nat l)). split; [lia|]. split; [apply zeros_bytes'|]. unfold len. rewrite repeat_length. lia. }
    destruct EX as (M0 & HM0 & BM0 & LM0). pose proof (L_pos p) as Lp.
    destruct (HA HF M0 HM0 BM0 LM0 (repeat 0 (Z.to_nat (slh_sig_length (slh_of p))))) as (s & o & HR & HV).
    { apply zeros_bytes'. } { rewrite len_app. unfold len. rewrite repeat_length. lia. }
    destruct HR as [_ HO HRg _]. rewrite En in HRg. unfold vtot in HV. rewrite En in HV.
    assert (Eo : o = len fed mod n) by (rewrite <- HV, Z.add_comm, Z.mod_add, Z.mod_small by lia; reflexivity).
    assert (Epsn : ps_n (c_ps c) = n) by (rewrite (ps_n_c E c G); exact En).
    unfold ts_update_verify. destruct ((c_state c <=? ts_verify_state) || (ts_verify_fail <=? c_state c)); [reflexivity|].
    replace (Z.to_nat (zlen chunk) + 2)%nat with (S (Z.to_nat (zlen chunk) + 1)) by lia. cbn [verify_loop].
    rewrite Epsn, HO. rewrite zlen_len. assert (E1 : u32 (n - o) = n - o) by (unfold u32; apply Z.mod_small; lia). rewrite E1.
    destruct (Z.ltb_spec (len chunk) (n - o)); [|lia].
    destruct (rd_range chunk 0 (len chunk)); cbn [bind]; [|reflexivity]. destruct (wr_range (c_buffer c) o a); cbn [bind]; [|reflexivity].
    assert (E2 : u32 (o + len chunk) = o + len chunk) by (unfold u32; apply Z.mod_small; lia). rewrite E2.
    destruct (Z.ltb_spec (o + len chunk) n); [reflexivity|lia]. }
  rewrite (X (mem_of pk PK)). apply (sim_update_live p pk PK ma l M M'); try assumption.
  { apply mem_of_holds, BP. }
  unfold message_read in *. fold n in HMR |- *. rewrite Hno in *. exact HMR.
Qed.

(** ** Every call that keeps to the contract *)
Lemma ver_state p pk PK ma l M fed ok c : RVer p pk PK ma l M fed ok c -> ts_verify_state < c_state c /\ (ok = true -> len fed < slh_sig_length (slh_of p) -> c_state c < ts_verify_success).
Proof.
  intros (BK & LK & BF & Hl & E & HE & G & HMf & H). destruct ok.
  - destruct H as [H1 H2]. destruct (Z.le_gt_cases (slh_sig_length (slh_of p)) (len fed)) as [Hge|Hlt].
    + destruct (H2 Hge) as [-> _]. split; [reflexivity|lia].
    + assert (EX : exists M0, (p_n (slh_of p) <= len fed -> M0 = M) /\ is_bytes M0 /\ len M0 = l).
      { destruct (Z.le_gt_cases (p_n (slh_of p)) (len fed)).
        - exists M. split; [auto|]. apply HMf. assumption.
        - exists (repeat 0 (Z.to_nat l)). split; [lia|]. split; [apply zeros_bytes'|]. unfold len. rewrite repeat_length. lia. }
      destruct EX as (M0 & HM0 & BM0 & LM0). pose proof (L_pos p) as Lp.
      destruct (H1 Hlt M0 HM0 BM0 LM0 (repeat 0 (Z.to_nat (slh_sig_length (slh_of p))))) as (s & o & HR & _).
      { apply zeros_bytes'. } { rewrite len_app. unfold len. rewrite repeat_length. lia. }
      destruct HR as [(_ & _ & HI) _ _ _]. destruct s; destruct HI as [-> _]; split; try reflexivity; intros _ _; reflexivity.
  - rewrite H. split; [reflexivity|discriminate].
Qed.
Lemma sign_state p sk SK rem c : RSign p sk SK rem c -> ts_sign_state < c_state c < ts_verify_state.
Proof.
  intros (_ & _ & E & _ & md & T & l & s & B & o & _ & _ & HR & _). destruct HR as [HI _ _ _ _]. eapply state_range, HI.
Qed.

Theorem simulation a c m act o a' : step enabled a m act o a' -> Rel a c ->
  exists c', call cfg m act c = Ok (o, c') /\ Rel a' c'.
Proof.
  intros HS HRel. destruct HS; cbn [call].
  - destruct (sim_init_sign a c m msg l p sk f SK M HRel) as (c' & -> & HR); try assumption. exists c'. split; [reflexivity|exact HR].
  - destruct (sim_sign' p sk SK rem c m dest sz HRel) as (c' & EQ & HR); try assumption. fold k in EQ, HR. rewrite EQ. exists c'. split; [reflexivity|exact HR].
  - destruct (sim_init_verify a c m msg l p pk PK HRel) as (c' & -> & HR); try assumption. exists c'. split; [reflexivity|exact HR].
  - assert (X : exists c', ts_update_verify cfg m chunk (zlen chunk) c = Ok (b2z r, c') /\ RVer p pk PK msg l M' (fed ++ chunk) r c').
    { destruct (Z.le_gt_cases (slh_sig_length (slh_of p)) (len fed)).
      - apply (sim_update_done p pk PK msg l M M' fed chunk c m); assumption.
      - apply (sim_update_live' p pk PK msg l M M' fed chunk c m); assumption. }
    destruct X as (c' & -> & HR). exists c'. split; [reflexivity|exact HR].
  - exists c. split; [|exact HRel]. destruct HRel as (_ & _ & _ & _ & E & _ & _ & _ & St). unfold ts_update_verify. rewrite St. reflexivity.
  - exists c. split; [|exact HRel]. do 3 f_equal. unfold ts_verify. destruct (ver_state _ _ _ _ _ _ _ _ _ HRel) as [_ V].
    destruct HRel as (_ & _ & _ & _ & E & _ & _ & _ & H). destruct ok.
    + destruct H as [_ H]. cbn [andb]. destruct (Z.ltb_spec (len fed) (slh_sig_length (slh_of p))) as [Hlt|Hge].
      * specialize (V eq_refl Hlt). destruct (Z.eqb_spec (c_state c) ts_verify_success); [lia|]. destruct (Z.eqb_spec (len fed) (slh_sig_length (slh_of p))); [lia|reflexivity].
      * destruct (H Hge) as (-> & -> & _). cbn [Z.eqb andb]. rewrite Z.eqb_refl. cbn [andb].
        destruct (Z.eqb_spec (len fed - slh_sig_length (slh_of p)) 0), (Z.eqb_spec (len fed) (slh_sig_length (slh_of p))); try lia; reflexivity.
    + rewrite H. reflexivity.
  - exists c. split; [|exact HRel]. destruct (ver_state _ _ _ _ _ _ _ _ _ HRel) as [V _]. unfold ts_sign.
    destruct (Z.leb_spec ts_verify_state (c_state c)); [|lia]. rewrite Bool.orb_true_r. reflexivity.
  - exists c. split; [|exact HRel]. pose proof (sign_state _ _ _ _ _ HRel) as V. unfold ts_update_verify.
    destruct (Z.leb_spec (c_state c) ts_verify_state); [|lia]. reflexivity.
  - exists c. split; [|exact HRel]. pose proof (sign_state _ _ _ _ _ HRel) as V. unfold ts_verify.
    destruct (Z.eqb_spec (c_state c) ts_verify_success) as [e|]; [rewrite e in V; exfalso; clear - V; unfold ts_verify_state, ts_verify_success in V; lia|]. reflexivity.
Qed.

Theorem simulation_steps a h os a' : steps enabled a h os a' -> forall c, Rel a c ->
  exists c', calls cfg h c = Ok (os, c') /\ Rel a' c'.
Proof.
  induction 1; intros c HR; [exists c; split; [reflexivity|exact HR]|].
  destruct (simulation _ _ _ _ _ _ H HR) as (c1 & EQ & HR1). destruct (IHsteps c1 HR1) as (c2 & EQ2 & HR2).
  exists c2. cbn [calls]. rewrite EQ. cbn [bind]. rewrite EQ2. split; [reflexivity|exact HR2].
Qed.

Theorem simulation_wsteps w h os w' : wsteps enabled w h os w' -> forall cw, (forall i, Rel (w i) (cw i)) ->
  exists cw', wcalls cfg h cw = Ok (os, cw') /\ forall i, Rel (w' i) (cw' i).
Proof.
  induction 1; intros cw HR; [exists cw; split; [reflexivity|exact HR]|].
  destruct (simulation _ _ _ _ _ _ H (HR i)) as (c1 & EQ & HR1).
  destruct (IHwsteps (set i c1 cw)) as (cw2 & EQ2 & HR2).
  { intros j. unfold set. destruct (Nat.eqb_spec j i); [exact HR1|apply HR]. }
  exists cw2. cbn [wcalls]. rewrite EQ. cbn [bind]. rewrite EQ2. split; [reflexivity|exact HR2].
Qed.
End Rel.
