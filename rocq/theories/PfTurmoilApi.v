(** * Sessions with a key that changes *)
From Verif Require Import Arr SpecSLH SpecApi SpecMap SpecSessions SpecTurmoil ModelParams ModelCtx ModelHash ModelSphincs ModelApi
  PfIter PfEnv PfAdr PfGlue PfMsg PfCtx PfTree PfPaths PfBits PfWots PfSpec PfSign PfApi PfSession PfTwoMem PfTurmoil.
Ltac Zify.zify_post_hook ::= idtac.

(** From an honest run to its shape *)
Lemma Inv_Shp E sk md T0 leaf0 s c : 0 <= leaf0 < 2 ^ p_h' (e_P E) -> sk_at E sk -> Inv E sk md T0 leaf0 s c -> Shp E s c.
Proof.
  intros Hl Hsk (G & R & HI). split; [exact G|]. split; [exact R|].
  assert (HF : forall i, 0 <= i -> at_fors E sk md T0 leaf0 i c -> in_fors E i c).
  { intros i Hi (A1 & A2 & A3 & A4 & A5 & A6). split; [exact A1|]. split; [exact A2|]. split; [rewrite A4; exact Hl|].
    split; [exists md; exact A5|]. exists E, (AR T0 leaf0), (fors_roots E sk (A0 T0 leaf0) i). split; [apply alike_refl|].
    split; [exact A6|]. apply (fors_roots_zlen E sk Hsk T0 leaf0 i Hi). }
  assert (HT : forall l, at_tree E T0 leaf0 l c -> in_tree E l c).
  { intros l (A1 & A2 & A3 & A4 & A5). split; [exact A1|]. split; [exact A2|]. split; [exact A4|]. rewrite A5. apply lf_range, Hl. }
  destruct s as [i|i j|l q|l j|]; cbn [rng] in R.
  - destruct HI as [A B]. split; [exact A|apply HF; [lia|exact B]].
  - destruct HI as (A & B & C & D & _). split; [exact A|]. split; [apply HF; [lia|exact B]|]. split; [exact C|]. rewrite D. apply fors_idx_range.
  - destruct HI as (A & B & C & D). split; [exact A|]. split; [apply HT, B|]. split; [exact C|]. eexists. exact D.
  - destruct HI as (A & B & C & _). split; [exact A|]. split; [apply HT, B|exact C].
  - apply HI.
Qed.

Section S.
Variable cfg : config.
Variable p : ps_name.
Local Notation n := (p_n (slh_of p)).

(** A context in the middle of a signature, with [left] bytes to come *)
Definition turmoil (sk left : Z) (c : ts_context) : Prop :=
  exists E, e_cfg E = cfg /\ e_p E = p /\ e_pk E = sk + 2 * n /\ exists s o, Run E s o c /\ remain E s o = left.

Lemma turmoil_wf sk left c : turmoil sk left c -> wf_ctx cfg c.
Proof using. intros (E & <- & _ & _ & s & o & [(G & _) _ _] & _). apply (g_wf E c G). Qed.
Lemma turmoil_left sk left c : turmoil sk left c -> 0 <= left.
Proof using.
  intros (E & _ & _ & _ & s & o & [(G & R & _) _ Ho] & <-). pose proof (left_pos E s R) as [L _]. pose proof (n_bounds E). unfold remain. nia.
Qed.
Lemma RSign_turmoil sk SK rem c : RSign cfg p sk SK rem c -> turmoil sk (len rem) c.
Proof using.
  intros (BS & LS & E & (E1 & E2 & E3 & E4) & md & T & lf & s & B & o & HT & Hl & HR & Hrem).
  assert (HM : holds (mem_of sk SK) sk SK) by (apply mem_of_holds; exact BS).
  assert (HE : KE cfg p (sk + 2 * n) (slice SK (2 * n) n) E) by (split; [exact E1|split; [exact E2|split; [exact E3|exact E4]]]).
  destruct (KE_facts _ _ _ _ _ HE) as (En & EP & Nb).
  assert (Hld : load (mem_of sk SK) (e_pk E) (p_n (slh_of (e_p E))) = Ok (e_seed E)).
  { rewrite E2, E3, E4. idtac. apply load_slice; [exact HM|lia|lia|lia]. }
  set (E' := remem E (mem_of sk SK) Hld).
  assert (Hsk : sk_at E' (slice SK 0 n)).
  { unfold sk_at. change (e_mem E') with (mem_of sk SK). change (e_pk E') with (e_pk E). change (e_n E') with (e_n E). rewrite E3, En. 
    replace (sk + 2 * n - 2 * n) with (sk + 0) by lia. split; [apply load_slice; [exact HM|lia|lia|lia]|].
    unfold str_ok. change (e_n E') with (e_n E). rewrite En.  split; [apply slice_zlen; [lia|lia|]; change (@zlen Z) with len; lia|apply slice_bytes, BS]. }
  pose proof (at_run_remem E (mem_of sk SK) Hld _ _ _ _ _ _ _ _ HR) as HR'. fold E' in HR'.
  destruct HR' as [HI HB HS HO HRg].
  exists E'. split; [exact E1|]. split; [exact E2|]. split; [exact E3|]. exists s, o. split.
  - split; [|exact HO|exact HRg]. apply (Inv_Shp E' (slice SK 0 n) md T lf); [|exact Hsk|exact HI].
    change (e_P E') with (e_P E). rewrite EP. exact Hl.
  - destruct (out_zlen E' (slice SK 0 n) Hsk md T lf s) as (OL & _ & _); [apply HI|].
    rewrite <- Hrem. unfold rest. rewrite len_app. change (len (out E (slice SK 0 n) md T lf s)) with (zlen (out E' (slice SK 0 n) md T lf s)).
    rewrite OL. unfold remain. f_equal. destruct HS as [HS _]. clear - HS HRg. unfold len, zlen in *. rewrite skipn_length. lia.
Qed.

(** Bytes put over others *)
Definition over (m : memory) (a : Z) (l : list Z) : memory :=
  fun x => if (a <=? x) && (x <? a + zlen l) then nth_error l (Z.to_nat (x - a)) else m x.
Lemma over_holds m a l : is_bytes l -> holds (over m a l) a l.
Proof using.
  clear. intros B. split; [exact B|]. intros i Hi. unfold over, zlen.
  destruct (Z.leb_spec a (a + Z.of_nat i)); [|lia]. destruct (Z.ltb_spec (a + Z.of_nat i) (a + Z.of_nat (length l))); [|lia]. cbn [andb].
  replace (a + Z.of_nat i - a) with (Z.of_nat i) by lia. rewrite Nat2Z.id. apply nth_error_nth'. exact Hi.
Qed.
Lemma over_before m a l b k : b + k <= a -> load (over m a l) b k = load m b k.
Proof using.
  clear. intros H. unfold load. destruct (Z.leb_spec 0 k) as [Hk|]; [|reflexivity].
  assert (G : forall j b, b + Z.of_nat j <= a -> load_n (over m a l) b j = load_n m b j).
  { induction j as [|j IH]; intros b' Hb; cbn [load_n]; [reflexivity|]. rewrite IH by lia. unfold over.
    destruct (Z.leb_spec a b'); [lia|]. reflexivity. }
  apply G. lia.
Qed.

Hypothesis on : ps_enabled cfg p = true.
Lemma turmoil_step sk left c m dest sz : turmoil sk left c -> some_bytes m sk (4 * n) -> 0 <= sz < 2 ^ 32 -> sz <= len dest ->
  let k := Z.min sz left in
  exists bs c', ts_sign cfg m dest sz c = Ok (k, bs ++ skipn (Z.to_nat k) dest, c') /\ len bs = k /\ is_bytes bs /\ turmoil sk (left - k) c'.
Proof.
  intros HT (B & LB & HB) Hsz Hd k. pose proof (turmoil_left _ _ _ HT) as Hleft.
  destruct HT as (E & E1 & E2 & E3 & s & o & HR & HL).
  assert (En : e_n E = n) by (unfold e_n, e_P; rewrite E2; reflexivity). pose proof (n_bounds E) as Nb. rewrite En in Nb.
  pose proof (proj1 HB) as BB.
  (* some environment of this context with which the call can be computed *)
  assert (X : exists E', alike E E' /\ (exists sks, sk_at E' sks) /\ ts_sign cfg m dest sz c = ts_sign cfg (e_mem E') dest sz c).
  { assert (Lsk : load m sk n = Ok (slice B 0 n)).
    { replace sk with (sk + 0) by lia. apply load_slice; [exact HB|lia|lia|lia]. }
    assert (Ssk : forall E', alike E E' -> str_ok E' (slice B 0 n)).
    { intros E' HE. pose proof En as En'. rewrite (alike_n _ _ HE) in En'. split; [rewrite En'; apply slice_zlen; [lia|lia|change (@zlen Z) with len; lia]|apply slice_bytes, BB]. }
    assert (D : (cfg_sha2_opt cfg = true /\ e_fam E <> FShake) \/ (cfg_sha2_opt cfg = true -> e_fam E <> FShake -> False)).
    { destruct (cfg_sha2_opt cfg); [destruct (e_fam E)|]; try (right; congruence); left; (split; [reflexivity|discriminate]). }
    destruct D as [[Eo Hf]|Hn].
    - set (m' := over m (sk + 2 * n) (e_seed E)).
      assert (H' : load m' (sk + 2 * n) (p_n (slh_of p)) = Ok (e_seed E)).
      { pose proof (holds_load _ _ _ (over_holds m (sk + 2 * n) (e_seed E) (e_seed_bytes E))) as Q.
        change (len (e_seed E)) with (zlen (e_seed E)) in Q. rewrite (seed_len E), En in Q. exact Q. }
      set (E1' := mkEnv cfg m' p (sk + 2 * n) (e_seed E) on H' (e_seed_bytes E)).
      assert (HA : alike E E1') by (split; [exact E1|split; [exact E2|split; [exact E3|reflexivity]]]).
      assert (Eb : load m' sk n = load m sk n) by (apply over_before; lia).
      exists E1'. split; [exact HA|]. split.
      { exists (slice B 0 n). split; [|exact (Ssk _ HA)]. change (e_mem E1') with m'. change (e_pk E1') with (sk + 2 * n). change (e_n E1') with n.
        replace (sk + 2 * n - 2 * n) with sk by lia. rewrite Eb. exact Lsk. }
      change (e_mem E1') with m'. pose proof (proj1 (n_shp _ _ _ _ HR)) as G.
      apply (sign_two_memories cfg m m' (e_ps E) (sk + 2 * n)).
      + intros d [D1 D2]. unfold call_prf. rewrite D1, (ps_prf_eq E).
        assert (X : ts_sha2_prf cfg m d = ts_sha2_prf cfg m' d).
        { unfold ts_sha2_prf, ts_sha256_init_ctx. rewrite Eo, D1, D2, (ps_n_eq E), En. cbv zeta. unfold CONVERT_PUBLIC_KEY_TO_SEC_SEED.
          replace (sk + 2 * n - 2 * n) with sk by lia. rewrite Eb. reflexivity. }
        destruct (e_fam E); [congruence|exact X|exact X].
      + intros i d [D1 D2]. unfold call_f. rewrite D1, (ps_f_eq E).
        assert (X : ts_sha2_f_simple cfg m i d = ts_sha2_f_simple cfg m' i d) by (unfold ts_sha2_f_simple, ts_sha256_init_ctx; rewrite Eo; reflexivity).
        destruct (e_fam E); [congruence|exact X|exact X].
      + intros it d [D1 D2]. unfold call_init_t. rewrite D1, (ps_init_eq E).
        destruct (e_fam E); [congruence|unfold ts_sha2_L1_init_t_simple, ts_sha256_init_ctx|unfold ts_sha2_L35_init_t_simple, ts_sha512_init_ctx]; rewrite Eo; reflexivity.
      + split; [exact (g_ps E c G)|rewrite (g_pk E c G); exact E3].
    - assert (H' : load m (sk + 2 * n) (p_n (slh_of p)) = Ok (slice B (2 * n) n)) by (apply load_slice; [exact HB|lia|lia|lia]).
      set (E1' := mkEnv cfg m p (sk + 2 * n) (slice B (2 * n) n) on H' (slice_bytes _ _ _ BB)).
      assert (HA : alike E E1') by (split; [exact E1|split; [exact E2|split; [exact E3|rewrite E1; intros A1 A2; destruct (Hn A1 A2)]]]).
      exists E1'. split; [exact HA|]. split; [|reflexivity].
      exists (slice B 0 n). split; [|exact (Ssk _ HA)]. change (e_mem E1') with m. change (e_pk E1') with (sk + 2 * n). change (e_n E1') with n.
      replace (sk + 2 * n - 2 * n) with sk by lia. exact Lsk. }
  destruct X as (E' & HA & (sks & Hsks) & ->).
  pose proof (Run_alike _ _ _ _ _ HA HR) as HR'. rewrite (remain_alike _ _ _ _ HA) in HL.
  destruct (sign_any E' sks Hsks dest sz s o c HR' Hsz Hd) as (bs & dest' & c' & s' & o' & ES & EW & Lbs & Bbs & HR2 & ER).
  cbv zeta in *. rewrite HL in *. fold k in ES, Lbs, ER.
  assert (C' : e_cfg E' = cfg) by (destruct HA as (<- & _); exact E1). rewrite C' in ES.
  exists bs, c'. split; [|split; [exact Lbs|split; [exact Bbs|]]].
  - rewrite ES. do 3 f_equal. rewrite wr_range_0 in EW by (change (@zlen Z) with len in *; lia). injection EW as <-. f_equal. f_equal.
    clear - Lbs. unfold zlen in Lbs. lia.
  - exists E'. split; [exact C'|]. destruct HA as (_ & A2 & A3 & _). split; [congruence|]. split; [congruence|]. exists s', o'. split; [exact HR2|exact ER].
Qed.

Definition sign_calls (rqs : list request) : list (memory * action) := map (fun r => (rq_mem r, Sign (rq_dest r) (rq_size r))) rqs.
Lemma turmoil_calls sk rqs : forall left c, turmoil sk left c ->
  Forall (fun r => some_bytes (rq_mem r) sk (4 * n) /\ 0 <= rq_size r < 2 ^ 32 /\ rq_size r <= len (rq_dest r)) rqs ->
  exists os c', calls cfg (sign_calls rqs) c = Ok (os, c') /\ well_answered left rqs os /\ wf_ctx cfg c'.
Proof.
  induction rqs as [|r rqs IH]; intros left c HT HF; cbn [sign_calls map calls].
  - exists [], c. split; [reflexivity|]. split; [exact I|]. exact (turmoil_wf _ _ _ HT).
  - inversion HF as [|? ? (A1 & A2 & A3) A4]; subst. cbn [calls call].
    destruct (turmoil_step sk left c (rq_mem r) (rq_dest r) (rq_size r) HT A1 A2 A3) as (bs & c1 & -> & L1 & B1 & T1). cbn [bind].
    destruct (IH _ c1 T1 A4) as (os & c' & EC & EW & W). fold (sign_calls rqs). rewrite EC. cbn [bind].
    eexists _, c'. split; [reflexivity|]. split; [|exact W]. cbn [well_answered]. split; [|exact EW]. exists bs. auto.
Qed.
End S.
