(** * Verification sessions with a key and a message that change *)
From Verif Require Import Arr SpecSLH SpecApi SpecMap SpecSessions SpecTurmoil ModelParams ModelCtx ModelHash ModelSphincs ModelVerify ModelApi
  PfGlueSha PfIter PfEnv PfAdr PfGlue PfMsg PfCtx PfTree PfPaths PfBits PfWots PfSpec PfSign PfVerify PfApi PfSession PfTwoMem PfTurmoil PfTurmoilApi PfTurmoilVer.
Ltac Zify.zify_post_hook ::= idtac.

Section S.
Variable cfg : config.
Variable p : ps_name.
Local Notation n := (p_n (slh_of p)).
Local Notation L := (slh_sig_length (slh_of p)).

Definition vturmoil (pk ma l fed : Z) (ok : bool) (c : ts_context) : Prop :=
  exists E, e_cfg E = cfg /\ e_p E = p /\ e_pk E = pk /\ good E c /\
  if ok then
    (fed < L -> exists s o, VRun E ma l s o c /\ vtot E s o = fed) /\
    (L <= fed -> c_state c = ts_verify_success /\ c_buffer_offset c = fed - L /\ fed < L + n)
  else c_state c = ts_verify_fail.

Lemma vturmoil_wf pk ma l fed ok c : vturmoil pk ma l fed ok c -> wf_ctx cfg c.
Proof using. intros (E & <- & _ & _ & G & _). apply (g_wf E c G). Qed.
Lemma shp_live E ma l s c : VShp E ma l s c -> (c_state c <=? ts_verify_state) || (ts_verify_fail <=? c_state c) = false /\ c_state c <> ts_verify_success.
Proof using.
  clear. intros (_ & _ & H). destruct s as [|i|i j|l' q|l' j].
  all: destruct H as [H _]; rewrite H; split; [reflexivity|discriminate].
Qed.
Lemma vturmoil_verdict pk ma l fed ok c : vturmoil pk ma l fed ok c -> ts_verify c = b2z (ok && (fed =? L)).
Proof using.
  intros (E & _ & _ & _ & G & H). unfold ts_verify. destruct ok; cbn [andb].
  - destruct H as [H1 H2]. destruct (Z.lt_ge_cases fed L) as [Hlt|Hge].
    + destruct (H1 Hlt) as (s & o & [HS _ _] & _). destruct (shp_live _ _ _ _ _ HS) as [_ Hn].
      destruct (Z.eqb_spec (c_state c) ts_verify_success); [contradiction|]. cbn [andb].
      destruct (Z.eqb_spec fed L); [lia|reflexivity].
    + destruct (H2 Hge) as (-> & -> & _). change (ts_verify_success =? ts_verify_success) with true. cbn [andb].
      destruct (Z.eqb_spec fed L), (Z.eqb_spec (fed - L) 0); try lia; reflexivity.
  - rewrite H. reflexivity.
Qed.
(** At the start *)
Lemma RVer_vturmoil pk PK ma l c : RVer cfg p pk PK ma l [] [] true c -> vturmoil pk ma l 0 true c.
Proof using.
  intros (BK & LK & BF & Hl & E & (E1 & E2 & E3 & E4) & G & _ & H & _).
  assert (HE : KE cfg p pk (slice PK 0 n) E) by (split; [exact E1|split; [exact E2|split; [exact E3|exact E4]]]).
  destruct (KE_facts _ _ _ _ _ HE) as (En & EP & Nb). pose proof (L_pos p) as Lp.
  exists E. split; [exact E1|]. split; [exact E2|]. split; [exact E3|]. split; [exact G|]. split; [|lia]. intros _.
  destruct (H ltac:(cbn; lia) (repeat 0 (Z.to_nat l))) with (tail := repeat 0 (Z.to_nat L)) as (s & o & [HI HO HRg _] & HV).
  { change (len []) with 0. intros. lia. } { apply zeros_bytes'. } { unfold len. rewrite repeat_length. lia. } { apply zeros_bytes'. }
  { cbn [app]. unfold len. rewrite repeat_length. lia. }
  change (len []) with 0 in HV. exists s, o. split; [|exact HV].
  destruct HI as (_ & R & HI). pose proof (vpos_range E s R) as Vp.
  assert (Es : s = VI).
  { unfold vtot in HV. assert (V0 : vpos E s = 0) by (pose proof (n_bounds E); nia). clear - R V0.
    destruct s as [|i|i j|l q|l j]; [reflexivity|exfalso..]; cbn [vrng vpos] in *; unfold fpos, hpos in *;
    pose proof (k_bounds E); pose proof (t_bounds E); pose proof (mh_bounds E); pose proof (wlen_eq E); pose proof (n_bounds E); nia. }
  subst s. split; [|exact HO|exact HRg]. split; [exact G|]. split; [exact R|]. destruct HI as (A1 & A2 & A3).
  split; [exact A1|]. split; [exact A2|]. rewrite A3. f_equal. unfold zlen. rewrite repeat_length. lia.
Qed.

Hypothesis on : ps_enabled cfg p = true.
Lemma vturmoil_step pk ma l fed ok c m chunk : vturmoil pk ma l fed ok c -> some_bytes m pk (2 * n) -> is_bytes chunk -> len chunk < 2 ^ 32 ->
  0 <= fed -> l < 2 ^ 60 -> (fed < n <= fed + len chunk -> some_bytes m ma l) ->
  let fed' := fed + len chunk in
  exists r c', ts_update_verify cfg m chunk (zlen chunk) c = Ok (b2z r, c') /\ vturmoil pk ma l fed' r c' /\
    (ok = false -> r = false) /\ (ok = true -> fed' < L -> r = true) /\ (fed < L < fed' -> r = false) /\
    (ok = true -> L <= fed -> r = (fed' <? L + n)).
Proof.
  intros HT (B & LB & HB) BC LC Hfed Hl Hmsg fed'. destruct HT as (E & E1 & E2 & E3 & G & HT).
  assert (En : e_n E = n) by (unfold e_n, e_P; rewrite E2; reflexivity). pose proof (n_bounds E) as Nb. rewrite En in Nb.
  assert (EPP : e_P E = slh_of p) by (unfold e_P; rewrite E2; reflexivity).
  pose proof (proj1 HB) as BB. pose proof (L_pos p) as Lp. assert (P0 : 0 <= len chunk) by (unfold len; lia).
  destruct ok.
  2:{ exists false, c. unfold ts_update_verify. rewrite HT. change ((ts_verify_fail <=? ts_verify_state) || (ts_verify_fail <=? ts_verify_fail)) with true. cbv iota.
      split; [reflexivity|]. split; [exists E; auto 10|]. split; [auto|]. split; [discriminate|]. split; [auto|discriminate]. }
  destruct HT as [H1 H2]. destruct (Z.lt_ge_cases fed L) as [Hlt|Hge].
  - destruct (H1 Hlt) as (s & o & HR & HV).
    (* some environment of this context with which the call can be computed *)
    assert (X : exists E', alike E E' /\ (forall i d, same_id (e_ps E') (e_pk E') d -> call_f cfg m i d = call_f cfg (e_mem E') i d) /\
                (forall it d, same_id (e_ps E') (e_pk E') d -> call_init_t cfg m it d = call_init_t cfg (e_mem E') it d)).
    { assert (D : (cfg_sha2_opt cfg = true /\ e_fam E <> FShake) \/ (cfg_sha2_opt cfg = true -> e_fam E <> FShake -> False)).
      { destruct (cfg_sha2_opt cfg); [destruct (e_fam E)|]; try (right; congruence); left; (split; [reflexivity|discriminate]). }
      destruct D as [[Eo Hf]|Hn].
      - set (m' := over m pk (e_seed E)).
        assert (H' : load m' pk (p_n (slh_of p)) = Ok (e_seed E)).
        { pose proof (holds_load _ _ _ (over_holds m pk (e_seed E) (e_seed_bytes E))) as Q.
          change (len (e_seed E)) with (zlen (e_seed E)) in Q. rewrite (seed_len E), En in Q. exact Q. }
        set (E1' := mkEnv cfg m' p pk (e_seed E) on H' (e_seed_bytes E)).
        assert (HA : alike E E1') by (split; [exact E1|split; [exact E2|split; [exact E3|reflexivity]]]).
        exists E1'. split; [exact HA|]. change (e_mem E1') with m'.
        assert (Ef : e_fam E1' <> FShake) by (unfold e_fam in *; rewrite E2 in Hf; exact Hf). split.
        + intros i d [D1 D2]. unfold call_f. rewrite D1, (ps_f_eq E1').
          assert (X : ts_sha2_f_simple cfg m i d = ts_sha2_f_simple cfg m' i d) by (unfold ts_sha2_f_simple, ts_sha256_init_ctx; rewrite Eo; reflexivity).
          destruct (e_fam E1'); [congruence|exact X|exact X].
        + intros it d [D1 D2]. unfold call_init_t. rewrite D1, (ps_init_eq E1').
          destruct (e_fam E1'); [congruence|unfold ts_sha2_L1_init_t_simple, ts_sha256_init_ctx|unfold ts_sha2_L35_init_t_simple, ts_sha512_init_ctx]; rewrite Eo; reflexivity.
      - assert (H' : load m pk (p_n (slh_of p)) = Ok (slice B 0 n)).
        { replace pk with (pk + 0) by lia. apply load_slice; [exact HB|lia|lia|lia]. }
        set (E1' := mkEnv cfg m p pk (slice B 0 n) on H' (slice_bytes _ _ _ BB)).
        assert (HA : alike E E1') by (split; [exact E1|split; [exact E2|split; [exact E3|rewrite E1; intros A1 A2; destruct (Hn A1 A2)]]]).
        exists E1'. split; [exact HA|]. split; reflexivity. }
    destruct X as (E' & HA & HF & HI).
    pose proof (VRun_alike _ _ _ _ _ _ _ HA HR) as HR'. rewrite (vtot_alike _ _ _ _ HA) in HV.
    assert (C' : e_cfg E' = cfg) by (destruct HA as (<- & _); exact E1).
    assert (En' : e_n E' = n) by (rewrite <- (alike_n _ _ HA); exact En).
    assert (EP' : e_P E' = slh_of p) by (rewrite <- (alike_P _ _ HA); exact EPP).
    assert (Ep' : e_p E' = p) by (destruct HA as (_ & <- & _); exact E2).
    assert (Epk' : e_pk E' = pk) by (destruct HA as (_ & _ & <- & _); exact E3).
    rewrite <- Epk' in HB. assert (LB' : len B = 2 * e_n E') by (rewrite En'; exact LB).
    rewrite <- C' in HF, HI.
    unfold ts_update_verify. destruct (shp_live _ _ _ _ _ (vr_shp _ _ _ _ _ _ HR)) as [-> _].
    destruct (vloop_any E' m ma l HF HI B HB LB' (Z.to_nat (zlen chunk) + 2) chunk 0 (zlen chunk) s o c HR') as (v & c' & EV & G' & A1 & A2).
    { rewrite HV, En'. intros X1 X2. destruct (Hmsg (conj X1 X2)) as (M & LM & HM). exists M. split.
      - rewrite <- LM. apply holds_load, HM.
      - split; [apply HM|]. change (zlen M) with (len M). lia. }
    { change (zlen chunk) with (len chunk). lia. } { lia. } { lia. } { exact BC. } { lia. }
    rewrite C' in EV. rewrite EV. rewrite HV, EP' in A1, A2. change (zlen chunk) with (len chunk) in A1, A2. fold fed' in A1, A2.
    destruct (Z.lt_ge_cases fed' L) as [Hl'|Hl'].
    + destruct (A1 Hl') as [-> (s' & o' & HR2 & HV2)]. exists true, c'. split; [reflexivity|].
      split; [|split; [discriminate|split; [auto|split; [lia|lia]]]].
      exists E'. split; [exact C'|]. split; [exact Ep'|]. split; [exact Epk'|]. split; [exact G'|]. split; [|lia]. intros _. exists s', o'. auto.
    + destruct (A2 Hl') as [[-> St] | (-> & Ef & St & Of)].
      * exists false, c'. split; [reflexivity|]. split; [exists E'; auto 10|]. split; [auto|]. split; [lia|]. split; [auto|lia].
      * exists true, c'. split; [reflexivity|]. split; [|split; [discriminate|split; [auto|split; [lia|lia]]]].
        exists E'. split; [exact C'|]. split; [exact Ep'|]. split; [exact Epk'|]. split; [exact G'|]. split; [lia|]. intros _.
        split; [exact St|]. split; [rewrite Of; lia|lia].
  - destruct (H2 Hge) as (St & Off & Hlim).
    unfold ts_update_verify. rewrite St. change ((ts_verify_success <=? ts_verify_state) || (ts_verify_fail <=? ts_verify_success)) with false. cbv iota.
    replace (Z.to_nat (zlen chunk) + 2)%nat with (Datatypes.S (Z.to_nat (zlen chunk) + 1)) by lia.
    destruct (success_loop cfg E c chunk m (Z.to_nat (zlen chunk) + 1) 0 (zlen chunk) (fed - L)) as (c' & G' & O' & EQ & S'); try assumption; change (zlen chunk) with (len chunk) in *; rewrite ?En; try lia.
    rewrite En in O', EQ. rewrite EQ.
    destruct (Z.ltb_spec (fed - L + len chunk) n) as [Hs|Hs].
    + exists true, c'. split; [reflexivity|]. split; [|split; [discriminate|split; [auto|split; [lia|]]]].
      * exists E. split; [exact E1|]. split; [exact E2|]. split; [exact E3|]. split; [exact G'|]. split; [lia|]. intros _. split; [exact S'|]. unfold fed'. split; lia.
      * intros _ _. destruct (Z.ltb_spec fed' (L + n)); [reflexivity|unfold fed' in *; lia].
    + eexists false, _. split; [reflexivity|]. split; [|split; [auto|split; [unfold fed'; lia|split; [auto|]]]].
      * exists E. split; [exact E1|]. split; [exact E2|]. split; [exact E3|]. split; [apply good_state; [unfold ts_verify_fail; lia|exact G']|]. reflexivity.
      * intros _ _. destruct (Z.ltb_spec fed' (L + n)); [unfold fed' in *; lia|reflexivity].
Qed.

Lemma vturmoil_calls pk ma l fs : l < 2 ^ 60 -> forall fed ok c, vturmoil pk ma l fed ok c -> 0 <= fed -> feeds_any p pk ma l fed fs ->
  exists os c' v, calls cfg (feed_calls fs) c = Ok (os, c') /\ ts_verify c' = v /\ well_judged L n fed ok fs os v /\ wf_ctx cfg c'.
Proof.
  intros Hl. induction fs as [|f fs IH]; intros fed ok c HT Hfed HF; cbn [feed_calls map calls].
  - exists [], c, (b2z (ok && (fed =? L))). split; [reflexivity|]. split; [exact (vturmoil_verdict _ _ _ _ _ _ HT)|]. split; [reflexivity|]. exact (vturmoil_wf _ _ _ _ _ _ HT).
  - cbn [feeds_any] in HF. cbv zeta in HF. destruct HF as (A1 & A2 & A3 & A4 & A5). cbn [calls call].
    destruct (vturmoil_step pk ma l fed ok c (fd_mem f) (fd_chunk f) HT A1 A2 A3 Hfed Hl A4) as (r & c1 & -> & T1 & R). cbn [bind].
    destruct (IH _ r c1 T1 ltac:(unfold len; lia) A5) as (os & c' & v & EC & EV & EW & W). fold (feed_calls fs). rewrite EC. cbn [bind].
    eexists _, c', v. split; [reflexivity|]. split; [exact EV|]. split; [|exact W]. cbn [well_judged]. exists r. destruct R as (R1 & R2 & R3 & R4). auto 10.
Qed.
End S.
