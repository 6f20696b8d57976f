(** * The programs that use the library *)
From Verif Require Import Arr SpecSLH SpecMap SpecForge SpecBinding SpecTest SpecApi SpecSessions ModelParams ModelCtx ModelSphincs ModelVerify ModelKeygen ModelApi ModelTest
  PfIter PfSpec PfApi PfKeygen PfComplete PfSession PfForge PfBind PropSign PropVerify PropApi.
Ltac Zify.zify_post_hook ::= idtac.

Lemma firstn_plus {A} a b (l : list A) : firstn (a + b) l = firstn a l ++ firstn b (skipn a l).
Proof. revert l; induction a as [|a IH]; intros [|x l]; cbn [Nat.add firstn skipn app]; [reflexivity|reflexivity|rewrite firstn_nil; reflexivity|rewrite IH; reflexivity]. Qed.

Lemma ok_inj' {A} (a b : A) : Ok a = Ok b -> a = b. Proof. intros H. injection H as H. exact H. Qed.

Lemma skipn_S_nth {A} (d : A) n : forall l, (n < length l)%nat -> skipn n l = nth n l d :: skipn (S n) l.
Proof. induction n as [|n IH]; intros [|x l] H; cbn [length] in H; [lia|reflexivity|lia|]. cbn [skipn nth]. apply IH. lia. Qed.

(** ** One update after another *)
Section Verify.
Variables (cfg : config) (p : ps_name).
Local Notation P := (slh_of p).
Local Notation L := (slh_sig_length (slh_of p)).
Local Notation ps := (the_ps cfg p).
Hypothesis on : ps_enabled cfg p = true.
Variables (m : memory) (pk msg : Z) (PK M : list Z).
Hypothesis HI : verify_init_ok cfg m msg M p pk PK.
Hypothesis HM : holds m msg M.
Local Notation V S := (slh_verify_internal P M S PK).
Local Notation at_fed c0 fs c := (exists os, calls cfg (verify_history m msg (len M) p pk fs) c0 = Ok (os, c)).
Local Notation mine := (map (Feed m)).

Lemma fed_mine ks : all_fed (mine ks) = concat ks.
Proof using. clear. unfold all_fed. rewrite map_map. cbn [fd_chunk]. rewrite map_id. reflexivity. Qed.
Lemma mine_ok ks : Forall is_bytes ks -> Forall (fun k => len k < 2 ^ 32) ks -> forall fed, feeds_ok p pk PK msg M fed (mine ks).
Proof using HI HM.
  intros B1 B2. induction ks as [|k ks IH]; intros fed; [exact I|]. cbn [map feeds_ok fd_mem fd_chunk].
  split; [apply HI|]. split; [exact (Forall_inv B1)|]. split; [exact (Forall_inv B2)|]. split; [intros _; exact HM|].
  apply IH; [exact (Forall_inv_tail B1)|exact (Forall_inv_tail B2)].
Qed.
Lemma start c : wf_ctx cfg c -> exists c1, ts_init_verify cfg m c msg (len M) ps pk = Ok c1 /\ at_fed c (mine []) c1.
Proof using on HI.
  intros W. destruct (verify_session cfg p c m msg M pk PK [] on W HI I) as (c1 & E & _).
  unfold verify_history, feed_calls in *. cbn [map calls call] in E. destruct (ts_init_verify cfg m c msg (len M) ps pk) as [c2|] eqn:E2; cbn [bind] in E; [|discriminate].
  exists c2. split; [reflexivity|]. cbn [map calls call]. rewrite E2. cbn [bind]. eexists. reflexivity.
Qed.
Lemma at_wf c0 ks c : wf_ctx cfg c0 -> Forall is_bytes ks -> Forall (fun k => len k < 2 ^ 32) ks -> at_fed c0 (mine ks) c -> wf_ctx cfg c /\ ts_verify c = b2z (V (concat ks)).
Proof using on HI HM.
  intros W B1 B2 (os & E). pose proof (mine_ok ks B1 B2 []) as HF.
  destruct (steps_verify cfg Fresh m msg M p pk PK (mine ks) on HI HF) as (M1 & fed1 & ok1 & HS & _ & _).
  destruct (simulation_steps cfg _ _ _ _ HS c0 W) as (c' & E' & HR). rewrite E in E'.
  assert (EC : c' = c) by congruence. rewrite EC in HR. split; [exact (Rel_wf cfg _ _ HR)|].
  destruct (verify_session cfg p c0 m msg M pk PK (mine ks) on W HI HF) as (c2 & E2 & HV). rewrite E in E2. assert (EC2 : c2 = c) by congruence. rewrite EC2 in HV.
  specialize (HV m). cbn [call] in HV. rewrite fed_mine in HV. congruence.
Qed.
Lemma feed1 c0 ks k c : wf_ctx cfg c0 -> Forall is_bytes ks -> Forall (fun k => len k < 2 ^ 32) ks -> is_bytes k -> len k < 2 ^ 32 ->
  at_fed c0 (mine ks) c -> len (concat ks) < L ->
  exists c', ts_update_verify cfg m k (len k) c = Ok (b2z (if len (concat ks ++ k) <? L then true else V (concat ks ++ k)), c') /\
    at_fed c0 (mine (ks ++ [k])) c'.
Proof using on HI HM.
  intros W B1 B2 B3 B4 (os & E) HL.
  assert (B1' : Forall is_bytes (ks ++ [k])) by (apply Forall_app; split; [exact B1|constructor; [exact B3|constructor]]).
  assert (B2' : Forall (fun k => len k < 2 ^ 32) (ks ++ [k])) by (apply Forall_app; split; [exact B2|constructor; [exact B4|constructor]]).
  pose proof (mine_ok _ B1' B2' []) as HF. destruct (verify_session cfg p c0 m msg M pk PK (mine (ks ++ [k])) on W HI HF) as (c' & E' & _).
  pose proof E' as E0. rewrite map_app in E'. cbn [map] in E'. rewrite answers_snoc in E'. cbn [app andb] in E'.
  rewrite <- map_cons with (f := Feed m) in E' || idtac.
  change (mine ks ++ [Feed m k]) with (mine ks ++ mine [k]) in E'. rewrite <- map_app in E'. rewrite !fed_mine in E'.
  assert (CC : concat (ks ++ [k]) = concat ks ++ k) by (rewrite concat_app; cbn [concat]; rewrite app_nil_r; reflexivity). rewrite CC in E'.
  assert (HH : verify_history m msg (len M) p pk (mine (ks ++ [k])) = verify_history m msg (len M) p pk (mine ks) ++ [(m, UpdateVerify k)]).
  { unfold verify_history, feed_calls. rewrite !map_app. reflexivity. }
  rewrite HH, (calls_app _ _ _ _ _ _ E) in E'. cbn [calls call] in E'.
  change (zlen k) with (len k) in E'. destruct (ts_update_verify cfg m k (len k) c) as [[r c2]|] eqn:EU; cbn [bind] in E'; [|discriminate].
  destruct (allone _) eqn:AO in E'.
  2:{ exfalso. rewrite answers_short in AO by (cbn [app]; rewrite fed_mine; exact HL).
      assert (X : forall l : list feed, allone (map (fun _ => Updated 1) l) = true) by (induction l as [|? l IHl]; [reflexivity|exact IHl]).
      rewrite X in AO. discriminate. }
  cbn [andb] in E'. destruct (Z.ltb_spec (len (concat ks)) L) as [_|]; [|lia].
  assert (EQ : os ++ [Updated r] = (Started :: verify_answers P M PK [] true (mine ks)) ++ [Updated (b2z (if len (concat ks ++ k) <? L then true else V (concat ks ++ k)))] /\ c2 = c') by (assert (EJ := ok_inj' _ _ E'); split; [exact (f_equal fst EJ)|exact (f_equal snd EJ)]).
  destruct EQ as [EQ EC]. apply app_inj_tail in EQ. destruct EQ as [_ EQ]. exists c2. split; [congruence|].
  rewrite HH, (calls_app _ _ _ _ _ _ E). cbn [calls call]. change (zlen k) with (len k). rewrite EU. cbn [bind]. eexists. reflexivity.
Qed.

(** ** [check] *)
Lemma check_ok c s k u v : wf_ctx cfg c -> is_bytes s -> 0 <= k <= len s -> k < 2 ^ 32 ->
  exists c', wf_ctx cfg c' /\ check cfg m ps pk msg (len M) s k u v c =
    Ok ((u =? b2z ((k <? L) || V (firstn (Z.to_nat k) s))) && (v =? b2z (V (firstn (Z.to_nat k) s))), c').
Proof using on HI HM.
  intros W B Hk Hk2. set (K := firstn (Z.to_nat k) s).
  assert (LK : len K = k) by (unfold K, len in *; rewrite firstn_length; lia).
  assert (BK : is_bytes K) by (apply Forall_firstn', B).
  unfold check. destruct (start c W) as (c1 & E1 & A1). rewrite E1. cbn [bind].
  rewrite rd_range_ok by (change (@zlen Z) with len; lia). cbn [skipn Z.to_nat bind]. fold K.
  assert (L0 : 0 < L) by (clear; destruct p; reflexivity).
  destruct (feed1 c [] K c1 W (Forall_nil _) (Forall_nil _) BK ltac:(lia) A1 L0) as (c2 & E2 & A2). rewrite LK in E2. rewrite E2. cbn [bind concat app]. rewrite LK.
  destruct (at_wf c ([] ++ [K]) c2 W ltac:(constructor; [exact BK|constructor]) ltac:(constructor; [lia|constructor]) A2) as [W2 V2]. cbn [concat app] in V2. rewrite app_nil_r in V2.
  assert (EB : (if k <? L then true else V K) = (k <? L) || V K) by (destruct (k <? L); reflexivity). rewrite EB.
  exists c2. split; [exact W2|]. rewrite V2. destruct (u =? b2z ((k <? L) || V K)); reflexivity.
Qed.

(** ** Chunks *)
Variable s : list Z.
Hypothesis Bs : is_bytes s.
Hypothesis Ls : L <= len s.
Local Notation sigma := (firstn (Z.to_nat L) s).
Hypothesis Good : V sigma = true.
Lemma L_range : 0 < L < 2 ^ 16.
Proof using. clear. destruct p; split; reflexivity. Qed.

Lemma feed_chunks_ok a c0 fuel : forall i ks c, 0 < a <= L -> 0 <= i -> Z.max 0 (L - i) < Z.of_nat fuel -> wf_ctx cfg c0 ->
  Forall is_bytes ks -> Forall (fun k => len k < 2 ^ 32) ks -> concat ks = firstn (Z.to_nat i) sigma -> at_fed c0 (mine ks) c ->
  exists c', wf_ctx cfg c' /\ feed_chunks cfg fuel m s L a i c = Ok (true, c') /\ ts_verify c' = 1.
Proof using on HI HM Bs Ls Good.
  pose proof L_range as LR. assert (LS : length sigma = Z.to_nat L) by (rewrite firstn_length; unfold len in Ls; lia).
  induction fuel as [|fuel IH]; intros i ks c Ha Hi Hf W B1 B2 EC A.
  - cbn [feed_chunks]. lia.
  - cbn [feed_chunks]. destruct (Z.ltb_spec i L) as [Hl|Hg].
    + assert (EU : u32 (L - i) = L - i) by (unfold u32; apply Z.mod_small; lia). rewrite EU.
      set (k := if a <? L - i then a else L - i). assert (Hk : 0 < k <= L - i) by (unfold k; destruct (Z.ltb_spec a (L - i)); lia).
      rewrite rd_range_ok by (change (@zlen Z) with len; lia). cbn [bind]. set (K := firstn (Z.to_nat k) (skipn (Z.to_nat i) s)).
      assert (LK : len K = k) by (unfold K, len in *; rewrite firstn_length, skipn_length; lia).
      assert (BK : is_bytes K) by (apply Forall_firstn', Forall_skipn', Bs).
      assert (EK : concat ks ++ K = firstn (Z.to_nat (i + k)) sigma).
      { rewrite EC, !firstn_firstn. unfold K. rewrite !Nat.min_l by lia. replace (Z.to_nat (i + k)) with (Z.to_nat i + Z.to_nat k)%nat by lia.
        rewrite firstn_plus. reflexivity. }
      assert (LC : len (concat ks) = i) by (rewrite EC; unfold len; rewrite firstn_length; lia).
      destruct (feed1 c0 ks K c W B1 B2 BK ltac:(lia) A ltac:(lia)) as (c1 & E1 & A1). rewrite LK in E1. rewrite E1. cbn [bind].
      assert (LEK : len (concat ks ++ K) = i + k) by (rewrite len_app; lia).
      assert (R1 : (if len (concat ks ++ K) <? L then true else V (concat ks ++ K)) = true).
      { rewrite LEK. destruct (Z.ltb_spec (i + k) L); [reflexivity|]. rewrite EK. rewrite firstn_all2 by lia. exact Good. }
      rewrite R1. cbn [b2z Z.eqb Pos.eqb negb].
      assert (EI : u32 (i + a) = i + a) by (unfold u32; apply Z.mod_small; lia). rewrite EI.
      apply (IH (i + a) (ks ++ [K])); [exact Ha|lia|lia|exact W| | | |exact A1].
      * apply Forall_app; split; [exact B1|constructor; [exact BK|constructor]].
      * apply Forall_app; split; [exact B2|constructor; [lia|constructor]].
      * rewrite concat_app. cbn [concat]. rewrite app_nil_r, EK. unfold k. destruct (Z.ltb_spec a (L - i)); [reflexivity|].
        etransitivity; [apply firstn_all2; lia|symmetry; apply firstn_all2; lia].
    + exists c. destruct (at_wf c0 ks c W B1 B2 A) as [Wc Vc]. split; [exact Wc|]. split; [reflexivity|].
      rewrite Vc, EC, firstn_all2 by lia. rewrite Good. reflexivity.
Qed.
Lemma all_chunk_sizes_ok filled fuel : (forall b, wf_ctx cfg (filled b)) -> forall a b c, 0 < b <= a -> a < 2 ^ 17 -> Z.max 0 (L - a) < Z.of_nat fuel -> wf_ctx cfg c ->
  exists c', wf_ctx cfg c' /\ all_chunk_sizes cfg fuel filled m ps pk msg (len M) s L a b c = Ok (true, c').
Proof using on HI HM Bs Ls Good.
  pose proof L_range as LR. intros WF. induction fuel as [|fuel IH]; intros a b c Hb Ha Hf W.
  - lia.
  - cbn [all_chunk_sizes]. destruct (Z.ltb_spec a L) as [Hl|Hg]; [|eauto]. cbv zeta.
    destruct (start (filled b) (WF b)) as (c1 & E1 & A1). rewrite E1. cbn [bind].
    destruct (feed_chunks_ok a (filled b) (S (Z.to_nat L)) 0 [] c1 ltac:(lia) ltac:(lia) ltac:(lia) (WF b) (Forall_nil _) (Forall_nil _) eq_refl A1) as (c2 & W2 & E2 & V2).
    rewrite E2. cbn [bind negb]. rewrite V2. cbn [Z.eqb Pos.eqb negb].
    assert (EU : u32 (a + b) = a + b) by (unfold u32; apply Z.mod_small; lia). rewrite EU.
    apply IH; [lia|lia|lia|exact W2].
Qed.

(** ** Flipped bits *)
Lemma flip_len S o b : 0 <= o < len S -> len (flipped S o b) = len S.
Proof using. clear. intros H. unfold flipped, len in *. rewrite app_length. cbn [length]. rewrite firstn_length, skipn_length. lia. Qed.
Lemma bit_byte x b : 0 <= x < 256 -> 0 <= b < 8 -> 0 <= Z.lxor x (2 ^ b) < 256.
Proof using.
  clear. intros Hx Hb. assert (H2 : 0 <= 2 ^ b < 2 ^ 8) by (split; [apply Z.pow_nonneg; lia|apply Z.pow_lt_mono_r; lia]).
  split; [apply Z.lxor_nonneg; lia|]. destruct (Z.eq_dec (Z.lxor x (2 ^ b)) 0) as [->|N]; [lia|].
  change 256 with (2 ^ 8). apply Z.log2_lt_pow2; [pose proof (Z.lxor_nonneg x (2 ^ b)); lia|].
  eapply Z.le_lt_trans; [apply Z.log2_lxor; lia|]. apply Z.max_lub_lt.
  - destruct (Z.eq_dec x 0) as [->|]; [reflexivity|]. apply Z.log2_lt_pow2; lia.
  - rewrite Z.log2_pow2; lia.
Qed.
Lemma flip_bytes_ok S o b : is_bytes S -> 0 <= o < len S -> 0 <= b < 8 -> is_bytes (flipped S o b).
Proof using.
  clear. intros B Ho Hb. unfold flipped. apply bytes_app; [apply Forall_firstn', B|]. constructor; [|apply Forall_skipn', B].
  apply bit_byte; [|exact Hb]. unfold is_bytes in B. rewrite Forall_forall in B. apply B. apply nth_In. unfold len in Ho. lia.
Qed.
Lemma flip_step T S r o b : T = S ++ r -> is_bytes S -> 0 <= o < len S -> 0 <= b < 8 ->
  bind (rd T o) (fun x => wr T o (u8 (Z.lxor x (Z.shiftl 1 b)))) = Ok (flipped S o b ++ r).
Proof using.
  clear. intros ET B Ho Hb. rewrite ET. unfold len in Ho.
  rewrite (rd_ok _ _ 0) by (unfold zlen; rewrite app_length; lia). cbn [bind]. rewrite app_nth1 by lia.
  rewrite wr_ok by (unfold zlen; rewrite app_length; lia). f_equal. unfold upd.
  rewrite Z.shiftl_mul_pow2, Z.mul_1_l by lia. unfold u8. rewrite Z.mod_small.
  2:{ apply bit_byte; [|exact Hb]. unfold is_bytes in B. rewrite Forall_forall in B. apply B. apply nth_In. lia. }
  unfold flipped. rewrite firstn_app, skipn_app. replace (Z.to_nat o - length S)%nat with 0%nat by lia.
  replace (Datatypes.S (Z.to_nat o) - length S)%nat with 0%nat by lia. cbn [firstn skipn]. rewrite app_nil_r, <- app_assoc. cbn [app].
  replace (Z.to_nat o + 1)%nat with (Datatypes.S (Z.to_nat o)) by lia. reflexivity.
Qed.
Lemma flip_twice S o b : 0 <= o < len S -> flipped (flipped S o b) o b = S.
Proof using.
  clear. intros H. unfold len in H. unfold flipped.
  assert (LF : length (firstn (Z.to_nat o) S) = Z.to_nat o) by (rewrite firstn_length; lia).
  rewrite firstn_app_exact by exact LF. rewrite app_nth2, LF, Nat.sub_diag by lia. cbn [nth].
  rewrite Z.lxor_assoc, Z.lxor_nilpotent, Z.lxor_0_r.
  rewrite skipn_app, LF, skipn_all2 by lia. replace (Z.to_nat o + 1 - Z.to_nat o)%nat with 1%nat by lia. cbn [skipn app].
  rewrite <- (firstn_skipn (Z.to_nat o) S) at 4. f_equal.
  replace (Z.to_nat o + 1)%nat with (Datatypes.S (Z.to_nat o)) by lia. symmetry. apply skipn_S_nth. lia.
Qed.

(** ** The loops over bits and bytes *)
Variable fast : bool.
Variables (filled : Z -> ts_context).
Hypothesis WF : forall b, wf_ctx cfg (filled b).
Local Notation inc := (if fast then 5 else 1).
Local Notation binc := (if fast then 8 else 1).
Variable r : list Z.
Hypothesis Br : is_bytes r.

Lemma flip_bits_ok S o fuel : is_bytes S -> len S = L -> 0 <= o < L -> forall bit c, 0 <= bit -> (bit = 8 \/ bit < 8) -> 8 - bit < Z.of_nat fuel -> wf_ctx cfg c ->
  exists ok S' c', wf_ctx cfg c' /\ flip_bits cfg fuel filled m ps pk msg (len M) L binc o bit (S ++ r) c = Ok (ok, S', c') /\
    (ok = true -> S' = S ++ r) /\
    (ok = true <-> forall b, bit <= b < 8 -> (fast = true -> b = bit) -> V (flipped S o b) = false).
Proof using on HI HM WF Br s.
  intros BS LS Ho. pose proof L_range as LR. induction fuel as [|fuel IH]; intros bit c Hb Hb8 Hf W.
  - lia.
  - cbn [flip_bits]. destruct (Z.ltb_spec bit 8) as [Hl|Hg].
    + pose proof (flip_step (S ++ r) S r o bit eq_refl BS ltac:(lia) ltac:(lia)) as F1.
      destruct (rd (S ++ r) o) as [x|]; cbn [bind] in F1 |- *; [|discriminate]. rewrite F1. cbn [bind].
      set (F := flipped S o bit) in *. assert (LF : len F = L) by (unfold F; rewrite flip_len; lia).
      assert (BF : is_bytes F) by (apply flip_bytes_ok; [exact BS|lia|lia]).
      assert (BFr : is_bytes (F ++ r)) by (apply bytes_app; assumption).
      cbv zeta. destruct (check_ok (filled (o + bit)) (F ++ r) L 0 0 (WF _) BFr ltac:(rewrite len_app; unfold len in *; lia) ltac:(lia)) as (c1 & W1 & E1).
      rewrite E1. cbn [bind]. assert (EF : firstn (Z.to_nat L) (F ++ r) = F) by (apply firstn_app_exact; unfold len in LF; lia). rewrite EF.
      destruct (Z.ltb_spec L L) as [|_]; [lia|]. cbn [orb]. destruct (V F) eqn:EV; cbn [b2z Z.eqb andb negb].
      * exists false, (F ++ r), c1. split; [exact W1|]. split; [reflexivity|]. split; [discriminate|]. split; [discriminate|]. intros H.
        exfalso. specialize (H bit ltac:(lia) ltac:(reflexivity)). fold F in H. congruence.
      * pose proof (flip_step (F ++ r) F r o bit eq_refl BF ltac:(lia) ltac:(lia)) as F2.
        destruct (rd (F ++ r) o) as [y|]; cbn [bind] in F2 |- *; [|discriminate]. rewrite F2. cbn [bind]. unfold F at 1. rewrite flip_twice by lia.
        assert (EU : u32 (bit + binc) = bit + binc) by (unfold u32; apply Z.mod_small; destruct fast; lia). rewrite EU.
        destruct fast eqn:Efast.
        -- rewrite (proj2 (Z.ltb_ge (bit + 8) 8)) || idtac.
           destruct fuel as [|fuel']; [lia|]. cbn [flip_bits]. destruct (Z.ltb_spec (bit + 8) 8); [lia|].
           exists true, (S ++ r), c1. split; [exact W1|]. split; [reflexivity|]. split; [reflexivity|]. split; [|reflexivity].
           intros _ b Hb' Hb2. rewrite (Hb2 eq_refl). exact EV.
        -- destruct (IH (bit + 1) c1 ltac:(lia) ltac:(lia) ltac:(lia) W1) as (ok & S' & c' & W' & E' & Q1 & Q2).
           exists ok, S', c'. split; [exact W'|]. split; [exact E'|]. split; [exact Q1|]. rewrite Q2. split.
           ++ intros H b Hb' _. destruct (Z.eq_dec b bit) as [->|]; [exact EV|apply H; [lia|discriminate]].
           ++ intros H b Hb' _. apply H; [lia|discriminate].
    + exists true, (S ++ r), c. split; [exact W|]. split; [reflexivity|]. split; [reflexivity|]. split; [|reflexivity]. intros _ b Hb'. lia.
Qed.
Lemma flip_all_ok S fuel : is_bytes S -> len S = L -> forall o c, 0 <= o -> (fast = true -> o mod 5 = 0) -> Z.max 0 (L - o) < Z.of_nat fuel -> wf_ctx cfg c ->
  exists ok S' c', wf_ctx cfg c' /\ flip_bytes cfg fuel filled m ps pk msg (len M) L inc binc o (S ++ r) c = Ok (ok, S', c') /\
    (ok = true -> S' = S ++ r) /\
    (ok = true <-> forall o' b, o <= o' < L -> 0 <= b < 8 -> (fast = true -> o' mod 5 = 0 /\ b = 0) -> V (flipped S o' b) = false).
Proof using on HI HM WF Br s.
  intros BS LS. induction fuel as [|fuel IH]; intros o c Ho Hm Hf W.
  - lia.
  - cbn [flip_bytes]. destruct (Z.ltb_spec o L) as [Hl|Hg].
    + destruct (flip_bits_ok S o 9 BS LS ltac:(lia) 0 c ltac:(lia) ltac:(lia) ltac:(lia) W) as (ok & S' & c' & W' & E' & Q1 & Q2).
      rewrite E'. cbn [bind]. destruct ok; cbn [negb].
      * rewrite (Q1 eq_refl). assert (HB := proj1 Q2 eq_refl).
        destruct (IH (o + inc) c' ltac:(destruct fast; lia) ltac:(intros Ef; rewrite Ef in *; specialize (Hm eq_refl); rewrite <- Z.add_mod_idemp_l, Hm by lia; reflexivity) ltac:(destruct fast; lia) W')
          as (ok2 & S2 & c2 & W2 & E2 & Q3 & Q4).
        exists ok2, S2, c2. split; [exact W2|]. split; [exact E2|]. split; [exact Q3|]. rewrite Q4. split.
        -- intros H o' b Ho' Hb Hfm. destruct (Z.eq_dec o' o) as [->|].
           { apply HB; [lia|]. intros Ef. apply (Hfm Ef). }
           apply H; [|exact Hb|exact Hfm]. destruct fast; [|lia]. destruct (Hfm eq_refl) as [Hf5 _]. specialize (Hm eq_refl).
           clear - Hf5 Hm Ho' n. pose proof (Z.div_mod o 5 ltac:(lia)). pose proof (Z.div_mod o' 5 ltac:(lia)). lia.
        -- intros H o' b Ho' Hb Hfm. apply H; [destruct fast; lia|exact Hb|exact Hfm].
      * exists false, S', c'. split; [exact W'|]. split; [reflexivity|]. split; [discriminate|]. split; [discriminate|]. intros H. exfalso.
        enough (false = true) by discriminate. apply Q2. intros b Hb Hbf. apply H; [lia|lia|]. intros Ef. split; [apply Hm, Ef|apply Hbf, Ef].
    + exists true, (S ++ r), c. split; [exact W|]. split; [reflexivity|]. split; [reflexivity|]. split; [|reflexivity]. intros _ o' b Ho'. lia.
Qed.
End Verify.
