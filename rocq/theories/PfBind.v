(** * The rest of a signature is bound to the leaves that the digest selects *)
From Verif Require Import Arr SpecSLH SpecMap SpecUses SpecForge SpecBinding SpecApi ModelParams PfIter PfEnv PfGlue PfTree PfBits PfWots PfSpec PfApi PfKeygen PfComplete PfUses PfForge.
Ltac Zify.zify_post_hook ::= idtac.

Definition use_dec (u v : use) : {u = v} + {u <> v}.
Proof. decide equality; apply Z.eq_dec. Defined.
Definition call_dec (a b : use * list Z) : {a = b} + {a <> b}.
Proof. decide equality; [apply list_eq_dec, Z.eq_dec|apply use_dec]. Defined.

Section Bind.
Variable P : params.
Hypothesis OK : par_ok P.
Variable PKseed : list Z.
Local Notation n := (p_n P).
Local Notation nb := (fun X : list Z => zlen X = n /\ is_bytes X).
Local Notation trace := (list (use * list Z)).
Hypothesis Hn : 0 < n.
Hypothesis Hok : forall u X, hash_use u -> is_bytes X -> nb (hash_at P PKseed u X).
Hypothesis Hdig : forall M i, 0 <= nth i (wots_msg P M) 0 <= w P - 1.
Hypothesis Hinc : forall M M', nb M -> nb M' -> M <> M' -> exists i, 0 <= i < wlen P /\
  nth (Z.to_nat i) (wots_msg P M') 0 < nth (Z.to_nat i) (wots_msg P M) 0.

Definition coin (T1 T2 : trace) : Prop :=
  exists u X v Y, In (u, X) T1 /\ In (v, Y) T2 /\ (u, X) <> (v, Y) /\ hash_at P PKseed u X = hash_at P PKseed v Y.
Definition no_coin (T1 T2 : trace) : Prop :=
  forall u X v Y, In (u, X) T1 -> In (v, Y) T2 -> hash_at P PKseed u X = hash_at P PKseed v Y -> u = v /\ X = Y.
Lemma coin_dec T1 T2 : coin T1 T2 \/ no_coin T1 T2.
Proof using P PKseed.
  clear OK Hn Hok Hdig Hinc.
  destruct (List.Exists_dec (fun a => Exists (fun b => a <> b /\ hash_at P PKseed (fst a) (snd a) = hash_at P PKseed (fst b) (snd b)) T2) T1) as [E|N].
  - intros a. apply List.Exists_dec. intros b. destruct (call_dec a b) as [|D]; [right; tauto|].
    destruct (list_eq_dec Z.eq_dec (hash_at P PKseed (fst a) (snd a)) (hash_at P PKseed (fst b) (snd b))); [left|right]; tauto.
  - left. apply Exists_exists in E. destruct E as ([u X] & I1 & E). apply Exists_exists in E. destruct E as ([v Y] & I2 & D & H).
    exists u, X, v, Y. auto.
  - right. intros u X v Y I1 I2 H. destruct (call_dec (u, X) (v, Y)) as [E|D]; [injection E; auto|].
    exfalso. apply N. apply Exists_exists. exists (u, X). split; [exact I1|]. apply Exists_exists. exists (v, Y). auto.
Qed.
Lemma no_coin_incl T1 T2 T1' T2' : incl T1 T1' -> incl T2 T2' -> no_coin T1' T2' -> no_coin T1 T2.
Proof using P PKseed. intros I1 I2 H u X v Y H1 H2. apply H; auto. Qed.
Lemma no_coll T1 T2 : no_coin T1 T2 -> ~ coll P PKseed T1 T2.
Proof using P PKseed. intros N (u & X & Y & H1 & H2 & D & E). apply D. apply (N u X u Y H1 H2 E). Qed.

(** ** Paths with the same siblings *)
Lemma path_bind u1 left1 u2 left2 auth js : forall node1 node2,
  (forall j, hash_use (u1 j)) -> (forall j, hash_use (u2 j)) ->
  (forall j, In j js -> nb (auth j)) -> nb node1 -> nb node2 ->
  no_coin (path_inputs P PKseed u1 left1 auth node1 js) (path_inputs P PKseed u2 left2 auth node2 js) ->
  climb P PKseed u1 left1 auth js node1 = climb P PKseed u2 left2 auth js node2 -> node1 = node2.
Proof using P PKseed Hok.
  induction js as [|j js IH]; intros node1 node2 U1 U2 A N1 N2 NC E; [exact E|].
  pose proof (A j (or_introl eq_refl)) as B.
  assert (EJ : u1 j = u2 j /\ joined left1 auth j node1 = joined left2 auth j node2).
  { apply NC; [left; reflexivity|left; reflexivity|]. apply (IH _ _ U1 U2).
    - intros i Hi. apply A. right. exact Hi.
    - apply Hok; [apply U1|apply (joined_bytes P); assumption].
    - apply Hok; [apply U2|apply (joined_bytes P); assumption].
    - eapply no_coin_incl; [| |exact NC]; cbn [path_inputs]; apply incl_tl, incl_refl.
    - exact E. }
  destruct EJ as [_ EJ]. unfold joined in EJ. destruct B as [L _], N1 as [L1 _], N2 as [L2 _].
  destruct (left1 j), (left2 j); apply app_inj_z in EJ; try congruence; destruct EJ; congruence.
Qed.

(** ** XMSS *)
Local Notation wl := (wlen P).
Local Notation h' := (p_h' P).
Lemma xmss_bind l t idx1 idx2 S M1 M2 : xparts_ok P S -> nb M1 -> nb M2 ->
  no_coin (xmss_inputs P PKseed l t idx1 S M1) (xmss_inputs P PKseed l t idx2 S M2) ->
  xmss_pkFromSig P PKseed idx1 S M1 (mkADRS l t 0 0 0 0) = xmss_pkFromSig P PKseed idx2 S M2 (mkADRS l t 0 0 0 0) ->
  idx1 = idx2 /\ (M1 = M2 \/
  exists c, 0 <= c < wl /\ ahead P PKseed l t idx1 c M1 (slice S (c * n) n) M2 (slice S (c * n) n)).
Proof using P PKseed OK Hn Hok Hdig Hinc.
  intros HS HM1 HM2 NC E. pose proof (o_h' _ OK) as Oh. pose proof (o_wlen _ OK) as Ow.
  assert (PP : forall i, 0 <= i < wl -> nb (slice (slice S 0 (wl * n)) (i * n) n)) by (intros i Hi; rewrite (sub_part P PKseed Hn Hok Hdig Hinc) by exact Hi; apply HS; lia).
  assert (Q : forall idx M, nb (wots_pkFromSig P PKseed (slice S 0 (wl * n)) M (mkADRS l t WOTS_HASH idx 0 0))).
  { intros idx M. apply (wots_pk_ok1 P PKseed Hok); assumption. }
  assert (EI : idx1 = idx2).
  { pose proof E as E0. rewrite !(xmss_eq P PKseed) in E0. apply path_bind in E0; [|intros j; exact I|intros j; exact I| |apply Q|apply Q|].
    - change (wots_pkFromSig P PKseed (slice S 0 (wl * n)) M1 (mkADRS l t WOTS_HASH idx1 0 0)) with
        (hash_at P PKseed (WotsKey l t idx1) (flat_map (chain_end P PKseed l t idx1 (slice S 0 (wl * n)) M1) (upto wl))) in E0.
      change (wots_pkFromSig P PKseed (slice S 0 (wl * n)) M2 (mkADRS l t WOTS_HASH idx2 0 0)) with
        (hash_at P PKseed (WotsKey l t idx2) (flat_map (chain_end P PKseed l t idx2 (slice S 0 (wl * n)) M2) (upto wl))) in E0.
      apply NC in E0.
      + destruct E0 as [E0 _]. congruence.
      + unfold xmss_inputs. apply in_or_app. left. apply in_or_app. right. left. reflexivity.
      + unfold xmss_inputs. apply in_or_app. left. apply in_or_app. right. left. reflexivity.
    - intros j Hj. apply in_upto in Hj. apply HS. lia.
    - eapply no_coin_incl; [| |exact NC]; unfold xmss_inputs; apply incl_appr, incl_refl. }
  split; [exact EI|]. rewrite <- EI in *. 
  destruct (xmss_break P OK PKseed Hn Hok Hdig Hinc l t idx1 S S M1 M2 HS HS HM1 HM2 E) as [C|[[EM _]|(c & c' & Hc & Hc' & Q1 & Q2)]].
  - exfalso. exact (no_coll _ _ NC C).
  - left. exact EM.
  - right. exists c. auto.
Qed.

(** ** The hypertree *)
Local Notation XL := ((h' + wl) * n).
Definition returns (SIG : list Z) : Prop :=
  exists layer tree leaf c from to, 0 <= layer < p_d P /\ 0 <= c < wl /\ 0 <= from < to /\ to <= w P - 1 /\
    chain P PKseed (layer_part P SIG layer c) from (Z.to_nat (to - from)) (mkADRS layer tree WOTS_HASH leaf c 0) = layer_part P SIG layer c.
Lemma ht_bind SIG layers : forall j M1 M2 t1 t2 leaf1 leaf2, 0 <= j -> j + Z.of_nat (S layers) <= p_d P ->
  (forall m c, 0 <= m < p_d P -> 0 <= c < wl + h' -> nb (layer_part P SIG m c)) -> nb M1 -> nb M2 ->
  up_tree P t1 (Z.of_nat layers) = up_tree P t2 (Z.of_nat layers) ->
  no_coin (ht_inputs P PKseed (S layers) j M1 SIG t1 leaf1) (ht_inputs P PKseed (S layers) j M2 SIG t2 leaf2) ->
  ht_root_from P PKseed (S layers) j M1 SIG t1 leaf1 = ht_root_from P PKseed (S layers) j M2 SIG t2 leaf2 ->
  (t1 = t2 /\ leaf1 = leaf2 /\ M1 = M2) \/ returns SIG.
Proof using P PKseed OK Hn Hok Hdig Hinc.
  induction layers as [|ls IH]; intros j M1 M2 t1 t2 leaf1 leaf2 Hj Hd HS HM1 HM2 ET NC E;
    pose proof (o_h' _ OK) as Oh; pose proof (o_wlen _ OK) as Ow; set (X := slice SIG (j * XL) XL) in *.
  all: assert (XP : xparts_ok P X) by (intros i Hi; unfold X; rewrite (part_of_layer P OK PKseed Hn Hok Hdig Hinc) by assumption; apply HS; lia).
  all: assert (K : forall t, no_coin (xmss_inputs P PKseed j t leaf1 X M1) (xmss_inputs P PKseed j t leaf2 X M2) ->
         xmss_pkFromSig P PKseed leaf1 X M1 (mkADRS j t 0 0 0 0) = xmss_pkFromSig P PKseed leaf2 X M2 (mkADRS j t 0 0 0 0) ->
         (leaf1 = leaf2 /\ M1 = M2) \/ returns SIG).
  1,3: intros t NC' E'; destruct (xmss_bind j t leaf1 leaf2 X M1 M2 XP HM1 HM2 NC' E') as [EL [EM|(c & Hc & Q1 & Q2 & Q3)]]; [left; auto|right];
       unfold X in Q3; rewrite (part_of_layer P OK PKseed Hn Hok Hdig Hinc) in Q3 by lia;
       exists j, t, leaf1, c, (position P M1 c), (position P M2 c); split; [lia|]; split; [exact Hc|]; split; [exact Q1|]; split; [exact Q2|exact Q3].
  - unfold up_tree in ET. cbn [Z.of_nat] in ET. rewrite Z.mul_0_r in ET. cbn [Z.pow] in ET. rewrite !Z.div_1_r in ET. rewrite <- ET in *. 
    destruct (K t1) as [[EL EM]|R]; [| |auto|auto].
    + eapply no_coin_incl; [| |exact NC]; cbn [ht_inputs]; cbv zeta; apply incl_appl, incl_refl.
    + exact E.
  - cbn [ht_inputs] in NC. cbv zeta in NC. cbn [ht_root_from] in E. cbv zeta in E.
    change (setTreeAddress t1 (setLayerAddress j zero_ADRS)) with (mkADRS j t1 0 0 0 0) in *.
    change (setTreeAddress t2 (setLayerAddress j zero_ADRS)) with (mkADRS j t2 0 0 0 0) in *. fold X in NC, E.
    destruct (IH (j + 1) (xmss_pkFromSig P PKseed leaf1 X M1 (mkADRS j t1 0 0 0 0)) (xmss_pkFromSig P PKseed leaf2 X M2 (mkADRS j t2 0 0 0 0))
      (t1 / 2 ^ h') (t2 / 2 ^ h') (t1 mod 2 ^ h') (t2 mod 2 ^ h')) as [(E1 & E2 & E3)|R]; [lia|lia|exact HS| | | | | | |right; exact R].
    + apply (xmss_ok P OK PKseed Hn Hok Hdig Hinc), XP.
    + apply (xmss_ok P OK PKseed Hn Hok Hdig Hinc), XP.
    + rewrite !(up_tree_S P OK PKseed Hok Hdig Hinc) by lia. replace (Z.of_nat ls + 1) with (Z.of_nat (S ls)) by lia. exact ET.
    + eapply no_coin_incl; [| |exact NC]; apply incl_appr, incl_refl.
    + exact E.
    + assert (Et : t1 = t2).
      { pose proof (pow2_pos h' ltac:(lia)). rewrite (Z.div_mod t1 (2 ^ h')), (Z.div_mod t2 (2 ^ h')), E1, E2 by lia. reflexivity. }
      rewrite <- Et in *. destruct (K t1) as [[EL EM]|R]; [| |auto|auto].
      * eapply no_coin_incl; [| |exact NC]; apply incl_appl, incl_refl.
      * exact E3.
Qed.

(** ** FORS *)
Local Notation a := (p_a P).
Local Notation k := (p_k P).
Lemma fors_bind t leaf md1 md2 F : (forall i j, 0 <= i < k -> 0 <= j < a + 1 -> nb (fors_part P F i j)) ->
  no_coin (fors_inputs P PKseed t leaf F md1) (fors_inputs P PKseed t leaf F md2) ->
  fors_pkFromSig P PKseed F md1 (mkADRS 0 t FORS_TREE leaf 0 0) = fors_pkFromSig P PKseed F md2 (mkADRS 0 t FORS_TREE leaf 0 0) ->
  forall i, 0 <= i < k -> nth (Z.to_nat i) (base_2b md1 a k) 0 = nth (Z.to_nat i) (base_2b md2 a k) 0.
Proof using P PKseed OK Hn Hok Hdig Hinc.
  intros HF NC E. rewrite !(fors_inputs_eq P PKseed) in NC. pose proof (o_a _ OK) as Oa.
  set (r1 := fun i => fors_root_from P PKseed F i (nth (Z.to_nat i) (base_2b md1 a k) 0) (mkADRS 0 t FORS_TREE leaf 0 0)) in NC.
  set (r2 := fun i => fors_root_from P PKseed F i (nth (Z.to_nat i) (base_2b md2 a k) 0) (mkADRS 0 t FORS_TREE leaf 0 0)) in NC.
  assert (EE : flat_map r1 (upto k) = flat_map r2 (upto k)).
  { apply (NC (ForsKey t leaf) _ (ForsKey t leaf) _); [apply in_or_app; right; left; reflexivity|apply in_or_app; right; left; reflexivity|exact E]. }
  assert (RO : forall md i, 0 <= i < k -> zlen (fors_root_from P PKseed F i (nth (Z.to_nat i) (base_2b md a k) 0) (mkADRS 0 t FORS_TREE leaf 0 0)) = n).
  { intros md i Hi. apply (fors_root_ok P OK PKseed Hok Hdig Hinc t leaf md [] [] F i HF Hi). }
  assert (ER := flat_eq r1 r2 n k ltac:(lia) (RO md1) (RO md2) EE).
  intros i Hi. specialize (ER i Hi). unfold r1, r2 in ER. rewrite !(fors_root_eq P PKseed) in ER.
  assert (IN : forall md rest, incl (tree_inputs P PKseed t leaf md F i) (flat_map (tree_inputs P PKseed t leaf md F) (upto k) ++ rest)).
  { intros md rest x Hx. apply in_or_app. left. apply in_flat_map. exists i. split; [|exact Hx]. rewrite upto_zrange. apply zrange_in, Hi. }
  assert (N0 : forall md, nb (fnode0 P PKseed t leaf md F i)) by (intros md; apply Hok; [exact I|apply HF; lia]).
  apply path_bind in ER; [|intros j; exact I|intros j; exact I| |apply N0|apply N0|].
  - unfold fnode0 in ER. apply NC in ER; [|apply (IN md1); left; reflexivity|apply (IN md2); left; reflexivity].
    destruct ER as [EU _]. injection EU as EU. lia.
  - intros j Hj. apply in_upto in Hj. apply HF; lia.
  - eapply no_coin_incl; [| |exact NC]; (eapply incl_tran; [|apply IN]); apply incl_tl, incl_refl.
Qed.
End Bind.

(** ** For the parameter sets *)
Section Top.
Variable p : ps_name.
Local Notation P := (slh_of p).
Local Notation n := (p_n (slh_of p)).
Variables (PK M1 M2 S1 S2 : list Z).
Hypothesis BP : is_bytes PK.
Hypothesis LP : len PK = 2 * n.
Hypothesis BS1 : is_bytes S1.
Hypothesis V1 : slh_verify_internal P M1 S1 PK = true.
Hypothesis V2 : slh_verify_internal P M2 S2 PK = true.
Hypothesis ER : skipn (Z.to_nat n) S1 = skipn (Z.to_nat n) S2.
Local Notation seed := (slice PK 0 n).
Local Notation FO := (p_k P * (1 + p_a P)).
Local Notation HO := (p_h P + p_d P * wlen P).
Local Notation F S := (slice S n (FO * n)).
Local Notation HT S := (slice S ((1 + FO) * n) (HO * n)).
Lemma idx_tree_small D : up_tree P (idx_tree_of P D) (p_d P - 1) = 0.
Proof using.
  clear. unfold up_tree. apply Z.div_small. pose proof (par_pos p) as (Pk & Pa & Pd & Ph & Pw & EH).
  assert (EE : p_h P - p_h P / p_d P = p_h' P * (p_d P - 1)) by (destruct p; reflexivity).
  unfold idx_tree_of. rewrite EE. apply Z.mod_pos_bound. apply pow2_pos. nia.
Qed.
Theorem bound : selects P (message_digest P M1 S1 PK) = selects P (message_digest P M2 S2 PK) \/
  coincidence P PK M1 S1 M2 S2 \/ chain_returns P PK S1.
Proof.
  pose proof (nbnd p) as Nb. pose proof (par_pos p) as (Pk & Pa & Pd & Ph & Pw & EH). pose proof (par_slh p) as OK.
  pose proof (sig_len p PK M1 S1 V1) as L1.
  assert (Ls : zlen seed = n) by (apply slice_zlen; [lia|lia|change (@zlen Z) with len; lia]).
  assert (Bs : is_bytes seed) by apply slice_bytes, BP.
  assert (ES : forall o l, n <= o -> slice S2 o l = slice S1 o l).
  { intros o l Ho. unfold slice. replace (Z.to_nat o) with (Z.to_nat n + Z.to_nat (o - n))%nat by lia. rewrite <- !skipn_skipn'.
    rewrite ER. reflexivity. }
  set (D1 := message_digest P M1 S1 PK). set (D2 := message_digest P M2 S2 PK).
  assert (W1 : ht_root P seed (fors_pkFromSig P seed (F S1) (md_of P D1) (fors_ADRS P D1)) (HT S1) (idx_tree_of P D1) (idx_leaf_of P D1) = slice PK n n).
  { unfold slh_verify_internal in V1. destruct (negb _); [discriminate|]. apply bytes_eqb_eq. exact V1. }
  assert (W2 : ht_root P seed (fors_pkFromSig P seed (F S1) (md_of P D2) (fors_ADRS P D2)) (HT S1) (idx_tree_of P D2) (idx_leaf_of P D2) = slice PK n n).
  { rewrite <- (ES n (FO * n)), <- (ES ((1 + FO) * n) (HO * n)) by nia.
    unfold slh_verify_internal in V2. destruct (negb _); [discriminate|]. apply bytes_eqb_eq. exact V2. }
  rewrite <- W2 in W1. clear W2.
  destruct (coin_dec P seed (verify_inputs P M1 S1 PK) (verify_inputs P M2 S2 PK)) as [C|NC]; [right; left; exact C|].
  unfold verify_inputs in NC. rewrite (ES n (FO * n)), (ES ((1 + FO) * n) (HO * n)) in NC by nia. fold D1 D2 in NC. cbv zeta in NC.
  change (fors_ADRS P D1) with (mkADRS 0 (idx_tree_of P D1) FORS_TREE (idx_leaf_of P D1) 0 0) in *.
  change (fors_ADRS P D2) with (mkADRS 0 (idx_tree_of P D2) FORS_TREE (idx_leaf_of P D2) 0 0) in *.
  assert (FP : forall i j, 0 <= i < p_k P -> 0 <= j < p_a P + 1 -> zlen (fors_part P (F S1) i j) = n /\ is_bytes (fors_part P (F S1) i j)).
  { intros i j Hi Hj. destruct (fpart_eq p S1 i j L1 Hi Hj) as [-> R]. apply (nb_part p); [exact BS1|exact L1|]. nia. }
  assert (LQ : forall l c, 0 <= l < p_d P -> 0 <= c < wlen P + p_h' P -> zlen (layer_part P (HT S1) l c) = n /\ is_bytes (layer_part P (HT S1) l c)).
  { intros l c Hi Hj. destruct (lpart_eq p S1 l c L1 Hi Hj) as [-> R]. apply (nb_part p); [exact BS1|exact L1|]. nia. }
  assert (IO := inst_ok p seed Ls Bs).
  assert (FK : forall D, zlen (fors_pkFromSig P seed (F S1) (md_of P D) (mkADRS 0 (idx_tree_of P D) FORS_TREE (idx_leaf_of P D) 0 0)) = n /\
     is_bytes (fors_pkFromSig P seed (F S1) (md_of P D) (mkADRS 0 (idx_tree_of P D) FORS_TREE (idx_leaf_of P D) 0 0))).
  { intros D. exact (fors_key_ok P OK seed IO (inst_dig p seed Ls Bs) (inst_inc p seed Ls Bs) _ _ _ [] [] _ FP). }
  destruct (Z.to_nat (p_d P)) as [|ls] eqn:El; [lia|].
  assert (TT : up_tree P (idx_tree_of P D1) (Z.of_nat ls) = up_tree P (idx_tree_of P D2) (Z.of_nat ls)).
  { replace (Z.of_nat ls) with (p_d P - 1) by lia. rewrite !idx_tree_small. reflexivity. }
  unfold ht_root in W1. rewrite El in W1.
  destruct (ht_bind P OK seed ltac:(lia) IO (inst_dig p seed Ls Bs) (inst_inc p seed Ls Bs) (HT S1) ls 0 _ _ _ _ _ _ ltac:(lia) ltac:(lia) LQ (FK D1) (FK D2) TT
    (no_coin_incl P seed _ _ _ _ (incl_appr _ (incl_refl _)) (incl_appr _ (incl_refl _)) NC) W1) as [(E1 & E2 & E3)|R].
  - left. rewrite <- E1, <- E2 in E3, NC.
    pose proof (fors_bind P OK seed ltac:(lia) IO (inst_dig p seed Ls Bs) (inst_inc p seed Ls Bs) _ _ _ _ (F S1) FP
      (no_coin_incl P seed _ _ _ _ (incl_appl _ (incl_refl _)) (incl_appl _ (incl_refl _)) NC) E3) as EB.
    unfold selects. rewrite E1, E2. f_equal. apply (nth_ext _ _ 0 0); [rewrite !base_2b_length; reflexivity|].
    intros i Hi. rewrite base_2b_length in Hi. specialize (EB (Z.of_nat i) ltac:(lia)). rewrite Nat2Z.id in EB. exact EB.
  - right. right. destruct R as (l & t & leaf & c & from & to & Hl & Hc & Hf & Ht & Q).
    rewrite (proj1 (lpart_eq p S1 l c L1 Hl ltac:(lia))) in Q. exists l, t, leaf, c, from, to. auto 10.
Qed.
End Top.
