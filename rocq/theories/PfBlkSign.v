(** * Runs of the compression functions: signing *)
From Verif Require Import Arr CLeak SpecSLH SpecApi ModelParams ModelCtx ModelHash ModelSphincs SpecMap PfGlueSha PfIter PfEnv PfAdr PfGlue PfMsg PfCtx PfTree PfPaths PfBits PfWots PfSpec PfSign PfApi PfKeygen PfComplete SpecReuse SpecForge SpecLeak PfReuse.
From Verif Require Import LeakHash LeakSphincs PfLeakErase3 PfLeakShake PfLeakSign PfLeakView SpecWork PfWorkSilent PfWork PfWorkSign SpecBlocks PfBlkSha PfBlkHash PfBlk.
Ltac Zify.zify_post_hook ::= idtac.

(** ** Where the big iterator is *)
Lemma irep_lvl E it A D i : irep E it A D -> zlen D = i * e_n E -> lvl (e_cfg E) (e_p E) i it.
Proof.
  intros (I1 & B1 & H1) HD. unfold lvl, at_. pose proof (kinds (e_cfg E) (e_p E) (e_on E)) as K. pose proof (adr_string_len E A) as HA. unfold adr_len in HA.
  pose proof (n_bounds E) as Nb. change (p_n (slh_of (e_p E))) with (e_n E) in *.
  destruct (e_fam E) eqn:F.
  - assert (W : wide (e_p E) = keccak_permutation) by (unfold e_fam in F; destruct (e_p E); try reflexivity; discriminate F). rewrite W.
    destruct H1 as (s & G1 & (L & L0 & -> & _)). apply get_shake_num in G1. unfold atk. rewrite G1. f_equal. unfold zlen. rewrite PfBlocks.rest_length by lia.
    rewrite Nat2Z.inj_mod. change (Z.of_nat 136) with 136. f_equal. match goal with |- Z.of_nat (length ?l) = _ => change (Z.of_nat (length l)) with (zlen l) end.
    rewrite !zlen_app, seed_len, HA, HD. unfold header. change (p_n (slh_of (e_p E))) with (e_n E). lia.
  - assert (W : wide (e_p E) = sha256_compression) by (unfold e_fam in F; destruct (e_p E); try reflexivity; discriminate F). rewrite W.
    destruct H1 as (s & G1 & [[_ _ N1 _ _ _] _]). apply get256_num in G1. rewrite N1 in G1. unfold at256. rewrite G1. f_equal. unfold zlen. rewrite PfBlocks.rest_length by lia.
    rewrite Nat2Z.inj_mod. change (Z.of_nat 64) with 64. f_equal. match goal with |- Z.of_nat (length ?l) = _ => change (Z.of_nat (length l)) with (zlen l) end.
    rewrite !zlen_app, seed_block_len, HA, HD by lia. unfold header, rate. lia.
  - assert (W : wide (e_p E) = sha512_compression) by (unfold e_fam in F; destruct (e_p E); try reflexivity; discriminate F). rewrite W.
    destruct H1 as (s & G1 & [[_ _ N1 _ _ _] _]). apply get512_num in G1. rewrite N1 in G1. unfold at512. rewrite G1. f_equal. unfold zlen. rewrite PfBlocks.rest_length by lia.
    rewrite Nat2Z.inj_mod. change (Z.of_nat 128) with 128. f_equal. match goal with |- Z.of_nat (length ?l) = _ => change (Z.of_nat (length l)) with (zlen l) end.
    rewrite !zlen_app, seed_block_len, HA, HD by lia. unfold header, rate. lia.
Qed.

Section Sign.
Variable r : primitive.
Variable E : env.
Local Notation cfg := (e_cfg E).
Local Notation mem := (e_mem E).
Local Notation n := (e_n E).
Local Notation P := (e_P E).
Variable sk : list Z.
Hypothesis Hsk : sk_at E sk.
Variables (md : list Z) (T leaf : Z).
Hypothesis HT : 0 <= T < 2 ^ 64.
Hypothesis Hl : 0 <= leaf < 2 ^ p_h' P.

(** What each pass through the switch is to take *)
Local Notation cp := (e_p E).
Definition sbr (s : sst) : Z :=
  match s with
  | FL i => PRF_runs cfg cp r + fors_leaf_runs cfg cp r
  | FA i j => subtree_runs cfg cp (fors_leaf_runs cfg cp r) j r + H_runs cfg cp r
      + (if j =? p_a P - 1 then (if i =? p_k P - 1 then T_runs cfg cp (p_k P) r else begun_runs cfg cp (i + 1) r) - begun_runs cfg cp i r else 0)
  | WT l q => PRF_runs cfg cp r + nth (Z.to_nat q) (wots_msg P (hmsg E sk (M0 E sk T leaf) T l)) 0 * F_runs cfg cp r
      + (if q =? wlen P - 1 then ots_key_runs cfg cp r else 0)
  | MK l j => subtree_runs cfg cp (ots_key_runs cfg cp r) j r + H_runs cfg cp r
  | DN => 0
  end.
Lemma tk_leaf b i c : c_ps c = e_ps E -> takes r (ots_key_runs cfg cp r) (fb false false c) (l_ts_wots_leaf cfg mem b i c).
Proof. intros Hp. apply (tk_wots_leaf cfg cp (e_on E) r mem b i c Hp). Qed.

Lemma tk_switch s c : Inv E sk md T leaf s c -> takes r (sbr s) (fun _ => True) (l_sign_switch cfg mem c).
Proof.
  intros (G & R & H). pose proof (g_ps E c G) as Eps. pose proof (n_bounds E) as Nb. pose proof (t_bounds E) as Tb. pose proof (mh_bounds E) as Mb.
  pose proof (k_bounds E) as Kb. pose proof (d_bounds E) as Db. pose proof (wlen_eq E) as Wl.
  unfold l_sign_switch. destruct s as [i|i j|l q|l j|]; cbn [rng] in R.
  - destruct H as (S & _). apply tk_if; intros X; [clear X|rewrite S in X; discriminate X].
    apply tk_bind0; [unfold l_get_fors_node; stl|]. intros node _. cbv zeta.
    cbn [sbr]. eapply tk_bind; [apply (tk_fors_prf cfg cp (e_on E) r mem BufBuffer); exact Eps|]. intros c1 _ F1. pose proof (fb_ps _ _ _ _ F1) as P1. change (c_ps c1 = c_ps c) in P1. rewrite Eps in P1.
    eapply tk_eq; [eapply tk_bind; [apply (tk_fors_leaf cfg cp (e_on E) r mem BufAuth); exact P1|]|apply Z.add_0_r]. intros c2 _ _. apply tk_ret. exact I.
  - destruct H as (S & (HL & Hft & _ & _ & _ & Big) & Hml & _). apply tk_if; intros X; [rewrite S in X; discriminate X|clear X].
    apply tk_if; intros X; [clear X|rewrite S in X; discriminate X].
    pose proof (irep_lvl E _ _ _ i Big (fors_roots_zlen E sk Hsk T leaf i ltac:(lia))) as Lv.
    eapply tk_eq.
    + eapply (tk_bind r _ (if j =? p_a P - 1 then (if i =? p_k P - 1 then T_runs cfg cp (p_k P) r else begun_runs cfg cp (i + 1) r) - begun_runs cfg cp i r else 0)).
      * apply (tk_path cfg cp (e_on E) r mem (l_fors_leaf cfg mem) (fors_leaf_runs cfg cp r) ADR_TYPE_FORSTREE (fors_stack cfg) c j true); [lia|exact Hml|exact Eps|].
        intros i0 d Hd. apply (tk_fb r true true); [apply (tk_fors_leaf cfg cp (e_on E) r mem BufBuffer); exact Hd|reflexivity|reflexivity].
      * intros c1 _ F1. pose proof (f_ml _ _ _ (b_fr _ _ _ _ F1)) as M1. pose proof (fb_ps _ _ _ _ F1) as P1. pose proof (f_ft _ _ _ (b_fr _ _ _ _ F1)) as T1.
        change (c_merkle_level c1 = u8 (j + 1)) in M1. change (c_ps c1 = c_ps c) in P1. change (c_fors_tree c1 = c_fors_tree c) in T1.
        pose proof (b_big _ _ _ _ F1 eq_refl) as B1. change (c_big_iter c1 = c_big_iter c) in B1. rewrite <- B1 in Lv.
        rewrite Hft in T1. rewrite Eps in P1. unfold u8 in M1. rewrite Z.mod_small in M1 by lia.
        rewrite M1, P1, (ps_t_eq E). apply tk_if; intros X.
        -- apply Z.eqb_eq in X. replace (j =? p_a P - 1) with true by (symmetry; apply Z.eqb_eq; lia).
           eapply tk_eq.
           ++ eapply (tk_bind r _ (if i =? p_k P - 1 then T_runs cfg cp (p_k P) r - begun_runs cfg cp (p_k P) r else 0)); [apply (tk_big_next cfg cp (e_on E) r false i); [exact P1|exact Lv]|]. intros c2 _ [F2 L2]. cbv zeta.
              pose proof (fb_ps _ _ _ _ F2) as P2. pose proof (f_ft _ _ _ (b_fr _ _ _ _ F2)) as T2. rewrite P1 in P2. rewrite T1 in T2.
              match goal with |- takes _ _ _ (lif (?a =? ?b) _ _) => change a with (u8 (c_fors_tree c2 + 1)); change b with (ps_k (c_ps c2)) end.
              rewrite P2, T2, (ps_k_eq E). unfold u8. rewrite Z.mod_small by lia.
              apply tk_if; intros Y.
              ** apply Z.eqb_eq in Y. replace (i =? p_k P - 1) with true by (symmetry; apply Z.eqb_eq; lia).
                 eapply tk_eq; [eapply tk_bind; [apply (tk_big_final cfg cp (e_on E) r (i + 1) BufAuth); [exact P2|exact L2]|]|rewrite Z.add_0_r, Y; reflexivity]. intros c3 _ _.
                 apply tk_bind0; [apply sq_set_up|]. intros c4 _. apply tk_ret. exact I.
              ** apply Z.eqb_neq in Y. replace (i =? p_k P - 1) with false by (symmetry; apply Z.eqb_neq; lia). apply tk_ret. exact I.
           ++ destruct (Z.eqb_spec i (p_k P - 1)) as [->|]; [replace (p_k P - 1 + 1) with (p_k P) by lia; lia|lia].
        -- apply Z.eqb_neq in X. replace (j =? p_a P - 1) with false by (symmetry; apply Z.eqb_neq; lia). apply tk_ret. exact I.
    + cbn [sbr]. unfold subtree_runs. ring.
  - destruct H as (S & _ & D & X1). apply tk_if; intros X; [rewrite S in X; discriminate X|clear X].
    apply tk_if; intros X; [rewrite S in X; discriminate X|clear X]. apply tk_if; intros X; [clear X|rewrite S in X; discriminate X].
    destruct (set_digit_ok E (c_x c) (q + 1) (good_x_ok E c G)) as (x1 & Ex & B1 & D1 & D2); [lia|].
    set (dq := nth (Z.to_nat q) (wots_msg P (hmsg E sk (M0 E sk T leaf) T l)) 0).
    assert (Eq : get_digits cfg x1 q = Ok dq) by (rewrite D2; apply X1; lia).
    assert (Hq : 0 <= dq) by apply wots_digit_nonneg.
    cbn [sbr]. fold dq. eapply tk_bind; [apply (tk_next_hash cfg cp (e_on E) r mem q x1 dq c Eps D Ex Eq Hq)|]. intros c1 _ F1.
    apply tk_bind0; [unfold l_get_digit; stl|]. intros d Ed. pose proof (fb_ps _ _ _ _ F1) as P1. change (c_ps c1 = c_ps c) in P1.
    rewrite (f_x _ _ _ (b_fr _ _ _ _ F1) eq_refl) in Ed. change (c_x (set_x x1 c)) with x1 in Ed.
    assert (d = q + 1) as -> by (unfold get_digit in D1; unfold l_get_digit, l_rd in Ed; rewrite result_tick in Ed; cbn [quiet result snd] in Ed; congruence).
    rewrite P1, Eps, (ps_n_eq E), <- Wl. apply tk_if; intros X.
    + apply Z.eqb_eq in X. replace (q =? wlen P - 1) with true by (symmetry; apply Z.eqb_eq; lia). cbv zeta.
      eapply tk_eq; [eapply tk_bind; [apply tk_leaf|]|apply Z.add_0_r]; [exact (eq_trans P1 Eps)|]. intros c2 _ _. apply tk_ret. exact I.
    + apply Z.eqb_neq in X. replace (q =? wlen P - 1) with false by (symmetry; apply Z.eqb_neq; lia). apply tk_ret. exact I.
  - destruct H as (S & _ & Hml & _). apply tk_if; intros X; [rewrite S in X; discriminate X|clear X].
    apply tk_if; intros X; [rewrite S in X; discriminate X|clear X]. apply tk_if; intros X; [rewrite S in X; discriminate X|clear X].
    apply tk_if; intros X; [clear X|rewrite S in X; discriminate X].
    eapply tk_eq.
    + eapply (tk_bind r _ 0).
      * apply (tk_path cfg cp (e_on E) r mem (l_ts_wots_leaf cfg mem) (ots_key_runs cfg cp r) ADR_TYPE_HASHTREE (merkle_stack cfg) c j false); [lia|exact Hml|exact Eps|].
        intros i0 d Hd. apply tk_leaf, Hd.
      * intros c1 _ _. apply tk_if; intros _; [|apply tk_ret; exact I]. cbv zeta. apply tk_if; intros _; [apply tk_ret; exact I|].
        apply tk_bind0; [auto with sq nocore|]. intros sh _. apply tk_bind0; [apply sq_set_up|]. intros c4 _. apply tk_ret. exact I.
    + cbn [sbr]. unfold subtree_runs. ring.
  - destruct H as (H & _). apply tk_if; intros X; [rewrite H in X; discriminate X|clear X].
    apply tk_if; intros X; [rewrite H in X; discriminate X|clear X]. apply tk_if; intros X; [rewrite H in X; discriminate X|clear X].
    apply tk_if; intros X; [rewrite H in X; discriminate X|clear X]. apply tk_ret. exact I.
Qed.

(** ** The loop *)
Local Notation st := (st E).
Definition Rb (b : nat) : Z := pre (fun i => sbr (st i)) b.
(** what [u] bytes of the signature, and so the blocks that begin before, have cost *)
Definition WR (u : Z) : Z := Rb (Z.to_nat ((u - 1) / n)).

Lemma st_DN b j : st b = DN -> st (b + j) = DN.
Proof. intros H. induction j as [|j IH]; [rewrite Nat.add_0_r; exact H|]. rewrite Nat.add_succ_r. change (nxt E (st (b + j)) = DN). rewrite IH. reflexivity. Qed.
Lemma Rb_DN b j : st b = DN -> Rb (b + j) = Rb b.
Proof.
  intros H. unfold Rb. induction j as [|j IH]; [rewrite Nat.add_0_r; reflexivity|]. rewrite Nat.add_succ_r. cbn [pre]. rewrite IH, st_DN by exact H.
  cbn [sbr]. lia.
Qed.
Lemma R_at b o : 0 <= o <= n -> (o = 0 -> b = 0%nat) -> WR (n * Z.of_nat b + o) = Rb b.
Proof using E r sk T leaf.
  clear - b o. intros Ho Hz. pose proof (n_bounds E) as Nb. unfold WR. f_equal. destruct (Z.eq_dec o 0) as [E0|E0].
  - rewrite (Hz E0), E0. replace (n * Z.of_nat 0 + 0 - 1) with (-1) by lia.
    assert (-1 / n < 0) by (apply Z.div_lt_upper_bound; lia). lia.
  - replace (n * Z.of_nat b + o - 1) with ((o - 1) + Z.of_nat b * n) by ring. rewrite Z.div_add by lia. rewrite Z.div_small by lia. lia.
Qed.
Lemma R_DN b o x : st b = DN -> n * Z.of_nat b + n <= o -> 0 <= x -> WR (o + x) = Rb b.
Proof using E r sk T leaf.
  clear - b o. intros Hs Ho Hx. pose proof (n_bounds E) as Nb. unfold WR.
  assert (Z.of_nat b <= (o + x - 1) / n) by (apply Z.div_le_lower_bound; lia).
  replace (Z.to_nat ((o + x - 1) / n)) with (b + (Z.to_nat ((o + x - 1) / n) - b))%nat by lia. apply Rb_DN, Hs.
Qed.

Definition afterR (b : nat) (o k : Z) (x : Z * list Z * ts_context) : Prop :=
  exists b' o' B', at_run E sk md T leaf (st b') B' o' (snd x) /\
    n * Z.of_nat b' + o' = n * Z.of_nat b + o + (k - fst (fst x)) /\ 0 <= fst (fst x) <= k /\ (0 < o' \/ b' = b /\ o' = o) /\
    (fst (fst x) = 0 \/ st b' = DN /\ o' = n).

Lemma tk_sign_loop fuel : forall dest pos k b o B c, at_run E sk md T leaf (st b) B o c -> 0 <= k < 2 ^ 32 -> (o = 0 -> b <> 0%nat -> 0 < k) ->
  takes r (WR (n * Z.of_nat b + o + k) - Rb b) (afterR b o k) (l_sign_loop cfg mem fuel dest pos k c).
Proof.
  induction fuel as [|fuel IH]; intros dest pos k b o B c HR Hk Hz; [apply tk_ub|].
  pose proof (n_bounds E) as Nb. pose proof (r_off _ _ _ _ _ _ _ _ _ HR) as O1. pose proof (r_rng _ _ _ _ _ _ _ _ _ HR) as Og.
  pose proof (r_inv _ _ _ _ _ _ _ _ _ HR) as HI. pose proof (proj1 HI) as G.
  cbn [l_sign_loop]. cbv zeta. apply tk_if; intros Ek.
  { apply Z.eqb_eq in Ek. subst k. eapply tk_eq; [apply tk_ret|].
    - exists b, o, B. cbn [fst snd]. split; [exact HR|]. lia.
    - rewrite Z.add_0_r, R_at; [lia|exact Og|]. intros E0. destruct b; [reflexivity|]. exfalso. specialize (Hz E0). lia. }
  apply Z.eqb_neq in Ek. rewrite (ps_n_c E c G), O1. unfold u32. rewrite Z.mod_small by lia.
  apply tk_if; intros Eq.
  - apply Z.ltb_lt in Eq. eapply tk_eq; [eapply (tk_bind r 0 _ (fun r' => r' = Z.min k (n - o)))|apply Z.add_0_l].
    { apply tk_if; intros X; apply tk_ret; [apply Z.ltb_lt in X|apply Z.ltb_ge in X]; lia. }
    intros r' _ Er. apply tk_bind0; [auto with sq nocore|]. intros src _. apply tk_bind0; [auto with sq nocore|]. intros d1 _.
    unfold u8. rewrite (Z.mod_small (o + r')) by lia. eapply tk_weak.
    + eapply tk_eq; [apply (IH d1 (pos + r') (k - r') b (o + r') B)|].
      * apply at_run_copy; [exact HR|lia|lia].
      * lia.
      * lia.
      * do 2 f_equal. lia.
    + intros [[m1 e1] c1] _ (b' & o' & Y & K1 & K2 & K3 & K4 & K5). cbn [fst snd] in *. exists b', o', Y. cbn [fst snd].
      split; [exact K1|]. split; [lia|]. split; [lia|]. split; [left; lia|exact K5].
  - apply Z.ltb_ge in Eq. assert (Eo : o = n) by lia. rewrite Eo in *.
    destruct (sst_eq_DN (st b)) as [Ed|Ed].
    + eapply tk_eq; [eapply (tk_bind r 0 0 (fun x => x = None))|].
      * intros x Rx. destruct (tk_switch _ c HI x Rx) as [T1 _]. split; [rewrite T1, Ed; reflexivity|].
        rewrite er_switch in Rx. unfold sign_switch in Rx. rewrite Ed in HI. rewrite (proj1 (proj2 (proj2 HI))) in Rx. apply ok_inj in Rx. congruence.
      * intros x _ ->. apply tk_ret. exists b, n, B. cbn [fst snd]. split; [exact HR|]. split; [lia|]. split; [lia|]. split; [auto|]. right. auto.
      * rewrite (R_DN b); [lia|exact Ed|lia|lia].
    + destruct (switch_ok E sk Hsk md T leaf HT Hl (st b) c Ed HI) as (c1 & S1 & J1 & P1 & Z1).
      eapply tk_eq; [eapply (tk_bind r (sbr (st b)) _ (fun x => x = Some c1))|].
      * intros x Rx. split; [exact (proj1 (tk_switch _ c HI x Rx))|]. rewrite er_switch, S1 in Rx. apply ok_inj in Rx. congruence.
      * intros x _ ->. eapply tk_weak.
        -- apply (IH dest pos k (Datatypes.S b) 0 (emit E sk md T leaf (st b))); [split; [exact J1|exact Z1|apply emit_ok; assumption|exact P1|lia]|lia|lia].
        -- intros [[m1 e1] c2] _ (b' & o' & Y & K1 & K2 & K3 & K4 & K5). cbn [fst snd] in *. exists b', o', Y. cbn [fst snd].
           split; [exact K1|]. split; [lia|]. split; [lia|]. split; [left; lia|exact K5].
      * unfold Rb at 1. cbn [pre]. fold (Rb b). replace (n * Z.of_nat (Datatypes.S b) + 0 + k) with (n * Z.of_nat b + n + k) by lia. lia.
Qed.
End Sign.

(** ** The runs of the blocks *)
Section Nth.
Variable E : env.
Local Notation P := (e_P E).
Variables sk D : list Z.
Local Notation T := (idx_tree_of P D).
Local Notation leaf := (idx_leaf_of P D).
Lemma nth_runs r PK M SIG b :
  (forall l, 0 <= l < p_d P -> layer_message P M SIG PK l = ots_message P (e_seed E) sk l (ots_index P D l)) ->
  nth (S b) (map (fun x => sign_runs (e_cfg E) (e_p E) PK M SIG r x) (blocks_of P)) 0 = sbr r E sk T leaf (st E b).
Proof.
  intros HM. rewrite (blocks_parts E). cbn [map nth].
  rewrite (nth_parts E (fun x => sign_runs (e_cfg E) (e_p E) PK M SIG r x)) by (cbn [rng]; pose proof (k_bounds E); lia). fold (st E b). pose proof (rng_st E b) as R.
  destruct (st E b) as [i|i j|l q|l j|]; cbn [blk sbr rng sign_runs] in *; try reflexivity.
  unfold position. rewrite HM, (hmsg_ots E sk D) by lia. reflexivity.
Qed.
Lemma begun_R r PK M SIG u : 0 <= u ->
  (forall l, 0 <= l < p_d P -> layer_message P M SIG PK l = ots_message P (e_seed E) sk l (ots_index P D l)) ->
  begun (e_n E) (map (fun x => sign_runs (e_cfg E) (e_p E) PK M SIG r x) (blocks_of P)) u = WR r E sk T leaf u.
Proof.
  intros Hu HM. pose proof (n_bounds E) as Nb. set (xs := map _ _).
  assert (X : begun (e_n E) xs u = pre (fun i => nth i xs 0) (Z.to_nat ((u - 1) / e_n E + 1))).
  { unfold begun. apply pre_sum.
    - intros i. rewrite Z.ltb_lt. clear - Nb Hu. split; intros H.
      + assert (Z.of_nat i <= (u - 1) / e_n E) by (apply Z.div_le_lower_bound; lia). lia.
      + assert (Z.of_nat i <= (u - 1) / e_n E) by lia. pose proof (Z.mul_div_le (u - 1) (e_n E) ltac:(lia)). nia.
    - intros i Hi. apply nth_overflow, Hi. }
  rewrite X. unfold WR, Rb. destruct (Z.eq_dec u 0) as [->|Nu].
  - assert (-1 <= (0 - 1) / e_n E < 0) by (split; [apply Z.div_le_lower_bound|apply Z.div_lt_upper_bound]; lia).
    replace ((0 - 1) / e_n E) with (-1) by lia. reflexivity.
  - assert (0 <= (u - 1) / e_n E) by (apply Z.div_pos; lia). rewrite Z2Nat.inj_add by lia. change (Z.to_nat 1) with 1%nat. rewrite Nat.add_1_r.
    rewrite (pre_shift (fun i => nth i xs 0)). replace (nth 0 xs 0) with 0 by (unfold xs; rewrite (blocks_parts E); reflexivity).
    rewrite Z.add_0_l. apply pre_ext. intros i. apply nth_runs, HM.
Qed.
End Nth.

