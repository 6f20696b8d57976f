(** * Counting calls: signing *)
From Verif Require Import Arr CLeak SpecSLH SpecApi ModelParams ModelCtx ModelHash ModelSphincs SpecMap PfGlueSha PfIter PfEnv PfAdr PfGlue PfMsg PfCtx PfTree PfPaths PfBits PfWots PfSpec PfSign PfApi PfKeygen PfComplete SpecReuse SpecForge SpecLeak PfReuse.
From Verif Require Import LeakHash LeakSphincs PfLeakErase3 PfLeakShake PfLeakSign PfLeakView SpecWork PfWorkSilent PfWork.
Ltac Zify.zify_post_hook ::= idtac.

(** ** Sums *)
Fixpoint pre (g : nat -> Z) (k : nat) : Z := match k with O => 0 | S j => pre g j + g j end.
Lemma pre_ext g h k : (forall i, g i = h i) -> pre g k = pre h k.
Proof. intros H. induction k as [|k IH]; [reflexivity|]. cbn [pre]. rewrite IH, H. reflexivity. Qed.
Lemma pre_shift g k : pre g (S k) = g 0%nat + pre (fun i => g (S i)) k.
Proof. induction k as [|k IH]; [cbn [pre]; lia|]. change (pre g (S (S k))) with (pre g (S k) + g (S k)). rewrite IH. cbn [pre]. lia. Qed.
Lemma pre_min g L K : (forall i, (L <= i)%nat -> g i = 0) -> pre g (min L K) = pre g K.
Proof.
  intros H. induction K as [|K IH]; [rewrite Nat.min_0_r; reflexivity|]. destruct (Nat.le_gt_cases (S K) L) as [A|A].
  - rewrite Nat.min_r by exact A. reflexivity.
  - cbn [pre]. rewrite (H K) by lia. rewrite <- IH. rewrite !Nat.min_l by lia. lia.
Qed.
Lemma sum_app xs ys : sum (xs ++ ys) = sum xs + sum ys.
Proof. unfold sum. induction xs as [|x xs IH]; [reflexivity|]. cbn [app fold_right]. rewrite IH. lia. Qed.
Lemma pre_sum0 (p : nat -> bool) g L K : (forall i, p i = true <-> (i < K)%nat) ->
  sum (map (fun i => if p i then g i else 0) (seq 0 L)) = pre g (min L K).
Proof.
  intros Hp. induction L as [|L IH]; [reflexivity|]. rewrite seq_S, map_app, sum_app, IH. cbn [plus Nat.add map sum fold_right].
  destruct (p L) eqn:E.
  - apply Hp in E. rewrite !Nat.min_l by lia. cbn [pre]. lia.
  - assert (~ (L < K)%nat) by (rewrite <- Hp; congruence). rewrite !Nat.min_r by lia. lia.
Qed.
Lemma pre_sum (p : nat -> bool) g L K : (forall i, p i = true <-> (i < K)%nat) -> (forall i, (L <= i)%nat -> g i = 0) ->
  sum (map (fun i => if p i then g i else 0) (seq 0 L)) = pre g K.
Proof. intros Hp H. rewrite (pre_sum0 p g L K Hp). apply pre_min, H. Qed.

Section Sign.
Variable m : member.
Variable E : env.
Local Notation cfg := (e_cfg E).
Local Notation mem := (e_mem E).
Local Notation n := (e_n E).
Local Notation P := (e_P E).
Variable sk : list Z.
Hypothesis Hsk : sk_at E sk.
Variables (md : list Z) (T leaf : Z).
Hypothesis HT : 0 <= T < 2 ^ 64.
Hypothesis Hl : 0 <= leaf < 2 ^ p_h' P.

(** What each pass through the switch is to cost *)
Definition sb (s : sst) : bill :=
  match s with
  | FL i => one prf [+] fors_leaf_bill
  | FA i j => subtree_bill fors_leaf_bill j [+] H_bill
      [+] if_last (j =? p_a P - 1) (one next_t [+] if_last (i =? p_k P - 1) (one final_t))
  | WT l q => one prf [+] nth (Z.to_nat q) (wots_msg P (hmsg E sk (M0 E sk T leaf) T l)) 0 [*] one f
      [+] if_last (q =? wlen P - 1) (ots_key_bill P)
  | MK l j => subtree_bill (ots_key_bill P) j [+] H_bill
  | DN => nothing
  end.

Lemma ots_key_cost : ots_key_bill P m = one init_t m + (2 * ps_n (e_ps E) + 3) * (one prf m + 15 * one f m + one next_t m) + one final_t m.
Proof. unfold ots_key_bill, plus, times. rewrite (wlen_eq E), (ps_n_eq E). ring. Qed.
Lemma co_leaf b i c : c_ps c = e_ps E -> costs m (ots_key_bill P m) (fr false c) (l_ts_wots_leaf cfg mem b i c).
Proof.
  intros Hp. eapply costs_eq; [apply (co_wots_leaf m cfg mem b i c (e_ps E) Hp)|symmetry; apply ots_key_cost].
  rewrite (ps_n_eq E). pose proof (n_bounds E). lia.
Qed.
Lemma wots_digit_nonneg M q : 0 <= nth q (wots_msg P M) 0.
Proof. apply (wots_msg_range E). Qed.

Lemma co_switch s c : Inv E sk md T leaf s c -> costs m (sb s m) (fun _ => True) (l_sign_switch cfg mem c).
Proof.
  intros (G & R & H). pose proof (g_ps E c G) as Eps. pose proof (n_bounds E) as Nb. pose proof (t_bounds E) as Tb. pose proof (mh_bounds E) as Mb.
  pose proof (k_bounds E) as Kb. pose proof (d_bounds E) as Db. pose proof (wlen_eq E) as Wl.
  unfold l_sign_switch. destruct s as [i|i j|l q|l j|]; cbn [rng] in R.
  - destruct H as (S & _). apply costs_if; intros X; [clear X|rewrite S in X; discriminate X].
    apply costs_bind0; [auto with si nocore|]. intros node _. cbv zeta.
    cbn [sb]. unfold plus. eapply costs_bind; [apply (co_fors_prf m cfg mem BufBuffer)|]. intros c1 _ _.
    eapply costs_eq; [eapply costs_bind; [apply (co_fors_leaf m cfg mem BufAuth)|]|apply Z.add_0_r]. intros c2 _ _. apply costs_ret. exact I.
  - destruct H as (S & (HL & Hft & _) & Hml & _). apply costs_if; intros X; [rewrite S in X; discriminate X|clear X].
    apply costs_if; intros X; [clear X|rewrite S in X; discriminate X].
    eapply costs_eq.
    + eapply (costs_bind m _ (if_last (j =? p_a P - 1) (one next_t [+] if_last (i =? p_k P - 1) (one final_t)) m)).
      * apply (co_path m cfg mem (l_fors_leaf cfg mem) (fors_leaf_bill m) ADR_TYPE_FORSTREE (fors_stack cfg) c j (e_ps E)); [lia|exact Hml|exact Eps|].
        intros i0 d _. apply (costs_false m true). apply (co_fors_leaf m cfg mem BufBuffer).
      * intros c1 _ F1. pose proof (f_ml _ _ _ F1) as M1. pose proof (f_ps _ _ _ F1) as P1. pose proof (f_ft _ _ _ F1) as T1.
        change (c_merkle_level c1 = u8 (j + 1)) in M1. change (c_ps c1 = c_ps c) in P1. change (c_fors_tree c1 = c_fors_tree c) in T1.
        rewrite Hft in T1. rewrite Eps in P1. unfold u8 in M1. rewrite Z.mod_small in M1 by lia.
        rewrite M1, P1, (ps_t_eq E). apply costs_if; intros X.
        -- apply Z.eqb_eq in X. replace (j =? p_a P - 1) with true by (symmetry; apply Z.eqb_eq; lia). cbn [if_last]. unfold plus.
           eapply costs_bind; [apply (co_big_next m cfg false)|]. intros c2 _ F2. cbv zeta.
           pose proof (f_ps _ _ _ F2) as P2. pose proof (f_ft _ _ _ F2) as T2. rewrite P1 in P2. rewrite T1 in T2.
           match goal with |- costs _ _ _ (lif (?a =? ?b) _ _) => change a with (u8 (c_fors_tree c2 + 1)); change b with (ps_k (c_ps c2)) end.
           rewrite P2, T2, (ps_k_eq E). unfold u8. rewrite Z.mod_small by lia.
           apply costs_if; intros Y.
           ++ apply Z.eqb_eq in Y. replace (i =? p_k P - 1) with true by (symmetry; apply Z.eqb_eq; lia). cbn [if_last].
              eapply costs_eq; [eapply costs_bind; [apply (co_big_final m cfg BufAuth)|]|apply Z.add_0_r]. intros c3 _ _.
              apply costs_bind0; [apply si_set_up|]. intros c4 _. apply costs_ret. exact I.
           ++ apply Z.eqb_neq in Y. replace (i =? p_k P - 1) with false by (symmetry; apply Z.eqb_neq; lia). cbn [if_last]. apply costs_ret. exact I.
        -- apply Z.eqb_neq in X. replace (j =? p_a P - 1) with false by (symmetry; apply Z.eqb_neq; lia). cbn [if_last]. apply costs_ret. exact I.
    + cbn [sb]. unfold subtree_bill, plus, times. ring.
  - destruct H as (S & _ & D & X1). apply costs_if; intros X; [rewrite S in X; discriminate X|clear X].
    apply costs_if; intros X; [rewrite S in X; discriminate X|clear X]. apply costs_if; intros X; [clear X|rewrite S in X; discriminate X].
    destruct (set_digit_ok E (c_x c) (q + 1) (good_x_ok E c G)) as (x1 & Ex & B1 & D1 & D2); [lia|].
    set (dq := nth (Z.to_nat q) (wots_msg P (hmsg E sk (M0 E sk T leaf) T l)) 0).
    assert (Eq : get_digits cfg x1 q = Ok dq) by (rewrite D2; apply X1; lia).
    assert (Hq : 0 <= dq) by apply wots_digit_nonneg.
    cbn [sb]. unfold plus, times. eapply costs_bind; [apply (co_next_hash m cfg mem q x1 dq c D Ex Eq Hq)|]. intros c1 _ F1.
    apply costs_bind0; [auto with si nocore|]. intros d Ed. pose proof (f_ps _ _ _ F1) as P1. change (c_ps c1 = c_ps c) in P1.
    rewrite (f_x _ _ _ F1 eq_refl) in Ed. change (c_x (set_x x1 c)) with x1 in Ed.
    assert (d = q + 1) as -> by (unfold get_digit in D1; unfold l_get_digit, l_rd in Ed; rewrite result_tick in Ed; cbn [quiet result snd] in Ed; congruence).
    rewrite P1, Eps, (ps_n_eq E), <- Wl. apply costs_if; intros X.
    + apply Z.eqb_eq in X. replace (q =? wlen P - 1) with true by (symmetry; apply Z.eqb_eq; lia). cbn [if_last]. cbv zeta.
      eapply costs_eq; [eapply costs_bind; [apply co_leaf|]|apply Z.add_0_r]; [exact (eq_trans P1 Eps)|]. intros c2 _ _. apply costs_ret. exact I.
    + apply Z.eqb_neq in X. replace (q =? wlen P - 1) with false by (symmetry; apply Z.eqb_neq; lia). apply costs_ret. exact I.
  - destruct H as (S & _ & Hml & _). apply costs_if; intros X; [rewrite S in X; discriminate X|clear X].
    apply costs_if; intros X; [rewrite S in X; discriminate X|clear X]. apply costs_if; intros X; [rewrite S in X; discriminate X|clear X].
    apply costs_if; intros X; [clear X|rewrite S in X; discriminate X].
    eapply costs_eq.
    + eapply (costs_bind m _ 0).
      * apply (co_path m cfg mem (l_ts_wots_leaf cfg mem) (ots_key_bill P m) ADR_TYPE_HASHTREE (merkle_stack cfg) c j (e_ps E)); [lia|exact Hml|exact Eps|].
        intros i0 d Hd. apply co_leaf, Hd.
      * intros c1 _ _. apply costs_if; intros _; [|apply costs_ret; exact I]. cbv zeta. apply costs_if; intros _; [apply costs_ret; exact I|].
        apply costs_bind0; [auto with si nocore|]. intros sh _. apply costs_bind0; [apply si_set_up|]. intros c4 _. apply costs_ret. exact I.
    + cbn [sb]. unfold subtree_bill, plus, times. ring.
  - destruct H as (H & _). apply costs_if; intros X; [rewrite H in X; discriminate X|clear X].
    apply costs_if; intros X; [rewrite H in X; discriminate X|clear X]. apply costs_if; intros X; [rewrite H in X; discriminate X|clear X].
    apply costs_if; intros X; [rewrite H in X; discriminate X|clear X]. apply costs_ret. exact I.
Qed.

(** ** The loop *)
Local Notation st := (st E).
Definition Cb (b : nat) : Z := pre (fun i => sb (st i) m) b.
(** what [u] bytes of the signature, and so the blocks that begin before, have cost *)
Definition W (u : Z) : Z := Cb (Z.to_nat ((u - 1) / n)).

Lemma st_DN b j : st b = DN -> st (b + j) = DN.
Proof. intros H. induction j as [|j IH]; [rewrite Nat.add_0_r; exact H|]. rewrite Nat.add_succ_r. change (nxt E (st (b + j)) = DN). rewrite IH. reflexivity. Qed.
Lemma Cb_DN b j : st b = DN -> Cb (b + j) = Cb b.
Proof.
  intros H. unfold Cb. induction j as [|j IH]; [rewrite Nat.add_0_r; reflexivity|]. rewrite Nat.add_succ_r. cbn [pre]. rewrite IH, st_DN by exact H.
  cbn [sb]. unfold nothing. lia.
Qed.
Lemma W_at b o : 0 <= o <= n -> (o = 0 -> b = 0%nat) -> W (n * Z.of_nat b + o) = Cb b.
Proof using E m sk T leaf.
  clear - b o. intros Ho Hz. pose proof (n_bounds E) as Nb. unfold W. f_equal. destruct (Z.eq_dec o 0) as [E0|E0].
  - rewrite (Hz E0), E0. replace (n * Z.of_nat 0 + 0 - 1) with (-1) by lia.
    assert (-1 / n < 0) by (apply Z.div_lt_upper_bound; lia). lia.
  - replace (n * Z.of_nat b + o - 1) with ((o - 1) + Z.of_nat b * n) by ring. rewrite Z.div_add by lia. rewrite Z.div_small by lia. lia.
Qed.
Lemma W_DN b o x : st b = DN -> n * Z.of_nat b + n <= o -> 0 <= x -> W (o + x) = Cb b.
Proof using E m sk T leaf.
  clear - b o. intros Hs Ho Hx. pose proof (n_bounds E) as Nb. unfold W.
  assert (Z.of_nat b <= (o + x - 1) / n) by (apply Z.div_le_lower_bound; lia).
  replace (Z.to_nat ((o + x - 1) / n)) with (b + (Z.to_nat ((o + x - 1) / n) - b))%nat by lia. apply Cb_DN, Hs.
Qed.

Definition after (b : nat) (o k : Z) (x : Z * list Z * ts_context) : Prop :=
  exists b' o' B', at_run E sk md T leaf (st b') B' o' (snd x) /\
    n * Z.of_nat b' + o' = n * Z.of_nat b + o + (k - fst (fst x)) /\ 0 <= fst (fst x) <= k /\ (0 < o' \/ b' = b /\ o' = o) /\
    (fst (fst x) = 0 \/ st b' = DN /\ o' = n).

Lemma co_sign_loop fuel : forall dest pos k b o B c, at_run E sk md T leaf (st b) B o c -> 0 <= k < 2 ^ 32 -> (o = 0 -> b <> 0%nat -> 0 < k) ->
  costs m (W (n * Z.of_nat b + o + k) - Cb b) (after b o k) (l_sign_loop cfg mem fuel dest pos k c).
Proof.
  induction fuel as [|fuel IH]; intros dest pos k b o B c HR Hk Hz; [apply costs_ub|].
  pose proof (n_bounds E) as Nb. pose proof (r_off _ _ _ _ _ _ _ _ _ HR) as O1. pose proof (r_rng _ _ _ _ _ _ _ _ _ HR) as Og.
  pose proof (r_inv _ _ _ _ _ _ _ _ _ HR) as HI. pose proof (proj1 HI) as G.
  cbn [l_sign_loop]. cbv zeta. apply costs_if; intros Ek.
  { apply Z.eqb_eq in Ek. subst k. eapply costs_eq; [apply costs_ret|].
    - exists b, o, B. cbn [fst snd]. split; [exact HR|]. lia.
    - rewrite Z.add_0_r, W_at; [lia|exact Og|]. intros E0. destruct b; [reflexivity|]. exfalso. specialize (Hz E0). lia. }
  apply Z.eqb_neq in Ek. rewrite (ps_n_c E c G), O1. unfold u32. rewrite Z.mod_small by lia.
  apply costs_if; intros Eq.
  - apply Z.ltb_lt in Eq. eapply costs_eq; [eapply (costs_bind m 0 _ (fun r => r = Z.min k (n - o)))|apply Z.add_0_l].
    { apply costs_if; intros X; apply costs_ret; [apply Z.ltb_lt in X|apply Z.ltb_ge in X]; lia. }
    intros r _ Er. apply costs_bind0; [auto with si nocore|]. intros src _. apply costs_bind0; [auto with si nocore|]. intros d1 _.
    unfold u8. rewrite (Z.mod_small (o + r)) by lia. eapply costs_weak.
    + eapply costs_eq; [apply (IH d1 (pos + r) (k - r) b (o + r) B)|].
      * apply at_run_copy; [exact HR|lia|lia].
      * lia.
      * lia.
      * do 2 f_equal. lia.
    + intros [[m1 e1] c1] _ (b' & o' & Y & K1 & K2 & K3 & K4 & K5). cbn [fst snd] in *. exists b', o', Y. cbn [fst snd].
      split; [exact K1|]. split; [lia|]. split; [lia|]. split; [left; lia|exact K5].
  - apply Z.ltb_ge in Eq. assert (Eo : o = n) by lia. rewrite Eo in *.
    destruct (sst_eq_DN (st b)) as [Ed|Ed].
    + eapply costs_eq; [eapply (costs_bind m 0 0 (fun x => x = None))|].
      * intros x Rx. destruct (co_switch _ c HI x Rx) as [T1 _]. split; [rewrite T1, Ed; reflexivity|].
        rewrite er_switch in Rx. unfold sign_switch in Rx. rewrite Ed in HI. rewrite (proj1 (proj2 (proj2 HI))) in Rx. apply ok_inj in Rx. congruence.
      * intros x _ ->. apply costs_ret. exists b, n, B. cbn [fst snd]. split; [exact HR|]. split; [lia|]. split; [lia|]. split; [auto|]. right. auto.
      * rewrite (W_DN b); [lia|exact Ed|lia|lia].
    + destruct (switch_ok E sk Hsk md T leaf HT Hl (st b) c Ed HI) as (c1 & S1 & J1 & P1 & Z1).
      eapply costs_eq; [eapply (costs_bind m (sb (st b) m) _ (fun x => x = Some c1))|].
      * intros x Rx. split; [exact (proj1 (co_switch _ c HI x Rx))|]. rewrite er_switch, S1 in Rx. apply ok_inj in Rx. congruence.
      * intros x _ ->. eapply costs_weak.
        -- apply (IH dest pos k (Datatypes.S b) 0 (emit E sk md T leaf (st b))); [split; [exact J1|exact Z1|apply emit_ok; assumption|exact P1|lia]|lia|lia].
        -- intros [[m1 e1] c2] _ (b' & o' & Y & K1 & K2 & K3 & K4 & K5). cbn [fst snd] in *. exists b', o', Y. cbn [fst snd].
           split; [exact K1|]. split; [lia|]. split; [lia|]. split; [left; lia|exact K5].
      * unfold Cb at 1. cbn [pre]. fold (Cb b). replace (n * Z.of_nat (Datatypes.S b) + 0 + k) with (n * Z.of_nat b + n + k) by lia. lia.
Qed.
End Sign.

(** ** The bills of the blocks *)
Section Nth.
Variable E : env.
Local Notation P := (e_P E).
Variables sk D : list Z.
Local Notation T := (idx_tree_of P D).
Local Notation leaf := (idx_leaf_of P D).
Lemma nth_bill m PK M SIG b :
  (forall l, 0 <= l < p_d P -> layer_message P M SIG PK l = ots_message P (e_seed E) sk l (ots_index P D l)) ->
  nth (S b) (map (fun x => sign_bill P PK M SIG x m) (blocks_of P)) 0 = sb E sk T leaf (st E b) m.
Proof.
  intros HM. rewrite (blocks_parts E). cbn [map nth].
  rewrite (nth_parts E (fun x => sign_bill P PK M SIG x m)) by (cbn [rng]; pose proof (k_bounds E); lia). fold (st E b). pose proof (rng_st E b) as R.
  destruct (st E b) as [i|i j|l q|l j|]; cbn [blk sb rng sign_bill] in *; try reflexivity.
  unfold position. rewrite HM, (hmsg_ots E sk D) by lia. reflexivity.
Qed.
Lemma begun_W m PK M SIG u : 0 <= u ->
  (forall l, 0 <= l < p_d P -> layer_message P M SIG PK l = ots_message P (e_seed E) sk l (ots_index P D l)) ->
  begun (e_n E) (map (fun x => sign_bill P PK M SIG x m) (blocks_of P)) u = W m E sk T leaf u.
Proof.
  intros Hu HM. pose proof (n_bounds E) as Nb. set (xs := map _ _).
  assert (X : begun (e_n E) xs u = pre (fun i => nth i xs 0) (Z.to_nat ((u - 1) / e_n E + 1))).
  { unfold begun. apply pre_sum.
    - intros i. rewrite Z.ltb_lt. clear - Nb Hu. split; intros H.
      + assert (Z.of_nat i <= (u - 1) / e_n E) by (apply Z.div_le_lower_bound; lia). lia.
      + assert (Z.of_nat i <= (u - 1) / e_n E) by lia. pose proof (Z.mul_div_le (u - 1) (e_n E) ltac:(lia)). nia.
    - intros i Hi. apply nth_overflow, Hi. }
  rewrite X. unfold W, Cb. destruct (Z.eq_dec u 0) as [->|Nu].
  - assert (-1 <= (0 - 1) / e_n E < 0) by (split; [apply Z.div_le_lower_bound|apply Z.div_lt_upper_bound]; lia).
    replace ((0 - 1) / e_n E) with (-1) by lia. reflexivity.
  - assert (0 <= (u - 1) / e_n E) by (apply Z.div_pos; lia). rewrite Z2Nat.inj_add by lia. change (Z.to_nat 1) with 1%nat. rewrite Nat.add_1_r.
    rewrite (pre_shift (fun i => nth i xs 0)). replace (nth 0 xs 0) with 0 by (unfold xs; rewrite (blocks_parts E); reflexivity).
    rewrite Z.add_0_l. apply pre_ext. intros i. apply nth_bill, HM.
Qed.
End Nth.

