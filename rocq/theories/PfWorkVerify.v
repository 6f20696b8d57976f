(** * Counting calls: verification *)
From Verif Require Import Arr CLeak SpecSLH SpecApi ModelParams ModelCtx ModelHash ModelSphincs ModelVerify ModelApi SpecMap SpecSessions PfGlueSha PfIter PfEnv PfAdr PfGlue PfMsg PfCtx PfTree PfPaths PfBits PfWots PfSpec PfSign PfVerify PfApi PfKeygen PfComplete SpecReuse SpecForge SpecLeak PfReuse.
From Verif Require Import LeakSha2 LeakHash LeakSphincs LeakVerify PfLeakErase2 PfLeakErase3 PfLeakErase4 PfLeakShake PfLeakSign PfLeakView PfLeakSession SpecWork PfWorkSilent PfWork PfWorkSign PfWorkSession.
Ltac Zify.zify_post_hook ::= idtac.

Lemma er_rd_range {A} (a : list A) o k : result (l_rd_range a o k) = rd_range a o k.
Proof. unfold l_rd_range. rewrite result_tick. reflexivity. Qed.
Lemma er_wr_range {A} (a : list A) o (s : list A) : result (l_wr_range a o s) = wr_range a o s.
Proof. unfold l_wr_range. rewrite result_tick. reflexivity. Qed.
Lemma si_memcmp a b k : forall i, silent (l_my_memcmp a b k i).
Proof. induction k as [|k IH]; intros i; cbn [l_my_memcmp]; sil. Qed.

Section Switch.
Variable mb : member.
Variable E : env.
Local Notation cfg := (e_cfg E).
Local Notation mem := (e_mem E).
Local Notation n := (e_n E).
Local Notation P := (e_P E).
Variables (SIG M root : list Z).
Hypothesis HM : msg_ok M.
Hypothesis Hroot : str_ok E root.
Hypothesis BSIG : is_bytes SIG.
Hypothesis LSIG : slh_sig_length P <= zlen SIG.
Variable maddr : Z.
Local Notation Inv := (VInv E SIG M root maddr).

Definition vb (s : vst) : bill :=
  match s with
  | VI => one hash_msg [+] one init_t
  | VFL i => one f
  | VFA i j => H_bill [+] if_last (j =? p_a P - 1) (one next_t [+] if_last (i =? p_k P - 1) (one final_t [+] one init_t))
  | VWT l q => (15 - nth (Z.to_nat q) (wots_msg P (msgz E SIG M root l)) 0) [*] one f [+] one next_t [+] if_last (q =? wlen P - 1) (one final_t)
  | VMK l j => H_bill [+] if_last ((j =? p_h' P - 1) && (l <? p_d P - 1)) (one init_t)
  end.

Lemma co_next_auth Y c : costs mb (H_bill mb) (fr true (set_merkle_level (u8 (c_merkle_level c + 1)) c)) (l_next_auth_path cfg mem Y c).
Proof.
  unfold l_next_auth_path. cbv zeta. apply costs_bind0; [auto with si nocore|]. intros sh _.
  set (c0 := set_merkle_level _ c). eapply costs_eq.
  - eapply costs_bind; [apply (co_merkle_adr mb cfg true)|]. intros c1 _ F1. eapply costs_bind; [apply (co_small_init mb cfg mem true)|]. intros c2 _ F2.
    eapply (costs_bind mb (one next_t mb + one next_t mb) _ (fr true c2)).
    { apply costs_if; intros _; (apply costs_seq; [apply co_small_next|]; intros c4 _; apply co_small_next). }
    intros c3 _ F3. eapply costs_weak; [apply (co_small_final mb cfg BufAuth)|]. intros c4 _ F4.
    eapply fr_trans; [exact F1|]. eapply fr_trans; [exact F2|]. exact (fr_trans _ _ _ _ F3 F4).
  - unfold H_bill, SpecWork.plus, times. ring.
Qed.
Lemma co_set_up_verify i c : costs mb (one init_t mb) (fun _ => True) (l_set_up_wots_verify_signature cfg mem i c).
Proof.
  unfold l_set_up_wots_verify_signature. apply costs_bind0; [apply si_set_up|]. intros c1 _. cbv zeta.
  eapply costs_eq; [eapply costs_bind; [apply (co_wots_header_adr mb cfg true)|]|apply Z.add_0_l]. intros c2 _ _.
  eapply costs_eq; [eapply costs_bind; [apply (co_big_init mb cfg mem true)|]|apply Z.add_0_r]. intros c3 _ _. apply costs_ret. exact I.
Qed.

Lemma co_verify_switch s m c : Inv s c -> costs mb (vb s mb) (fun _ => True) (l_verify_switch cfg mem m c).
Proof.
  intros (G & R & H). pose proof (g_ps E c G) as Eps. pose proof (n_bounds E) as Nb. pose proof (t_bounds E) as Tb. pose proof (mh_bounds E) as Mb.
  pose proof (k_bounds E) as Kb. pose proof (d_bounds E) as Db. pose proof (wlen_eq E) as Wl.
  unfold l_verify_switch. cbv zeta. destruct s as [|i|i j|l q|l j]; cbn [vrng] in R.
  - destruct H as (S & _). apply costs_if; intros X; [clear X|rewrite S in X; discriminate X]. cbn [vb]. unfold SpecWork.plus.
    apply costs_bind0; [unfold l_get_verify_message; auto with si nocore|]. intros a1 _.
    apply costs_bind0; [unfold l_get_verify_len; auto with si nocore|]. intros a2 _.
    apply costs_bind0; [auto with si nocore|]. intros a3 _. eapply costs_bind; [apply co_hash_msg|]. intros [mh c1] _ _.
    eapply costs_eq; [eapply costs_bind; [apply (co_wr_stack mb)|]|apply Z.add_0_l]. intros c2 _ _.
    apply costs_bind0; [apply si_rd_stack|]. intros st _.
    apply costs_bind0; [apply si_convert|]. intros [st2 c3] _. eapply costs_eq; [eapply costs_bind; [apply (co_wr_stack mb)|]|apply Z.add_0_l]. intros c4 _ _.
    eapply costs_eq; [eapply costs_bind; [apply (co_fors_root_adr mb cfg true)|]|apply Z.add_0_l]. intros c5 _ _.
    eapply costs_eq; [eapply costs_bind; [apply (co_big_init mb cfg mem true)|]|apply Z.add_0_r]. intros c6 _ _. apply costs_ret. exact I.
  - destruct H as (S & _). apply costs_if; intros X; [rewrite S in X; discriminate X|clear X]. apply costs_if; intros X; [clear X|rewrite S in X; discriminate X].
    cbn [vb]. apply costs_bind0; [auto with si nocore|]. intros node _.
    eapply costs_eq; [eapply costs_bind; [apply (co_fors_leaf_adr mb cfg true)|]|apply Z.add_0_l]. intros c1 _ _.
    eapply costs_eq; [eapply costs_bind; [apply (co_do_f mb cfg mem BufAuth BufBuffer)|]|apply Z.add_0_r]. intros c2 _ _. apply costs_ret. exact I.
  - destruct H as (S & (HL & Hft & _) & Hml & _). do 2 (apply costs_if; intros X; [rewrite S in X; discriminate X|clear X]).
    apply costs_if; intros X; [clear X|rewrite S in X; discriminate X].
    cbn [vb]. unfold SpecWork.plus at 1. eapply costs_bind; [apply co_next_auth|]. intros c1 _ F1.
    pose proof (f_ml _ _ _ F1) as M1. pose proof (f_ps _ _ _ F1) as P1. pose proof (f_ft _ _ _ F1) as T1.
    change (c_merkle_level c1 = u8 (c_merkle_level c + 1)) in M1. change (c_ps c1 = c_ps c) in P1. change (c_fors_tree c1 = c_fors_tree c) in T1.
    rewrite Hft in T1. rewrite Eps in P1. rewrite Hml in M1. unfold u8 in M1. rewrite Z.mod_small in M1 by lia.
    rewrite M1, P1, (ps_t_eq E). apply costs_if; intros X.
    + apply Z.eqb_eq in X. replace (j =? p_a P - 1) with true by (symmetry; apply Z.eqb_eq; lia). cbn [if_last]. unfold SpecWork.plus at 1.
      eapply costs_bind; [apply (co_big_next mb cfg false)|]. intros c2 _ F2. cbv zeta.
      pose proof (f_ps _ _ _ F2) as P2. pose proof (f_ft _ _ _ F2) as T2. rewrite P1 in P2. rewrite T1 in T2.
      match goal with |- costs _ _ _ (lif (?a =? ?b) _ _) => change a with (u8 (c_fors_tree c2 + 1)); change b with (ps_k (c_ps c2)) end.
      rewrite P2, T2, (ps_k_eq E). unfold u8. rewrite Z.mod_small by lia.
      apply costs_if; intros Y.
      * apply Z.eqb_eq in Y. replace (i =? p_k P - 1) with true by (symmetry; apply Z.eqb_eq; lia). cbn [if_last]. unfold SpecWork.plus.
        eapply costs_bind; [apply (co_big_final mb cfg BufAuth)|]. intros c3 _ _.
        eapply costs_eq; [eapply costs_bind; [apply co_set_up_verify|]|apply Z.add_0_r]. intros c4 _ _. apply costs_ret. exact I.
      * apply Z.eqb_neq in Y. replace (i =? p_k P - 1) with false by (symmetry; apply Z.eqb_neq; lia). cbn [if_last]. apply costs_ret. exact I.
    + apply Z.eqb_neq in X. replace (j =? p_a P - 1) with false by (symmetry; apply Z.eqb_neq; lia). cbn [if_last]. apply costs_ret. exact I.
  - destruct H as (S & _ & _ & D & X1 & _). do 3 (apply costs_if; intros X; [rewrite S in X; discriminate X|clear X]).
    apply costs_if; intros X; [clear X|rewrite S in X; discriminate X].
    destruct (set_digit_ok E (c_x c) (q + 1) (good_x_ok E c G)) as (x1 & Ex & B1 & D1 & D2); [lia|].
    set (dq := nth (Z.to_nat q) (wots_msg P (msgz E SIG M root l)) 0).
    assert (Eq : get_digits cfg x1 q = Ok dq) by (rewrite D2; apply X1; lia).
    assert (Hq : 0 <= dq <= 15) by apply wots_msg_range.
    cbn [vb]. unfold SpecWork.plus, times. fold dq.
    apply costs_bind0; [auto with si nocore|]. intros d Ed. rewrite er_get_digit, D in Ed. apply ok_inj in Ed. subst d.
    apply costs_bind0; [auto with si nocore|]. intros x2 Ed. rewrite er_set_digit, Ex in Ed. apply ok_inj in Ed. subst x2.
    apply costs_bind0; [auto with si nocore|]. intros fr0 Ed. rewrite er_get_digits in Ed. change (c_x (set_x x1 c)) with x1 in Ed. rewrite Eq in Ed. apply ok_inj in Ed. subst fr0.
    rewrite <- Z.add_assoc. eapply costs_bind; [apply (co_chain_loop mb cfg mem BufBuffer); lia|]. intros c1 _ F1.
    eapply costs_bind; [apply (co_big_next mb cfg true)|]. intros c2 _ F2.
    apply costs_bind0; [auto with si nocore|]. intros d Ed. rewrite er_get_digit in Ed.
    rewrite (f_x _ _ _ F2 eq_refl), (f_x _ _ _ F1 eq_refl) in Ed. change (c_x (set_x x1 c)) with x1 in Ed. rewrite D1 in Ed. apply ok_inj in Ed. subst d.
    pose proof (f_ps _ _ _ F1) as P1. pose proof (f_ps _ _ _ F2) as P2. change (c_ps c1 = c_ps c) in P1.
    rewrite P2, P1, Eps, (ps_n_eq E), <- Wl. apply costs_if; intros X.
    + destruct (Z.eqb_spec (q + 1) (wlen P)) as [Y|Y]; [discriminate|]. replace (q =? wlen P - 1) with false by (symmetry; apply Z.eqb_neq; lia). apply costs_ret. exact I.
    + destruct (Z.eqb_spec (q + 1) (wlen P)) as [Y|Y]; [|discriminate]. replace (q =? wlen P - 1) with true by (symmetry; apply Z.eqb_eq; lia). cbn [if_last].
      eapply costs_eq; [eapply costs_bind; [apply (co_big_final mb cfg BufAuth)|]|apply Z.add_0_r]. intros c3 _ _. apply costs_ret. exact I.
  - destruct H as (S & (Hl & _) & Hml & _). do 4 (apply costs_if; intros X; [rewrite S in X; discriminate X|clear X]).
    apply costs_if; intros X; [clear X|rewrite S in X; discriminate X].
    cbn [vb]. unfold SpecWork.plus at 1. eapply costs_bind; [apply co_next_auth|]. intros c1 _ F1.
    pose proof (f_ml _ _ _ F1) as M1. pose proof (f_ps _ _ _ F1) as P1. pose proof (f_hl _ _ _ F1) as L1.
    change (c_merkle_level c1 = u8 (c_merkle_level c + 1)) in M1. change (c_ps c1 = c_ps c) in P1. change (c_hypertree_level c1 = c_hypertree_level c) in L1.
    rewrite Hl in L1. rewrite Eps in P1. rewrite Hml in M1. unfold u8 in M1. rewrite Z.mod_small in M1 by lia.
    rewrite M1, P1, (ps_mh_eq E). apply costs_if; intros X.
    + destruct (Z.eqb_spec (j + 1) (p_h' P)) as [Y|Y]; [discriminate|]. replace (j =? p_h' P - 1) with false by (symmetry; apply Z.eqb_neq; lia). apply costs_ret. exact I.
    + destruct (Z.eqb_spec (j + 1) (p_h' P)) as [Y|Y]; [|discriminate]. replace (j =? p_h' P - 1) with true by (symmetry; apply Z.eqb_eq; lia). cbn [andb].
      rewrite L1. unfold u8. rewrite Z.mod_small by lia. set (c2 := set_hypertree_level (l + 1) c1).
      change (c_hypertree_level c2) with (l + 1). change (c_ps c2) with (c_ps c1). rewrite P1, (ps_d_eq E).
      apply costs_if; intros Z0.
      * apply Z.ltb_lt in Z0. replace (l <? p_d P - 1) with true by (symmetry; apply Z.ltb_lt; lia). cbn [if_last].
        apply costs_bind0; [auto with si nocore|]. intros sh _. eapply costs_eq; [eapply costs_bind; [apply co_set_up_verify|]|apply Z.add_0_r]. intros c4 _ _. apply costs_ret. exact I.
      * apply Z.ltb_ge in Z0. replace (l <? p_d P - 1) with false by (symmetry; apply Z.ltb_ge; lia). cbn [if_last].
        apply costs_bind0; [apply silent_if; [|sil]; apply silent_bind; [auto with si nocore|]; intros r; apply silent_bind; [apply si_memcmp|]; intros; sil|].
        intros g _. apply costs_if; intros _; apply costs_ret; exact I.
Qed.
End Switch.

(** ** The blocks *)
Section Blocks.
Variable mb : member.
Variable E : env.
Local Notation n := (e_n E).
Local Notation P := (e_P E).
Variables (SIG M root PK : list Z).
Hypothesis K1 : slice PK 0 n = e_seed E.
Hypothesis K2 : slice PK n n = root.

Lemma ht_message_spec k : forall l, (l + k <= Z.to_nat (p_d P))%nat ->
  ht_message P (e_seed E) k (Z.of_nat l) (vmsg E SIG M root l) (SIGHT E SIG) (tr E (vT E SIG M root) (Z.of_nat l)) (lf E (vT E SIG M root) (vleaf E SIG M root) (Z.of_nat l))
  = vmsg E SIG M root (l + k).
Proof.
  pose proof (vT_pos E SIG M root) as VT.
  induction k as [|k IH]; intros l Hl; cbn [ht_message].
  - rewrite Nat.add_0_r. reflexivity.
  - replace (l + S k)%nat with (S l + k)%nat by lia. rewrite <- IH by lia. cbn [vmsg].
    rewrite Nat2Z.inj_succ. unfold Z.succ. rewrite tr_S by lia. f_equal.
    unfold lf at 1. destruct (Z.eqb_spec (Z.of_nat l + 1) 0); [lia|]. replace (Z.of_nat l + 1 - 1) with (Z.of_nat l) by lia. reflexivity.
Qed.
Lemma layer_msgz l : 0 <= l <= p_d P -> is_bytes SIG -> slh_sig_length P <= zlen SIG -> layer_message P M SIG PK l = msgz E SIG M root l.
Proof.
  intros Hl BS LS. unfold layer_message, message_digest. cbv zeta. change (p_n P) with n. rewrite K1, K2. change (p_hash P) with (e_hs E).
  replace (slice SIG 0 n) with (vR E SIG) by (unfold vR, PfVerify.blk; f_equal).
  fold (vD E SIG M root). change (md_of P (vD E SIG M root)) with (vmd E SIG M root). rewrite vpk_spec. fold (SIGHT E SIG). fold (vT E SIG M root). fold (vleaf E SIG M root).
  pose proof (ht_message_spec (Z.to_nat l) 0 ltac:(lia)) as X. cbn [Z.of_nat Nat.add vmsg] in X. unfold tr in X. rewrite Z.mul_0_r, Z.pow_0_r, Z.div_1_r in X. exact X.
Qed.
Definition vxs : list Z := map (fun x => verify_bill P PK M SIG x mb) (blocks_of P).
(** block [j] of group [i] *)
Lemma nth_group {A} (g : Z -> list A) k w i j (tl : list A) d : (forall x, zlen (g x) = w) -> 0 <= i < k -> 0 <= j < w ->
  nth (Z.to_nat (i * w + j)) (flat_map g (zrange 0 k) ++ tl) d = nth (Z.to_nat j) (g i) d.
Proof.
  intros Hg Hi Hj. rewrite (zrange_split 0 i k) by lia. rewrite flat_map_app, <- app_assoc.
  assert (L1 : length (flat_map g (zrange 0 i)) = Z.to_nat (i * w)).
  { assert (Y : zlen (flat_map g (zrange 0 i)) = w * Z.of_nat (length (zrange 0 i))) by (apply flat_zlen; intros; apply Hg).
    rewrite zrange_length in Y by lia. unfold zlen in Y. lia. }
  rewrite app_nth2 by (rewrite L1; nia). rewrite L1. replace (Z.to_nat (i * w + j) - Z.to_nat (i * w))%nat with (Z.to_nat j) by nia.
  rewrite zrange_cons by lia. cbn [flat_map]. rewrite <- app_assoc. apply app_nth1. specialize (Hg i). unfold zlen in Hg. lia.
Qed.
Lemma nth_zrange {A} (g : Z -> A) k j d : 0 <= j < k -> nth (Z.to_nat j) (map g (zrange 0 k)) d = g j.
Proof.
  intros Hj. rewrite (zrange_split 0 j k) by lia. rewrite map_app. pose proof (zrange_length 0 j ltac:(lia)) as L0.
  rewrite app_nth2 by (rewrite map_length; lia). rewrite map_length. replace (Z.to_nat j - length (zrange 0 j))%nat with 0%nat by lia.
  rewrite zrange_cons by lia. reflexivity.
Qed.
Definition vblk (s : vst) : block :=
  match s with VI => TheRandomiser | VFL i => FewTimeSecret i | VFA i j => FewTimePath i j | VWT l q => Chain l q | VMK l j => TreePath l j end.
Lemma nth_blocks s : vrng E s -> nth (Z.to_nat (vpos E s)) (blocks_of P) TheRandomiser = vblk s.
Proof.
  pose proof (k_bounds E) as Kb. pose proof (t_bounds E) as Tb. pose proof (wlen_eq E) as Wl. pose proof (n_bounds E) as Nb.
  pose proof (d_bounds E) as Db. pose proof (mh_bounds E) as Mb.
  rewrite (blocks_parts E). cbn [parts]. intros R. destruct s as [|i|i j|l q|l j]; cbn [vrng vpos vblk] in *; [reflexivity| | | |].
  - unfold fpos. replace (1 + i * (p_a P + 1)) with (Z.succ (i * (p_a P + 1) + 0)) by lia. rewrite Z2Nat.inj_succ by nia. cbn [nth].
    rewrite nth_group by (try lia; intros; unfold few; rewrite zlen_cons; unfold zlen; rewrite map_length, upto_zrange, zrange_length by lia; lia).
    reflexivity.
  - unfold fpos. replace (1 + i * (p_a P + 1) + 1 + j) with (Z.succ (i * (p_a P + 1) + (1 + j))) by lia. rewrite Z2Nat.inj_succ by nia. cbn [nth].
    rewrite nth_group by (try lia; intros; unfold few; rewrite zlen_cons; unfold zlen; rewrite map_length, upto_zrange, zrange_length by lia; lia).
    unfold few. rewrite Z.add_1_l, Z2Nat.inj_succ by lia. cbn [nth]. rewrite upto_zrange. apply nth_zrange. lia.
  - assert (X : zlen (flat_map (few E) (zrange 0 (p_k P))) = p_k P * (p_a P + 1)).
    { rewrite (flat_zlen _ (p_a P + 1)); [rewrite zrange_length by lia; lia|]. intros; unfold few; rewrite zlen_cons; unfold zlen; rewrite map_length, upto_zrange, zrange_length by lia; lia. }
    unfold hpos. replace (1 + p_k P * (p_a P + 1) + l * (p_h' P + wlen P) + q) with (Z.succ (p_k P * (p_a P + 1) + (l * (p_h' P + wlen P) + q))) by lia.
    rewrite Z2Nat.inj_succ by nia. cbn [nth]. rewrite app_nth2 by (unfold zlen in X; nia).
    replace (Z.to_nat (p_k P * (p_a P + 1) + (l * (p_h' P + wlen P) + q)) - length (flat_map (few E) (zrange 0 (p_k P))))%nat with (Z.to_nat (l * (p_h' P + wlen P) + q)) by (unfold zlen in X; nia).
    unfold HTp. rewrite <- (app_nil_r (flat_map _ _)).
    rewrite nth_group by (try lia; intros; rewrite zlen_app; unfold zlen; rewrite !map_length, !upto_zrange, !zrange_length by lia; lia).
    rewrite !upto_zrange. rewrite app_nth1 by (rewrite map_length; pose proof (zrange_length 0 (wlen P) ltac:(lia)); lia). apply nth_zrange. lia.
  - assert (X : zlen (flat_map (few E) (zrange 0 (p_k P))) = p_k P * (p_a P + 1)).
    { rewrite (flat_zlen _ (p_a P + 1)); [rewrite zrange_length by lia; lia|]. intros; unfold few; rewrite zlen_cons; unfold zlen; rewrite map_length, upto_zrange, zrange_length by lia; lia. }
    unfold hpos. replace (1 + p_k P * (p_a P + 1) + l * (p_h' P + wlen P) + wlen P + j) with (Z.succ (p_k P * (p_a P + 1) + (l * (p_h' P + wlen P) + (wlen P + j)))) by lia.
    rewrite Z2Nat.inj_succ by nia. cbn [nth]. rewrite app_nth2 by (unfold zlen in X; nia).
    replace (Z.to_nat (p_k P * (p_a P + 1) + (l * (p_h' P + wlen P) + (wlen P + j))) - length (flat_map (few E) (zrange 0 (p_k P))))%nat with (Z.to_nat (l * (p_h' P + wlen P) + (wlen P + j))) by (unfold zlen in X; nia).
    unfold HTp. rewrite <- (app_nil_r (flat_map _ _)).
    rewrite nth_group by (try lia; intros; rewrite zlen_app; unfold zlen; rewrite !map_length, !upto_zrange, !zrange_length by lia; lia).
    rewrite !upto_zrange. pose proof (zrange_length 0 (wlen P) ltac:(lia)) as LW. rewrite app_nth2 by (rewrite map_length; lia). rewrite map_length.
    replace (Z.to_nat (wlen P + j) - length (zrange 0 (wlen P)))%nat with (Z.to_nat j) by lia. apply nth_zrange. lia.
Qed.
Lemma blocks_NB : Z.of_nat (length (blocks_of P)) = NB E.
Proof.
  pose proof (k_bounds E) as Kb. pose proof (t_bounds E) as Tb. pose proof (wlen_eq E) as Wl. pose proof (n_bounds E) as Nb.
  pose proof (d_bounds E) as Db. pose proof (mh_bounds E) as Mb.
  rewrite (blocks_parts E). cbn [parts]. change (zlen (TheRandomiser :: flat_map (few E) (zrange 0 (p_k P)) ++ HTp E 0) = NB E).
  rewrite zlen_cons, zlen_app. unfold HTp.
  rewrite (flat_zlen (few E) (p_a P + 1)) by (intros; unfold few; rewrite zlen_cons; unfold zlen; rewrite map_length, upto_zrange, zrange_length by lia; lia).
  rewrite (flat_zlen _ (p_h' P + wlen P)) by (intros; rewrite zlen_app; unfold zlen; rewrite !map_length, !upto_zrange, !zrange_length by lia; lia).
  rewrite !zrange_length by lia. unfold NB. ring.
Qed.
Hypothesis BSIG : is_bytes SIG.
Hypothesis LSIG : slh_sig_length P <= zlen SIG.
Lemma nth_vbill s : vrng E s -> nth (Z.to_nat (vpos E s)) vxs 0 = vb E SIG M root s mb.
Proof.
  intros R. unfold vxs. set (g := fun x => verify_bill P PK M SIG x mb). rewrite (nth_indep _ 0 (g TheRandomiser)).
  2:{ rewrite map_length. pose proof (vpos_range E s R). pose proof blocks_NB. lia. }
  rewrite (map_nth g), nth_blocks by exact R. unfold g. destruct s as [|i|i j|l q|l j]; cbn [vblk verify_bill vb]; try reflexivity.
  unfold position. cbn [vrng] in R. rewrite layer_msgz by (try assumption; lia). reflexivity.
Qed.

(** what the blocks that are complete with [u] bytes cost *)
Definition V (u : Z) : Z := pre (fun i => nth i vxs 0) (Z.to_nat (u / n)).
Lemma complete_V u : 0 <= u -> complete n vxs u = V u.
Proof.
  intros Hu. pose proof (n_bounds E) as Nb. unfold complete, V. apply pre_sum.
  - intros i. rewrite Z.leb_le. clear - Nb Hu. split; intros H.
    + assert (Z.of_nat i + 1 <= u / n) by (apply Z.div_le_lower_bound; lia). lia.
    + assert (Z.of_nat i + 1 <= u / n) by lia. pose proof (Z.mul_div_le u n ltac:(lia)). nia.
  - intros i Hi. apply nth_overflow, Hi.
Qed.
Lemma V_at s o : 0 <= o < n -> vrng E s -> V (vtot E s o) = pre (fun i => nth i vxs 0) (Z.to_nat (vpos E s)).
Proof. intros Ho R. unfold V, vtot. pose proof (n_bounds E). rewrite Z.add_comm, Z.div_add by lia. rewrite Z.div_small by lia. reflexivity. Qed.
Lemma V_end u : slh_sig_length P <= u -> V u = V (slh_sig_length P).
Proof.
  intros Hu. pose proof (n_bounds E) as Nb. unfold V.
  assert (Z0 : forall i, (length vxs <= i)%nat -> nth i vxs 0 = 0) by (intros; apply nth_overflow; assumption).
  rewrite <- (pre_min (fun i => nth i vxs 0) (length vxs) (Z.to_nat (u / n)) Z0), <- (pre_min (fun i => nth i vxs 0) (length vxs) (Z.to_nat (slh_sig_length P / n)) Z0). f_equal.
  assert (length vxs = Z.to_nat (NB E)) as -> by (unfold vxs; rewrite map_length; pose proof blocks_NB; lia).
  pose proof (NB_len E) as NL. assert (NB E <= u / n) by (apply Z.div_le_lower_bound; lia).
  assert (slh_sig_length P / n = NB E) as -> by (rewrite <- NL; apply Z.div_mul; lia). lia.
Qed.
Lemma V_next s : vrng E s -> V ((vpos E s + 1) * n) = pre (fun i => nth i vxs 0) (Z.to_nat (vpos E s)) + vb E SIG M root s mb.
Proof.
  intros R. pose proof (n_bounds E) as Nb. pose proof (vpos_range E s R). unfold V. rewrite Z.div_mul by lia. rewrite Z2Nat.inj_add by lia. change (Z.to_nat 1) with 1%nat.
  rewrite Nat.add_1_r. cbn [pre]. rewrite nth_vbill by exact R. reflexivity.
Qed.

(** ** The loop *)
Hypothesis HM : msg_ok M.
Hypothesis Hroot : str_ok E root.
Variable maddr : Z.
Lemma co_verify_loop fuel : forall sg pos m s o c, at_vrun E SIG M root maddr s o c -> (vtot E s o < n -> n <= vtot E s o + m -> vmem E M root maddr VI) ->
  (vtot E s o + m = slh_sig_length P -> root_at E root) ->
  0 <= m < 2 ^ 32 -> 0 <= pos -> 
  (forall i k, 0 <= i -> 0 <= k -> i + k <= m -> vtot E s o + i + k <= slh_sig_length P ->
     rd_range sg (pos + i) k = Ok (slice SIG (vtot E s o + i) k)) ->
  costs mb (V (vtot E s o + m) - V (vtot E s o)) (fun _ => True) (l_verify_loop (e_cfg E) (e_mem E) fuel sg pos m c).
Proof.
  induction fuel as [|fuel IH]; intros sg pos m s o c HR Hmem Hrt Hm Hpos Hsg; [apply costs_ub|].
  pose proof HR as [HI Ho Hrg (t & Hbuf)]. pose proof (n_bounds E) as Nb. pose proof (n_max E) as Nm.
  assert (G : good E c) by apply HI. assert (Rg : vrng E s) by apply HI. pose proof (vpos_range E s Rg) as Rp.
  pose proof (blk_fit E (vpos E s) (NB E) ltac:(lia) ltac:(lia)) as Bf. rewrite NB_len in Bf.
  cbn [l_verify_loop]. cbv zeta. rewrite (ps_n_c E c G), Ho. unfold u32. rewrite (Z.mod_small (n - o)) by lia.
  set (r := if m <? n - o then m else n - o).
  assert (Hr : 0 <= r <= n - o /\ r <= m) by (unfold r; destruct (Z.ltb_spec m (n - o)); lia).
  eapply costs_eq; [eapply (costs_bind mb 0 _ (fun x => x = r))|apply Z.add_0_l].
  { apply costs_if; intros X; apply costs_ret; unfold r; rewrite X; reflexivity. }
  intros r0 _ ->.
  assert (Hsrc : rd_range sg pos r = Ok (slice SIG (vtot E s o) r)).
  { rewrite <- (Z.add_0_r pos), <- (Z.add_0_r (vtot E s o)). apply Hsg; [lia|lia|lia|]. unfold vtot. lia. }
  apply costs_bind0; [auto with si nocore|]. intros src Es. rewrite er_rd_range, Hsrc in Es. apply ok_inj in Es. subst src.
  destruct (wf_buffer _ _ (g_wf E c G)) as [Lb Bb].
  assert (Bp : 0 <= vpos E s * n) by nia.
  assert (Lsl : zlen (slice SIG (vpos E s * n) o) = o) by (apply slice_zlen; lia).
  assert (Lsrc : zlen (slice SIG (vtot E s o) r) = r) by (apply slice_zlen; unfold vtot; lia).
  apply costs_bind0; [auto with si nocore|]. intros b1 Eb. rewrite er_wr_range, wr_range_ok in Eb by lia. apply ok_inj in Eb. symmetry in Eb.
  assert (Eb1 : b1 = slice SIG (vpos E s * n) (o + r) ++ skipn (Z.to_nat o + length (slice SIG (vtot E s o) r)) (c_buffer c)).
  { rewrite Eb. rewrite app_assoc. f_equal. rewrite slice_step by lia. f_equal. rewrite Hbuf. apply firstn_app_exact. unfold zlen in Lsl. lia. }
  assert (Ob1 : bytes_of (TS_MAX_HASH (e_cfg E)) b1).
  { split.
    - rewrite Eb1, zlen_app. rewrite slice_zlen by lia. unfold zlen in *. rewrite skipn_length. lia.
    - rewrite Eb1. apply bytes_app; [apply slice_bytes, BSIG|apply Forall_skipn', Bb]. }
  set (c1 := set_buffer b1 c).
  assert (HI1 : VInv E SIG M root maddr s c1) by (apply VInv_buffer; assumption).
  rewrite (Z.mod_small (o + r)) by lia. rewrite (Z.mod_small (m - r)) by lia.
  apply costs_if; intros X.
  - apply Z.ltb_lt in X. assert (Er : r = m) by (unfold r in *; destruct (Z.ltb_spec m (n - o)); lia).
    eapply costs_eq; [apply costs_ret; exact I|]. unfold vtot. replace (vpos E s * n + o + m) with (vtot E s (o + m)) by (unfold vtot; lia).
    fold (vtot E s o). rewrite !V_at by (try assumption; lia). lia.
  - apply Z.ltb_ge in X. assert (Eor : o + r = n) by lia. rewrite Eor in Eb1.
    set (c2 := set_buffer_offset 0 c1).
    assert (HI2 : VInv E SIG M root maddr s c2) by (apply VInv_offset; [exact HI1|lia]).
    assert (HB2 : buf_is BufBuffer (PfVerify.blk E SIG (vpos E s)) c2) by (eexists; exact Eb1).
    assert (Et : vtot E s o + r = (vpos E s + 1) * n) by (unfold vtot; lia).
    assert (Hmm : vmem E M root maddr s) by (destruct s; try exact I; apply Hmem; unfold vtot; cbn [vpos]; lia).
    assert (Dl : {s = vlast E} + {s <> vlast E}).
    { destruct s as [| | | |l j]; try (right; unfold vlast; discriminate). unfold vlast.
      destruct (Z.eq_dec l (p_d P - 1)) as [->|]; [destruct (Z.eq_dec j (p_h' P - 1)) as [->|]|]; [left; reflexivity|right; congruence|right; congruence]. }
    rewrite (V_at s o Hrg Rg).
    destruct Dl as [Es|Es].
    + assert (Ep : (vpos E s + 1) * n = slh_sig_length P) by (rewrite <- NB_len, Es, vpos_last; reflexivity).
      rewrite (V_end (vtot E s o + m)) by lia. rewrite <- Ep, V_next by exact Rg.
      destruct (vstep_last E SIG M root Hroot BSIG LSIG maddr (m - r) c2) as (c3 & E3 & _); [rewrite <- Es; exact HI2|rewrite <- Es; exact HB2|intros; apply Hrt; lia|].
      eapply costs_eq; [eapply (costs_bind mb (vb E SIG M root s mb) 0 (fun x => exists y, x = inr y))|lia].
      * intros x Hx. destruct (co_verify_switch mb E SIG M root maddr s _ c2 HI2 x Hx) as [T _]. split; [exact T|].
        rewrite er_verify_switch, E3 in Hx. apply ok_inj in Hx. subst x. eexists. reflexivity.
      * intros x _ (y & ->). apply costs_ret. exact I.
    + destruct (vswitch_ok E SIG M root HM Hroot BSIG LSIG maddr s c2 Es HI2 Hmm HB2 (m - r)) as (c3 & E3 & HI3 & O3).
      destruct (vpos_nxt E s Rg Es) as [Rn En].
      assert (HR3 : at_vrun E SIG M root maddr (vnxt E s) 0 c3).
      { split; [exact HI3|exact O3|lia|]. exists (c_buffer c3). unfold slice. reflexivity. }
      assert (Et3 : vtot E (vnxt E s) 0 = vtot E s o + r) by (unfold vtot; rewrite En; lia).
      eapply costs_eq; [eapply (costs_bind mb (vb E SIG M root s mb) (V (vtot E s o + m) - V ((vpos E s + 1) * n)) (fun x => x = inl c3))|].
      * intros x Hx. destruct (co_verify_switch mb E SIG M root maddr s _ c2 HI2 x Hx) as [T _]. split; [exact T|].
        rewrite er_verify_switch, E3 in Hx. apply ok_inj in Hx. congruence.
      * intros x _ ->. eapply costs_eq; [apply (IH sg (pos + r) (m - r) (vnxt E s) 0 c3 HR3)|].
        -- rewrite Et3. intros. lia.
        -- rewrite Et3. intros. apply Hrt. lia.
        -- lia.
        -- lia.
        -- intros i k Hi Hk Hik Hl. rewrite Et3 in Hl |- *. rewrite <- !Z.add_assoc. apply Hsg; lia.
        -- rewrite Et3, Et. do 2 f_equal. lia.
      * rewrite V_next by exact Rg. lia.
Qed.
End Blocks.
