(** * Runs of the compression functions: verification *)
From Verif Require Import Arr CLeak SpecSLH SpecApi ModelParams ModelCtx ModelHash ModelSphincs ModelVerify ModelApi SpecMap SpecSessions PfGlueSha PfIter PfEnv PfAdr PfGlue PfMsg PfCtx PfTree PfPaths PfBits PfWots PfSpec PfSign PfVerify PfApi PfKeygen PfComplete SpecReuse SpecForge SpecLeak PfReuse.
From Verif Require Import LeakSha2 LeakHash LeakSphincs LeakVerify PfLeakErase2 PfLeakErase3 PfLeakErase4 PfLeakShake PfLeakSign PfLeakView PfLeakSession SpecWork PfWorkSilent PfWork PfWorkSign PfWorkSession PfWorkVerify.
From Verif Require Import SpecBlocks PfBlkSha PfBlkHash PfBlk PfBlkSign PfBlkSession.
Ltac Zify.zify_post_hook ::= idtac.

Lemma sq_memcmp a b k : forall i, still (l_my_memcmp a b k i).
Proof. induction k as [|k IH]; intros i; cbn [l_my_memcmp]; stl. Qed.

Section Switch.
Variable r : primitive.
Variable E : env.
Local Notation cfg := (e_cfg E).
Local Notation mem := (e_mem E).
Local Notation n := (e_n E).
Local Notation P := (e_P E).
Local Notation cp := (e_p E).
Variables (SIG M root : list Z).
Hypothesis HM : msg_ok M.
Hypothesis Hroot : str_ok E root.
Hypothesis BSIG : is_bytes SIG.
Hypothesis LSIG : slh_sig_length P <= zlen SIG.
Variable maddr : Z.
Local Notation Inv := (VInv E SIG M root maddr).

Definition vbr (s : vst) : Z :=
  match s with
  | VI => H_msg_runs cp (zlen M) r + begun_runs cfg cp 0 r
  | VFL i => F_runs cfg cp r
  | VFA i j => H_runs cfg cp r
      + (if j =? p_a P - 1 then (if i =? p_k P - 1 then T_runs cfg cp (p_k P) r + begun_runs cfg cp 0 r else begun_runs cfg cp (i + 1) r) - begun_runs cfg cp i r else 0)
  | VWT l q => (15 - nth (Z.to_nat q) (wots_msg P (msgz E SIG M root l)) 0) * F_runs cfg cp r
      + (if q =? wlen P - 1 then T_runs cfg cp (wlen P) r else begun_runs cfg cp (q + 1) r) - begun_runs cfg cp q r
  | VMK l j => H_runs cfg cp r + (if (j =? p_h' P - 1) && (l <? p_d P - 1) then begun_runs cfg cp 0 r else 0)
  end.

Lemma tk_next_auth Y c : c_ps c = e_ps E -> takes r (H_runs cfg cp r) (fb true true (set_merkle_level (u8 (c_merkle_level c + 1)) c)) (l_next_auth_path cfg mem Y c).
Proof.
  intros Hp. unfold l_next_auth_path. cbv zeta. apply tk_bind0; [auto with sq nocore|]. intros sh _.
  set (c0 := set_merkle_level _ c). eapply tk_eq.
  - eapply tk_bind; [apply (tk_merkle_adr cfg r true true)|]. intros c1 _ F1. pose proof (fb_ps _ _ _ _ F1) as P1. change (c_ps c1 = c_ps c) in P1. rewrite Hp in P1.
    eapply tk_bind; [apply (tk_small_init cfg cp (e_on E) r mem true), P1|]. intros c2 _ [F2 L2]. pose proof (fb_ps _ _ _ _ F2) as P2. rewrite P1 in P2.
    eapply (tk_bind r (begun_runs cfg cp (0 + 1) r - begun_runs cfg cp 0 r + (begun_runs cfg cp (1 + 1) r - begun_runs cfg cp 1 r)) _ (sml cfg cp 2 true c2)).
    { assert (X : forall b1 b2, takes r (begun_runs cfg cp (0 + 1) r - begun_runs cfg cp 0 r + (begun_runs cfg cp (1 + 1) r - begun_runs cfg cp 1 r)) (sml cfg cp 2 true c2)
          (lbind (l_small_next_t cfg (b1 c2) c2) (fun c => l_small_next_t cfg (b2 c) c))).
      { intros b1 b2. eapply tk_bind; [apply (tk_small_next cfg cp (e_on E) r true 0); [exact P2|exact L2]|]. intros c3 _ [F3 L3]. pose proof (fb_ps _ _ _ _ F3) as P3. rewrite P2 in P3.
        eapply tk_weak; [apply (tk_small_next cfg cp (e_on E) r true 1); [exact P3|exact L3]|]. intros c4 _ [F4 L4]. split; [exact (fb_trans _ _ _ _ _ F3 F4)|exact L4]. }
      apply tk_if; intros _; [apply (X c_buffer c_auth_path_buffer)|apply (X c_auth_path_buffer c_buffer)]. }
    intros c3 _ [F3 L3]. pose proof (fb_ps _ _ _ _ F3) as P3. rewrite P2 in P3.
    eapply tk_weak; [apply (tk_small_final cfg cp (e_on E) r 2 BufAuth); [exact P3|exact L3]|]. intros c4 _ F4.
    eapply fb_trans; [exact F1|]. eapply fb_trans; [exact F2|]. exact (fb_trans _ _ _ _ _ F3 F4).
  - change (0 + 1) with 1. change (1 + 1) with 2. unfold H_runs. ring.
Qed.
Lemma set_up_ps i c d : result (l_ts_set_up_wots_signature cfg i c) = Ok d -> c_ps d = c_ps c.
Proof.
  assert (X : post (fun d => c_ps d = c_ps c) (l_ts_set_up_wots_signature cfg i c)).
  { unfold l_ts_set_up_wots_signature. cbv zeta. apply post_bind. intros x. apply post_bind. intros y. apply post_ret. reflexivity. }
  apply X.
Qed.
Lemma tk_set_up_verify i c : c_ps c = e_ps E -> takes r (begun_runs cfg cp 0 r) (fun _ => True) (l_set_up_wots_verify_signature cfg mem i c).
Proof.
  intros Hp. unfold l_set_up_wots_verify_signature. apply tk_bind0; [apply sq_set_up|]. intros c1 E1. apply set_up_ps in E1. rewrite Hp in E1. cbv zeta.
  eapply tk_eq; [eapply tk_bind; [apply (tk_wots_header_adr cfg r true true)|]|apply Z.add_0_l]. intros c2 _ F2. pose proof (fb_ps _ _ _ _ F2) as P2. change (c_ps c2 = c_ps c1) in P2. rewrite E1 in P2.
  eapply tk_eq; [eapply tk_bind; [apply (tk_big_init cfg cp (e_on E) r mem true), P2|]|apply Z.add_0_r]. intros c3 _ _. apply tk_ret. exact I.
Qed.

Lemma tk_verify_switch s m c : Inv s c -> takes r (vbr s) (fun _ => True) (l_verify_switch cfg mem m c).
Proof.
  intros (G & R & H). pose proof (g_ps E c G) as Eps. pose proof (n_bounds E) as Nb. pose proof (t_bounds E) as Tb. pose proof (mh_bounds E) as Mb.
  pose proof (k_bounds E) as Kb. pose proof (d_bounds E) as Db. pose proof (wlen_eq E) as Wl.
  unfold l_verify_switch. cbv zeta. destruct s as [|i|i j|l q|l j]; cbn [vrng] in R.
  - destruct H as (S & _ & HLen). apply tk_if; intros X; [clear X|rewrite S in X; discriminate X]. cbn [vbr].
    apply tk_bind0; [unfold l_get_verify_message; auto with sq nocore|]. intros a1 _.
    apply tk_bind0; [unfold l_get_verify_len; auto with sq nocore|]. intros a2 E2.
    assert (a2 = zlen M) as -> by (unfold l_get_verify_len, l_rd_word in E2; rewrite result_tick in E2; unfold quiet, result in E2; cbn [snd] in E2; unfold get_verify_len in HLen; rewrite HLen in E2; apply ok_inj in E2; congruence).
    apply tk_bind0; [auto with sq nocore|]. intros a3 E3. apply len_load in E3; [|unfold zlen; lia]. destruct HM as [_ LM]. rewrite <- E3 in *.
    eapply tk_bind; [apply (tk_hash_msg cfg cp (e_on E) r mem); [exact Eps|lia|reflexivity]|]. intros [mh c1] _ [it1 H1]. cbn [snd] in H1.
    assert (P1 : c_ps c1 = e_ps E) by (rewrite H1; exact Eps).
    eapply tk_eq; [eapply tk_bind; [apply (tk_wr_stack r)|]|apply Z.add_0_l]. intros c2 _ F2. pose proof (fb_ps _ _ _ _ F2) as P2. rewrite P1 in P2.
    apply tk_bind0; [apply sq_rd_stack|]. intros st _.
    apply tk_bind0; [apply sq_convert|]. intros [st2 c3] E4. apply convert_ps in E4. rewrite P2 in E4.
    eapply tk_eq; [eapply tk_bind; [apply (tk_wr_stack r)|]|apply Z.add_0_l]. intros c4 _ F4. pose proof (fb_ps _ _ _ _ F4) as P4. rewrite E4 in P4.
    eapply tk_eq; [eapply tk_bind; [apply (tk_fors_root_adr cfg r true true)|]|apply Z.add_0_l]. intros c5 _ F5. pose proof (fb_ps _ _ _ _ F5) as P5. change (c_ps c5 = c_ps c4) in P5. rewrite P4 in P5.
    eapply tk_eq; [eapply tk_bind; [apply (tk_big_init cfg cp (e_on E) r mem true), P5|]|apply Z.add_0_r]. intros c6 _ _. apply tk_ret. exact I.
  - destruct H as (S & _). apply tk_if; intros X; [rewrite S in X; discriminate X|clear X]. apply tk_if; intros X; [clear X|rewrite S in X; discriminate X].
    cbn [vbr]. apply tk_bind0; [auto with sq nocore|]. intros node _.
    eapply tk_eq; [eapply tk_bind; [apply (tk_fors_leaf_adr cfg r true true)|]|apply Z.add_0_l]. intros c1 _ F1. pose proof (fb_ps _ _ _ _ F1) as P1. change (c_ps c1 = c_ps c) in P1. rewrite Eps in P1.
    eapply tk_eq; [eapply tk_bind; [apply (tk_do_f cfg cp (e_on E) r mem BufAuth BufBuffer), P1|]|apply Z.add_0_r]. intros c2 _ _. apply tk_ret. exact I.
  - destruct H as (S & (HL & Hft & _ & _ & _ & Big) & Hml & _). do 2 (apply tk_if; intros X; [rewrite S in X; discriminate X|clear X]).
    apply tk_if; intros X; [clear X|rewrite S in X; discriminate X].
    pose proof (irep_lvl E _ _ _ i Big (froots_zlen E SIG M root BSIG i ltac:(lia))) as Lv.
    cbn [vbr]. eapply tk_bind; [apply tk_next_auth, Eps|]. intros c1 _ F1.
    pose proof (f_ml _ _ _ (b_fr _ _ _ _ F1)) as M1. pose proof (fb_ps _ _ _ _ F1) as P1. pose proof (f_ft _ _ _ (b_fr _ _ _ _ F1)) as T1.
    change (c_merkle_level c1 = u8 (c_merkle_level c + 1)) in M1. change (c_ps c1 = c_ps c) in P1. change (c_fors_tree c1 = c_fors_tree c) in T1.
    pose proof (b_big _ _ _ _ F1 eq_refl) as B1. change (c_big_iter c1 = c_big_iter c) in B1. rewrite <- B1 in Lv.
    rewrite Hft in T1. rewrite Eps in P1. rewrite Hml in M1. unfold u8 in M1. rewrite Z.mod_small in M1 by lia.
    rewrite M1, P1, (ps_t_eq E). apply tk_if; intros X.
    + apply Z.eqb_eq in X. replace (j =? p_a P - 1) with true by (symmetry; apply Z.eqb_eq; lia).
      eapply tk_eq.
      * eapply (tk_bind r _ (if i =? p_k P - 1 then T_runs cfg cp (p_k P) r - begun_runs cfg cp (p_k P) r + begun_runs cfg cp 0 r else 0)); [apply (tk_big_next cfg cp (e_on E) r false i); [exact P1|exact Lv]|]. intros c2 _ [F2 L2]. cbv zeta.
        pose proof (fb_ps _ _ _ _ F2) as P2. pose proof (f_ft _ _ _ (b_fr _ _ _ _ F2)) as T2. rewrite P1 in P2. rewrite T1 in T2.
        match goal with |- takes _ _ _ (lif (?a =? ?b) _ _) => change a with (u8 (c_fors_tree c2 + 1)); change b with (ps_k (c_ps c2)) end.
        rewrite P2, T2, (ps_k_eq E). unfold u8. rewrite Z.mod_small by lia.
        apply tk_if; intros Y.
        -- apply Z.eqb_eq in Y. replace (i =? p_k P - 1) with true by (symmetry; apply Z.eqb_eq; lia).
           rewrite Y in L2. eapply tk_bind; [apply (tk_big_final cfg cp (e_on E) r (p_k P) BufAuth); [exact P2|exact L2]|]. intros c3 _ F3.
           pose proof (fb_ps _ _ _ _ F3) as P3. change (c_ps c3 = c_ps c2) in P3. rewrite P2 in P3.
           eapply tk_eq; [eapply tk_bind; [apply tk_set_up_verify; exact P3|]|apply Z.add_0_r]. intros c4 _ _. apply tk_ret. exact I.
        -- apply Z.eqb_neq in Y. replace (i =? p_k P - 1) with false by (symmetry; apply Z.eqb_neq; lia). apply tk_ret. exact I.
      * destruct (Z.eqb_spec i (p_k P - 1)) as [->|]; [replace (p_k P - 1 + 1) with (p_k P) by lia; lia|lia].
    + apply Z.eqb_neq in X. replace (j =? p_a P - 1) with false by (symmetry; apply Z.eqb_neq; lia). apply tk_ret. exact I.
  - destruct H as (S & _ & _ & D & X1 & Big). do 3 (apply tk_if; intros X; [rewrite S in X; discriminate X|clear X]).
    apply tk_if; intros X; [clear X|rewrite S in X; discriminate X].
    pose proof (irep_lvl E _ _ _ q Big (proj1 (wends_ok E SIG M root BSIG LSIG l q ltac:(lia) ltac:(lia)))) as Lv.
    destruct (set_digit_ok E (c_x c) (q + 1) (good_x_ok E c G)) as (x1 & Ex & B1 & D1 & D2); [lia|].
    set (dq := nth (Z.to_nat q) (wots_msg P (msgz E SIG M root l)) 0).
    assert (Eq : get_digits cfg x1 q = Ok dq) by (rewrite D2; apply X1; lia).
    assert (Hq : 0 <= dq <= 15) by apply wots_msg_range.
    cbn [vbr]. fold dq.
    apply tk_bind0; [auto with sq nocore|]. intros d Ed. rewrite er_get_digit, D in Ed. apply ok_inj in Ed. subst d.
    apply tk_bind0; [auto with sq nocore|]. intros x2 Ed. rewrite er_set_digit, Ex in Ed. apply ok_inj in Ed. subst x2.
    apply tk_bind0; [auto with sq nocore|]. intros fr0 Ed. rewrite er_get_digits in Ed. change (c_x (set_x x1 c)) with x1 in Ed. rewrite Eq in Ed. apply ok_inj in Ed. subst fr0.
    rewrite <- Z.add_sub_assoc. eapply tk_bind; [apply (tk_chain_loop cfg cp (e_on E) r mem BufBuffer); [lia|exact Eps]|]. intros c1 _ F1.
    pose proof (fb_ps _ _ _ _ F1) as P1. change (c_ps c1 = c_ps c) in P1. rewrite Eps in P1.
    pose proof (b_big _ _ _ _ F1 eq_refl) as B2. change (c_big_iter c1 = c_big_iter c) in B2. rewrite <- B2 in Lv.
    eapply tk_eq.
    + eapply (tk_bind r _ (if q =? wlen P - 1 then T_runs cfg cp (wlen P) r - begun_runs cfg cp (wlen P) r else 0)); [apply (tk_big_next cfg cp (e_on E) r true q); [exact P1|exact Lv]|]. intros c2 _ [F2 L2].
      apply tk_bind0; [auto with sq nocore|]. intros d Ed. rewrite er_get_digit in Ed.
      rewrite (f_x _ _ _ (b_fr _ _ _ _ F2) eq_refl), (f_x _ _ _ (b_fr _ _ _ _ F1) eq_refl) in Ed. change (c_x (set_x x1 c)) with x1 in Ed. rewrite D1 in Ed. apply ok_inj in Ed. subst d.
      pose proof (fb_ps _ _ _ _ F2) as P2. rewrite P1 in P2.
      rewrite P2, (ps_n_eq E), <- Wl. apply tk_if; intros X.
      * destruct (Z.eqb_spec (q + 1) (wlen P)) as [Y|Y]; [discriminate|]. replace (q =? wlen P - 1) with false by (symmetry; apply Z.eqb_neq; lia). apply tk_ret. exact I.
      * destruct (Z.eqb_spec (q + 1) (wlen P)) as [Y|Y]; [|discriminate]. replace (q =? wlen P - 1) with true by (symmetry; apply Z.eqb_eq; lia).
        rewrite Y in L2. eapply tk_eq; [eapply tk_bind; [apply (tk_big_final cfg cp (e_on E) r (wlen P) BufAuth); [exact P2|exact L2]|]|apply Z.add_0_r]. intros c3 _ _. apply tk_ret. exact I.
    + destruct (Z.eqb_spec q (wlen P - 1)) as [->|]; [replace (wlen P - 1 + 1) with (wlen P) by lia; lia|lia].
  - destruct H as (S & (Hl & _) & Hml & _). do 4 (apply tk_if; intros X; [rewrite S in X; discriminate X|clear X]).
    apply tk_if; intros X; [clear X|rewrite S in X; discriminate X].
    cbn [vbr]. eapply tk_bind; [apply tk_next_auth, Eps|]. intros c1 _ F1.
    pose proof (f_ml _ _ _ (b_fr _ _ _ _ F1)) as M1. pose proof (fb_ps _ _ _ _ F1) as P1. pose proof (f_hl _ _ _ (b_fr _ _ _ _ F1)) as L1.
    change (c_merkle_level c1 = u8 (c_merkle_level c + 1)) in M1. change (c_ps c1 = c_ps c) in P1. change (c_hypertree_level c1 = c_hypertree_level c) in L1.
    rewrite Hl in L1. rewrite Eps in P1. rewrite Hml in M1. unfold u8 in M1. rewrite Z.mod_small in M1 by lia.
    rewrite M1, P1, (ps_mh_eq E). apply tk_if; intros X.
    + destruct (Z.eqb_spec (j + 1) (p_h' P)) as [Y|Y]; [discriminate|]. replace (j =? p_h' P - 1) with false by (symmetry; apply Z.eqb_neq; lia). apply tk_ret. exact I.
    + destruct (Z.eqb_spec (j + 1) (p_h' P)) as [Y|Y]; [|discriminate]. replace (j =? p_h' P - 1) with true by (symmetry; apply Z.eqb_eq; lia). cbn [andb].
      rewrite L1. unfold u8. rewrite Z.mod_small by lia. set (c2 := set_hypertree_level (l + 1) c1).
      change (c_hypertree_level c2) with (l + 1). change (c_ps c2) with (c_ps c1). rewrite P1, (ps_d_eq E).
      apply tk_if; intros Z0.
      * apply Z.ltb_lt in Z0. replace (l <? p_d P - 1) with true by (symmetry; apply Z.ltb_lt; lia).
        apply tk_bind0; [auto with sq nocore|]. intros sh _. eapply tk_eq; [eapply tk_bind; [apply tk_set_up_verify; exact P1|]|apply Z.add_0_r]. intros c4 _ _. apply tk_ret. exact I.
      * apply Z.ltb_ge in Z0. replace (l <? p_d P - 1) with false by (symmetry; apply Z.ltb_ge; lia).
        apply tk_bind0; [apply still_if; [|stl]; apply still_bind; [auto with sq nocore|]; intros rr; apply still_bind; [apply sq_memcmp|]; intros; stl|].
        intros g _. apply tk_if; intros _; apply tk_ret; exact I.
Qed.
End Switch.

(** ** The blocks *)
Section Blocks.
Variable pr : primitive.
Variable E : env.
Local Notation n := (e_n E).
Local Notation P := (e_P E).
Variables (SIG M root PK : list Z).
Hypothesis K1 : slice PK 0 n = e_seed E.
Hypothesis K2 : slice PK n n = root.
Definition rxs : list Z := map (fun x => verify_runs (e_cfg E) (e_p E) PK M SIG pr x) (blocks_of P).
Hypothesis BSIG : is_bytes SIG.
Hypothesis LSIG : slh_sig_length P <= zlen SIG.
Lemma nth_vruns s : vrng E s -> nth (Z.to_nat (vpos E s)) rxs 0 = vbr pr E SIG M root s.
Proof.
  intros R. unfold rxs. set (g := fun x => verify_runs (e_cfg E) (e_p E) PK M SIG pr x). rewrite (nth_indep _ 0 (g TheRandomiser)).
  2:{ rewrite map_length. pose proof (vpos_range E s R). pose proof (blocks_NB E). lia. }
  rewrite (map_nth g), nth_blocks by exact R. unfold g. destruct s as [|i|i j|l q|l j]; cbn [vblk verify_runs vbr]; try reflexivity.
  unfold position. cbn [vrng] in R. change (slh_of (e_p E)) with P; rewrite (layer_msgz E SIG M root PK) by (try assumption; lia). reflexivity.
Qed.

(** what the blocks that are complete with [u] bytes cost *)
Definition VR (u : Z) : Z := pre (fun i => nth i rxs 0) (Z.to_nat (u / n)).
Lemma complete_VR u : 0 <= u -> complete n rxs u = VR u.
Proof.
  intros Hu. pose proof (n_bounds E) as Nb. unfold complete, VR. apply pre_sum.
  - intros i. rewrite Z.leb_le. clear - Nb Hu. split; intros H.
    + assert (Z.of_nat i + 1 <= u / n) by (apply Z.div_le_lower_bound; lia). lia.
    + assert (Z.of_nat i + 1 <= u / n) by lia. pose proof (Z.mul_div_le u n ltac:(lia)). nia.
  - intros i Hi. apply nth_overflow, Hi.
Qed.
Lemma VR_at s o : 0 <= o < n -> vrng E s -> VR (vtot E s o) = pre (fun i => nth i rxs 0) (Z.to_nat (vpos E s)).
Proof. intros Ho R. unfold VR, vtot. pose proof (n_bounds E). rewrite Z.add_comm, Z.div_add by lia. rewrite Z.div_small by lia. reflexivity. Qed.
Lemma VR_end u : slh_sig_length P <= u -> VR u = VR (slh_sig_length P).
Proof.
  intros Hu. pose proof (n_bounds E) as Nb. unfold VR.
  assert (Z0 : forall i, (length rxs <= i)%nat -> nth i rxs 0 = 0) by (intros; apply nth_overflow; assumption).
  rewrite <- (pre_min (fun i => nth i rxs 0) (length rxs) (Z.to_nat (u / n)) Z0), <- (pre_min (fun i => nth i rxs 0) (length rxs) (Z.to_nat (slh_sig_length P / n)) Z0). f_equal.
  assert (length rxs = Z.to_nat (NB E)) as -> by (unfold rxs; rewrite map_length; pose proof (blocks_NB E); lia).
  pose proof (NB_len E) as NL. assert (NB E <= u / n) by (apply Z.div_le_lower_bound; lia).
  assert (slh_sig_length P / n = NB E) as -> by (rewrite <- NL; apply Z.div_mul; lia). lia.
Qed.
Lemma VR_next s : vrng E s -> VR ((vpos E s + 1) * n) = pre (fun i => nth i rxs 0) (Z.to_nat (vpos E s)) + vbr pr E SIG M root s.
Proof.
  intros R. pose proof (n_bounds E) as Nb. pose proof (vpos_range E s R). unfold VR. rewrite Z.div_mul by lia. rewrite Z2Nat.inj_add by lia. change (Z.to_nat 1) with 1%nat.
  rewrite Nat.add_1_r. cbn [pre]. rewrite nth_vruns by exact R. reflexivity.
Qed.

(** ** The loop *)
Hypothesis HM : msg_ok M.
Hypothesis Hroot : str_ok E root.
Variable maddr : Z.
Lemma tk_verify_loop fuel : forall sg pos m s o c, at_vrun E SIG M root maddr s o c -> (vtot E s o < n -> n <= vtot E s o + m -> vmem E M root maddr VI) ->
  (vtot E s o + m = slh_sig_length P -> root_at E root) ->
  0 <= m < 2 ^ 32 -> 0 <= pos -> 
  (forall i k, 0 <= i -> 0 <= k -> i + k <= m -> vtot E s o + i + k <= slh_sig_length P ->
     rd_range sg (pos + i) k = Ok (slice SIG (vtot E s o + i) k)) ->
  takes pr (VR (vtot E s o + m) - VR (vtot E s o)) (fun _ => True) (l_verify_loop (e_cfg E) (e_mem E) fuel sg pos m c).
Proof.
  induction fuel as [|fuel IH]; intros sg pos m s o c HR Hmem Hrt Hm Hpos Hsg; [apply tk_ub|].
  pose proof HR as [HI Ho Hrg (t & Hbuf)]. pose proof (n_bounds E) as Nb. pose proof (n_max E) as Nm.
  assert (G : good E c) by apply HI. assert (Rg : vrng E s) by apply HI. pose proof (vpos_range E s Rg) as Rp.
  pose proof (blk_fit E (vpos E s) (NB E) ltac:(lia) ltac:(lia)) as Bf. rewrite NB_len in Bf.
  cbn [l_verify_loop]. cbv zeta. rewrite (ps_n_c E c G), Ho. unfold u32. rewrite (Z.mod_small (n - o)) by lia.
  set (r := if m <? n - o then m else n - o).
  assert (Hr : 0 <= r <= n - o /\ r <= m) by (unfold r; destruct (Z.ltb_spec m (n - o)); lia).
  eapply tk_eq; [eapply (tk_bind pr 0 _ (fun x => x = r))|apply Z.add_0_l].
  { apply tk_if; intros X; apply tk_ret; unfold r; rewrite X; reflexivity. }
  intros r0 _ ->.
  assert (Hsrc : rd_range sg pos r = Ok (slice SIG (vtot E s o) r)).
  { rewrite <- (Z.add_0_r pos), <- (Z.add_0_r (vtot E s o)). apply Hsg; [lia|lia|lia|]. unfold vtot. lia. }
  apply tk_bind0; [auto with sq nocore|]. intros src Es. rewrite er_rd_range, Hsrc in Es. apply ok_inj in Es. subst src.
  destruct (wf_buffer _ _ (g_wf E c G)) as [Lb Bb].
  assert (Bp : 0 <= vpos E s * n) by nia.
  assert (Lsl : zlen (slice SIG (vpos E s * n) o) = o) by (apply slice_zlen; lia).
  assert (Lsrc : zlen (slice SIG (vtot E s o) r) = r) by (apply slice_zlen; unfold vtot; lia).
  apply tk_bind0; [auto with sq nocore|]. intros b1 Eb. rewrite er_wr_range, wr_range_ok in Eb by lia. apply ok_inj in Eb. symmetry in Eb.
  assert (Eb1 : b1 = slice SIG (vpos E s * n) (o + r) ++ skipn (Z.to_nat o + length (slice SIG (vtot E s o) r)) (c_buffer c)).
  { rewrite Eb. rewrite app_assoc. f_equal. rewrite slice_step by lia. f_equal. rewrite Hbuf. apply firstn_app_exact. unfold zlen in Lsl. lia. }
  assert (Ob1 : bytes_of (TS_MAX_HASH (e_cfg E)) b1).
  { split.
    - rewrite Eb1, zlen_app. rewrite slice_zlen by lia. unfold zlen in *. rewrite skipn_length. lia.
    - rewrite Eb1. apply bytes_app; [apply slice_bytes, BSIG|apply Forall_skipn', Bb]. }
  set (c1 := set_buffer b1 c).
  assert (HI1 : VInv E SIG M root maddr s c1) by (apply VInv_buffer; assumption).
  rewrite (Z.mod_small (o + r)) by lia. rewrite (Z.mod_small (m - r)) by lia.
  apply tk_if; intros X.
  - apply Z.ltb_lt in X. assert (Er : r = m) by (unfold r in *; destruct (Z.ltb_spec m (n - o)); lia).
    eapply tk_eq; [apply tk_ret; exact I|]. unfold vtot. replace (vpos E s * n + o + m) with (vtot E s (o + m)) by (unfold vtot; lia).
    fold (vtot E s o). rewrite !VR_at by (try assumption; lia). lia.
  - apply Z.ltb_ge in X. assert (Eor : o + r = n) by lia. rewrite Eor in Eb1.
    set (c2 := set_buffer_offset 0 c1).
    assert (HI2 : VInv E SIG M root maddr s c2) by (apply VInv_offset; [exact HI1|lia]).
    assert (HB2 : buf_is BufBuffer (PfVerify.blk E SIG (vpos E s)) c2) by (eexists; exact Eb1).
    assert (Et : vtot E s o + r = (vpos E s + 1) * n) by (unfold vtot; lia).
    assert (Hmm : vmem E M root maddr s) by (destruct s; try exact I; apply Hmem; unfold vtot; cbn [vpos]; lia).
    assert (Dl : {s = vlast E} + {s <> vlast E}).
    { destruct s as [| | | |l j]; try (right; unfold vlast; discriminate). unfold vlast.
      destruct (Z.eq_dec l (p_d P - 1)) as [->|]; [destruct (Z.eq_dec j (p_h' P - 1)) as [->|]|]; [left; reflexivity|right; congruence|right; congruence]. }
    rewrite (VR_at s o Hrg Rg).
    destruct Dl as [Es|Es].
    + assert (Ep : (vpos E s + 1) * n = slh_sig_length P) by (rewrite <- NB_len, Es, vpos_last; reflexivity).
      rewrite (VR_end (vtot E s o + m)) by lia. rewrite <- Ep, VR_next by exact Rg.
      destruct (vstep_last E SIG M root Hroot BSIG LSIG maddr (m - r) c2) as (c3 & E3 & _); [rewrite <- Es; exact HI2|rewrite <- Es; exact HB2|intros; apply Hrt; lia|].
      eapply tk_eq; [eapply (tk_bind pr (vbr pr E SIG M root s) 0 (fun x => exists y, x = inr y))|lia].
      * intros x Hx. destruct (tk_verify_switch pr E SIG M root HM BSIG LSIG maddr s _ c2 HI2 x Hx) as [T _]. split; [exact T|].
        rewrite er_verify_switch, E3 in Hx. apply ok_inj in Hx. subst x. eexists. reflexivity.
      * intros x _ (y & ->). apply tk_ret. exact I.
    + destruct (vswitch_ok E SIG M root HM Hroot BSIG LSIG maddr s c2 Es HI2 Hmm HB2 (m - r)) as (c3 & E3 & HI3 & O3).
      destruct (vpos_nxt E s Rg Es) as [Rn En].
      assert (HR3 : at_vrun E SIG M root maddr (vnxt E s) 0 c3).
      { split; [exact HI3|exact O3|lia|]. exists (c_buffer c3). unfold slice. reflexivity. }
      assert (Et3 : vtot E (vnxt E s) 0 = vtot E s o + r) by (unfold vtot; rewrite En; lia).
      eapply tk_eq; [eapply (tk_bind pr (vbr pr E SIG M root s) (VR (vtot E s o + m) - VR ((vpos E s + 1) * n)) (fun x => x = inl c3))|].
      * intros x Hx. destruct (tk_verify_switch pr E SIG M root HM BSIG LSIG maddr s _ c2 HI2 x Hx) as [T _]. split; [exact T|].
        rewrite er_verify_switch, E3 in Hx. apply ok_inj in Hx. congruence.
      * intros x _ ->. eapply tk_eq; [apply (IH sg (pos + r) (m - r) (vnxt E s) 0 c3 HR3)|].
        -- rewrite Et3. intros. lia.
        -- rewrite Et3. intros. apply Hrt. lia.
        -- lia.
        -- lia.
        -- intros i k Hi Hk Hik Hl. rewrite Et3 in Hl |- *. rewrite <- !Z.add_assoc. apply Hsg; lia.
        -- rewrite Et3, Et. do 2 f_equal. lia.
      * rewrite VR_next by exact Rg. lia.
Qed.
End Blocks.
