(** * Signing with a key that changes: what stays true of the context whatever the key was *)
From Verif Require Import Arr SpecSLH ModelParams ModelCtx ModelHash ModelSphincs SpecMap PfIter PfEnv PfAdr PfGlue PfMsg PfCtx PfTree PfPaths PfBits PfWots PfSpec PfSign.
Ltac Zify.zify_post_hook ::= idtac.

(** ** One step of an authentication path, whatever is in the buffer of the path *)
Section Path.
Variable E : env.
Local Notation cfg := (e_cfg E).
Local Notation mem := (e_mem E).
Local Notation n := (e_n E).
Local Notation P := (e_P E).
Local Notation hs := (e_hs E).
Local Notation seed := (e_seed E).
Variable keep : bool.
Variable stk : Z * Z.
Variables (H L T Y K F : Z).
Variable Nd : nat -> Z -> list Z.
Variable gen_leaf : bufid -> Z -> ts_context -> outcome ts_context.
Local Notation base := (fst stk).
Local Notation at_core := (at_core L T K F).
Local Notation same_x := (same_x keep stk).
Local Notation fr := (fr keep stk).
Hypothesis H_stk : 0 <= base /\ (H - 1) * n <= snd stk /\ base + snd stk <= SIZEOF_X cfg.
Hypothesis H_H : 0 < H <= 15.
Hypothesis H_F : (2 ^ H | F * 2 ^ p_a P).
Hypothesis H_F0 : 0 <= F < 256.
Hypothesis Nd_ok : forall z i, str_ok E (Nd z i).
Hypothesis Nd_S : forall z i, Nd (Datatypes.S z) i = hH hs seed (mkADRS L T Y K (Z.of_nat (Datatypes.S z)) i) (Nd z (2 * i) ++ Nd z (2 * i + 1)).
Hypothesis leaf_ok : forall c i, good E c -> at_core c -> 0 <= i < 2 ^ H ->
  exists c', gen_leaf BufBuffer i c = Ok c' /\ good E c' /\ fr c c' /\ buf_is BufBuffer (Nd 0 (F * 2 ^ p_a P + i)) c'.

Lemma auth_some c : good E c -> exists v, buf_is BufAuth v c /\ str_ok E v.
Proof using.
  clear. intros G. destruct (wf_auth _ _ (g_wf E c G)) as [La Ba]. pose proof (n_max E) as Nm. pose proof (n_bounds E) as Nb.
  exists (firstn (Z.to_nat n) (c_auth_path_buffer c)). split.
  - exists (skipn (Z.to_nat n) (c_auth_path_buffer c)). cbn [buf_of]. rewrite firstn_skipn. reflexivity.
  - split; [unfold zlen in *; rewrite firstn_length; lia|]. apply Forall_firstn', Ba.
Qed.

Lemma path_any c h idx : good E c -> at_core c -> c_merkle_level c = h -> 0 <= h < H ->
  c_auth_path_node c = idx -> 0 <= idx < 2 ^ H ->
  exists c' v, ts_merkle_path cfg mem gen_leaf Y stk c = Ok c' /\ good E c' /\
    core c' = core (set_buffer_offset 0 (set_merkle_level (h + 1) c)) /\ same_x c c' /\
    buf_is BufBuffer v c' /\ str_ok E v.
Proof.
  intros G Ac Hl Hh Hidx Hi. assert (PH : 2 ^ H <= 2 ^ 15) by (apply Z.pow_le_mono_r; lia).
  pose proof (pow2_pos h ltac:(lia)) as Ph. set (Bs := F * 2 ^ p_a P).
  unfold ts_merkle_path. rewrite (ps_n_c E c G), Hl. cbn [c_auth_path_node set_merkle_level]. rewrite Hidx.
  rewrite shift_count_ok by lia. cbn [bind].
  assert (Es : Z.shiftl 1 h = 2 ^ h) by (rewrite Z.shiftl_1_l; reflexivity).
  rewrite sibling_start by lia. rewrite Es.
  unfold u8. rewrite (Z.mod_small (h + 1)) by lia.
  set (c0 := set_merkle_level (h + 1) c) in *.
  assert (G0 : good E c0) by (apply good_merkle_level; [lia|exact G]).
  set (q := idx / 2 ^ h) in *. set (node := 2 ^ h * Z.lxor q 1) in *.
  assert (Hq : 0 <= q < 2 ^ (H - h)).
  { unfold q. split; [apply Z.div_pos; lia|]. apply Z.div_lt_upper_bound; [lia|]. rewrite <- pow2_split by lia. lia. }
  assert (Hev : exists u, 2 ^ (H - h) = 2 * u).
  { exists (2 ^ (H - h - 1)). rewrite <- Z.pow_succ_r by lia. f_equal. lia. }
  assert (Hx : 0 <= Z.lxor q 1 < 2 ^ (H - h)).
  { rewrite lxor1_eq by lia. destruct Hev as (u & Hu). rewrite Hu in *. clear - Hq.
    destruct (Z.eqb_spec (q mod 2) 0); dlia. }
  assert (Hnode : 0 <= node /\ node + 2 ^ h <= 2 ^ H).
  { unfold node. rewrite (pow2_split H h) by lia. nia. }
  assert (HBd : (2 ^ h | Bs + node)).
  { apply Z.divide_add_r; [|exists (Z.lxor q 1); unfold node; ring].
    eapply Z.divide_trans; [|exact H_F]. exists (2 ^ (H - h)). rewrite Z.mul_comm. apply pow2_split. lia. }
  destruct (tree_loop E keep stk H L T Y K F Nd gen_leaf H_stk H_H H_F0 Nd_ok Nd_S leaf_ok h (Bs + node) node c0 Hh eq_refl HBd Hnode G0 Ac)
    as (c1 & E1 & G1 & F1 & B1 & _).
  rewrite E1. clear E1. cbn [bind].
  set (c2 := set_buffer_offset 0 c1).
  assert (G2 : good E c2) by (apply good_offset; [lia|exact G1]).
  assert (Ac2 : at_core c2) by (apply (core_at _ _ _ _ c0 c1); [apply F1|exact Ac]).
  destruct (ts_set_merkle_ok E node h Y c2 G2) as (a & Ea & HAd); [lia|lia|].
  rewrite Ea. cbn [bind].
  pose proof (good_adr E a c2 (adr_rep_ok E _ _ HAd) G2) as G3.
  set (sib := Nd (Z.to_nat h) ((Bs + node) / 2 ^ h)) in *.
  destruct (auth_some c1 G1) as (own & HA2 & So).
  assert (Rs : rd_range (c_buffer c2) 0 n = Ok sib) by (apply (buf_is_read E BufBuffer sib c1); [apply Nd_ok|exact B1]).
  assert (Ro : rd_range (c_auth_path_buffer c2) 0 n = Ok own) by (apply (buf_is_read E BufAuth own c1); [apply So|exact HA2]).
  assert (Hfin : forall s3 v, iter_ok E s3 -> str_ok E v ->
     let c' := buf_set BufAuth v (set_small_iter s3 (set_adr a c2)) in
     good E c' /\ core c' = core (set_buffer_offset 0 (set_merkle_level (h + 1) c)) /\ same_x c c' /\
     buf_is BufBuffer sib c' /\ str_ok E sib).
  { intros s3 v I Sv c'. split; [apply good_buf_set; [exact Sv|]; apply good_small; [exact I|exact G3]|].
    destruct F1 as (Fc & Fa & Fx). split; [|split; [exact Fx|split; [exact B1|apply Nd_ok]]].
    unfold core in *. cbn in Fc |- *. congruence. }
  assert (Eidx : forall s, c_auth_path_node (set_small_iter s (set_adr a c2)) = idx).
  { intros s. destruct F1 as (Fc & _). unfold core in Fc. cbn in Fc |- *. congruence. }
  destruct (small_init_ok E _ _ G3 HAd) as (s & Esm & Ism). rewrite Esm. cbn [bind]. rewrite Eidx.
  match goal with |- context [negb ?b] => destruct b end; cbn [negb].
  - destruct (two_hash_left E BufAuth _ own sib (c_auth_path_buffer c2) (c_buffer c2) (set_adr a c2) G3 HAd Ro So Rs (Nd_ok _ _))
      as (s' & s1 & s2 & s3 & X1 & X2 & X3 & X4 & I & V).
    rewrite X1 in Esm. assert (Ess : s' = s) by (injection Esm as Esm; exact Esm). rewrite Ess in *.
    change (c_auth_path_buffer (set_small_iter s (set_adr a c2))) with (c_auth_path_buffer c2). rewrite X2. cbn [bind].
    change (c_buffer (set_small_iter s1 (set_adr a c2))) with (c_buffer c2). rewrite X3. cbn [bind]. rewrite X4.
    eexists. exists sib. split; [reflexivity|]. apply (Hfin _ _ I). apply hH_ok, bytes_app; [apply So|apply Nd_ok].
  - destruct (two_hash_left E BufAuth _ sib own (c_buffer c2) (c_auth_path_buffer c2) (set_adr a c2) G3 HAd Rs (Nd_ok _ _) Ro So)
      as (s' & s1 & s2 & s3 & X1 & X2 & X3 & X4 & I & V).
    rewrite X1 in Esm. assert (Ess : s' = s) by (injection Esm as Esm; exact Esm). rewrite Ess in *.
    change (c_buffer (set_small_iter s (set_adr a c2))) with (c_buffer c2). rewrite X2. cbn [bind].
    change (c_auth_path_buffer (set_small_iter s1 (set_adr a c2))) with (c_auth_path_buffer c2). rewrite X3. cbn [bind]. rewrite X4.
    eexists. exists sib. split; [reflexivity|]. apply (Hfin _ _ I). apply hH_ok, bytes_app; [apply Nd_ok|apply So].
Qed.
End Path.

(** ** Two environments that a context cannot tell apart *)
Definition alike (E E' : env) : Prop :=
  e_cfg E = e_cfg E' /\ e_p E = e_p E' /\ e_pk E = e_pk E' /\
  (cfg_sha2_opt (e_cfg E) = true -> e_fam E <> FShake -> e_seed E = e_seed E').
Lemma alike_refl E : alike E E.
Proof. split; [reflexivity|]. split; [reflexivity|]. split; [reflexivity|]. intros _ _. reflexivity. Qed.
Lemma alike_sym E E' : alike E E' -> alike E' E.
Proof.
  intros (A & B & C & D). split; [auto|]. split; [auto|]. split; [auto|]. intros O F. symmetry. apply D.
  - rewrite A. exact O.
  - unfold e_fam in *. rewrite B. exact F.
Qed.
Lemma alike_trans E E' E'' : alike E E' -> alike E' E'' -> alike E E''.
Proof.
  intros (A & B & C & D) (A' & B' & C' & D'). split; [congruence|]. split; [congruence|]. split; [congruence|]. intros O F.
  rewrite (D O F). apply D'; [congruence|]. unfold e_fam in *. rewrite <- B. exact F.
Qed.
Lemma good_alike E E' c : alike E E' -> good E c -> good E' c.
Proof.
  intros (A & B & C & D) [w s k [a b]]. unfold e_ps in *.
  assert (F : e_fam E = e_fam E') by (unfold e_fam; rewrite B; reflexivity).
  assert (N : e_n E = e_n E') by (unfold e_n, e_P; rewrite B; reflexivity).
  apply mkGood; [rewrite <- A; exact w|unfold e_ps; congruence|congruence|].
  apply mkPre.
  - intros O Fa. rewrite <- A in O. rewrite <- F in Fa. unfold sha_seed_block in *. rewrite <- N, <- (D O Fa). apply a; assumption.
  - intros O Fa. rewrite <- A in O. rewrite <- F in Fa. unfold sha_seed_block in *. rewrite <- N, <- (D O); [apply b; assumption|]. rewrite Fa. discriminate.
Qed.
Lemma alike_n E E' : alike E E' -> e_n E = e_n E'.
Proof. intros (_ & B & _). unfold e_n, e_P. rewrite B. reflexivity. Qed.
Lemma alike_P E E' : alike E E' -> e_P E = e_P E'.
Proof. intros (_ & B & _). unfold e_P. rewrite B. reflexivity. Qed.
Lemma str_alike E E' l : alike E E' -> str_ok E l -> str_ok E' l.
Proof. intros A [L B]. split; [rewrite <- (alike_n _ _ A); exact L|exact B]. Qed.

(** A hash object that has taken [i] strings, under some seed or other *)
Definition taken_in (E : env) (i : Z) (g : list Z) : Prop :=
  exists E' A D, alike E E' /\ irep E' g A D /\ zlen D = i * e_n E.
Lemma iter_alike E E' g : alike E E' -> iter_ok E g -> iter_ok E' g.
Proof. intros (A & _). unfold iter_ok. rewrite A. auto. Qed.
Lemma taken_ok E i g : taken_in E i g -> iter_ok E g.
Proof. intros (E' & A & D & HE & HI & _). apply (iter_alike E' E); [apply alike_sym, HE|]. exact (irep_ok E' _ _ _ HI). Qed.
Lemma taken_alike E E' i g : alike E E' -> taken_in E i g -> taken_in E' i g.
Proof.
  intros HE (E0 & A & D & H0 & HI & HD). exists E0, A, D. split; [eapply alike_trans; [apply alike_sym, HE|exact H0]|].
  split; [exact HI|]. rewrite <- (alike_n _ _ HE). exact HD.
Qed.
Lemma big_next_any E i input X c : good E c -> taken_in E i (c_big_iter c) -> rd_range input 0 (e_n E) = Ok X -> str_ok E X ->
  exists g, big_next_t (e_cfg E) input c = Ok (set_big_iter g c) /\ taken_in E (i + 1) g.
Proof.
  intros G (E' & A & D & HE & HI & HD) HX SX. pose proof (good_alike _ _ _ HE G) as G'.
  rewrite (alike_n _ _ HE) in HX. pose proof (str_alike _ _ _ HE SX) as SX'.
  destruct (big_next_ok E' A D X input c G' HI HX SX') as (g & Eg & Ig). exists g.
  assert (C : e_cfg E = e_cfg E') by apply HE. rewrite C. split; [exact Eg|]. exists E', A, (D ++ X). split; [exact HE|]. split; [exact Ig|].
  rewrite zlen_app, HD, (proj1 SX). ring.
Qed.
Lemma big_final_any E i b c : good E c -> taken_in E i (c_big_iter c) -> 0 <= i < 2 ^ 50 ->
  exists g v, iter_ok E g /\ str_ok E v /\ big_final_t (e_cfg E) b c = Ok (buf_set b v (set_big_iter g c)).
Proof.
  intros G (E' & A & D & HE & HI & HD) Hi. pose proof (good_alike _ _ _ HE G) as G'. pose proof (n_bounds E) as Nb.
  destruct (big_final_ok E' b A D c G' HI) as (g & Ig & Eg); [nia|].
  exists g, (hT (e_hs E') (e_seed E') A D). split; [apply (iter_alike E' E); [apply alike_sym, HE|exact Ig]|].
  split; [apply (str_alike E' E); [apply alike_sym, HE|]; apply hT_ok; apply HI|].
  assert (C : e_cfg E = e_cfg E') by apply HE. rewrite C. exact Eg.
Qed.

(** ** The states of a signing run, without the values *)
Section Shape.
Variable E : env.
Local Notation cfg := (e_cfg E).
Local Notation mem := (e_mem E).
Local Notation n := (e_n E).
Local Notation P := (e_P E).

Definition in_fors (i : Z) (c : ts_context) : Prop :=
  c_hypertree_level c = 0 /\ c_fors_tree c = i /\ 0 <= c_fors_keypair_addr c < 2 ^ p_h' P /\
  (exists md, fors_idx_at E (c_x c) md) /\ taken_in E i (c_big_iter c).
Definition in_tree (l : Z) (c : ts_context) : Prop :=
  c_hypertree_level c = l /\ c_fors_tree c = 0 /\ c_fors_keypair_addr c = 0 /\ 0 <= c_auth_path_node c < 2 ^ p_h' P.
Definition Shp (s : sst) (c : ts_context) : Prop :=
  good E c /\ rng E s /\
  match s with
  | FL i => c_state c = ts_fors_leaf /\ in_fors i c
  | FA i j => c_state c = ts_fors /\ in_fors i c /\ c_merkle_level c = j /\ 0 <= c_auth_path_node c < 2 ^ p_a P
  | WT l q => c_state c = ts_wots /\ in_tree l c /\ get_digit (c_x c) = Ok q /\ exists msg, digits_at E (c_x c) msg
  | MK l j => c_state c = ts_merkle /\ in_tree l c /\ c_merkle_level c = j
  | DN => c_state c = ts_done
  end.
Definition shp_step (s : sst) (c : ts_context) : Prop :=
  exists c' v, sign_switch cfg mem c = Ok (Some c') /\ Shp (nxt E s) c' /\ c_buffer_offset c' = 0 /\ buf_is BufBuffer v c' /\ str_ok E v.

Variable sk : list Z.
Hypothesis Hsk : sk_at E sk.

Lemma h16 x : 0 <= x < 2 ^ p_h' P -> 0 <= x < 2 ^ 16.
Proof using. clear. intros. pose proof (mh_bounds E). assert (2 ^ p_h' P <= 2 ^ 9) by (apply Z.pow_le_mono_r; lia). lia. Qed.

Lemma shp_FL i c : Shp (FL i) c -> shp_step (FL i) c.
Proof.
  intros (G & R & HS & Hl & Hf & Hk & (md & Hx) & Hb). cbn [rng] in R. unfold shp_step, sign_switch.
  rewrite HS. change (ts_fors_leaf =? ts_fors_leaf) with true. cbv iota.
  rewrite Hf, (Hx i R). cbn [bind]. pose proof (fors_idx_range E md i) as Hi. fold (fors_idx E md i).
  pose proof (t_bounds E) as Hb'. assert (P14 : 2 ^ p_a P <= 2 ^ 14) by (apply Z.pow_le_mono_r; lia).
  unfold u16. rewrite Z.mod_small by lia. set (idx := fors_idx E md i) in *.
  assert (G1 : good E (set_auth_path_node idx c)) by (apply good_auth_path_node; [lia|exact G]).
  destruct (fors_prf_ok E sk BufBuffer idx _ G1 Hsk) as (a & s & Os & ->); [lia|]. cbn [bind].
  match goal with |- context [buf_set BufBuffer ?v _] => set (v1 := v) end.
  assert (Sv : str_ok E v1) by (apply fors_skGen_ok, Hsk). clearbody v1.
  set (c2 := set_state ts_fors _).
  assert (G2 : good E c2).
  { apply good_state; [unfold ts_fors; lia|]. apply good_merkle_level; [lia|]. apply good_offset; [lia|].
    apply good_buf_set; [exact Sv|]. apply good_scr; assumption. }
  destruct (fors_leaf_ok E sk BufAuth idx c2 G2 Hsk) as (a2 & s2 & O2 & ->); [lia|]. cbn [bind].
  eexists. exists v1. split; [reflexivity|].
  split; [|split; [reflexivity|split; [eexists; reflexivity|exact Sv]]].
  cbn [nxt]. split; [|split].
  - apply good_buf_set; [apply fors_node_ok, Hsk|]. apply good_scr; assumption.
  - cbn [rng]. lia.
  - split; [reflexivity|]. split; [|split; [reflexivity|exact Hi]].
    split; [exact Hl|]. split; [exact Hf|]. split; [exact Hk|]. split; [exists md; exact Hx|exact Hb].
Qed.

Lemma fors_path_any c j : good E c -> c_hypertree_level c = 0 -> c_merkle_level c = j -> 0 <= j < p_a P ->
  0 <= c_auth_path_node c < 2 ^ p_a P ->
  exists c' v, ts_merkle_path cfg mem (fors_leaf cfg mem) ADR_TYPE_FORSTREE (fors_stack cfg) c = Ok c' /\ good E c' /\
    core c' = core (set_buffer_offset 0 (set_merkle_level (j + 1) c)) /\ same_x true (fors_stack cfg) c c' /\
    buf_is BufBuffer v c' /\ str_ok E v.
Proof.
  intros G HL Hml Hh Hi. pose proof (t_bounds E) as Ht.
  assert (HF0 : 0 <= c_fors_tree c < 256) by (apply (wf_fors_tree _ _ (g_wf E c G))).
  assert (P14 : 2 ^ p_a P <= 2 ^ 14) by (apply Z.pow_le_mono_r; lia).
  apply (path_any E true (fors_stack cfg) (p_a P) 0 (c_tree_address c) FORS_TREE (c_fors_keypair_addr c) (c_fors_tree c)
    (fun z i => fors_node P (e_seed E) sk i z (fors_A c)) (fors_leaf cfg mem)) with (idx := c_auth_path_node c); auto; try lia.
  - apply stack_fors.
  - apply Z.divide_factor_r.
  - intros z i. apply fors_node_ok, Hsk.
  - intros d i Gd (D1 & D2 & D3 & D4) Hi'.
    destruct (fors_leaf_ok E sk BufBuffer i d Gd Hsk) as (a & s & Hs & Ed); [lia|].
    assert (Ef : fors_A d = fors_A c) by (unfold fors_A; rewrite D2, D3; reflexivity).
    unfold fidx in Ed. rewrite Ef, D4 in Ed.
    eexists. split; [exact Ed|]. split; [apply good_buf_set; [apply fors_node_ok, Hsk|apply good_scr; assumption]|].
    split; [repeat split|apply buf_is_set].
  - split; [exact HL|]. repeat split; reflexivity.
Qed.
Lemma merkle_path_any c j : good E c -> c_fors_keypair_addr c = 0 -> c_fors_tree c = 0 -> c_merkle_level c = j -> 0 <= j < p_h' P ->
  0 <= c_auth_path_node c < 2 ^ p_h' P ->
  exists c' v, ts_merkle_path cfg mem (ts_wots_leaf cfg mem) ADR_TYPE_HASHTREE (merkle_stack cfg) c = Ok c' /\ good E c' /\
    core c' = core (set_buffer_offset 0 (set_merkle_level (j + 1) c)) /\
    buf_is BufBuffer v c' /\ str_ok E v.
Proof.
  intros G HK HF Hml Hh Hi. pose proof (mh_bounds E) as Ht.
  destruct (path_any E false (merkle_stack cfg) (p_h' P) (c_hypertree_level c) (c_tree_address c) TREE 0 0
    (fun z i => xmss_node P (e_seed E) sk i z (tree_A c)) (ts_wots_leaf cfg mem)) with (c := c) (h := j) (idx := c_auth_path_node c)
    as (c' & v & E' & G' & C' & X' & B' & S'); auto; try lia.
  - apply stack_merkle.
  - apply Z.divide_0_r.
  - intros z i. apply xmss_node_ok, Hsk.
  - intros d i Gd (D1 & D2 & D3 & D4) Hi'.
    destruct (ts_wots_leaf_ok E sk BufBuffer i d Gd Hsk) as (a & s & g & v & Hs & Hg & Hv & Ed).
    assert (Ef : wots_A d i = setKeyPairAddress i (setTypeAndClear WOTS_HASH (tree_A c))) by (unfold wots_A, lvl; rewrite D1, D2; reflexivity).
    rewrite Ef in Ed.
    eexists. split; [exact Ed|]. split.
    { apply good_buf_set; [apply wots_pkGen_ok, Hsk|]. apply good_big; [exact Hg|]. apply good_buf_set; [exact Hv|]. apply good_scr; assumption. }
    split; [|cbn [Z.add Z.mul]; apply buf_is_set].
    split; [reflexivity|]. split; [reflexivity|]. split; [discriminate|].
    change (skipn (Z.to_nat (fst (merkle_stack cfg))) (v ++ skipn (length v) (c_x d)) = skipn (Z.to_nat (fst (merkle_stack cfg))) (c_x d)).
    pose proof (n_max E). pose proof (n_bounds E). rewrite (str_length E v Hv).
    change (fst (merkle_stack cfg)) with (TS_MAX_HASH cfg).
    rewrite skipn_app, (str_length E v Hv), skipn_all2 by (rewrite (str_length E v Hv); lia).
    rewrite skipn_skipn'. cbn [app]. f_equal. lia.
  - split; [reflexivity|]. repeat split; try reflexivity; assumption.
  - exists c', v. auto 10.
Qed.

Lemma shp_FA i j c : Shp (FA i j) c -> shp_step (FA i j) c.
Proof.
  intros (G & R & HS & (Hl & Hf & Hk & (md & Hx) & Hb) & Hj & Hi). cbn [rng] in R. unfold shp_step, sign_switch.
  rewrite HS. change (ts_fors =? ts_fors_leaf) with false. change (ts_fors =? ts_fors) with true. cbv iota.
  pose proof (k_bounds E) as Kb. pose proof (t_bounds E) as Tb. pose proof (n_bounds E) as Nb.
  destruct (fors_path_any c j G Hl Hj) as (c1 & v & -> & G1 & C1 & X1 & B1 & S1); auto; try lia.
  cbn [bind]. apply core_inv in C1. destruct C1 as (K1 & K2 & K3 & K4 & K5 & K6 & K7 & K8).
  change (c_state (set_buffer_offset 0 (set_merkle_level (j + 1) c))) with (c_state c) in K1.
  change (c_buffer_offset (set_buffer_offset 0 (set_merkle_level (j + 1) c))) with 0 in K2.
  change (c_hypertree_level (set_buffer_offset 0 (set_merkle_level (j + 1) c))) with (c_hypertree_level c) in K3.
  change (c_fors_tree (set_buffer_offset 0 (set_merkle_level (j + 1) c))) with (c_fors_tree c) in K4.
  change (c_merkle_level (set_buffer_offset 0 (set_merkle_level (j + 1) c))) with (j + 1) in K5.
  change (c_auth_path_node (set_buffer_offset 0 (set_merkle_level (j + 1) c))) with (c_auth_path_node c) in K6.
  change (c_fors_keypair_addr (set_buffer_offset 0 (set_merkle_level (j + 1) c))) with (c_fors_keypair_addr c) in K7.
  rewrite HS in K1. rewrite Hl in K3. rewrite Hf in K4.
  destruct (X1 eq_refl) as [Bg Fx]. change (fst (fors_stack cfg)) with FORS_STACK_OFFSET in Fx.
  assert (Hx1 : fors_idx_at E (c_x c1) md).
  { intros q Hq. rewrite <- (Hx q Hq). apply (get_fors_node_firstn E).
    - destruct (good_x_ok E c G), (good_x_ok E c1 G1). lia.
    - unfold TS_MAX_FORS. lia.
    - exact Fx. }
  rewrite <- Bg in Hb. rewrite <- K7 in Hk.
  rewrite K5, (g_ps E c1 G1), (ps_t_eq E). cbn [nxt]. destruct (Z.eqb_spec (j + 1) (p_a P)) as [Ej|Ej].
  - (* the tree is finished *)
    destruct (auth_some E c1 G1) as (rt & HA & Srt).
    destruct (big_next_any E i (c_auth_path_buffer c1) rt c1 G1 Hb) as (g & -> & I2);
      [exact (buf_is_read E BufAuth rt c1 (proj1 Srt) HA)|exact Srt|]. cbn [bind].
    set (c2 := set_big_iter g c1). assert (G2 : good E c2) by (apply good_big; [exact (taken_ok E _ _ I2)|exact G1]).
    change (c_fors_tree (set_state ts_fors_leaf c2)) with (c_fors_tree c1). rewrite K4.
    unfold u8. rewrite Z.mod_small by lia.
    set (c3 := set_fors_tree (i + 1) (set_state ts_fors_leaf c2)).
    assert (G3 : good E c3) by (apply good_fors_tree; [lia|]; apply good_state; [unfold ts_fors_leaf; lia|exact G2]).
    change (c_fors_tree c3) with (i + 1). rewrite (g_ps E c3 G3), (ps_k_eq E).
    destruct (Z.eqb_spec (i + 1) (p_k P)) as [Ei|Ei].
    + (* all trees are finished *)
      assert (I3 : taken_in E (i + 1) (c_big_iter c3)) by exact I2.
      destruct (big_final_any E (i + 1) BufAuth c3 G3 I3) as (g4 & M & I4 & SM & ->); [lia|]. cbn [bind].
      set (c4 := set_fors_tree 0 _).
      assert (G4 : good E c4).
      { apply good_fors_tree; [lia|]. apply good_buf_set; [exact SM|]. apply good_big; assumption. }
      change (c_fors_keypair_addr c4) with (c_fors_keypair_addr c1).
      assert (B4 : buf_is BufAuth M c4) by (eexists; reflexivity).
      pose proof (h16 _ Hk) as L0.
      destruct (setup_wots_ok E M (c_fors_keypair_addr c1) c4 G4 B4 SM L0) as (x' & -> & Bx & Dx & Dg). cbn [bind].
      eexists. exists v. split; [reflexivity|]. split; [|split; [exact K2|split; [exact B1|exact S1]]].
      split; [|split].
      * apply good_keypair; [lia|]. apply good_auth_path_node; [exact L0|]. apply good_x; [exact Bx|]. apply good_state; [unfold ts_wots; lia|exact G4].
      * cbn [rng]. pose proof (d_bounds E). pose proof (wlen_eq E). lia.
      * split; [reflexivity|]. split; [|split; [exact Dx|eexists; exact Dg]].
        split; [exact K3|]. split; [reflexivity|]. split; [reflexivity|exact Hk].
    + eexists. exists v. split; [reflexivity|]. split; [|split; [exact K2|split; [exact B1|exact S1]]].
      split; [exact G3|]. split; [cbn [rng]; lia|]. split; [reflexivity|].
      split; [exact K3|]. split; [reflexivity|]. split; [exact Hk|]. split; [exists md; exact Hx1|exact I2].
  - eexists. exists v. split; [reflexivity|]. split; [|split; [exact K2|split; [exact B1|exact S1]]].
    split; [exact G1|]. split; [cbn [rng]; lia|]. split; [exact K1|].
    split; [|split; [exact K5|rewrite K6; exact Hi]].
    split; [exact K3|]. split; [exact K4|]. split; [exact Hk|]. split; [exists md; exact Hx1|exact Hb].
Qed.

Lemma shp_WT l q c : Shp (WT l q) c -> shp_step (WT l q) c.
Proof.
  intros (G & R & HS & (Hl & Hf & Hk & Hn) & Hq & (msg & Hd)). cbn [rng] in R. unfold shp_step, sign_switch.
  rewrite HS. change (ts_wots =? ts_fors_leaf) with false. change (ts_wots =? ts_fors) with false.
  change (ts_wots =? ts_wots) with true. cbv iota.
  pose proof (n_bounds E) as Nb. pose proof (wlen_eq E) as Wl.
  unfold generate_next_wots_hash. rewrite Hq. cbn [bind].
  destruct (set_digit_ok E (c_x c) (q + 1) (good_x_ok E c G)) as (x1 & -> & B1 & D1 & D2); [lia|]. cbn [bind].
  assert (G1 : good E (set_x x1 c)) by (apply good_x; assumption).
  change (c_auth_path_node (set_x x1 c)) with (c_auth_path_node c). set (lf := c_auth_path_node c) in *.
  destruct (wots_prf_ok E sk BufBuffer lf q _ G1 Hsk) as (a & s & Os & ->). cbn [bind].
  set (v := wots_sk P (e_seed E) sk (wots_A (set_x x1 c) lf) q). assert (Sv : str_ok E v) by (apply wots_sk_ok, Hsk).
  set (c2 := buf_set BufBuffer v (scr a s (set_x x1 c))).
  assert (G2 : good E c2) by (apply good_buf_set; [exact Sv|apply good_scr; assumption]).
  change (c_x c2) with x1. rewrite D2, (Hd q) by lia. cbn [bind].
  change (c_auth_path_node c2) with (c_auth_path_node c). fold lf.
  set (m := nth (Z.to_nat q) msg 0).
  destruct (chain_loop_ok E BufBuffer lf q 0 m v c2 G2 (buf_is_set _ _ _) Sv) as (a3 & s3 & O3 & ->). cbn [bind].
  match goal with |- context [buf_set BufBuffer ?w (scr a3 s3 c2)] => set (v3 := w) end.
  assert (S3 : str_ok E v3) by (apply chain_ok, Sv). clearbody v3.
  set (c3 := set_buffer_offset 0 _).
  assert (G3 : good E c3) by (apply good_offset; [lia|]; apply good_buf_set; [exact S3|]; apply good_scr; assumption).
  assert (B3 : buf_is BufBuffer v3 c3) by (eexists; reflexivity).
  change (c_x c3) with x1. rewrite D1. cbn [bind]. rewrite (ps_n_c E c3 G3), <- Wl.
  cbn [nxt]. destruct (Z.eqb_spec (q + 1) (wlen P)) as [Eq|Eq].
  - set (c4 := set_merkle_level 0 (set_state ts_merkle c3)).
    assert (G4 : good E c4) by (apply good_merkle_level; [lia|]; apply good_state; [unfold ts_merkle; lia|exact G3]).
    change (c_auth_path_node c4) with (c_auth_path_node c). fold lf.
    destruct (ts_wots_leaf_ok E sk BufAuth lf c4 G4 Hsk) as (a5 & s5 & g5 & v5 & O5 & I5 & S5 & ->). cbn [bind].
    eexists. exists v3. split; [reflexivity|]. split; [|split; [reflexivity|split; [exact B3|exact S3]]].
    split; [|split].
    + apply good_buf_set; [apply wots_pkGen_ok, Hsk|]. apply good_big; [exact I5|]. apply good_buf_set; [exact S5|].
      apply good_scr; assumption.
    + cbn [rng]. pose proof (mh_bounds E). lia.
    + split; [reflexivity|]. split; [|reflexivity].
      split; [exact Hl|]. split; [exact Hf|]. split; [exact Hk|exact Hn].
  - eexists. exists v3. split; [reflexivity|]. split; [|split; [reflexivity|split; [exact B3|exact S3]]].
    split; [exact G3|]. split; [cbn [rng]; lia|]. split; [exact HS|]. split; [|split; [exact D1|]].
    + split; [exact Hl|]. split; [exact Hf|]. split; [exact Hk|exact Hn].
    + exists msg. intros i Hi. change (c_x c3) with x1. rewrite D2. apply Hd, Hi.
Qed.

Lemma shp_MK l j c : Shp (MK l j) c -> shp_step (MK l j) c.
Proof.
  intros (G & R & HS & (Hl & Hf & Hk & Hn) & Hj). cbn [rng] in R. unfold shp_step, sign_switch.
  rewrite HS. change (ts_merkle =? ts_fors_leaf) with false. change (ts_merkle =? ts_fors) with false.
  change (ts_merkle =? ts_wots) with false. change (ts_merkle =? ts_merkle) with true. cbv iota.
  pose proof (n_bounds E) as Nb. pose proof (mh_bounds E) as Mb. pose proof (d_bounds E) as Db.
  destruct (merkle_path_any c j G Hk Hf Hj) as (c1 & v & -> & G1 & C1 & B1 & S1); auto; try lia.
  cbn [bind]. apply core_inv in C1. destruct C1 as (K1 & K2 & K3 & K4 & K5 & K6 & K7 & K8).
  change (c_state (set_buffer_offset 0 (set_merkle_level (j + 1) c))) with (c_state c) in K1.
  change (c_buffer_offset (set_buffer_offset 0 (set_merkle_level (j + 1) c))) with 0 in K2.
  change (c_hypertree_level (set_buffer_offset 0 (set_merkle_level (j + 1) c))) with (c_hypertree_level c) in K3.
  change (c_fors_tree (set_buffer_offset 0 (set_merkle_level (j + 1) c))) with (c_fors_tree c) in K4.
  change (c_merkle_level (set_buffer_offset 0 (set_merkle_level (j + 1) c))) with (j + 1) in K5.
  change (c_auth_path_node (set_buffer_offset 0 (set_merkle_level (j + 1) c))) with (c_auth_path_node c) in K6.
  change (c_fors_keypair_addr (set_buffer_offset 0 (set_merkle_level (j + 1) c))) with (c_fors_keypair_addr c) in K7.
  rewrite HS in K1. rewrite Hl in K3. rewrite Hf in K4. rewrite Hk in K7.
  rewrite K5, (g_ps E c1 G1), (ps_mh_eq E). cbn [nxt]. destruct (Z.eqb_spec (j + 1) (p_h' P)) as [Ej|Ej].
  - rewrite K3. unfold u8. rewrite Z.mod_small by lia.
    set (c2 := set_hypertree_level (l + 1) c1). assert (G2 : good E c2) by (apply good_level; [lia|exact G1]).
    change (c_hypertree_level c2) with (l + 1). rewrite (g_ps E c2 G2), (ps_d_eq E).
    destruct (Z.eqb_spec (l + 1) (p_d P)) as [El|El].
    + eexists. exists v. split; [reflexivity|]. split; [|split; [exact K2|split; [exact B1|exact S1]]].
      split; [apply good_state; [unfold ts_done; lia|exact G2]|]. split; [exact I|reflexivity].
    + rewrite (ps_mh_eq E), shift_count_ok by lia. cbn [bind].
      assert (Em : Z.shiftl 1 (p_h' P) - 1 = Z.ones (p_h' P)) by (rewrite Z.ones_equiv, Z.shiftl_1_l; lia).
      rewrite Em, Z.land_ones by lia. change (c_tree_address c2) with (c_tree_address c1).
      pose proof (wf_tree_address _ _ (g_wf E c1 G1)) as Tr.
      pose proof (Z.mod_pos_bound (c_tree_address c1) (2 ^ p_h' P) (pow2_pos (p_h' P) ltac:(lia))) as Lr.
      set (lf := c_tree_address c1 mod 2 ^ p_h' P) in *. pose proof (h16 _ Lr) as L16. unfold u16. rewrite (Z.mod_small lf) by exact L16.
      set (c3 := set_auth_path_node lf c2).
      change (c_tree_address c3) with (c_tree_address c1).
      rewrite Z.shiftr_div_pow2 by lia.
      set (c4 := set_tree_address _ c3). change (c_auth_path_node c4) with lf.
      assert (G4 : good E c4).
      { apply good_tree.
        - pose proof (pow2_pos (p_h' P) ltac:(lia)) as Pp. split; [apply Z.div_pos; lia|]. apply Z.div_lt_upper_bound; [lia|].
          clear - Tr Pp. nia.
        - apply good_auth_path_node; [exact L16|exact G2]. }
      destruct (auth_some E c4 G4) as (M & HA & SM).
      destruct (setup_wots_ok E M lf c4 G4 HA SM L16) as (x' & -> & Bx & Dx & Dg). cbn [bind].
      eexists. exists v. split; [reflexivity|]. split; [|split; [exact K2|split; [exact B1|exact S1]]].
      split; [|split].
      * apply good_keypair; [lia|]. apply good_auth_path_node; [exact L16|]. apply good_x; [exact Bx|]. apply good_state; [unfold ts_wots; lia|exact G4].
      * cbn [rng]. pose proof (wlen_eq E). lia.
      * split; [reflexivity|]. split; [|split; [exact Dx|eexists; exact Dg]].
        split; [reflexivity|]. split; [exact K4|]. split; [reflexivity|exact Lr].
  - eexists. exists v. split; [reflexivity|]. split; [|split; [exact K2|split; [exact B1|exact S1]]].
    split; [exact G1|]. split; [cbn [rng]; lia|]. split; [exact K1|].
    split; [|exact K5].
    split; [exact K3|]. split; [exact K4|]. split; [exact K7|]. rewrite K6. exact Hn.
Qed.
Lemma shp_switch s c : s <> DN -> Shp s c -> shp_step s c.
Proof. destruct s; intros H HI; [apply shp_FL|apply shp_FA|apply shp_WT|apply shp_MK|congruence]; exact HI. Qed.

(** ** The loop of ts_sign *)
Record Run (s : sst) (o : Z) (c : ts_context) : Prop := mkRn {
  n_shp : Shp s c;
  n_off : c_buffer_offset c = o;
  n_rng : 0 <= o <= n }.
(** How many bytes a run still has to deliver *)
Definition remain (s : sst) (o : Z) : Z := (n - o) + left_blocks E s * n.
Lemma left_step s : rng E s -> s <> DN -> left_blocks E (nxt E s) = left_blocks E s - 1.
Proof using.
  clear. intros R N. destruct s as [i|i j|l q|l j|]; cbn [nxt left_blocks rng] in *; try congruence;
    repeat match goal with |- context [?x =? ?y] => destruct (Z.eqb_spec x y) end; cbn [left_blocks]; try nia.
Qed.
Lemma left_pos s : rng E s -> 0 <= left_blocks E s /\ (s <> DN -> 1 <= left_blocks E s).
Proof using.
  clear. pose proof (k_bounds E) as Hk. pose proof (d_bounds E) as Hd. pose proof (t_bounds E) as Ht. pose proof (wlen_eq E) as Hw.
  pose proof (n_bounds E) as Hn. pose proof (mh_bounds E) as Hm. assert (HW : 0 < wlen P) by lia.
  intros R. destruct s as [i|i j|l q|l j|]; cbn [left_blocks rng] in *; (split; [nia|intros; try congruence; nia]).
Qed.

Lemma loop_any fuel : forall dest pos m s o c, Run s o c -> 0 <= m < 2 ^ 32 -> 0 <= pos -> pos + m <= zlen dest ->
  2 * m + (if o =? n then 1 else 0) < Z.of_nat fuel ->
  let k := Z.min m (remain s o) in
  exists bs dest' c' s' o', sign_loop cfg mem fuel dest pos m c = Ok (m - k, dest', c') /\
    wr_range dest pos bs = Ok dest' /\ zlen bs = k /\ is_bytes bs /\
    Run s' o' c' /\ remain s' o' = remain s o - k.
Proof.
  induction fuel as [|fuel IH]; intros dest pos m s o c HR Hm Hpos Hd Hfu k; [destruct (o =? n); lia|].
  pose proof HR as [HI Ho Hrg]. pose proof (n_bounds E) as Nb.
  assert (G : good E c) by apply HI. pose proof (left_pos s (proj1 (proj2 HI))) as [Lp Lq].
  assert (Rp : 0 <= remain s o) by (unfold remain; nia).
  cbn [sign_loop]. destruct (Z.eqb_spec m 0) as [Em|Em].
  { subst m. assert (Ek : k = 0) by (unfold k; lia).
    exists [], dest, c, s, o. rewrite Ek. split; [reflexivity|]. split; [apply (wr_range_nil E); lia|]. split; [reflexivity|].
    split; [constructor|]. split; [exact HR|lia]. }
  rewrite (ps_n_c E c G), Ho. unfold u32. rewrite Z.mod_small by lia.
  destruct (Z.ltb_spec 0 (n - o)) as [Hlt|Hge].
  - (* copy from the buffer *)
    destruct (Z.eqb_spec o n) as [|Hon]; [lia|].
    set (r := if m <? n - o then m else n - o).
    assert (Hr : 0 < r <= n - o /\ r <= m) by (unfold r; destruct (Z.ltb_spec m (n - o)); lia).
    destruct (wf_buffer _ _ (g_wf E c G)) as [Lb Bb]. pose proof (n_max E) as Nm.
    assert (Hsrc : rd_range (c_buffer c) o r = Ok (firstn (Z.to_nat r) (skipn (Z.to_nat o) (c_buffer c)))).
    { unfold rd_range. destruct (Z.leb_spec 0 o), (Z.leb_spec 0 r), (Z.leb_spec (o + r) (zlen (c_buffer c))); try lia. reflexivity. }
    rewrite Hsrc. cbn [bind]. set (src := firstn (Z.to_nat r) (skipn (Z.to_nat o) (c_buffer c))).
    assert (Ls : zlen src = r) by (unfold src, zlen in *; rewrite firstn_length, skipn_length; lia).
    assert (Bs : is_bytes src) by (apply Forall_firstn', Forall_skipn', Bb). clearbody src.
    assert (W : exists d1, wr_range dest pos src = Ok d1) by (rewrite wr_range_ok by lia; eauto).
    destruct W as (d1 & W). rewrite W. cbn [bind].
    assert (L1 : zlen d1 = zlen dest) by (apply (wr_then_rd _ _ _ _ W)).
    unfold u8. rewrite (Z.mod_small (o + r)) by lia.
    assert (HR1 : Run s (o + r) (set_buffer_offset (o + r) c)).
    { split; [|reflexivity|lia].
      destruct HI as (_ & Rg & HI). split; [apply good_offset; [lia|exact G]|]. split; [exact Rg|]. destruct s; exact HI. }
    assert (Er : remain s (o + r) = remain s o - r) by (unfold remain; lia).
    destruct (IH d1 (pos + r) (m - r) s (o + r) _ HR1) as (bs & dest' & c' & s' & o' & EL & EW & Lbs & Bbs & HR' & ER'); try lia.
    { destruct (Z.eqb_spec (o + r) n); lia. }
    cbv zeta in *. set (k1 := Z.min (m - r) (remain s (o + r))) in *.
    assert (Hrr : r <= remain s o) by (unfold remain; nia).
    assert (Ek : k = r + k1) by (unfold k, k1; rewrite Er; lia).
    exists (src ++ bs), dest', c', s', o'. rewrite EL. split; [f_equal; f_equal; f_equal; lia|].
    split; [|split; [rewrite zlen_app; lia|split; [apply bytes_app; assumption|split; [exact HR'|lia]]]].
    apply (wr_range_two E _ _ _ _ _ _ W). rewrite Ls. exact EW.
  - (* the buffer is empty: next state *)
    assert (Eo : o = n) by lia. clear Ho. subst o. rewrite Z.eqb_refl in Hfu.
    destruct (sst_eq_DN s) as [Es|Es].
    + subst s. unfold sign_switch. destruct HI as (_ & _ & HS). rewrite HS.
      change (ts_done =? ts_fors_leaf) with false. change (ts_done =? ts_fors) with false.
      change (ts_done =? ts_wots) with false. change (ts_done =? ts_merkle) with false. cbv iota. cbn [bind].
      assert (Ek : k = 0) by (unfold k, remain; cbn [left_blocks]; lia).
      exists [], dest, c, DN, n. rewrite Ek. split; [f_equal; f_equal; f_equal; lia|]. split; [apply (wr_range_nil E); lia|].
      split; [reflexivity|]. split; [constructor|]. split; [exact HR|lia].
    + destruct (shp_switch s c Es HI) as (c1 & v & -> & HI1 & Ho1 & HB1 & S1). cbn [bind].
      assert (HR1 : Run (nxt E s) 0 c1) by (split; [exact HI1|exact Ho1|lia]).
      destruct (IH dest pos m _ _ _ HR1 Hm Hpos Hd) as (bs & dest' & c' & s' & o' & EL & EW & Lbs & Bbs & HR' & ER').
      { destruct (Z.eqb_spec 0 n); lia. }
      assert (Ern : remain (nxt E s) 0 = remain s n).
      { unfold remain. rewrite (left_step s (proj1 (proj2 HI)) Es). ring. }
      rewrite Ern in *. cbv zeta in *. fold k in EL, Lbs, ER'.
      exists bs, dest', c', s', o'. auto 10.
Qed.
Lemma sign_any dest m s o c : Run s o c -> 0 <= m < 2 ^ 32 -> m <= zlen dest ->
  let k := Z.min m (remain s o) in
  exists bs dest' c' s' o', ts_sign cfg mem dest m c = Ok (k, dest', c') /\
    wr_range dest 0 bs = Ok dest' /\ zlen bs = k /\ is_bytes bs /\
    Run s' o' c' /\ remain s' o' = remain s o - k.
Proof.
  intros HR Hm Hd k. unfold ts_sign. pose proof HR as [HI _ Hrg].
  assert (Hs : ts_sign_state < c_state c < ts_verify_state).
  { destruct HI as (_ & _ & X). unfold ts_sign_state, ts_verify_state.
    destruct s; [destruct X as [-> _]|destruct X as [-> _]|destruct X as [-> _]|destruct X as [-> _]|rewrite X];
    unfold ts_fors_leaf, ts_fors, ts_wots, ts_merkle, ts_done; lia. }
  destruct (Z.leb_spec (c_state c) ts_sign_state), (Z.leb_spec ts_verify_state (c_state c)); try lia. cbn [orb].
  pose proof (left_pos s (proj1 (proj2 HI))) as [Lp _]. pose proof (n_bounds E) as Nb.
  assert (Hk : 0 <= k <= m) by (unfold k, remain; nia).
  destruct (loop_any (2 * Z.to_nat m + 2) dest 0 m s o c HR) as (bs & dest' & c' & s' & o' & -> & EW & Lbs & Bbs & HR' & ER); try lia.
  { destruct (o =? n); lia. }
  cbv zeta in *. fold k in Lbs, ER |- *. cbn [bind]. exists bs, dest', c', s', o'. split; [|auto 10].
  do 3 f_equal. unfold u32. rewrite Z.mod_small; lia.
Qed.
End Shape.

Lemma Run_alike E E' s o c : alike E E' -> Run E s o c -> Run E' s o c.
Proof.
  intros HE [(G & R & HI) HO HR]. pose proof (alike_n _ _ HE) as En. pose proof (alike_P _ _ HE) as EP.
  assert (EC : e_cfg E = e_cfg E') by apply HE.
  split; [|exact HO|rewrite <- En; exact HR].
  split; [exact (good_alike _ _ _ HE G)|]. split; [unfold rng in *; rewrite <- EP; exact R|].
  assert (HF : forall i, in_fors E i c -> in_fors E' i c).
  { intros i (A1 & A2 & A3 & (md & A4) & A5). unfold in_fors. rewrite <- EP. split; [exact A1|]. split; [exact A2|]. split; [exact A3|].
    split; [|exact (taken_alike _ _ _ _ HE A5)]. exists md. unfold fors_idx_at in *. rewrite <- EP, <- EC. exact A4. }
  assert (HT : forall l, in_tree E l c -> in_tree E' l c) by (intros l; unfold in_tree; rewrite <- EP; auto).
  destruct s.
  - destruct HI as [A B]. auto.
  - destruct HI as (A & B & C & D). rewrite <- EP. auto 10.
  - destruct HI as (A & B & C & (msg & D)). split; [exact A|]. split; [apply HT, B|]. split; [exact C|]. exists msg.
    unfold digits_at in *. rewrite <- En, <- EC. exact D.
  - destruct HI as (A & B & C). auto.
  - exact HI.
Qed.
Lemma remain_alike E E' s o : alike E E' -> remain E s o = remain E' s o.
Proof. intros HE. unfold remain, left_blocks. rewrite (alike_n _ _ HE), (alike_P _ _ HE). reflexivity. Qed.
