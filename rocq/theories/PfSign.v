(** * Signing: the state machine of ts_sign emits the signature of the specification *)
From Verif Require Import Arr SpecSLH ModelParams ModelCtx ModelHash ModelSphincs SpecMap PfIter PfEnv PfAdr PfGlue PfMsg PfCtx PfTree PfPaths PfBits PfWots PfSpec.
Ltac Zify.zify_post_hook ::= idtac.

Lemma core_inv c d : core c = core d ->
  c_state c = c_state d /\ c_buffer_offset c = c_buffer_offset d /\ c_hypertree_level c = c_hypertree_level d /\
  c_fors_tree c = c_fors_tree d /\ c_merkle_level c = c_merkle_level d /\ c_auth_path_node c = c_auth_path_node d /\
  c_fors_keypair_addr c = c_fors_keypair_addr d /\ c_tree_address c = c_tree_address d.
Proof. unfold core. intros H. injection H as -> -> -> -> -> -> -> ->. auto 10. Qed.

Section Sign.
Variable E : env.
Local Notation cfg := (e_cfg E).
Local Notation mem := (e_mem E).
Local Notation n := (e_n E).
Local Notation P := (e_P E).
Local Notation hs := (e_hs E).
Local Notation seed := (e_seed E).

(** ** Digits of x.wots *)
Lemma set_digit_ok x v : bytes_of (SIZEOF_X cfg) x -> 0 <= v < 256 ->
  exists x', set_digit x v = Ok x' /\ bytes_of (SIZEOF_X cfg) x' /\ get_digit x' = Ok v /\
    (forall i, get_digits cfg x' i = get_digits cfg x i).
Proof.
  intros [Lx Bx] Hv. pose proof (x_ge_wots E) as Xw. pose proof (max_digits E) as Md. pose proof (n_bounds E) as Hn.
  unfold set_digit, get_digits, get_digit. rewrite wr_ok by lia. unfold u8. rewrite Z.mod_small by lia.
  eexists. split; [reflexivity|]. assert (Ll : (Z.to_nat 0 < length x)%nat) by (unfold zlen in *; lia).
  assert (Lu : zlen (upd x (Z.to_nat 0) v) = SIZEOF_X cfg) by (unfold zlen in *; rewrite upd_length by lia; lia).
  split; [split; [exact Lu|apply upd_Forall; [exact Bx|exact Hv]]|]. split.
  - rewrite (rd_ok _ 0 0) by lia. rewrite nth_upd_eq by exact Ll. reflexivity.
  - intros i. destruct (Z.leb_spec 0 i), (Z.ltb_spec i (TS_MAX_WOTS_DIGITS cfg)); cbn [andb]; try reflexivity.
    rewrite (rd_ok x (1 + i) 0), (rd_ok _ (1 + i) 0) by lia. rewrite nth_upd_neq by lia. reflexivity.
Qed.
Lemma good_x_ok c : good E c -> bytes_of (SIZEOF_X cfg) (c_x c).
Proof. intros G. apply (wf_x _ _ (g_wf E c G)). Qed.

Lemma setup_wots_ok M leaf c : good E c -> buf_is BufAuth M c -> str_ok E M -> 0 <= leaf < 2 ^ 16 ->
  exists x', ts_set_up_wots_signature cfg leaf c
    = Ok (set_fors_keypair_addr 0 (set_auth_path_node leaf (set_x x' (set_state ts_wots c)))) /\
    bytes_of (SIZEOF_X cfg) x' /\ get_digit x' = Ok 0 /\ digits_at E x' (wots_msg P M).
Proof.
  intros G HM SM Hl. unfold ts_set_up_wots_signature.
  change (c_x (set_state ts_wots c)) with (c_x c). change (c_ps (set_state ts_wots c)) with (c_ps c).
  change (c_auth_path_buffer (set_state ts_wots c)) with (c_auth_path_buffer c).
  destruct (set_digit_ok (c_x c) 0 (good_x_ok c G)) as (x1 & -> & B1 & D1 & _); [lia|]. cbn [bind].
  rewrite (ps_n_c E c G).
  destruct (wots_digits_ok E x1 (c_auth_path_buffer c) M B1) as (x2 & -> & B2 & D2 & D3);
    [exact (buf_is_read E BufAuth M c (proj1 SM) HM)|exact SM|]. cbn [bind].
  exists x2. unfold u16. rewrite Z.mod_small by exact Hl. split; [reflexivity|]. split; [exact B2|]. split; [congruence|exact D2].
Qed.

Variable sk : list Z.
Hypothesis Hsk : sk_at E sk.
Variables (md : list Z) (T0 leaf0 : Z).
Hypothesis HT0 : 0 <= T0 < 2 ^ 64.
Hypothesis Hleaf0 : 0 <= leaf0 < 2 ^ p_h' P.

Definition A0 : ADRS := mkADRS 0 T0 FORS_TREE leaf0 0 0.
Definition AR : ADRS := mkADRS 0 T0 FORS_ROOTS leaf0 0 0.
Definition M0 : list Z := fors_pk E sk A0.
Local Notation trl l := (tr E T0 l).
Local Notation lfl l := (lf E T0 leaf0 l).
Local Notation msgl l := (hmsg E sk M0 T0 l).
Local Notation tA l := (treeA E T0 l).
Local Notation fau := (fauth E sk md A0).
Local Notation fpc := (fpiece E sk md A0).
Local Notation hwo := (hwots E sk M0 T0 leaf0).
Local Notation hau := (hauth E sk T0 leaf0).
Local Notation hpc := (hpiece E sk M0 T0 leaf0).

(** ** The states of a signing run *)
Inductive sst := FL (i : Z) | FA (i j : Z) | WT (l q : Z) | MK (l j : Z) | DN.

Definition nxt (s : sst) : sst :=
  match s with
  | FL i => FA i 0
  | FA i j => if j + 1 =? p_a P then if i + 1 =? p_k P then WT 0 0 else FL (i + 1) else FA i (j + 1)
  | WT l q => if q + 1 =? wlen P then MK l 0 else WT l (q + 1)
  | MK l j => if j + 1 =? p_h' P then if l + 1 =? p_d P then DN else WT (l + 1) 0 else MK l (j + 1)
  | DN => DN
  end.
Definition emit (s : sst) : list Z :=
  match s with
  | FL i => fsk E sk md A0 i
  | FA i j => fau i j
  | WT l q => hwo l q
  | MK l j => hau l j
  | DN => []
  end.
Definition HTo (l : Z) : list Z := flat_map hpc (zrange l (p_d P)).
Definition out (s : sst) : list Z :=
  match s with
  | FL i => flat_map fpc (zrange i (p_k P)) ++ HTo 0
  | FA i j => flat_map (fau i) (zrange j (p_a P)) ++ flat_map fpc (zrange (i + 1) (p_k P)) ++ HTo 0
  | WT l q => flat_map (hwo l) (zrange q (wlen P)) ++ flat_map (hau l) (zrange 0 (p_h' P)) ++ HTo (l + 1)
  | MK l j => flat_map (hau l) (zrange j (p_h' P)) ++ HTo (l + 1)
  | DN => []
  end.
Definition rng (s : sst) : Prop :=
  match s with
  | FL i => 0 <= i < p_k P
  | FA i j => 0 <= i < p_k P /\ 0 <= j < p_a P
  | WT l q => 0 <= l < p_d P /\ 0 <= q < wlen P
  | MK l j => 0 <= l < p_d P /\ 0 <= j < p_h' P
  | DN => True
  end.

Lemma sst_eq_DN s : {s = DN} + {s <> DN}.
Proof. destruct s; (left; reflexivity) || (right; discriminate). Qed.
Lemma rng_nxt s : rng s -> rng (nxt s).
Proof.
  pose proof (k_bounds E). pose proof (t_bounds E). pose proof (wlen_eq E). pose proof (n_bounds E).
  pose proof (d_bounds E). pose proof (mh_bounds E).
  destruct s; cbn [nxt rng]; intros; repeat match goal with |- context [?x =? ?y] => destruct (Z.eqb_spec x y) end; cbn [rng]; lia.
Qed.
Lemma HTo_S l : l < p_d P -> HTo l = flat_map (hwo l) (zrange 0 (wlen P)) ++ flat_map (hau l) (zrange 0 (p_h' P)) ++ HTo (l + 1).
Proof.
  intros. unfold HTo. rewrite zrange_cons by assumption. cbn [flat_map]. unfold hpiece. rewrite !upto_zrange, <- app_assoc. reflexivity.
Qed.
Lemma out_nxt s : rng s -> out s = emit s ++ out (nxt s).
Proof.
  pose proof (d_bounds E).
  destruct s as [i|i j|l q|l j|]; cbn [nxt rng out emit]; intros R.
  - rewrite zrange_cons by lia. cbn [flat_map]. unfold fpiece at 1. rewrite upto_zrange, <- !app_assoc. reflexivity.
  - rewrite (zrange_cons j) by lia. cbn [flat_map]. rewrite <- app_assoc. f_equal.
    destruct (Z.eqb_spec (j + 1) (p_a P)) as [Ej|Ej]; [|reflexivity].
    rewrite Ej, (zrange_nil (p_a P)) by lia. cbn [flat_map app].
    destruct (Z.eqb_spec (i + 1) (p_k P)) as [Ei|Ei]; cbn [out].
    + rewrite Ei, (zrange_nil (p_k P)) by lia. cbn [flat_map app]. apply HTo_S. lia.
    + reflexivity.
  - rewrite (zrange_cons q) by lia. cbn [flat_map]. rewrite <- app_assoc. f_equal.
    destruct (Z.eqb_spec (q + 1) (wlen P)) as [Ej|Ej]; cbn [out]; [|reflexivity].
    rewrite Ej, (zrange_nil (wlen P)) by lia. reflexivity.
  - rewrite (zrange_cons j) by lia. cbn [flat_map]. rewrite <- app_assoc. f_equal.
    destruct (Z.eqb_spec (j + 1) (p_h' P)) as [Ej|Ej]; [|reflexivity].
    rewrite Ej, (zrange_nil (p_h' P)) by lia. cbn [flat_map app].
    destruct (Z.eqb_spec (l + 1) (p_d P)) as [Ei|Ei]; cbn [out].
    + unfold HTo. rewrite Ei, zrange_nil by lia. reflexivity.
    + apply HTo_S. lia.
  - reflexivity.
Qed.
Lemma emit_ok s : s <> DN -> str_ok E (emit s).
Proof.
  destruct s; intros H; cbn [emit]; [apply fsk_ok|apply fauth_ok|apply hwots_ok|apply hauth_ok|congruence]; exact Hsk.
Qed.

(** ** The context in each state *)
Definition at_fors (i : Z) (c : ts_context) : Prop :=
  c_hypertree_level c = 0 /\ c_fors_tree c = i /\ c_tree_address c = T0 /\ c_fors_keypair_addr c = leaf0 /\
  fors_idx_at E (c_x c) md /\ big_is E c AR (fors_roots E sk A0 i).
Definition at_tree (l : Z) (c : ts_context) : Prop :=
  c_hypertree_level c = l /\ c_fors_tree c = 0 /\ c_tree_address c = trl l /\ c_fors_keypair_addr c = 0 /\
  c_auth_path_node c = lfl l.
(** What is left when the last block has been computed *)
Definition Fin (c : ts_context) : Prop :=
  let l := p_d P - 1 in
  buf_is BufBuffer (emit (MK l (p_h' P - 1))) c /\
  buf_is BufAuth (xmss_node P seed sk 0 (Z.to_nat (p_h' P)) (tA l)) c /\
  spent E (c_small_iter c) (mkADRS l (trl l) TREE 0 (p_h' P) 0)
    (xmss_node P seed sk 0 (Z.to_nat (p_h' P - 1)) (tA l) ++ xmss_node P seed sk 1 (Z.to_nat (p_h' P - 1)) (tA l)) /\
  exists leaf, let A := setKeyPairAddress leaf (setTypeAndClear WOTS_HASH (tA l)) in
    0 <= leaf < 2 ^ p_h' P /\
    spent E (c_big_iter c) (setKeyPairAddress leaf (setTypeAndClear WOTS_PK (tA l))) (flat_map (wots_end E sk A) (upto (wlen P))) /\
    buf_is BufMerkle (wots_end E sk A (wlen P - 1)) c.
Definition Inv (s : sst) (c : ts_context) : Prop :=
  good E c /\ rng s /\
  match s with
  | FL i => c_state c = ts_fors_leaf /\ at_fors i c
  | FA i j => c_state c = ts_fors /\ at_fors i c /\ c_merkle_level c = j /\ c_auth_path_node c = fors_idx E md i /\
      buf_is BufAuth (fors_node P seed sk ((i * 2 ^ p_a P + fors_idx E md i) / 2 ^ j) (Z.to_nat j) A0) c
  | WT l q => c_state c = ts_wots /\ at_tree l c /\ get_digit (c_x c) = Ok q /\ digits_at E (c_x c) (wots_msg P (msgl l))
  | MK l j => c_state c = ts_merkle /\ at_tree l c /\ c_merkle_level c = j /\
      buf_is BufAuth (xmss_node P seed sk (lfl l / 2 ^ j) (Z.to_nat j) (tA l)) c
  | DN => c_state c = ts_done /\ Fin c
  end.

Definition step_ok (s : sst) (c : ts_context) : Prop :=
  exists c', sign_switch cfg mem c = Ok (Some c') /\ Inv (nxt s) c' /\ c_buffer_offset c' = 0 /\ buf_is BufBuffer (emit s) c'.

Lemma M0_ok : str_ok E M0. Proof. apply fors_pk_ok, Hsk. Qed.
Lemma msgl_ok l : str_ok E (msgl l). Proof. apply hmsg_ok; [exact Hsk|apply M0_ok]. Qed.

Lemma step_FL i c : Inv (FL i) c -> step_ok (FL i) c.
Proof.
  intros (G & R & HS & Hl & Hf & Ht & Hk & Hx & Hb). cbn [rng] in R. unfold step_ok, sign_switch.
  rewrite HS. change (ts_fors_leaf =? ts_fors_leaf) with true. cbv iota.
  rewrite Hf, (Hx i R). cbn [bind]. pose proof (fors_idx_range E md i) as Hi. fold (fors_idx E md i).
  pose proof (t_bounds E) as Hb'. assert (P14 : 2 ^ p_a P <= 2 ^ 14) by (apply Z.pow_le_mono_r; lia).
  unfold u16. rewrite Z.mod_small by lia. set (idx := fors_idx E md i) in *.
  assert (G1 : good E (set_auth_path_node idx c)) by (apply good_auth_path_node; [lia|exact G]).
  destruct (fors_prf_ok E sk BufBuffer idx _ G1 Hsk) as (a & s & Os & ->); [lia|]. cbn [bind].
  match goal with |- context [buf_set BufBuffer ?v _] => set (v1 := v) end.
  assert (Ev : v1 = fsk E sk md A0 i).
  { unfold v1, fsk, fidx, fors_A. change (c_fors_tree (set_auth_path_node idx c)) with (c_fors_tree c).
    change (c_tree_address (set_auth_path_node idx c)) with (c_tree_address c).
    change (c_fors_keypair_addr (set_auth_path_node idx c)) with (c_fors_keypair_addr c). rewrite Hf, Ht, Hk. reflexivity. }
  rewrite Ev. assert (Sv : str_ok E (fsk E sk md A0 i)) by (apply fsk_ok, Hsk).
  set (c2 := set_state ts_fors _).
  assert (G2 : good E c2).
  { apply good_state; [unfold ts_fors; lia|]. apply good_merkle_level; [lia|]. apply good_offset; [lia|].
    apply good_buf_set; [exact Sv|]. apply good_scr; assumption. }
  destruct (fors_leaf_ok E sk BufAuth idx c2 G2 Hsk) as (a2 & s2 & O2 & ->); [lia|]. cbn [bind].
  eexists. split; [reflexivity|].
  assert (Ea : fors_A c2 = A0).
  { unfold fors_A, A0. change (c_tree_address c2) with (c_tree_address c).
    change (c_fors_keypair_addr c2) with (c_fors_keypair_addr c). rewrite Ht, Hk. reflexivity. }
  assert (Ef : fidx E c2 idx = i * 2 ^ p_a P + idx) by (unfold fidx; change (c_fors_tree c2) with (c_fors_tree c); rewrite Hf; reflexivity).
  rewrite Ea, Ef.
  split; [|split; [reflexivity|cbn [emit]; eexists; reflexivity]].
  cbn [nxt]. split; [|split].
  - apply good_buf_set; [apply fors_node_ok, Hsk|]. apply good_scr; assumption.
  - cbn [rng]. lia.
  - split; [reflexivity|]. split; [|split; [reflexivity|split; [reflexivity|]]].
    + split; [exact Hl|]. split; [exact Hf|]. split; [exact Ht|]. split; [exact Hk|]. split; [exact Hx|exact Hb].
    + rewrite Z.pow_0_r, Z.div_1_r. change (Z.to_nat 0) with 0%nat. apply buf_is_set.
Qed.

Lemma fors_roots_S i : 0 <= i -> fors_roots E sk A0 (i + 1) = fors_roots E sk A0 i ++ fors_node P seed sk i (Z.to_nat (p_a P)) A0.
Proof. intros. unfold fors_roots. rewrite zrange_snoc, flat_map_app by lia. cbn [flat_map]. rewrite app_nil_r. reflexivity. Qed.
Lemma fors_roots_zlen i : 0 <= i -> zlen (fors_roots E sk A0 i) = i * n.
Proof.
  intros. unfold fors_roots. rewrite (flat_zlen _ n).
  - rewrite zrange_length by lia. lia.
  - intros. apply (str_zlen E), fors_node_ok, Hsk.
Qed.
Lemma lf16 l : 0 <= lfl l < 2 ^ 16.
Proof.
  pose proof (lf_range E T0 leaf0 l Hleaf0). pose proof (mh_bounds E).
  assert (2 ^ p_h' P <= 2 ^ 9) by (apply Z.pow_le_mono_r; lia). lia.
Qed.

Lemma step_FA i j c : Inv (FA i j) c -> step_ok (FA i j) c.
Proof.
  intros (G & R & HS & (Hl & Hf & Ht & Hk & Hx & Hb) & Hj & Hi & HA). cbn [rng] in R. unfold step_ok, sign_switch.
  rewrite HS. change (ts_fors =? ts_fors_leaf) with false. change (ts_fors =? ts_fors) with true. cbv iota.
  pose proof (fors_idx_range E md i) as Hr. set (idx := fors_idx E md i) in *.
  pose proof (k_bounds E) as Kb. pose proof (t_bounds E) as Tb. pose proof (n_bounds E) as Nb.
  assert (Ea : fors_A c = A0) by (unfold fors_A, A0; rewrite Ht, Hk; reflexivity).
  destruct (fors_path_ok E sk c j idx G Hsk Hl) as (c1 & -> & G1 & C1 & X1 & B1 & A1); auto; try lia.
  { rewrite Ea, Hf. exact HA. }
  cbn [bind]. rewrite Ea, Hf in B1, A1. apply core_inv in C1. destruct C1 as (K1 & K2 & K3 & K4 & K5 & K6 & K7 & K8).
  change (c_state (set_buffer_offset 0 (set_merkle_level (j + 1) c))) with (c_state c) in K1.
  change (c_buffer_offset (set_buffer_offset 0 (set_merkle_level (j + 1) c))) with 0 in K2.
  change (c_hypertree_level (set_buffer_offset 0 (set_merkle_level (j + 1) c))) with (c_hypertree_level c) in K3.
  change (c_fors_tree (set_buffer_offset 0 (set_merkle_level (j + 1) c))) with (c_fors_tree c) in K4.
  change (c_merkle_level (set_buffer_offset 0 (set_merkle_level (j + 1) c))) with (j + 1) in K5.
  change (c_auth_path_node (set_buffer_offset 0 (set_merkle_level (j + 1) c))) with (c_auth_path_node c) in K6.
  change (c_fors_keypair_addr (set_buffer_offset 0 (set_merkle_level (j + 1) c))) with (c_fors_keypair_addr c) in K7.
  change (c_tree_address (set_buffer_offset 0 (set_merkle_level (j + 1) c))) with (c_tree_address c) in K8.
  rewrite HS in K1. rewrite Hl in K3. rewrite Hf in K4. rewrite Hi in K6. rewrite Hk in K7. rewrite Ht in K8.
  destruct (X1 eq_refl) as [Bg Fx]. change (fst (fors_stack cfg)) with FORS_STACK_OFFSET in Fx.
  assert (Hx1 : fors_idx_at E (c_x c1) md).
  { intros q Hq. rewrite <- (Hx q Hq). apply (get_fors_node_firstn E).
    - destruct (good_x_ok c G), (good_x_ok c1 G1). lia.
    - unfold TS_MAX_FORS. lia.
    - exact Fx. }
  assert (Hb1 : big_is E c1 AR (fors_roots E sk A0 i)) by (unfold big_is; rewrite Bg; exact Hb).
  rewrite K5, (g_ps E c1 G1), (ps_t_eq E). cbn [nxt emit]. destruct (Z.eqb_spec (j + 1) (p_a P)) as [Ej|Ej].
  - (* the tree is finished *)
    rewrite Ej in *. replace ((i * 2 ^ p_a P + idx) / 2 ^ p_a P) with i in A1.
    2:{ rewrite Z.div_add_l by (pose proof (pow2_pos (p_a P)); lia). rewrite Z.div_small by exact Hr. lia. }
    set (rt := fors_node P seed sk i (Z.to_nat (p_a P)) A0) in *.
    assert (Srt : str_ok E rt) by (apply fors_node_ok, Hsk).
    destruct (big_next_ok E AR _ rt (c_auth_path_buffer c1) c1 G1 Hb1) as (g & -> & I2);
      [exact (buf_is_read E BufAuth rt c1 (proj1 Srt) A1)|exact Srt|]. cbn [bind].
    unfold rt in I2. rewrite <- fors_roots_S in I2 by lia.
    set (c2 := set_big_iter g c1). assert (G2 : good E c2) by (apply good_big; [exact (irep_ok E _ _ _ I2)|exact G1]).
    change (c_fors_tree (set_state ts_fors_leaf c2)) with (c_fors_tree c1). rewrite K4.
    unfold u8. rewrite Z.mod_small by lia.
    set (c3 := set_fors_tree (i + 1) (set_state ts_fors_leaf c2)).
    assert (G3 : good E c3) by (apply good_fors_tree; [lia|]; apply good_state; [unfold ts_fors_leaf; lia|exact G2]).
    change (c_fors_tree c3) with (i + 1). rewrite (g_ps E c3 G3), (ps_k_eq E).
    destruct (Z.eqb_spec (i + 1) (p_k P)) as [Ei|Ei].
    + (* all trees are finished *)
      assert (I3 : big_is E c3 AR (fors_roots E sk A0 (i + 1))) by exact I2.
      destruct (big_final_ok E BufAuth AR _ c3 G3 I3) as (g4 & I4 & ->); [rewrite fors_roots_zlen by lia; nia|]. cbn [bind].
      assert (EM : hT hs seed AR (fors_roots E sk A0 (i + 1)) = M0) by (rewrite Ei; reflexivity). rewrite EM.
      set (c4 := set_fors_tree 0 _).
      assert (G4 : good E c4).
      { apply good_fors_tree; [lia|]. apply good_buf_set; [apply M0_ok|]. apply good_big; assumption. }
      change (c_fors_keypair_addr c4) with (c_fors_keypair_addr c1). rewrite K7.
      assert (B4 : buf_is BufAuth M0 c4) by (eexists; reflexivity).
      pose proof (lf16 0) as L0. change (lfl 0) with leaf0 in L0.
      destruct (setup_wots_ok M0 leaf0 c4 G4 B4 M0_ok L0) as (x' & -> & Bx & Dx & Dg). cbn [bind].
      eexists. split; [reflexivity|]. split; [|split; [exact K2|exact B1]].
      split; [|split].
      * apply good_keypair; [lia|]. apply good_auth_path_node; [exact L0|]. apply good_x; [exact Bx|]. apply good_state; [unfold ts_wots; lia|exact G4].
      * cbn [rng]. pose proof (d_bounds E). pose proof (wlen_eq E). lia.
      * split; [reflexivity|]. split; [|split; [exact Dx|exact Dg]].
        split; [exact K3|]. split; [reflexivity|]. split; [|split; reflexivity].
        unfold tr. rewrite Z.mul_0_r, Z.pow_0_r, Z.div_1_r. exact K8.
    + eexists. split; [reflexivity|]. split; [|split; [exact K2|exact B1]].
      split; [exact G3|]. split; [cbn [rng]; lia|]. split; [reflexivity|].
      split; [exact K3|]. split; [reflexivity|]. split; [exact K8|]. split; [exact K7|]. split; [exact Hx1|exact I2].
  - eexists. split; [reflexivity|]. split; [|split; [exact K2|exact B1]].
    split; [exact G1|]. split; [cbn [rng]; lia|]. split; [exact K1|].
    split; [|split; [exact K5|split; [exact K6|exact A1]]].
    split; [exact K3|]. split; [exact K4|]. split; [exact K8|]. split; [exact K7|]. split; [exact Hx1|exact Hb1].
Qed.

Lemma step_WT l q c : Inv (WT l q) c -> step_ok (WT l q) c.
Proof.
  intros (G & R & HS & (Hl & Hf & Ht & Hk & Hn) & Hq & Hd). cbn [rng] in R. unfold step_ok, sign_switch.
  rewrite HS. change (ts_wots =? ts_fors_leaf) with false. change (ts_wots =? ts_fors) with false.
  change (ts_wots =? ts_wots) with true. cbv iota.
  pose proof (n_bounds E) as Nb. pose proof (wlen_eq E) as Wl.
  unfold generate_next_wots_hash. rewrite Hq. cbn [bind].
  destruct (set_digit_ok (c_x c) (q + 1) (good_x_ok c G)) as (x1 & -> & B1 & D1 & D2); [lia|]. cbn [bind].
  assert (G1 : good E (set_x x1 c)) by (apply good_x; assumption).
  change (c_auth_path_node (set_x x1 c)) with (c_auth_path_node c). rewrite Hn.
  destruct (wots_prf_ok E sk BufBuffer (lfl l) q _ G1 Hsk) as (a & s & Os & ->). cbn [bind].
  set (v := wots_sk P seed sk (wots_A (set_x x1 c) (lfl l)) q). assert (Sv : str_ok E v) by (apply wots_sk_ok, Hsk).
  set (c2 := buf_set BufBuffer v (scr a s (set_x x1 c))).
  assert (G2 : good E c2) by (apply good_buf_set; [exact Sv|apply good_scr; assumption]).
  change (c_x c2) with x1. rewrite D2, (Hd q) by lia. cbn [bind].
  change (c_auth_path_node c2) with (c_auth_path_node c). rewrite Hn.
  set (m := nth (Z.to_nat q) (wots_msg P (msgl l)) 0).
  destruct (chain_loop_ok E BufBuffer (lfl l) q 0 m v c2 G2 (buf_is_set _ _ _) Sv) as (a3 & s3 & O3 & ->). cbn [bind].
  rewrite Z.sub_0_r.
  match goal with |- context [buf_set BufBuffer ?w (scr a3 s3 c2)] => set (v3 := w) end.
  assert (Ev3 : v3 = hwo l q).
  { unfold v3, hwots, wots_piece, v. fold m. change (wots_A c2 (lfl l)) with (wots_A c (lfl l)).
    change (wots_A (set_x x1 c) (lfl l)) with (wots_A c (lfl l)).
    assert (Ew : wots_A c (lfl l) = wotsA E T0 leaf0 l) by (unfold wots_A, wotsA, lvl; rewrite Hl, Ht; reflexivity).
    rewrite Ew. reflexivity. }
  rewrite Ev3. assert (S3 : str_ok E (hwo l q)) by (apply hwots_ok, Hsk).
  set (c3 := set_buffer_offset 0 _).
  assert (G3 : good E c3) by (apply good_offset; [lia|]; apply good_buf_set; [exact S3|]; apply good_scr; assumption).
  assert (B3 : buf_is BufBuffer (hwo l q) c3) by (eexists; reflexivity).
  change (c_x c3) with x1. rewrite D1. cbn [bind]. rewrite (ps_n_c E c3 G3), <- Wl.
  cbn [nxt emit]. destruct (Z.eqb_spec (q + 1) (wlen P)) as [Eq|Eq].
  - set (c4 := set_merkle_level 0 (set_state ts_merkle c3)).
    assert (G4 : good E c4) by (apply good_merkle_level; [lia|]; apply good_state; [unfold ts_merkle; lia|exact G3]).
    change (c_auth_path_node c4) with (c_auth_path_node c). rewrite Hn.
    destruct (ts_wots_leaf_ok E sk BufAuth (lfl l) c4 G4 Hsk) as (a5 & s5 & g5 & v5 & O5 & I5 & S5 & ->). cbn [bind].
    eexists. split; [reflexivity|]. split; [|split; [reflexivity|exact B3]].
    split; [|split].
    + apply good_buf_set; [apply wots_pkGen_ok, Hsk|]. apply good_big; [exact I5|]. apply good_buf_set; [exact S5|].
      apply good_scr; assumption.
    + cbn [rng]. pose proof (mh_bounds E). lia.
    + split; [reflexivity|]. split; [|split; [reflexivity|]].
      * split; [exact Hl|]. split; [exact Hf|]. split; [exact Ht|]. split; [exact Hk|exact Hn].
      * rewrite Z.pow_0_r, Z.div_1_r. change (Z.to_nat 0) with 0%nat. cbn [xmss_node].
        assert (Ew : wots_A c4 (lfl l) = setKeyPairAddress (lfl l) (setTypeAndClear WOTS_HASH (tA l))).
        { unfold wots_A, lvl. change (c_hypertree_level c4) with (c_hypertree_level c).
          change (c_tree_address c4) with (c_tree_address c). rewrite Hl, Ht. reflexivity. }
        rewrite Ew. apply buf_is_set.
  - eexists. split; [reflexivity|]. split; [|split; [reflexivity|exact B3]].
    split; [exact G3|]. split; [cbn [rng]; lia|]. split; [exact HS|]. split; [|split; [exact D1|]].
    + split; [exact Hl|]. split; [exact Hf|]. split; [exact Ht|]. split; [exact Hk|exact Hn].
    + intros i Hi. change (c_x c3) with x1. rewrite D2. apply Hd, Hi.
Qed.

Lemma tr_range l : 0 <= l -> 0 <= trl l < 2 ^ 64.
Proof.
  intros. unfold tr. pose proof (mh_bounds E). assert (0 < 2 ^ (p_h' P * l)) by (apply pow2_pos; nia). split; [apply Z.div_pos; lia|].
  apply Z.div_lt_upper_bound; [lia|]. nia.
Qed.
Lemma step_MK l j c : Inv (MK l j) c -> step_ok (MK l j) c.
Proof.
  intros (G & R & HS & (Hl & Hf & Ht & Hk & Hn) & Hj & HA). cbn [rng] in R. unfold step_ok, sign_switch.
  rewrite HS. change (ts_merkle =? ts_fors_leaf) with false. change (ts_merkle =? ts_fors) with false.
  change (ts_merkle =? ts_wots) with false. change (ts_merkle =? ts_merkle) with true. cbv iota.
  pose proof (n_bounds E) as Nb. pose proof (mh_bounds E) as Mb. pose proof (d_bounds E) as Db.
  pose proof (lf_range E T0 leaf0 l Hleaf0) as Lr.
  assert (Ea : tree_A c = tA l) by (unfold tree_A, treeA; rewrite Hl, Ht; reflexivity).
  destruct (merkle_path_left E sk c j (lfl l) G Hsk Hk Hf) as (c1 & -> & G1 & C1 & B1 & A1 & V1 & W1); auto; try lia.
  { rewrite Ea. exact HA. }
  cbn [bind]. cbv zeta in V1, W1. rewrite Ea in B1, A1, V1, W1. apply core_inv in C1. destruct C1 as (K1 & K2 & K3 & K4 & K5 & K6 & K7 & K8).
  change (c_state (set_buffer_offset 0 (set_merkle_level (j + 1) c))) with (c_state c) in K1.
  change (c_buffer_offset (set_buffer_offset 0 (set_merkle_level (j + 1) c))) with 0 in K2.
  change (c_hypertree_level (set_buffer_offset 0 (set_merkle_level (j + 1) c))) with (c_hypertree_level c) in K3.
  change (c_fors_tree (set_buffer_offset 0 (set_merkle_level (j + 1) c))) with (c_fors_tree c) in K4.
  change (c_merkle_level (set_buffer_offset 0 (set_merkle_level (j + 1) c))) with (j + 1) in K5.
  change (c_auth_path_node (set_buffer_offset 0 (set_merkle_level (j + 1) c))) with (c_auth_path_node c) in K6.
  change (c_fors_keypair_addr (set_buffer_offset 0 (set_merkle_level (j + 1) c))) with (c_fors_keypair_addr c) in K7.
  change (c_tree_address (set_buffer_offset 0 (set_merkle_level (j + 1) c))) with (c_tree_address c) in K8.
  rewrite HS in K1. rewrite Hl in K3. rewrite Hf in K4. rewrite Hn in K6. rewrite Hk in K7. rewrite Ht in K8.
  rewrite K5, (g_ps E c1 G1), (ps_mh_eq E). cbn [nxt emit]. destruct (Z.eqb_spec (j + 1) (p_h' P)) as [Ej|Ej].
  - rewrite Ej in *. rewrite (Z.div_small (lfl l)) in A1 by exact Lr. rewrite K3. unfold u8. rewrite Z.mod_small by lia.
    set (c2 := set_hypertree_level (l + 1) c1). assert (G2 : good E c2) by (apply good_level; [lia|exact G1]).
    change (c_hypertree_level c2) with (l + 1). rewrite (g_ps E c2 G2), (ps_d_eq E).
    destruct (Z.eqb_spec (l + 1) (p_d P)) as [El|El].
    + eexists. split; [reflexivity|]. split; [|split; [exact K2|exact B1]].
      split; [apply good_state; [unfold ts_done; lia|exact G2]|]. split; [exact I|]. split; [reflexivity|].
      rewrite (Z.div_small (lfl l)) in V1 by exact Lr. rewrite Hl, Ht in V1.
      assert (El' : l = p_d P - 1) by lia. assert (Ej' : j = p_h' P - 1) by lia. rewrite El', Ej' in *.
      unfold Fin. cbv zeta. split; [exact B1|]. split; [exact A1|]. split; [exact V1|].
      eexists. exact W1.
    + rewrite (ps_mh_eq E), shift_count_ok by lia. cbn [bind].
      change (c_tree_address c2) with (c_tree_address c1). rewrite K8.
      assert (Em : Z.shiftl 1 (p_h' P) - 1 = Z.ones (p_h' P)) by (rewrite Z.ones_equiv, Z.shiftl_1_l; lia).
      rewrite Em, Z.land_ones by lia. pose proof (tr_range l) as Tr.
      assert (El' : trl l mod 2 ^ p_h' P = lfl (l + 1)).
      { unfold lf. destruct (Z.eqb_spec (l + 1) 0); [lia|]. replace (l + 1 - 1) with l by lia. reflexivity. }
      rewrite El'. pose proof (lf16 (l + 1)) as L16. unfold u16. rewrite (Z.mod_small (lfl (l + 1))) by exact L16.
      set (c3 := set_auth_path_node (lfl (l + 1)) c2).
      change (c_tree_address c3) with (c_tree_address c1). rewrite K8.
      rewrite Z.shiftr_div_pow2, <- (tr_S E T0 l) by lia.
      set (c4 := set_tree_address (trl (l + 1)) c3). change (c_auth_path_node c4) with (lfl (l + 1)).
      assert (G4 : good E c4).
      { apply good_tree; [apply tr_range; lia|]. apply good_auth_path_node; [exact L16|exact G2]. }
      assert (Hm : msgl (l + 1) = xmss_node P seed sk 0 (Z.to_nat (p_h' P)) (tA l)).
      { unfold hmsg. destruct (Z.eqb_spec (l + 1) 0); [lia|]. replace (l + 1 - 1) with l by lia. reflexivity. }
      rewrite <- Hm in A1.
      destruct (setup_wots_ok (msgl (l + 1)) (lfl (l + 1)) c4 G4 A1 (msgl_ok _) L16) as (x' & -> & Bx & Dx & Dg). cbn [bind].
      eexists. split; [reflexivity|]. split; [|split; [exact K2|exact B1]].
      split; [|split].
      * apply good_keypair; [lia|]. apply good_auth_path_node; [exact L16|]. apply good_x; [exact Bx|]. apply good_state; [unfold ts_wots; lia|exact G4].
      * cbn [rng]. pose proof (wlen_eq E). lia.
      * split; [reflexivity|]. split; [|split; [exact Dx|exact Dg]].
        split; [reflexivity|]. split; [exact K4|]. split; [reflexivity|]. split; reflexivity.
  - eexists. split; [reflexivity|]. split; [|split; [exact K2|exact B1]].
    split; [exact G1|]. split; [cbn [rng]; lia|]. split; [exact K1|].
    split; [|split; [exact K5|exact A1]].
    split; [exact K3|]. split; [exact K4|]. split; [exact K8|]. split; [exact K7|exact K6].
Qed.

Lemma switch_ok s c : s <> DN -> Inv s c -> step_ok s c.
Proof. destruct s; intros H HI; [apply step_FL|apply step_FA|apply step_WT|apply step_MK|congruence]; exact HI. Qed.

(** ** The loop of ts_sign *)
Record at_run (s : sst) (B : list Z) (o : Z) (c : ts_context) : Prop := mkRun {
  r_inv : Inv s c;
  r_buf : buf_is BufBuffer B c;
  r_str : str_ok E B;
  r_off : c_buffer_offset c = o;
  r_rng : 0 <= o <= n }.
(** What a run still has to emit *)
Definition rest (s : sst) (B : list Z) (o : Z) : list Z := skipn (Z.to_nat o) B ++ out s.

Lemma wr_range_two {A} (d d1 d2 a b : list A) pos : wr_range d pos a = Ok d1 -> wr_range d1 (pos + zlen a) b = Ok d2 ->
  wr_range d pos (a ++ b) = Ok d2.
Proof.
  unfold wr_range. rewrite zlen_app.
  destruct (Z.leb_spec 0 pos); cbn [andb]; [|discriminate].
  destruct (Z.leb_spec (pos + zlen a) (zlen d)); [|discriminate]. intros E1.
  assert (E1' : d1 = firstn (Z.to_nat pos) d ++ a ++ skipn (Z.to_nat pos + length a) d) by congruence. clear E1.
  destruct (Z.leb_spec 0 (pos + zlen a)); cbn [andb]; [|discriminate].
  assert (L1 : zlen d1 = zlen d).
  { rewrite E1', !zlen_app. unfold zlen in *. rewrite firstn_length, skipn_length. lia. }
  rewrite L1. destruct (Z.leb_spec (pos + zlen a + zlen b) (zlen d)); [|discriminate].
  destruct (Z.leb_spec (pos + (zlen a + zlen b)) (zlen d)); [|lia]. intros E2.
  assert (E2' : d2 = firstn (Z.to_nat (pos + zlen a)) d1 ++ b ++ skipn (Z.to_nat (pos + zlen a) + length b) d1) by congruence. clear E2.
  f_equal. rewrite E2', E1'. unfold zlen in *.
  assert (Lf : length (firstn (Z.to_nat pos) d) = Z.to_nat pos) by (rewrite firstn_length; lia).
  rewrite (app_assoc _ a (skipn _ d)).
  assert (Lp : length (firstn (Z.to_nat pos) d ++ a) = Z.to_nat (pos + Z.of_nat (length a))) by (rewrite app_length, Lf; lia).
  rewrite <- Lp at 1. rewrite firstn_app, Nat.sub_diag, firstn_all, firstn_O, app_nil_r.
  rewrite skipn_app, (skipn_all2 (firstn (Z.to_nat pos) d ++ a)) by lia. rewrite app_nil_l, Lp, skipn_skipn', <- !app_assoc. do 3 f_equal.
  f_equal. rewrite app_length. lia.
Qed.
Lemma wr_range_nil {A} (d : list A) pos : 0 <= pos <= zlen d -> wr_range d pos [] = Ok d.
Proof.
  intros. unfold wr_range. change (zlen (@nil A)) with 0. cbn [length].
  destruct (Z.leb_spec 0 pos), (Z.leb_spec (pos + 0) (zlen d)); try lia. cbn [andb app]. rewrite Nat.add_0_r, firstn_skipn. reflexivity.
Qed.
Lemma out_zlen_DN : out DN = []. Proof. reflexivity. Qed.

Lemma sign_loop_ok fuel : forall dest pos m s B o c, at_run s B o c -> 0 <= m < 2 ^ 32 -> 0 <= pos -> pos + m <= zlen dest ->
  2 * m + (if o =? n then 1 else 0) < Z.of_nat fuel ->
  let k := Z.min m (zlen (rest s B o)) in
  exists dest' c' s' B' o', sign_loop cfg mem fuel dest pos m c = Ok (m - k, dest', c') /\
    wr_range dest pos (firstn (Z.to_nat k) (rest s B o)) = Ok dest' /\
    at_run s' B' o' c' /\ rest s' B' o' = skipn (Z.to_nat k) (rest s B o).
Proof.
  induction fuel as [|fuel IH]; intros dest pos m s B o c HR Hm Hpos Hd Hfu k; [destruct (o =? n); lia|].
  pose proof HR as [HI HB HSt Ho Hrg]. pose proof (n_bounds E) as Nb.
  assert (G : good E c) by apply HI.
  cbn [sign_loop]. destruct (Z.eqb_spec m 0) as [Em|Em].
  { subst m. assert (Ek : k = 0) by (unfold k; unfold zlen; lia).
    exists dest, c, s, B, o. rewrite Ek. change (Z.to_nat 0) with 0%nat. cbn [firstn skipn].
    split; [reflexivity|]. split; [apply wr_range_nil; lia|]. split; [exact HR|reflexivity]. }
  rewrite (ps_n_c E c G), Ho. unfold u32. rewrite Z.mod_small by lia.
  destruct (Z.ltb_spec 0 (n - o)) as [Hlt|Hge].
  - (* copy from the buffer *)
    destruct (Z.eqb_spec o n) as [|Hon]; [lia|].
    set (r := if m <? n - o then m else n - o).
    assert (Hr : 0 < r <= n - o /\ r <= m) by (unfold r; destruct (Z.ltb_spec m (n - o)); lia).
    destruct HB as (t & Et). cbn [buf_of] in Et. destruct HSt as [LB BB].
    assert (Hsrc : rd_range (c_buffer c) o r = Ok (firstn (Z.to_nat r) (skipn (Z.to_nat o) B))).
    { unfold rd_range. rewrite Et, zlen_app. unfold zlen in *.
      destruct (Z.leb_spec 0 o), (Z.leb_spec 0 r), (Z.leb_spec (o + r) (Z.of_nat (length B) + Z.of_nat (length t))); try lia.
      cbn [andb]. f_equal. rewrite skipn_app_le by lia. rewrite firstn_app_le; [reflexivity|]. rewrite skipn_length. lia. }
    rewrite Hsrc. cbn [bind]. set (src := firstn (Z.to_nat r) (skipn (Z.to_nat o) B)).
    assert (Ls : zlen src = r) by (unfold src, zlen in *; rewrite firstn_length, skipn_length; lia).
    assert (W : exists d1, wr_range dest pos src = Ok d1) by (rewrite wr_range_ok by lia; eauto).
    destruct W as (d1 & W). rewrite W. cbn [bind].
    assert (L1 : zlen d1 = zlen dest) by (apply (wr_then_rd _ _ _ _ W)).
    unfold u8. rewrite (Z.mod_small (o + r)) by lia.
    assert (HR1 : at_run s B (o + r) (set_buffer_offset (o + r) c)).
    { split; [|exists t; exact Et|split; assumption|reflexivity|lia].
      destruct HI as (_ & Rg & HI). split; [apply good_offset; [lia|exact G]|]. split; [exact Rg|]. destruct s; exact HI. }
    assert (Er : rest s B o = src ++ rest s B (o + r)).
    { unfold rest, src. rewrite app_assoc. f_equal. rewrite <- (firstn_skipn (Z.to_nat r) (skipn (Z.to_nat o) B)) at 1. f_equal.
      rewrite skipn_skipn'. f_equal. lia. }
    destruct (IH d1 (pos + r) (m - r) s B (o + r) _ HR1) as (dest' & c' & s' & B' & o' & EL & EW & HR' & ER'); try lia.
    { destruct (Z.eqb_spec (o + r) n); lia. }
    cbv zeta in *. set (k1 := Z.min (m - r) (zlen (rest s B (o + r)))) in *.
    assert (Ek : k = r + k1) by (unfold k, k1; rewrite Er, zlen_app, Ls; lia).
    assert (Hk1 : 0 <= k1) by (unfold k1, zlen; lia).
    exists dest', c', s', B', o'. rewrite EL. split; [f_equal; f_equal; f_equal; lia|].
    rewrite Ek, Er. replace (Z.to_nat (r + k1)) with (length src + Z.to_nat k1)%nat by (unfold zlen in Ls; lia).
    rewrite firstn_app_2. split; [|split; [exact HR'|]].
    + apply (wr_range_two _ _ _ _ _ _ W). rewrite Ls. exact EW.
    + rewrite ER'. rewrite skipn_app, (skipn_all2 src) by lia. cbn [app]. f_equal. lia.
  - (* the buffer is empty: next state *)
    assert (Eo : o = n) by lia. clear Ho. subst o. rewrite Z.eqb_refl in Hfu.
    assert (Er : rest s B n = out s).
    { unfold rest. rewrite skipn_all2; [reflexivity|]. destruct HSt as [LB _]. unfold zlen in LB. lia. }
    destruct (sst_eq_DN s) as [Es|Es].
    + subst s. unfold sign_switch. destruct HI as (_ & _ & HS & _). rewrite HS.
      change (ts_done =? ts_fors_leaf) with false. change (ts_done =? ts_fors) with false.
      change (ts_done =? ts_wots) with false. change (ts_done =? ts_merkle) with false. cbv iota. cbn [bind].
      assert (Ek : k = 0) by (unfold k; rewrite Er, out_zlen_DN, zlen_nil; lia).
      exists dest, c, DN, B, n. rewrite Ek. change (Z.to_nat 0) with 0%nat. cbn [firstn skipn].
      split; [f_equal; f_equal; f_equal; lia|]. split; [apply wr_range_nil; lia|]. split; [exact HR|reflexivity].
    + destruct (switch_ok s c Es HI) as (c1 & -> & HI1 & Ho1 & HB1). cbn [bind].
      assert (HR1 : at_run (nxt s) (emit s) 0 c1) by (split; [exact HI1|exact HB1|apply emit_ok, Es|exact Ho1|lia]).
      destruct (IH dest pos m _ _ _ _ HR1 Hm Hpos Hd) as (dest' & c' & s' & B' & o' & EL & EW & HR' & ER').
      { destruct (Z.eqb_spec 0 n); lia. }
      assert (Ern : rest (nxt s) (emit s) 0 = rest s B n).
      { rewrite Er. unfold rest. cbn [skipn Z.to_nat]. symmetry. apply out_nxt, HI. }
      rewrite Ern in *. cbv zeta in *. fold k in EL, EW, ER'.
      exists dest', c', s', B', o'. auto.
Qed.

Lemma state_range s c : Inv s c -> ts_sign_state < c_state c < ts_verify_state.
Proof.
  unfold ts_sign_state, ts_verify_state. intros (_ & _ & H).
  destruct s; [destruct H as [-> _]|destruct H as [-> _]|destruct H as [-> _]|destruct H as [-> _]|destruct H as [-> _]];
    unfold ts_fors_leaf, ts_fors, ts_wots, ts_merkle, ts_done; lia.
Qed.
Lemma sign_ok dest m s B o c : at_run s B o c -> 0 <= m < 2 ^ 32 -> m <= zlen dest ->
  let k := Z.min m (zlen (rest s B o)) in
  exists dest' c' s' B' o', ts_sign cfg mem dest m c = Ok (k, dest', c') /\
    wr_range dest 0 (firstn (Z.to_nat k) (rest s B o)) = Ok dest' /\
    at_run s' B' o' c' /\ rest s' B' o' = skipn (Z.to_nat k) (rest s B o).
Proof.
  intros HR Hm Hd k. unfold ts_sign. pose proof (state_range s c (r_inv _ _ _ _ HR)) as Hs.
  destruct (Z.leb_spec (c_state c) ts_sign_state), (Z.leb_spec ts_verify_state (c_state c)); try lia. cbn [orb].
  assert (Hk : 0 <= k <= m) by (unfold k, zlen; lia).
  destruct (sign_loop_ok (2 * Z.to_nat m + 2) dest 0 m s B o c HR) as (dest' & c' & s' & B' & o' & -> & EW & HR' & ER); try lia.
  { destruct (o =? n); lia. }
  cbv zeta in *. fold k in EW, ER |- *. cbn [bind]. exists dest', c', s', B', o'. split; [|auto].
  do 3 f_equal. unfold u32. rewrite Z.mod_small; lia.
Qed.
Lemma HTo_zlen l : 0 <= l <= p_d P -> zlen (HTo l) = (p_d P - l) * ((p_h' P + wlen P) * n).
Proof.
  intros. unfold HTo. rewrite (flat_zlen _ ((p_h' P + wlen P) * n)) by (intros; apply hpiece_zlen, Hsk).
  rewrite zrange_length by lia. ring.
Qed.
Lemma out_FL0_zlen : zlen (out (FL 0)) = slh_sig_length P - n.
Proof.
  pose proof (k_bounds E). pose proof (d_bounds E). cbn [out]. rewrite zlen_app, HTo_zlen by lia.
  rewrite (flat_zlen _ ((p_a P + 1) * n)) by (intros; apply fpiece_zlen, Hsk).
  rewrite zrange_length by lia. unfold slh_sig_length. rewrite (h_eq E). change (p_n P) with n. ring.
Qed.
(** The number of blocks still to be computed *)
Definition left_blocks (s : sst) : Z :=
  let ht l := (p_d P - l) * (p_h' P + wlen P) in
  match s with
  | FL i => (p_k P - i) * (p_a P + 1) + ht 0
  | FA i j => (p_a P - j) + (p_k P - (i + 1)) * (p_a P + 1) + ht 0
  | WT l q => (wlen P - q) + p_h' P + ht (l + 1)
  | MK l j => (p_h' P - j) + ht (l + 1)
  | DN => 0
  end.
Lemma blocks_zlen (f : Z -> list Z) a b : (forall i, str_ok E (f i)) -> a <= b -> zlen (flat_map f (zrange a b)) = (b - a) * n.
Proof using. clear. intros H Hab. rewrite (flat_zlen _ n) by (intros; apply (proj1 (H i))). rewrite zrange_length by lia. lia. Qed.
Lemma out_zlen s : rng s -> zlen (out s) = left_blocks s * n /\ 0 <= left_blocks s <= left_blocks (FL 0) /\ (s <> DN -> 1 <= left_blocks s).
Proof using Hsk.
  clear HT0 Hleaf0.
  pose proof (k_bounds E) as Hk. pose proof (d_bounds E) as Hd. pose proof (t_bounds E) as Ht. pose proof (wlen_eq E) as Hw. pose proof (n_bounds E) as Hn. pose proof (mh_bounds E) as Hm.
  assert (HW : 0 < wlen P) by lia.
  destruct s as [i|i j|l q|l j|]; cbn [out rng left_blocks]; intros R.
  - split; [rewrite zlen_app, HTo_zlen by lia; rewrite (flat_zlen _ ((p_a P + 1) * n)) by (intros; apply fpiece_zlen, Hsk); rewrite zrange_length by lia; ring|].
    split; [split; nia|intros _; nia].
  - split; [rewrite !zlen_app, HTo_zlen by lia; rewrite (blocks_zlen (fau i)) by (try (intros; apply fauth_ok, Hsk); lia);
      rewrite (flat_zlen _ ((p_a P + 1) * n)) by (intros; apply fpiece_zlen, Hsk); rewrite zrange_length by lia; ring|].
    split; [split; nia|intros _; nia].
  - split; [rewrite !zlen_app, HTo_zlen by lia; rewrite (blocks_zlen (hwo l)) by (try (intros; apply hwots_ok; exact Hsk); lia);
      rewrite (blocks_zlen (hau l)) by (try (intros; apply hauth_ok, Hsk); lia); ring|].
    split; [split; nia|intros _; nia].
  - split; [rewrite !zlen_app, HTo_zlen by lia; rewrite (blocks_zlen (hau l)) by (try (intros; apply hauth_ok, Hsk); lia); ring|].
    split; [split; nia|intros _; nia].
  - split; [reflexivity|]. split; [split; nia|congruence].
Qed.
End Sign.

(** ** ts_init_sign *)
Section Init.
Variable E : env.
Local Notation cfg := (e_cfg E).
Local Notation mem := (e_mem E).
Local Notation n := (e_n E).
Local Notation P := (e_P E).
Local Notation hs := (e_hs E).
Local Notation seed := (e_seed E).

(** A random function that keeps to its contract: it delivers at most n bytes, and n bytes if it reports success. *)
Definition rng_ok (f : random_function) (m : Z) : Prop :=
  match f with
  | None => True
  | Some f => let '(ret, data) := f m in is_bytes data /\ zlen data <= m /\ (ret <> 0 -> zlen data = m)
  end.
(** The value that randomises the signature *)
Definition addrnd_of (f : random_function) (m : Z) (dflt : list Z) : list Z :=
  match f with
  | None => dflt
  | Some f => let '(ret, data) := f m in if ret =? 0 then dflt else data
  end.

Lemma wr_range_pre {A} (d src : list A) : zlen src <= zlen d ->
  wr_range d 0 src = Ok (src ++ skipn (length src) d).
Proof. intros. rewrite wr_range_0 by assumption. reflexivity. Qed.

Lemma bind_bind {A B C} (x : outcome A) (f : A -> outcome B) (g : B -> outcome C) : bind (bind x f) g = bind x (fun y => bind (f y) g).
Proof. destruct x; reflexivity. Qed.
Lemma bind_ext {A B} (x : outcome A) (f g : A -> outcome B) : (forall y, x = Ok y -> f y = g y) -> bind x f = bind x g.
Proof. intros H. destruct x; [apply H; reflexivity|reflexivity]. Qed.

(** A generator in a given state, and its state after the call *)
Definition frozen {R} (rng : random_generator R) (r : R) : random_function := option_map (fun f m => fst (f r m)) rng.
Definition after {R} (rng : random_generator R) (r : R) (m : Z) : R := match rng with None => r | Some f => snd (f r m) end.
Lemma init_sign_gen_eq {R} cf mm c message l ps pk (rng : random_generator R) r :
  ts_init_sign_gen cf mm c message l ps pk rng r =
  (c' <- ts_init_sign cf mm c message l ps pk (frozen rng r) ;; Ok (c', after rng r (ps_n ps))).
Proof.
  unfold ts_init_sign, ts_init_sign_gen. cbv zeta. repeat (rewrite !bind_bind). apply bind_ext. intros c1 _.
  assert (X : (match rng with
     | None => Ok (false, uninit (TS_MAX_HASH cf), r)
     | Some f => let '(ret, data, r) := f r (ps_n ps) in b <- wr_local (uninit (TS_MAX_HASH cf)) 0 data ;; Ok (negb (ret =? 0), b, r)
     end) = ('(ok, b, _) <- match option_map (fun f (_ : unit) len => (f len, tt)) (frozen rng r) with
     | None => Ok (false, uninit (TS_MAX_HASH cf), tt)
     | Some f => let '(ret, data, r) := f tt (ps_n ps) in b <- wr_local (uninit (TS_MAX_HASH cf)) 0 data ;; Ok (negb (ret =? 0), b, r)
     end ;; Ok (ok, b, after rng r (ps_n ps)))).
  { destruct rng as [f|]; cbn [frozen option_map after]; [|reflexivity]. destruct (f r (ps_n ps)) as [[ret data] r']. cbn [fst snd].
    rewrite !bind_bind. apply bind_ext. intros b _. reflexivity. }
  rewrite X, !bind_bind. apply bind_ext. intros [[ok b] u] _. cbn [bind].
  rewrite !bind_bind. apply bind_ext. intros ? _.
  rewrite !bind_bind. apply bind_ext. intros ? _.
  rewrite !bind_bind. apply bind_ext. intros ? _.
  rewrite !bind_bind. apply bind_ext. intros [? ?] _.
  rewrite !bind_bind. apply bind_ext. intros ? _.
  rewrite !bind_bind. apply bind_ext. intros [? ?] _.
  rewrite !bind_bind. apply bind_ext. intros ? _.
  rewrite !bind_bind. apply bind_ext. intros ? _.
  rewrite !bind_bind. apply bind_ext. intros [? ?] _.
  rewrite !bind_bind. apply bind_ext. intros ? _.
  rewrite !bind_bind. apply bind_ext. intros ? _. reflexivity.
Qed.

Lemma init_sign_ok c message M sk prf root f : wf_ctx cfg c ->
  sk_at E sk -> prf_at E prf -> root_at E root ->
  load mem message (zlen M) = Ok M -> msg_ok M -> rng_ok f n ->
  let R := PRF_msg hs prf (addrnd_of f n seed) M in
  let D := H_msg hs R seed root M in
  exists c', ts_init_sign cfg mem c message (zlen M) (e_ps E) (e_pk E - 2 * n) f = Ok c' /\
    at_run E sk (md_of P D) (idx_tree_of P D) (idx_leaf_of P D) (FL 0) R 0 c' /\
    0 <= idx_tree_of P D < 2 ^ 64 /\ 0 <= idx_leaf_of P D < 2 ^ p_h' P /\ str_ok E R.
Proof.
  intros W Hsk Hprf Hroot HM Mok Hf R D. pose proof (n_bounds E) as Nb. pose proof (n_max E) as Nm.
  unfold ts_init_sign, ts_init_sign_gen. rewrite (ps_n_eq E).
  assert (PG : pregood E (set_public_key (CONVERT_PRIVATE_KEY_TO_PUBLIC (e_pk E - 2 * n) n) (set_ps (e_ps E) c))).
  { split; [destruct W; split; assumption|reflexivity|]. cbn [c_public_key set_public_key]. unfold CONVERT_PRIVATE_KEY_TO_PUBLIC. lia. }
  destruct (prehash_ok_good E _ PG) as (c1 & -> & G1 & _). cbn [bind].
  set (ob := uninit (TS_MAX_HASH cfg)).
  assert (Lob : zlen ob = TS_MAX_HASH cfg) by (unfold ob; apply zlen_uninit; lia).
  assert (Sseed : str_ok E seed) by (split; [apply seed_len|apply (e_seed_bytes E)]).
  set (addrnd := addrnd_of f n seed) in *.
  assert (Hopt : exists ok b b', (match option_map (fun f (_ : unit) len => (f len, tt)) f with
     | None => Ok (false, ob, tt)
     | Some f => let '(ret, data, r) := f tt n in b <- wr_local ob 0 data ;; Ok (negb (ret =? 0), b, r)
     end) = Ok (ok, b, tt) /\
     (if ok : bool then Ok b else sd <- load mem (CONVERT_PUBLIC_KEY_TO_PUB_SEED (c_public_key c1) n) n ;; wr_local b 0 sd) = Ok b' /\
     rd_local b' 0 n = Ok addrnd /\ str_ok E addrnd).
  { unfold addrnd, addrnd_of, rng_ok in *. rewrite (seed_load E c1 G1). cbn [bind].
    assert (Fb : forall b, zlen b = TS_MAX_HASH cfg -> exists b', wr_local b 0 seed = Ok b' /\ rd_local b' 0 n = Ok seed).
    { intros b Lb. unfold wr_local. rewrite wr_range_pre by (rewrite zlen_map, (seed_len E); lia). eexists. split; [reflexivity|]. apply rd_local_0, (seed_len E). }
    destruct f as [f|]; cbn [option_map].
    - destruct (f n) as [ret data]. destruct Hf as (Bd & Ld & Hd).
      unfold wr_local at 1. rewrite wr_range_pre by (rewrite zlen_map; lia). cbn [bind]. rewrite map_length. set (b := map Some data ++ skipn (length data) ob).
      assert (Lb : zlen b = TS_MAX_HASH cfg).
      { unfold b. rewrite zlen_app, zlen_map. unfold zlen in *. rewrite skipn_length. lia. }
      destruct (Z.eqb_spec ret 0) as [Er|Er]; cbn [negb].
      + destruct (Fb b Lb) as (b' & W' & R'). exists false, b, b'. auto.
      + exists true, b, b. split; [reflexivity|]. split; [reflexivity|]. split; [apply rd_local_0, Hd, Er|split; [apply Hd, Er|exact Bd]].
    - destruct (Fb ob Lob) as (b' & W' & R'). exists false, ob, b'. auto. }
  destruct Hopt as (ok & b & b' & -> & EB & RB & Sa). cbn [bind]. rewrite EB. cbn [bind]. rewrite HM. cbn [bind]. rewrite RB. cbn [bind].
  destruct (prf_msg_ok E prf addrnd addrnd M c1 G1 Hprf (rd_range_all addrnd n (proj1 Sa)) Sa Mok) as (it & -> & I2). cbn [bind]. fold R.
  assert (SR : str_ok E R) by (apply PRF_msg_ok; [apply Hprf|apply Sa|apply Mok]).
  set (c2 := set_small_iter it c1). assert (G2 : good E c2) by (apply good_small; assumption).
  rewrite (put_buf_ok E BufBuffer R c2 G2 SR). cbn [bind].
  set (c3 := buf_set BufBuffer R c2). assert (G3 : good E c3) by (apply good_buf_set; assumption).
  assert (B3 : buf_is BufBuffer R c3) by apply buf_is_set.
  destruct (hash_msg_ok E R (c_buffer c3) root M c3 G3 Hroot) as (it4 & -> & I4);
    [exact (buf_is_read E BufBuffer R c3 (proj1 SR) B3)|exact SR|exact Mok|]. cbn [bind].
  destruct (H49_ok E R root M) as [L49 B49]; [apply SR|apply Hroot|apply Mok|].
  pose proof (H49_prefix E R root M (proj2 SR) (proj2 (proj2 Hroot)) (proj1 Mok)) as HD. fold D in HD.
  set (H := H49 E R root M) in *. clearbody H.
  assert (Ew : wr_local (uninit MAX_MESSAGE_HASH) 0 H = Ok (map Some H)).
  { change MAX_MESSAGE_HASH with 49. unfold wr_local.
    rewrite wr_range_pre by (rewrite zlen_map, L49, zlen_uninit; lia).
    f_equal. rewrite skipn_all2; [apply app_nil_r|]. rewrite map_length. unfold uninit. rewrite repeat_length. unfold zlen in L49. lia. }
  rewrite Ew. cbn [bind]. rewrite defined_some. cbn [bind].
  set (c4 := set_small_iter it4 c3). assert (G4 : good E c4) by (apply good_small; assumption).
  destruct (convert_ok E H c4 G4 B49) as (mh & x' & -> & Bx & Fx & _); [lia|]. rewrite HD in *. cbn [bind].
  set (c5 := set_fors_keypair_addr _ _).
  assert (HTr : 0 <= idx_tree_of P D < 2 ^ 64).
  { unfold idx_tree_of. rewrite (h_div E). pose proof (h_sub E) as Hs.
    pose proof (Z.mod_pos_bound (toInt (slice D (ceil_div (p_k P * p_a P) 8) (ceil_div (p_h P - p_h' P) 8))) (2 ^ (p_h P - p_h' P))) as X.
    assert (0 < 2 ^ (p_h P - p_h' P)) by (apply pow2_pos; lia).
    assert (2 ^ (p_h P - p_h' P) <= 2 ^ 64) by (apply Z.pow_le_mono_r; lia). lia. }
  assert (HLf : 0 <= idx_leaf_of P D < 2 ^ p_h' P).
  { unfold idx_leaf_of. rewrite (h_div E). apply Z.mod_pos_bound, pow2_pos. pose proof (mh_bounds E); lia. }
  assert (HL16 : 0 <= idx_leaf_of P D < 2 ^ 16).
  { pose proof (mh_bounds E). assert (2 ^ p_h' P <= 2 ^ 9) by (apply Z.pow_le_mono_r; lia). lia. }
  assert (G5 : good E c5) by (apply good_keypair; [exact HL16|]; apply good_tree; [exact HTr|]; apply good_x; assumption).
  set (c6 := set_hypertree_level 0 _).
  assert (G6 : good E c6).
  { apply good_level; [lia|]. apply good_merkle_level; [lia|]. apply good_fors_tree; [lia|]. apply good_state; [unfold ts_fors_leaf; lia|].
    apply good_offset; [lia|exact G5]. }
  destruct (ts_set_fors_root_ok E c6 G6) as (a & -> & HA). cbn [bind].
  change (c_tree_address c6) with (idx_tree_of P D) in HA. change (c_fors_keypair_addr c6) with (idx_leaf_of P D) in HA.
  assert (G7 : good E (set_adr a c6)) by (apply good_adr; [exact (adr_rep_ok E _ _ HA)|exact G6]).
  destruct (big_init_ok E _ (set_adr a c6) G7 HA) as (g & -> & I7).
  eexists. split; [reflexivity|]. split; [|auto].
  split; [|exists (skipn (length R) (c_buffer c2)); reflexivity|exact SR|reflexivity|lia].
  split; [apply good_big; [exact (irep_ok E _ _ _ I7)|exact G7]|]. split; [cbn [rng]; pose proof (k_bounds E); lia|].
  split; [reflexivity|]. split; [reflexivity|]. split; [reflexivity|]. split; [reflexivity|]. split; [reflexivity|].
  split; [exact Fx|]. unfold big_is, fors_roots. rewrite zrange_nil by lia. exact I7.
Qed.

(** The whole signature *)
Lemma whole_sig M SK addrnd : let R := PRF_msg hs (slice SK n n) addrnd M in
  let D := H_msg hs R seed (slice SK (3 * n) n) M in
  slice SK (2 * n) n = seed -> sk_at E (slice SK 0 n) -> str_ok E R ->
  rest E (slice SK 0 n) (md_of P D) (idx_tree_of P D) (idx_leaf_of P D) (FL 0) R 0 = slh_sign_internal P M SK addrnd.
Proof.
  intros R D Hseed Hsk SR. unfold slh_sign_internal. change (p_n P) with n. change (p_hash P) with hs. rewrite Hseed.
  fold R. fold D. unfold rest. cbn [skipn Z.to_nat out]. f_equal.
  change (fors_ADRS P D) with (A0 (idx_tree_of P D) (idx_leaf_of P D)). 
  rewrite fors_complete by (try exact Hsk; reflexivity). fold (M0 E (slice SK 0 n) (idx_tree_of P D) (idx_leaf_of P D)).
  rewrite fors_sign_eq, upto_zrange. f_equal. unfold HTo. symmetry. apply ht_sign_eq; [exact Hsk| |].
  - unfold idx_leaf_of. rewrite (h_div E). apply Z.mod_pos_bound, pow2_pos. pose proof (mh_bounds E); lia.
  - unfold idx_tree_of. rewrite (h_div E). apply Z.mod_pos_bound, pow2_pos. pose proof (h_sub E); lia.
Qed.
End Init.
