(** * Low memory tree hashing *)
From Verif Require Import Arr SpecSha2 SpecKeccak SpecSLH ModelEndian ModelSha256 ModelSha512 ModelFips202
  ModelParams ModelCtx ModelHash ModelSphincs SpecMap PfEndian PfIter PfEnv PfAdr PfGlueSha SpecResidue PfGlue PfCtx.

(** ** Arithmetic of indices *)
Lemma div_pow_S i k : 0 <= k -> i / 2 ^ (k + 1) = i / 2 ^ k / 2.
Proof. intros. rewrite Z.pow_add_r, Z.div_div by (try apply Z.pow_pos_nonneg; lia). reflexivity. Qed.
Lemma pow2_pos k : 0 <= k -> 0 < 2 ^ k. Proof. intros; apply Z.pow_pos_nonneg; lia. Qed.
Lemma pow2_split h k : 0 <= k <= h -> 2 ^ h = 2 ^ k * 2 ^ (h - k).
Proof. intros. rewrite <- Z.pow_add_r by lia. f_equal. lia. Qed.

(** node = (idx xor 2^h) & ~(2^h - 1) *)
Lemma sibling_start idx h : 0 <= idx < 2 ^ 31 -> 0 <= h < 31 ->
  Z.land (Z.lxor idx (Z.shiftl 1 h)) (u32 (Z.lnot (Z.shiftl 1 h - 1))) = 2 ^ h * Z.lxor (idx / 2 ^ h) 1.
Proof.
  intros Hi Hh. rewrite (Z.mul_comm (2 ^ h)), <- Z.shiftl_mul_pow2, <- Z.shiftr_div_pow2 by lia.
  rewrite Z.shiftl_1_l.
  apply Z.bits_inj'. intros j Hj. rewrite Z.land_spec, Z.lxor_spec.
  rewrite Z.shiftl_spec by lia. unfold u32.
  replace (Z.lnot (2 ^ h - 1)) with (- 2 ^ h) by (unfold Z.lnot; lia).
  destruct (Z.ltb_spec j h) as [L|L].
  - rewrite (Z.testbit_neg_r _ (j - h)) by lia.
    assert (X : Z.testbit (- 2 ^ h mod 2 ^ 32) j = false).
    { rewrite Z.mod_pow2_bits_low by lia.
      apply Z.mul_pow2_bits_low with (a := -1) in L. rewrite <- L. f_equal. }
    rewrite X. apply andb_false_r.
  - rewrite Z.lxor_spec, Z.shiftr_spec by lia. replace (j - h + h) with j by lia.
    rewrite Z.pow2_bits_eqb by lia.
    assert (X1 : Z.testbit 1 (j - h) = (h =? j)).
    { destruct (Z.eqb_spec h j) as [->|N]; [rewrite Z.sub_diag; reflexivity|].
      change 1 with (2 ^ 0). rewrite Z.pow2_bits_eqb by lia. apply Z.eqb_neq. lia. }
    rewrite X1.
    destruct (Z.ltb_spec j 32) as [L2|L2].
    + rewrite Z.mod_pow2_bits_low by lia.
      replace (- 2 ^ h) with (-1 * 2 ^ h) by lia. rewrite Z.mul_pow2_bits by lia.
      rewrite Z.bits_m1 by lia. apply andb_true_r.
    + rewrite Z.mod_pow2_bits_high by lia. rewrite andb_false_r.
      assert (Z.testbit idx j = false).
      { apply Z.bits_above_log2; [lia|]. destruct (Z.eq_dec idx 0) as [->|]; [cbn; lia|].
        apply Z.log2_lt_pow2; [lia|]. apply Z.lt_le_trans with (2 ^ 31); [lia|]. apply Z.pow_le_mono_r; lia. }
      rewrite H. destruct (Z.eqb_spec h j); [lia|reflexivity].
Qed.
Lemma lxor1_eq x : 0 <= x -> Z.lxor x 1 = if x mod 2 =? 0 then x + 1 else x - 1.
Proof.
  intros H. destruct (Z.eqb_spec (x mod 2) 0) as [Ez|Nz].
  - assert (Ex : x = 2 * (x / 2)) by lia. rewrite Ex at 1.
    destruct (x / 2) as [|p|p] eqn:Eq; [subst; reflexivity| |lia].
    change (Z.lxor (2 * Z.pos p) 1) with (2 * Z.pos p + 1). lia.
  - assert (Ex : x = 2 * (x / 2) + 1) by lia. rewrite Ex at 1.
    destruct (x / 2) as [|p|p] eqn:Eq; [subst; reflexivity| |lia].
    change (Z.lxor (2 * Z.pos p + 1) 1) with (2 * Z.pos p). lia.
Qed.
Lemma land1 x : Z.land x 1 = x mod 2.
Proof. change 1 with (Z.ones 1) at 1. rewrite Z.land_ones by lia. reflexivity. Qed.
Lemma land_bit idx h : 0 <= h -> (Z.land idx (Z.shiftl 1 h) =? 0) = ((idx / 2 ^ h) mod 2 =? 0).
Proof.
  intros Hh. rewrite Z.shiftl_1_l.
  assert (X : Z.land idx (2 ^ h) = if Z.testbit idx h then 2 ^ h else 0).
  { apply Z.bits_inj'. intros j Hj. rewrite Z.land_spec, Z.pow2_bits_eqb by lia.
    destruct (Z.eqb_spec h j) as [->|N].
    - destruct (Z.testbit idx j); rewrite ?Z.pow2_bits_true, ?Z.bits_0 by lia; reflexivity.
    - rewrite andb_false_r. destruct (Z.testbit idx h); rewrite ?Z.bits_0, ?Z.pow2_bits_false by lia; reflexivity. }
  rewrite X. rewrite <- Z.testbit_spec' by lia. pose proof (pow2_pos h Hh).
  destruct (Z.testbit idx h); cbn [Z.b2z].
  - destruct (Z.eqb_spec (2 ^ h) 0); [lia|reflexivity].
  - reflexivity.
Qed.

(** ** Ranges *)
Lemma wr_then_rd {A} (x x' src : list A) off : wr_range x off src = Ok x' ->
  rd_range x' off (zlen src) = Ok src /\ zlen x' = zlen x.
Proof.
  unfold wr_range. destruct (Z.leb_spec 0 off), (Z.leb_spec (off + zlen src) (zlen x)); cbn [andb]; try discriminate.
  intros [= <-]. split.
  - apply rd_range_mid; [|reflexivity]. unfold zlen in *. rewrite firstn_length. lia.
  - apply zlen_splice; lia.
Qed.
Lemma rd_range_nth {A} (x y : list A) off k d : zlen x = zlen y ->
  (forall i, off <= i < off + k -> nth (Z.to_nat i) x d = nth (Z.to_nat i) y d) ->
  rd_range x off k = rd_range y off k.
Proof.
  intros L H. unfold rd_range. rewrite L.
  destruct (Z.leb_spec 0 off), (Z.leb_spec 0 k), (Z.leb_spec (off + k) (zlen y)); cbn [andb]; try reflexivity.
  f_equal. unfold zlen in *. apply (nth_ext' d).
  - rewrite !firstn_length, !skipn_length. lia.
  - intros i Hi. rewrite firstn_length, skipn_length in Hi.
    rewrite !nth_firstn, !nth_skipn by lia. specialize (H (off + Z.of_nat i)).
    replace (Z.to_nat (off + Z.of_nat i)) with (Z.to_nat off + i)%nat in H by lia. apply H. lia.
Qed.
Lemma splice_nth {A} (x src : list A) off i d : (off + length src <= length x)%nat ->
  (i < off \/ off + length src <= i)%nat ->
  nth i (firstn off x ++ src ++ skipn (off + length src) x) d = nth i x d.
Proof.
  intros Hl [Hi|Hi].
  - rewrite app_nth1 by (rewrite firstn_length; lia). apply nth_firstn. lia.
  - rewrite app_nth2; rewrite firstn_length; [|lia]. rewrite app_nth2 by lia.
    rewrite nth_skipn. f_equal. lia.
Qed.
Lemma wr_rd_disj {A} (x x' src : list A) off off2 k (d : A) : wr_range x off src = Ok x' ->
  off2 + k <= off \/ off + zlen src <= off2 -> 0 <= off2 ->
  rd_range x' off2 k = rd_range x off2 k.
Proof.
  intros H Hd H2. destruct (wr_then_rd _ _ _ _ H) as [_ L].
  apply (rd_range_nth _ _ _ _ d L). intros i Hi. unfold wr_range in H.
  destruct (Z.leb_spec 0 off), (Z.leb_spec (off + zlen src) (zlen x)); cbn [andb] in H; try discriminate.
  injection H as <-. apply splice_nth; unfold zlen in *; lia.
Qed.
Lemma wr_firstn {A} (x x' src : list A) off k (d : A) : wr_range x off src = Ok x' -> 0 <= k <= off ->
  firstn (Z.to_nat k) x' = firstn (Z.to_nat k) x.
Proof.
  intros H Hk. destruct (wr_then_rd _ _ _ _ H) as [_ L]. unfold wr_range in H.
  destruct (Z.leb_spec 0 off), (Z.leb_spec (off + zlen src) (zlen x)); cbn [andb] in H; try discriminate.
  injection H as <-. unfold zlen in *. apply (nth_ext' d); [rewrite !firstn_length; lia|].
  intros i Hi. rewrite firstn_length in Hi. rewrite !nth_firstn by lia. apply splice_nth; lia.
Qed.
Lemma skipn_rd {A} (x y : list A) base off k : zlen x = zlen y -> skipn (Z.to_nat base) x = skipn (Z.to_nat base) y ->
  0 <= base -> 0 <= off -> rd_range x (base + off) k = rd_range y (base + off) k.
Proof.
  intros L H Hb Ho. unfold rd_range. rewrite L.
  destruct (Z.leb_spec 0 (base + off)), (Z.leb_spec 0 k), (Z.leb_spec (base + off + k) (zlen y)); cbn [andb]; try reflexivity.
  replace (Z.to_nat (base + off)) with (Z.to_nat base + Z.to_nat off)%nat by lia.
  rewrite <- !skipn_skipn', H. reflexivity.
Qed.

Ltac Zify.zify_post_hook ::= idtac.
Ltac dlia := Z.to_euclidean_division_equations; lia.
Section Tree.
Variable E : env.
Local Notation cfg := (e_cfg E).
Local Notation mem := (e_mem E).
Local Notation n := (e_n E).
Local Notation P := (e_P E).
Local Notation hs := (e_hs E).
Local Notation seed := (e_seed E).

(** [keep]: the FORS case, where the big iterator and the bytes of x before the stack
    must survive. *)
Variable keep : bool.
Variable stk : Z * Z.
Variables (H L T Y K F : Z).
Variable Nd : nat -> Z -> list Z.
Variable gen_leaf : bufid -> Z -> ts_context -> outcome ts_context.
Local Notation base := (fst stk).

Definition at_core (c : ts_context) : Prop :=
  c_hypertree_level c = L /\ c_tree_address c = T /\ c_fors_keypair_addr c = K /\ c_fors_tree c = F.

Definition same_x (c c' : ts_context) : Prop :=
  keep = true -> c_big_iter c' = c_big_iter c /\ firstn (Z.to_nat base) (c_x c') = firstn (Z.to_nat base) (c_x c).
(** unchanged, except for scratch, buffer (and more if not [keep]) *)
Definition fr (c c' : ts_context) : Prop :=
  core c' = core c /\ c_auth_path_buffer c' = c_auth_path_buffer c /\ same_x c c' /\
  skipn (Z.to_nat base) (c_x c') = skipn (Z.to_nat base) (c_x c).
(** ... and the stack *)
Definition fw (c c' : ts_context) : Prop :=
  core c' = core c /\ c_auth_path_buffer c' = c_auth_path_buffer c /\ same_x c c'.

Hypothesis H_stk : 0 <= base /\ (H - 1) * n <= snd stk /\ base + snd stk <= SIZEOF_X cfg.
Hypothesis H_H : 0 < H <= 15.
Hypothesis H_F : (2 ^ H | F * 2 ^ p_a P).
Hypothesis H_F0 : 0 <= F < 256.
Hypothesis Nd_ok : forall z i, str_ok E (Nd z i).
Hypothesis Nd_S : forall z i, Nd (S z) i = hH hs seed (mkADRS L T Y K (Z.of_nat (S z)) i) (Nd z (2 * i) ++ Nd z (2 * i + 1)).
Hypothesis leaf_ok : forall c i, good E c -> at_core c -> 0 <= i < 2 ^ H ->
  exists c', gen_leaf BufBuffer i c = Ok c' /\ good E c' /\ fr c c' /\ buf_is BufBuffer (Nd 0 (F * 2 ^ p_a P + i)) c'.

Lemma same_x_refl c : same_x c c. Proof. intros _; auto. Qed.
Lemma same_x_trans a b c : same_x a b -> same_x b c -> same_x a c.
Proof. intros H1 H2 Hk. destruct (H1 Hk), (H2 Hk). split; congruence. Qed.
Lemma fr_refl c : fr c c. Proof. repeat split. Qed.
Lemma fr_trans a b c : fr a b -> fr b c -> fr a c.
Proof.
  intros (A1 & A2 & A3 & A4) (B1 & B2 & B3 & B4). unfold fr.
  split; [congruence|split; [congruence|split; [exact (same_x_trans a b c A3 B3)|congruence]]].
Qed.
Lemma fr_fw a b : fr a b -> fw a b. Proof. intros (A & B & C & D). split; [exact A|split; [exact B|exact C]]. Qed.
Lemma fw_refl c : fw c c. Proof. repeat split. Qed.
Lemma fw_trans a b c : fw a b -> fw b c -> fw a c.
Proof.
  intros (A1 & A2 & A3) (B1 & B2 & B3). unfold fw. split; [congruence|split; [congruence|exact (same_x_trans a b c A3 B3)]].
Qed.
Lemma core_at c c' : core c' = core c -> at_core c -> at_core c'.
Proof. unfold core, at_core. intros [=] (? & ? & ? & ?). repeat split; congruence. Qed.
(** The big iterator and the bytes of x before the stack are as they were. *)
Definition still (c c' : ts_context) : Prop :=
  c_big_iter c' = c_big_iter c /\ firstn (Z.to_nat base) (c_x c') = firstn (Z.to_nat base) (c_x c).
Lemma still_refl c : still c c. Proof. split; reflexivity. Qed.
Lemma still_trans a b c : still a b -> still b c -> still a c.
Proof. intros [A1 A2] [B1 B2]. split; congruence. Qed.
Lemma fr_scr_buf c a s v : fr c (buf_set BufBuffer v (scr a s c)).
Proof. repeat split. Qed.

Definition slot (k : Z) (v : list Z) (c : ts_context) : Prop := rd_range (c_x c) (base + k * n) n = Ok v.
Lemma x_len c : good E c -> zlen (c_x c) = SIZEOF_X cfg.
Proof. intros G; apply (g_wf E c G). Qed.
Lemma slot_fr k v c c' : good E c -> good E c' -> 0 <= k -> fr c c' -> slot k v c -> slot k v c'.
Proof.
  intros G G' Hk (_ & _ & _ & D) Hs. unfold slot in *. rewrite <- Hs. pose proof (n_bounds E).
  apply skipn_rd; [rewrite !x_len by assumption; reflexivity|exact D|lia|nia].
Qed.
Lemma rd_stack_slot k v c : 0 <= k < H - 1 -> slot k v c -> rd_stack stk (u32 (k * n)) n c = Ok v.
Proof.
  intros Hk Hs. pose proof (n_bounds E). unfold rd_stack, sub_rd, u32. rewrite Z.mod_small by nia.
  destruct (Z.leb_spec 0 (k * n)), (Z.leb_spec (k * n + n) (snd stk)); cbn [andb]; try nia. exact Hs.
Qed.
Lemma wr_stack_slot k v c : good E c -> 0 <= k < H - 1 -> str_ok E v ->
  exists c', wr_stack stk (u32 (k * n)) v c = Ok c' /\ good E c' /\ fw c c' /\ slot k v c' /\
    (forall j w, 0 <= j -> j <> k -> slot j w c -> slot j w c') /\ c_buffer c' = c_buffer c /\ still c c'.
Proof.
  intros G Hk [Lv Bv]. pose proof (n_bounds E). unfold wr_stack, sub_wr, u32. rewrite Z.mod_small by nia.
  destruct (Z.leb_spec 0 (k * n)), (Z.leb_spec (k * n + zlen v) (snd stk)); cbn [andb]; try nia.
  pose proof (x_len c G) as Lx. pose proof (wf_x _ _ (g_wf E c G)) as [_ Bx].
  assert (W : exists x', wr_range (c_x c) (base + k * n) v = Ok x') by (rewrite wr_range_ok by nia; eauto).
  destruct W as (x' & W). rewrite W. cbn [bind]. exists (set_x x' c). split; [reflexivity|].
  destruct (wr_then_rd _ _ _ _ W) as [R L'].
  assert (Bx' : is_bytes x').
  { rewrite wr_range_ok in W by nia. injection W as <-. apply bytes_app; [apply Forall_firstn', Bx|].
    apply bytes_app; [exact Bv|apply Forall_skipn', Bx]. }
  split; [apply good_x; [split; [lia|exact Bx']|exact G]|]. split; [|split; [|split]].
  - repeat split. apply (wr_firstn (c_x c) x' v (base + k * n) base 0 W). nia.
  - unfold slot. cbn [c_x set_x]. rewrite <- R. f_equal. lia.
  - intros j w Hj Hjk Hs. unfold slot in *. cbn [c_x set_x]. rewrite <- Hs.
    apply (wr_rd_disj _ _ _ _ _ _ 0 W); nia.
  - split; [reflexivity|]. split; [reflexivity|]. apply (wr_firstn (c_x c) x' v (base + k * n) base 0 W). nia.
Qed.

(** ** The combine loop *)
Definition bitset (j i : Z) : Prop := (i / 2 ^ j) mod 2 = 1.
Lemma pow_H : 2 ^ H <= 2 ^ 15. Proof. apply Z.pow_le_mono_r; lia. Qed.
Section Comb.
Variables (h B i node : Z).
Hypothesis H_h : 0 <= h < H.
Hypothesis H_B : B = F * 2 ^ p_a P + node.
Hypothesis H_Bd : (2 ^ h | B).
Hypothesis H_node : 0 <= node /\ node + 2 ^ h <= 2 ^ H.

Lemma B_div j : 0 <= j <= h -> B / 2 ^ j = 2 ^ (h - j) * (B / 2 ^ h) /\ (B + i) / 2 ^ j = 2 ^ (h - j) * (B / 2 ^ h) + i / 2 ^ j.
Proof.
  intros Hj. destruct H_Bd as [q Hq]. pose proof (pow2_pos h). pose proof (pow2_pos j). pose proof (pow2_pos (h - j)).
  pose proof (pow2_split h j Hj) as Es. rewrite Hq. rewrite Z.div_mul by lia.
  rewrite Es. replace (q * (2 ^ j * 2 ^ (h - j))) with (2 ^ (h - j) * q * 2 ^ j) by ring.
  rewrite Z.div_mul by lia. rewrite Z.div_add_l by lia. split; reflexivity.
Qed.
Lemma odd_split k : 0 <= k < h -> bitset k i -> (B + i) / 2 ^ k = 2 * ((B + i) / 2 ^ (k + 1)) + 1.
Proof.
  intros Hk Hb. rewrite div_pow_S by lia. destruct (B_div k) as [_ ->]; [lia|].
  replace (2 ^ (h - k)) with (2 * 2 ^ (h - k - 1)) by (rewrite <- Z.pow_succ_r by lia; f_equal; lia).
  unfold bitset in Hb. rewrite <- Z.mul_assoc.
  set (u := 2 ^ (h - k - 1) * (B / 2 ^ h)). set (v := i / 2 ^ k) in *. clearbody u v. dlia.
Qed.

Lemma combine_ok fuel : forall k c, good E c -> at_core c -> 0 <= i < 2 ^ h -> 0 <= k <= h ->
  i / 2 ^ k < 2 ^ Z.of_nat fuel -> i mod 2 ^ k = 2 ^ k - 1 ->
  buf_is BufBuffer (Nd (Z.to_nat k) ((B + i) / 2 ^ k)) c ->
  (forall j, k <= j < h -> bitset j i -> slot j (Nd (Z.to_nat j) ((B + i) / 2 ^ j - 1)) c) ->
  exists k' c', combine_loop cfg mem (S fuel) stk Y (u32 (node + i)) (i / 2 ^ k) k c = Ok (k', c') /\
    k <= k' <= h /\ good E c' /\ fr c c' /\ i mod 2 ^ k' = 2 ^ k' - 1 /\ (i / 2 ^ k') mod 2 = 0 /\
    buf_is BufBuffer (Nd (Z.to_nat k') ((B + i) / 2 ^ k')) c' /\ still c c'.
Proof.
  pose proof pow_H as PH.
  assert (Eu : 0 <= i < 2 ^ h -> u32 (node + i) = node + i) by (intros; unfold u32; rewrite Z.mod_small; lia).
  induction fuel as [|fuel IH]; intros k c G Ac Hi Hk Hf Hm Hb Hs.
  - cbn in Hf. assert (Ez : i / 2 ^ k = 0) by (pose proof (Z.div_pos i (2 ^ k)); pose proof (pow2_pos k); lia).
    exists k, c. cbn [combine_loop]. rewrite Ez. cbn [Z.land Z.eqb].
    split; [reflexivity|]. split; [lia|]. split; [exact G|]. split; [apply fr_refl|].
    split; [exact Hm|]. split; [reflexivity|]. split; [exact Hb|apply still_refl].
  - cbn [combine_loop]. rewrite land1.
    destruct (Z.eqb_spec ((i / 2 ^ k) mod 2) 0) as [Ez|Nz].
    { exists k, c. split; [reflexivity|]. split; [lia|]. split; [exact G|]. split; [apply fr_refl|].
      split; [exact Hm|]. split; [exact Ez|]. split; [exact Hb|apply still_refl]. }
    assert (Hb1 : bitset k i) by (unfold bitset; pose proof (Z.mod_pos_bound (i / 2 ^ k) 2); lia).
    assert (Hkh : k < h).
    { destruct (Z.eq_dec k h) as [->|]; [|lia]. rewrite Z.div_small in Nz by lia. cbn in Nz; lia. }
    rewrite Eu by exact Hi. destruct Ac as (A1 & A2 & A3 & A4).
    assert (Hh30 : h <= 15) by lia.
    destruct (ts_set_merkle_ok E (node + i) k Y c G) as (a & -> & HA); [lia|lia|]. cbn [bind].
    rewrite A1, A2, A3, A4 in HA. replace (F * 2 ^ p_a P + (node + i)) with (B + i) in HA by lia.
    pose proof (good_adr E a c (adr_rep_ok E _ _ HA) G) as G1.
    assert (Hsl : slot k (Nd (Z.to_nat k) ((B + i) / 2 ^ k - 1)) c) by (apply Hs; [lia|exact Hb1]).
    set (lf := Nd (Z.to_nat k) ((B + i) / 2 ^ k - 1)) in *. set (rt := Nd (Z.to_nat k) ((B + i) / 2 ^ k)) in *.
    destruct (two_hash E BufBuffer _ lf rt lf (c_buffer c) (set_adr a c) G1 HA) as (s & s1 & s2 & s3 & E1 & E2 & E3 & E4 & I).
    { apply rd_range_all, Nd_ok. } { apply Nd_ok. } { apply (buf_is_read E BufBuffer rt c); [apply Nd_ok|exact Hb]. } { apply Nd_ok. }
    rewrite E1. cbn [bind]. rewrite (ps_n_c E c G).
    rewrite (rd_stack_slot k lf (set_small_iter s (set_adr a c))); [|lia|exact Hsl].
    cbn [bind]. rewrite E2. cbn [bind]. change (c_buffer (set_small_iter s1 (set_adr a c))) with (c_buffer c).
    rewrite E3. cbn [bind]. rewrite E4. cbn [bind].
    set (v := hH _ _ _ _) in *.
    assert (Ev : v = Nd (Z.to_nat (k + 1)) ((B + i) / 2 ^ (k + 1))).
    { unfold v. replace (Z.to_nat (k + 1)) with (S (Z.to_nat k)) by lia. rewrite Nd_S.
      replace (Z.of_nat (S (Z.to_nat k))) with (k + 1) by lia.
      unfold lf, rt. rewrite (odd_split k) by (try lia; exact Hb1).
      replace (2 * ((B + i) / 2 ^ (k + 1)) + 1 - 1) with (2 * ((B + i) / 2 ^ (k + 1))) by lia. reflexivity. }
    assert (Sv : str_ok E v) by (rewrite Ev; apply Nd_ok).
    set (c1 := buf_set BufBuffer v _) in *.
    assert (G5 : good E c1) by (apply good_buf_set; [exact Sv|]; apply good_small; [exact I|exact G1]).
    assert (Fc : fr c c1) by (repeat split).
    replace (Z.shiftr (i / 2 ^ k) 1) with (i / 2 ^ (k + 1)).
    2:{ rewrite Z.shiftr_div_pow2 by lia. change (2 ^ 1) with 2. apply div_pow_S. lia. }
    rewrite <- (Eu Hi).
    destruct (IH (k + 1) c1 G5) as (k' & c' & Ec & Hk' & G' & F' & M' & Z' & B' & St'); auto.
    + repeat split; assumption.
    + lia.
    + rewrite div_pow_S by lia. rewrite Nat2Z.inj_succ, Z.pow_succ_r in Hf by lia.
      apply Z.div_lt_upper_bound; lia.
    + rewrite Z.pow_add_r by lia. change (2 ^ 1) with 2. rewrite Z.rem_mul_r by (pose proof (pow2_pos k); lia).
      unfold bitset in Hb1. rewrite Hm, Hb1. lia.
    + rewrite <- Ev. apply buf_is_set.
    + intros j Hj Hbj. apply (slot_fr j _ c c1); [exact G|exact G5|lia|exact Fc|]. apply Hs; [lia|exact Hbj].
    + exists k', c'. split; [exact Ec|]. split; [lia|]. split; [exact G'|].
      split; [exact (fr_trans _ _ _ Fc F')|]. split; [exact M'|]. split; [exact Z'|]. split; [exact B'|].
      apply (still_trans c c1 c'); [split; reflexivity|exact St'].
Qed.
End Comb.

(** ** One step of the authentication path *)
Lemma carry i k : 0 <= i -> 0 <= k -> i mod 2 ^ k = 2 ^ k - 1 -> (i / 2 ^ k) mod 2 = 0 ->
  (i + 1) / 2 ^ k = i / 2 ^ k + 1 /\
  (forall j, 0 <= j < k -> ~ bitset j (i + 1)) /\
  (forall j, k < j -> (i + 1) / 2 ^ j = i / 2 ^ j).
Proof.
  intros Hi Hk Hm Hz. pose proof (pow2_pos k Hk) as Pk.
  assert (Ei : i + 1 = (i / 2 ^ k + 1) * 2 ^ k).
  { pose proof (Z.div_mod i (2 ^ k)). lia. }
  split; [|split].
  - rewrite Ei. apply Z.div_mul. lia.
  - intros j Hj Hb. unfold bitset in Hb. rewrite Ei in Hb. rewrite (pow2_split k j) in Hb by lia.
    pose proof (pow2_pos j). pose proof (pow2_pos (k - j)).
    replace ((i / (2 ^ j * 2 ^ (k - j)) + 1) * (2 ^ j * 2 ^ (k - j)))
      with ((i / (2 ^ j * 2 ^ (k - j)) + 1) * 2 ^ (k - j) * 2 ^ j) in Hb by ring.
    rewrite Z.div_mul in Hb by lia.
    replace (2 ^ (k - j)) with (2 ^ (k - j - 1) * 2) in Hb at 2.
    2:{ rewrite <- (Z.pow_1_r 2) at 2. rewrite <- Z.pow_add_r by lia. f_equal. lia. }
    rewrite Z.mul_assoc, Z.mod_mul in Hb by lia. lia.
  - intros j Hj. replace (2 ^ j) with (2 ^ (k + 1) * 2 ^ (j - k - 1)) by (rewrite <- Z.pow_add_r by lia; f_equal; lia).
    pose proof (pow2_pos (k + 1)). pose proof (pow2_pos (j - k - 1)).
    rewrite <- !Z.div_div by lia. f_equal. rewrite !div_pow_S by lia.
    rewrite Ei at 1. rewrite Z.div_mul by lia. set (q := i / 2 ^ k) in *. clearbody q. clear - Hz. dlia.
Qed.
Lemma top_bits i h k : 0 <= k <= h -> 0 <= i < 2 ^ h -> i mod 2 ^ k = 2 ^ k - 1 -> (i / 2 ^ k) mod 2 = 0 ->
  k < h \/ (k = h /\ i + 1 = 2 ^ h).
Proof.
  intros Hk Hi Hm Hz. destruct (Z.eq_dec k h) as [->|]; [right|left; lia]. split; [reflexivity|].
  rewrite Z.mod_small in Hm by lia. lia.
Qed.
Lemma not_last i h k : 0 <= k < h -> 0 <= i < 2 ^ h -> i mod 2 ^ k = 2 ^ k - 1 -> (i / 2 ^ k) mod 2 = 0 ->
  i + 1 <> 2 ^ h.
Proof.
  intros Hk Hi Hm Hz He. assert (i = 2 ^ h - 1) as -> by lia.
  rewrite (pow2_split h k) in Hz by lia. pose proof (pow2_pos k). pose proof (pow2_pos (h - k)).
  replace (2 ^ k * 2 ^ (h - k) - 1) with ((2 ^ (h - k) - 1) * 2 ^ k + (2 ^ k - 1)) in Hz by ring.
  rewrite Z.div_add_l, (Z.div_small (2 ^ k - 1)) in Hz by lia.
  replace (2 ^ (h - k)) with (2 ^ (h - k - 1) * 2) in Hz.
  2:{ rewrite <- (Z.pow_1_r 2) at 2. rewrite <- Z.pow_add_r by lia. f_equal. lia. }
  set (u := 2 ^ (h - k - 1)) in *. clearbody u. clear - Hz. dlia.
Qed.

(** The last thing that touched the big iterator and x before the stack was the
    computation of leaf [i]. *)
Definition after_leaf (i : Z) (c' : ts_context) : Prop :=
  exists d d1, good E d /\ at_core d /\ 0 <= i < 2 ^ H /\ gen_leaf BufBuffer i d = Ok d1 /\ still d1 c'.
Lemma tree_loop h B node c0 : 0 <= h < H -> B = F * 2 ^ p_a P + node -> (2 ^ h | B) ->
  0 <= node /\ node + 2 ^ h <= 2 ^ H -> good E c0 -> at_core c0 ->
  exists c', for_loop (Z.to_nat (2 ^ h)) 0 (fun i ctx =>
    ctx <- gen_leaf BufBuffer (u32 (node + i)) ctx ;;
    '(k, ctx) <- combine_loop cfg mem 33 stk Y (u32 (node + i)) i 0 ctx ;;
    if k <? h then
      b <- rd_range (c_buffer ctx) 0 n ;;
      wr_stack stk (u32 (k * n)) b ctx
    else Ok ctx) c0 = Ok c' /\
  good E c' /\ fw c0 c' /\ buf_is BufBuffer (Nd (Z.to_nat h) (B / 2 ^ h)) c' /\ after_leaf (node + 2 ^ h - 1) c'.
Proof.
  intros Hh HB HBd Hnode G0 A0. pose proof pow_H as PH. pose proof (pow2_pos h ltac:(lia)) as Ph.
  match goal with |- exists c', for_loop ?k 0 ?f c0 = _ /\ _ =>
    destruct (for_loop_inv (fun i c => good E c /\ fw c0 c /\
       (forall j, 0 <= j < h -> bitset j i -> slot j (Nd (Z.to_nat j) ((B + i) / 2 ^ j - 1)) c) /\
       (i = 2 ^ h -> buf_is BufBuffer (Nd (Z.to_nat h) (B / 2 ^ h)) c) /\ (0 < i -> after_leaf (node + i - 1) c)) f k 0 c0) as (c' & Ec & G' & F' & _ & Bf & Al) end.
  - split; [exact G0|]. split; [apply fw_refl|]. split; [|split; lia].
    intros j Hj Hb. unfold bitset in Hb. rewrite Z.div_0_l in Hb by (pose proof (pow2_pos j); lia). cbn in Hb. lia.
  - intros i c Hi (G & Fc & Hs & _ & _). rewrite Z2Nat.id in Hi by lia. rewrite Z.add_0_l in Hi.
    assert (Ac : at_core c) by (apply (core_at c0 c); [apply Fc|exact A0]).
    assert (Eu : u32 (node + i) = node + i) by (unfold u32; rewrite Z.mod_small; lia).
    destruct (leaf_ok c (node + i) G Ac) as (c1 & E1 & G1 & F1 & B1); [lia|].
    rewrite Eu, E1. cbn [bind]. rewrite Z.add_assoc, <- HB in B1.
    assert (A1 : at_core c1) by (apply (core_at c c1); [apply F1|exact Ac]).
    destruct (combine_ok h B i node Hh HB HBd Hnode 32 0 c1 G1 A1) as (k & c2 & E2 & Hk & G2 & F2 & M2 & Z2 & B2 & St2); auto; try lia.
    { change (2 ^ 0) with 1. rewrite Z.div_1_r. exact B1. }
    { intros j Hj Hb. apply (slot_fr j _ c c1); auto. lia. }
    change (2 ^ 0) with 1 in E2. rewrite Z.div_1_r, Eu in E2. rewrite E2. cbn [bind].
    assert (F02 : fw c0 c2) by (eapply fw_trans; [exact Fc|]; apply fr_fw; eapply fr_trans; eauto).
    destruct (carry i k) as (C1 & C2 & C3); auto; try lia.
    destruct (top_bits i h k) as [Hlt|[-> Hlast]]; auto; try lia.
    + destruct (Z.ltb_spec k h) as [_|]; [|lia].
      rewrite (buf_is_read E BufBuffer (Nd (Z.to_nat k) ((B + i) / 2 ^ k)) c2 (proj1 (Nd_ok _ _)) B2 : rd_range (c_buffer c2) 0 n = _).
      cbn [bind]. destruct (wr_stack_slot k (Nd (Z.to_nat k) ((B + i) / 2 ^ k)) c2 G2) as (c3 & E3 & G3 & F3 & S3 & D3 & _ & St3); [lia|apply Nd_ok|].
      exists c3. split; [exact E3|]. split; [exact G3|]. split; [eapply fw_trans; eauto|]. split.
      * intros j Hj Hb.
        assert (X : (B + (i + 1)) / 2 ^ j = 2 ^ (h - j) * (B / 2 ^ h) + (i + 1) / 2 ^ j) by (apply (B_div h B (i + 1) 0 Hh HBd j); lia).
        assert (X' : (B + i) / 2 ^ j = 2 ^ (h - j) * (B / 2 ^ h) + i / 2 ^ j) by (apply (B_div h B i 0 Hh HBd j); lia).
        destruct (Z.lt_trichotomy j k) as [Hl|[->|Hg]].
        -- exfalso. apply (C2 j); [lia|exact Hb].
        -- rewrite X, C1. rewrite X' in S3. replace (2 ^ (h - k) * (B / 2 ^ h) + (i / 2 ^ k + 1) - 1) with (2 ^ (h - k) * (B / 2 ^ h) + i / 2 ^ k) by lia. exact S3.
        -- apply D3; [lia|lia|]. rewrite X, C3 by lia. rewrite <- X'.
           apply (slot_fr j _ c1 c2); auto; [lia|]. apply (slot_fr j _ c c1); auto; [lia|]. apply Hs; [lia|].
           unfold bitset in *. rewrite C3 in Hb by lia. exact Hb.
      * split; [intros He; exfalso; apply (not_last i h k); auto; lia|].
        intros _. exists c, c1. replace (node + (i + 1) - 1) with (node + i) by lia.
        split; [exact G|]. split; [exact Ac|]. split; [clear - Hi Hnode; lia|]. split; [exact E1|]. exact (still_trans _ _ _ St2 St3).
    + rewrite Z.ltb_irrefl. exists c2. split; [reflexivity|]. split; [exact G2|]. split; [exact F02|]. split.
      * intros j Hj Hb. exfalso. apply (C2 j); [lia|exact Hb].
      * split; [|intros _; exists c, c1; replace (node + (i + 1) - 1) with (node + i) by lia; split; [exact G|]; split; [exact Ac|]; split; [lia|]; split; [exact E1|exact St2]].
        intros _. destruct (B_div h B i 0 Hh HBd h) as [_ X]; [lia|]. rewrite X in B2.
        rewrite Z.sub_diag, Z.pow_0_r, Z.mul_1_l, (Z.div_small i) in B2 by lia. rewrite Z.add_0_r in B2. exact B2.
  - exists c'. split; [exact Ec|]. split; [exact G'|]. split; [exact F'|]. split; [apply Bf; lia|].
    replace (node + 2 ^ h - 1) with (node + (0 + Z.of_nat (Z.to_nat (2 ^ h))) - 1) by lia. apply Al. lia.
Qed.

Lemma path_left c h idx : good E c -> at_core c -> c_merkle_level c = h -> 0 <= h < H ->
  c_auth_path_node c = idx -> 0 <= idx < 2 ^ H ->
  let Bs := F * 2 ^ p_a P in
  buf_is BufAuth (Nd (Z.to_nat h) ((Bs + idx) / 2 ^ h)) c ->
  exists c', ts_merkle_path cfg mem gen_leaf Y stk c = Ok c' /\ good E c' /\
    core c' = core (set_buffer_offset 0 (set_merkle_level (h + 1) c)) /\ same_x c c' /\
    buf_is BufBuffer (Nd (Z.to_nat h) (Bs / 2 ^ h + Z.lxor (idx / 2 ^ h) 1)) c' /\
    buf_is BufAuth (Nd (Z.to_nat (h + 1)) ((Bs + idx) / 2 ^ (h + 1))) c' /\
    (let q := (Bs + idx) / 2 ^ (h + 1) in
     spent E (c_small_iter c') (mkADRS L T Y K (h + 1) q) (Nd (Z.to_nat h) (2 * q) ++ Nd (Z.to_nat h) (2 * q + 1))) /\
    after_leaf (2 ^ h * Z.lxor (idx / 2 ^ h) 1 + 2 ^ h - 1) c'.
Proof.
  intros G Ac Hl Hh Hidx Hi Bs HA. pose proof pow_H as PH. pose proof (pow2_pos h ltac:(lia)) as Ph.
  unfold ts_merkle_path. rewrite (ps_n_c E c G), Hl. cbn [c_auth_path_node set_merkle_level]. rewrite Hidx.
  rewrite shift_count_ok by lia. cbn [bind].
  assert (Es : Z.shiftl 1 h = 2 ^ h) by (rewrite Z.shiftl_1_l; reflexivity).
  rewrite sibling_start by lia. rewrite Es.
  unfold u8. rewrite (Z.mod_small (h + 1)) by lia.
  set (c0 := set_merkle_level (h + 1) c) in *.
  assert (G0 : good E c0) by (apply good_merkle_level; [lia|exact G]).
  set (q := idx / 2 ^ h) in *. set (node := 2 ^ h * Z.lxor q 1) in *.
  assert (Hq : 0 <= q < 2 ^ (H - h)).
  { unfold q. split; [apply Z.div_pos; lia|]. apply Z.div_lt_upper_bound; [lia|]. rewrite <- pow2_split by lia. lia. }
  assert (Hev : exists u, 2 ^ (H - h) = 2 * u).
  { exists (2 ^ (H - h - 1)). rewrite <- Z.pow_succ_r by lia. f_equal. lia. }
  assert (Hx : 0 <= Z.lxor q 1 < 2 ^ (H - h) /\ Z.lxor q 1 / 2 = q / 2).
  { rewrite lxor1_eq by lia. destruct Hev as (u & Hu). rewrite Hu in *. clear - Hq.
    destruct (Z.eqb_spec (q mod 2) 0); dlia. }
  assert (Hnode : 0 <= node /\ node + 2 ^ h <= 2 ^ H).
  { unfold node. rewrite (pow2_split H h) by lia. nia. }
  assert (HBd : (2 ^ h | Bs + node)).
  { apply Z.divide_add_r; [|exists (Z.lxor q 1); unfold node; ring].
    eapply Z.divide_trans; [|exact H_F]. exists (2 ^ (H - h)). rewrite Z.mul_comm. apply pow2_split. lia. }
  destruct (tree_loop h (Bs + node) node c0 Hh eq_refl HBd Hnode G0 Ac) as (c1 & E1 & G1 & F1 & B1 & Al1).
  rewrite E1. clear E1. cbn [bind].
  set (c2 := set_buffer_offset 0 c1).
  assert (G2 : good E c2) by (apply good_offset; [lia|exact G1]).
  assert (Ac2 : at_core c2) by (apply (core_at c0 c1); [apply F1|exact Ac]).
  destruct Ac2 as (A1 & A2 & A3 & A4).
  destruct (ts_set_merkle_ok E node h Y c2 G2) as (a & Ea & HAd); [lia|lia|].
  assert (EB : exists qb, Bs = 2 ^ (h + 1) * qb).
  { destruct H_F as [z Hz]. unfold Bs. rewrite Hz. exists (z * 2 ^ (H - (h + 1))). rewrite (pow2_split H (h + 1)) by lia. ring. }
  destruct EB as (qb & EB).
  pose proof (pow2_pos (h + 1) ltac:(lia)) as Ph1.
  assert (EB2 : Bs = 2 ^ h * (2 * qb)) by (rewrite EB, Z.pow_add_r by lia; ring).
  assert (D1 : (Bs + idx) / 2 ^ (h + 1) = qb + q / 2).
  { rewrite EB, Z.mul_comm, Z.div_add_l by lia. rewrite div_pow_S by lia. reflexivity. }
  assert (D2 : (Bs + node) / 2 ^ (h + 1) = qb + q / 2).
  { rewrite EB, Z.mul_comm, Z.div_add_l by lia. rewrite div_pow_S by lia. unfold node.
    rewrite Z.mul_comm, Z.div_mul by lia. destruct Hx as [_ ->]. reflexivity. }
  assert (D3 : (Bs + node) / 2 ^ h = 2 * qb + Z.lxor q 1).
  { rewrite EB2. unfold node. rewrite <- Z.mul_add_distr_l, Z.mul_comm, Z.div_mul by lia. reflexivity. }
  assert (D4 : (Bs + idx) / 2 ^ h = 2 * qb + q).
  { rewrite EB2, Z.mul_comm, Z.div_add_l by lia. reflexivity. }
  assert (D5 : Bs / 2 ^ h = 2 * qb) by (rewrite EB2, Z.mul_comm, Z.div_mul by lia; reflexivity).
  rewrite A1, A2, A3, A4 in HAd. fold Bs in HAd. rewrite D2 in HAd.
  rewrite Ea. cbn [bind].
  pose proof (good_adr E a c2 (adr_rep_ok E _ _ HAd) G2) as G3.
  rewrite D3 in B1. rewrite D4 in HA. cbv zeta. rewrite D1, D5.
  set (sib := Nd (Z.to_nat h) (2 * qb + Z.lxor q 1)) in *. set (own := Nd (Z.to_nat h) (2 * qb + q)) in *.
  assert (HA2 : buf_is BufAuth own c1).
  { destruct F1 as (_ & Fa & _). unfold buf_is in *. cbn [buf_of] in *. rewrite Fa. exact HA. }
  assert (Rs : rd_range (c_buffer c2) 0 n = Ok sib) by (apply (buf_is_read E BufBuffer sib c1); [apply Nd_ok|exact B1]).
  assert (Ro : rd_range (c_auth_path_buffer c2) 0 n = Ok own) by (apply (buf_is_read E BufAuth own c1); [apply Nd_ok|exact HA2]).
  assert (Hlr2 : forall l r, (l = sib /\ r = own /\ q mod 2 = 1) \/ (l = own /\ r = sib /\ q mod 2 = 0) ->
     l ++ r = Nd (Z.to_nat h) (2 * (qb + q / 2)) ++ Nd (Z.to_nat h) (2 * (qb + q / 2) + 1)).
  { intros l r Hlr. unfold sib, own in Hlr. rewrite lxor1_eq in Hlr by lia.
    destruct Hlr as [(-> & -> & Ho)|(-> & -> & Ho)]; rewrite Ho; cbn [Z.eqb].
    - f_equal; f_equal; clear - Ho; dlia.
    - f_equal; f_equal; clear - Ho; dlia. }
  assert (Hpar : forall l r, (l = sib /\ r = own /\ q mod 2 = 1) \/ (l = own /\ r = sib /\ q mod 2 = 0) ->
     hH hs seed (mkADRS L T Y K (h + 1) (qb + q / 2)) (l ++ r) = Nd (Z.to_nat (h + 1)) (qb + q / 2)).
  { intros l r Hlr. rewrite (Hlr2 l r Hlr). replace (Z.to_nat (h + 1)) with (S (Z.to_nat h)) by lia. rewrite Nd_S.
    replace (Z.of_nat (S (Z.to_nat h))) with (h + 1) by lia. reflexivity. }
  assert (Hfin : forall s3 v X, iter_ok E s3 -> spent E s3 (mkADRS L T Y K (h + 1) (qb + q / 2)) X ->
     X = Nd (Z.to_nat h) (2 * (qb + q / 2)) ++ Nd (Z.to_nat h) (2 * (qb + q / 2) + 1) -> v = Nd (Z.to_nat (h + 1)) (qb + q / 2) ->
     let c' := buf_set BufAuth v (set_small_iter s3 (set_adr a c2)) in
     good E c' /\ core c' = core (set_buffer_offset 0 (set_merkle_level (h + 1) c)) /\ same_x c c' /\
     buf_is BufBuffer sib c' /\ buf_is BufAuth (Nd (Z.to_nat (h + 1)) (qb + q / 2)) c' /\
     spent E (c_small_iter c') (mkADRS L T Y K (h + 1) (qb + q / 2)) (Nd (Z.to_nat h) (2 * (qb + q / 2)) ++ Nd (Z.to_nat h) (2 * (qb + q / 2) + 1)) /\
     after_leaf (node + 2 ^ h - 1) c').
  { intros s3 v X I V -> -> c'. split; [apply good_buf_set; [apply Nd_ok|]; apply good_small; [exact I|exact G3]|].
    destruct F1 as (Fc & Fa & Fx). split; [|split; [exact Fx|split; [exact B1|split; [apply buf_is_set|split; [exact V|]]]]].
    2:{ destruct Al1 as (d & d1 & Y1 & Y2 & Y3 & Y4 & Y5). exists d, d1. split; [exact Y1|]. split; [exact Y2|]. split; [exact Y3|]. split; [exact Y4|exact Y5]. }
    unfold core in *. cbn in Fc |- *. congruence. }
  assert (Eidx : forall s, c_auth_path_node (set_small_iter s (set_adr a c2)) = idx).
  { intros s. destruct F1 as (Fc & _). unfold core in Fc. cbn in Fc |- *. congruence. }
  destruct (small_init_ok E _ _ G3 HAd) as (s & Esm & Ism). rewrite Esm. cbn [bind]. rewrite Eidx.
  rewrite <- Es, land_bit by lia. rewrite Es. fold q.
  destruct (Z.eqb_spec (q mod 2) 0) as [Ez|Nz]; cbn [negb].
  - destruct (two_hash_left E BufAuth _ own sib (c_auth_path_buffer c2) (c_buffer c2) (set_adr a c2) G3 HAd Ro (Nd_ok _ _) Rs (Nd_ok _ _))
      as (s' & s1 & s2 & s3 & X1 & X2 & X3 & X4 & I & V).
    rewrite X1 in Esm. assert (Ess : s' = s) by (injection Esm as Esm; exact Esm). rewrite Ess in *.
    change (c_auth_path_buffer (set_small_iter s (set_adr a c2))) with (c_auth_path_buffer c2). rewrite X2. cbn [bind].
    change (c_buffer (set_small_iter s1 (set_adr a c2))) with (c_buffer c2). rewrite X3. cbn [bind]. rewrite X4.
    eexists. split; [reflexivity|]. apply (Hfin _ _ _ I V); [apply Hlr2|apply Hpar]; right; auto.
  - assert (No : q mod 2 = 1) by (pose proof (Z.mod_pos_bound q 2); lia).
    destruct (two_hash_left E BufAuth _ sib own (c_buffer c2) (c_auth_path_buffer c2) (set_adr a c2) G3 HAd Rs (Nd_ok _ _) Ro (Nd_ok _ _))
      as (s' & s1 & s2 & s3 & X1 & X2 & X3 & X4 & I & V).
    rewrite X1 in Esm. assert (Ess : s' = s) by (injection Esm as Esm; exact Esm). rewrite Ess in *.
    change (c_buffer (set_small_iter s (set_adr a c2))) with (c_buffer c2). rewrite X2. cbn [bind].
    change (c_auth_path_buffer (set_small_iter s1 (set_adr a c2))) with (c_auth_path_buffer c2). rewrite X3. cbn [bind]. rewrite X4.
    eexists. split; [reflexivity|]. apply (Hfin _ _ _ I V); [apply Hlr2|apply Hpar]; left; auto.
Qed.
Lemma path_ok c h idx : good E c -> at_core c -> c_merkle_level c = h -> 0 <= h < H ->
  c_auth_path_node c = idx -> 0 <= idx < 2 ^ H ->
  let Bs := F * 2 ^ p_a P in
  buf_is BufAuth (Nd (Z.to_nat h) ((Bs + idx) / 2 ^ h)) c ->
  exists c', ts_merkle_path cfg mem gen_leaf Y stk c = Ok c' /\ good E c' /\
    core c' = core (set_buffer_offset 0 (set_merkle_level (h + 1) c)) /\ same_x c c' /\
    buf_is BufBuffer (Nd (Z.to_nat h) (Bs / 2 ^ h + Z.lxor (idx / 2 ^ h) 1)) c' /\
    buf_is BufAuth (Nd (Z.to_nat (h + 1)) ((Bs + idx) / 2 ^ (h + 1))) c'.
Proof.
  intros G Ac Hl Hh Hidx Hi Bs HA. destruct (path_left c h idx G Ac Hl Hh Hidx Hi HA) as (c' & A1 & A2 & A3 & A4 & A5 & A6 & _).
  exists c'. auto 10.
Qed.
End Tree.
