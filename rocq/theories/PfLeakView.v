(** * What ts_sign shows in each state is what SpecLeak says *)
From Verif Require Import Arr SpecSLH SpecApi ModelParams ModelCtx SpecMap PfGlueSha PfIter PfEnv PfAdr PfGlue PfMsg PfCtx PfTree PfPaths PfBits PfWots PfSpec PfSign PfApi PfKeygen PfComplete SpecReuse SpecForge SpecLeak PfReuse.
From Verif Require Import PfLeakSign.
Ltac Zify.zify_post_hook ::= idtac.

Lemma bit_mod x h j : 0 <= j < h -> bit (x mod 2 ^ h) j = bit x j.
Proof.
  intros Hj. unfold bit. rewrite <- !Z.testbit_spec' by lia. rewrite Z.mod_pow2_bits_low by lia. reflexivity.
Qed.

Section View.
Variable E : env.
Local Notation P := (e_P E).
Local Notation n := (e_n E).
Variable sk : list Z.
Variable D : list Z.
Local Notation T := (idx_tree_of P D).
Local Notation leaf := (idx_leaf_of P D).

Lemma D_leaf : 0 <= leaf < 2 ^ p_h' P.
Proof. unfold idx_leaf_of. rewrite (h_div E). apply Z.mod_pos_bound, pow2_pos. pose proof (mh_bounds E). lia. Qed.
Lemma ots_tree l : 0 < l -> ots_index P D l = T / 2 ^ (p_h' P * (l - 1)).
Proof.
  intros Hl. pose proof (mh_bounds E) as Mb. pose proof D_leaf as HL. assert (Pp : 0 < 2 ^ p_h' P) by (apply pow2_pos; lia).
  assert (HJ : 0 <= p_h' P * (l - 1)) by (apply Z.mul_nonneg_nonneg; lia).
  unfold ots_index, fts_index. replace (p_h' P * l) with (p_h' P + p_h' P * (l - 1)) by ring. rewrite Z.pow_add_r by lia.
  rewrite <- Z.div_div by (try apply Z.pow_nonzero; try apply Z.pow_pos_nonneg; lia).
  rewrite Z.div_add_l by lia. rewrite (Z.div_small leaf) by exact HL. rewrite Z.add_0_r. reflexivity.
Qed.
Lemma lf_ots l : 0 <= l -> lf E T leaf l = ots_index P D l mod 2 ^ p_h' P.
Proof.
  intros Hl. pose proof (mh_bounds E) as Mb. pose proof D_leaf as HL. assert (Pp : 0 < 2 ^ p_h' P) by (apply pow2_pos; lia).
  unfold lf, tr. destruct (Z.eqb_spec l 0) as [->|Nl].
  - unfold ots_index, fts_index. rewrite Z.mul_0_r, Z.pow_0_r, Z.div_1_r. rewrite Z.add_comm, Z.mod_add, Z.mod_small by lia. reflexivity.
  - rewrite ots_tree by lia. reflexivity.
Qed.
Lemma hmsg_ots l : 0 <= l -> hmsg E sk (M0 E sk T leaf) T l = ots_message P (e_seed E) sk l (ots_index P D l).
Proof.
  intros Hl. pose proof (mh_bounds E) as Mb. pose proof D_leaf as HL. assert (Pp : 0 < 2 ^ p_h' P) by (apply pow2_pos; lia).
  unfold hmsg, ots_message. destruct (Z.eqb_spec l 0) as [->|Nl].
  - assert (Q : ots_index P D 0 = T * 2 ^ p_h' P + leaf) by (unfold ots_index, fts_index; rewrite Z.mul_0_r, Z.pow_0_r, Z.div_1_r; reflexivity).
    assert (A1 : leaf = ots_index P D 0 mod 2 ^ p_h' P) by (rewrite Q, Z.add_comm, Z.mod_add, Z.mod_small by lia; reflexivity).
    assert (A2 : T = ots_index P D 0 / 2 ^ p_h' P) by (rewrite Q, Z.div_add_l, Z.div_small by lia; lia).
    cbv zeta. rewrite <- A1, <- A2. unfold M0, fors_pk, fors_roots. rewrite <- upto_zrange. reflexivity.
  - rewrite ots_tree by lia. unfold treeA, tr. reflexivity.
Qed.

(** The blocks still to be made *)
Definition HTp (l : Z) : list block :=
  flat_map (fun l => map (Chain l) (upto (wlen P)) ++ map (TreePath l) (upto (p_h' P))) (zrange l (p_d P)).
Definition few (i : Z) : list block := FewTimeSecret i :: map (FewTimePath i) (upto (p_a P)).
Definition parts (s : sst) : list block :=
  match s with
  | FL i => flat_map few (zrange i (p_k P)) ++ HTp 0
  | FA i j => map (FewTimePath i) (zrange j (p_a P)) ++ flat_map few (zrange (i + 1) (p_k P)) ++ HTp 0
  | WT l q => map (Chain l) (zrange q (wlen P)) ++ map (TreePath l) (zrange 0 (p_h' P)) ++ HTp (l + 1)
  | MK l j => map (TreePath l) (zrange j (p_h' P)) ++ HTp (l + 1)
  | DN => []
  end.
Definition blk (s : sst) : list block :=
  match s with
  | FL i => [FewTimeSecret i]
  | FA i j => [FewTimePath i j]
  | WT l q => [Chain l q]
  | MK l j => [TreePath l j]
  | DN => []
  end.
Lemma HTp_S l : l < p_d P -> HTp l = map (Chain l) (zrange 0 (wlen P)) ++ map (TreePath l) (zrange 0 (p_h' P)) ++ HTp (l + 1).
Proof. intros. unfold HTp. rewrite zrange_cons by assumption. cbn [flat_map]. rewrite !upto_zrange, <- app_assoc. reflexivity. Qed.
Lemma parts_nxt s : rng E s -> parts s = blk s ++ parts (nxt E s).
Proof.
  pose proof (d_bounds E).
  destruct s as [i|i j|l q|l j|]; cbn [nxt rng parts blk]; intros R.
  - rewrite zrange_cons by lia. cbn [flat_map]. unfold few at 1. rewrite upto_zrange, <- !app_assoc. reflexivity.
  - rewrite (zrange_cons j) by lia. cbn [map app]. f_equal.
    destruct (Z.eqb_spec (j + 1) (p_a P)) as [Ej|Ej]; [|reflexivity].
    rewrite Ej, (zrange_nil (p_a P)) by lia. cbn [map app].
    destruct (Z.eqb_spec (i + 1) (p_k P)) as [Ei|Ei]; cbn [parts].
    + rewrite Ei, (zrange_nil (p_k P)) by lia. cbn [flat_map app]. apply HTp_S. lia.
    + reflexivity.
  - rewrite (zrange_cons q) by lia. cbn [map app]. f_equal.
    destruct (Z.eqb_spec (q + 1) (wlen P)) as [Ej|Ej]; cbn [parts]; [|reflexivity].
    rewrite Ej, (zrange_nil (wlen P)) by lia. reflexivity.
  - rewrite (zrange_cons j) by lia. cbn [map app]. f_equal.
    destruct (Z.eqb_spec (j + 1) (p_h' P)) as [Ej|Ej]; [|reflexivity].
    rewrite Ej, (zrange_nil (p_h' P)) by lia. cbn [map app].
    destruct (Z.eqb_spec (l + 1) (p_d P)) as [Ei|Ei]; cbn [parts].
    + unfold HTp. rewrite Ei, zrange_nil by lia. reflexivity.
    + apply HTp_S. lia.
  - reflexivity.
Qed.
Lemma blocks_parts : blocks_of P = TheRandomiser :: parts (FL 0).
Proof. unfold blocks_of, parts, HTp, few. rewrite <- !upto_zrange. reflexivity. Qed.
Lemma iter_nxt b s : Nat.iter b (nxt E) (nxt E s) = Nat.iter (S b) (nxt E) s.
Proof. induction b as [|b IH]; [reflexivity|]. change (nxt E (Nat.iter b (nxt E) (nxt E s)) = nxt E (Nat.iter (S b) (nxt E) s)). rewrite IH. reflexivity. Qed.
Lemma nth_parts (f : block -> Z) b : forall s, rng E s ->
  nth b (map f (parts s)) 0 = match blk (Nat.iter b (nxt E) s) with x :: _ => f x | [] => 0 end.
Proof.
  induction b as [|b IH]; intros s Rs.
  - rewrite parts_nxt by exact Rs. cbn [Nat.iter]. destruct s; cbn [blk app map nth]; try reflexivity.
  - rewrite <- iter_nxt, <- (IH _ (rng_nxt E s Rs)). rewrite (parts_nxt s Rs). destruct s; try reflexivity. destruct b; reflexivity.
Qed.
Lemma rng_st b : rng E (st E b).
Proof.
  unfold st. induction b as [|b IH]; [cbn [Nat.iter rng nat_rect]; pose proof (k_bounds E); cbn; lia|]. apply (rng_nxt E _ IH).
Qed.
Lemma nth_view PK M SIG b : D = digest_of P PK M SIG ->
  (forall l, 0 <= l < p_d P -> layer_message P M SIG PK l = ots_message P (e_seed E) sk l (ots_index P D l)) ->
  nth (S b) (view P PK M SIG) 0 = vw E sk (md_of P D) T leaf (st E b).
Proof.
  intros HD HM. unfold view. rewrite blocks_parts. cbn [map nth].
  rewrite nth_parts by (cbn [rng]; pose proof (k_bounds E); lia). fold (st E b). pose proof (rng_st b) as R.
  destruct (st E b) as [i|i j|l q|l j|]; cbn [blk vw rng shows] in *; rewrite <- ?HD.
  - reflexivity.
  - reflexivity.
  - unfold position. rewrite HM, hmsg_ots by lia. reflexivity.
  - rewrite lf_ots, bit_mod by lia. reflexivity.
  - reflexivity.
Qed.
End View.
