(** * Facts about the specification: signatures made with any private key *)
From Verif Require Import Arr SpecSLH SpecApi ModelParams ModelCtx SpecMap PfGlueSha PfIter PfEnv PfAdr PfGlue PfMsg PfCtx PfTree PfPaths PfBits PfWots PfSpec PfSign PfApi PfKeygen PfComplete.
Ltac Zify.zify_post_hook ::= idtac.

Section C.
Variable p : ps_name.
Local Notation P := (slh_of p). Local Notation n := (p_n (slh_of p)).
Variable SK : list Z.
Hypothesis BK : is_bytes SK.
Hypothesis LK : len SK = 4 * n.
Variables (M addrnd : list Z).
Hypothesis BM : is_bytes M.
Hypothesis BA : is_bytes addrnd.


(** The verdict on a signature made with [SK], with the public key that [SK] contains *)
Lemma verdict_any : slh_verify_internal P M (slh_sign_internal P M SK addrnd) (skipn (Z.to_nat (2 * n)) SK)
  = bytes_eqb (slh_root P (slice SK (2 * n) n) (slice SK 0 n)) (slice SK (3 * n) n).
Proof.
  destruct (an_env p SK BK LK) as (E & HE & Hsk). pose proof HE as (Ec & Ep & Epk & Es). destruct (KE_facts _ _ _ _ _ HE) as (En & EP & Nb).
  unfold slh_verify_internal. destruct (sig_shape p SK BK LK M addrnd BM BA) as [LS _]. rewrite LS, Z.eqb_refl. cbn [negb].
  set (PK := skipn (Z.to_nat (2 * n)) SK).
  assert (K1 : slice PK 0 n = slice SK (2 * n) n) by reflexivity.
  assert (K2 : slice PK n n = slice SK (3 * n) n) by (unfold slice, PK; rewrite skipn_skipn'; do 2 f_equal; lia).
  rewrite K1, K2. unfold slh_sign_internal.
  pose proof (PRF_msg_ok E (slice SK n n) addrnd M ltac:(apply slice_bytes, BK) BA BM) as [LR _].
  unfold e_hs in LR. rewrite EP, En in LR.
  set (R := PRF_msg (p_hash P) (slice SK n n) addrnd M) in *.
  unfold slh_sign_internal in LS. fold R in LS.
  remember (slice SK 0 n) as sk0 eqn:Esk0. remember (slice SK (3 * n) n) as rt eqn:Ert. clear Esk0 Ert.
  rewrite <- Es in *. clear Es. clearbody R.
  set (FS := fors_sign P _ _ _ _) in *. set (HS := ht_sign P _ _ _ _ _) in *.
  assert (LF : zlen FS = p_k P * (1 + p_a P) * n).
  { unfold FS. rewrite <- EP. rewrite fors_sign_eq. pose proof (k_bounds E). rewrite (flat_zlen _ ((p_a (e_P E) + 1) * e_n E)) by (intros; apply fpiece_zlen, Hsk).
    rewrite upto_zrange, zrange_length by lia. rewrite En, EP. ring. }
  rewrite (slice_app_l R _ 0 n) by lia. rewrite (slice_all R n LR).
  set (D := H_msg (p_hash P) R (e_seed E) rt M) in *.
  assert (EF : slice (R ++ FS ++ HS) n (p_k P * (1 + p_a P) * n) = FS).
  { rewrite slice_app_r by lia. rewrite LR, Z.sub_diag. rewrite slice_app_l by (unfold zlen in *; lia). apply slice_all, LF. }
  rewrite EF.
  assert (LH : zlen HS = (p_h P + p_d P * wlen P) * n).
  { pose proof LS as LS'. rewrite !len_app in LS'. change (@zlen Z) with len in *. rewrite LR, LF in LS'. unfold slh_sig_length in LS'. 
    apply (Z.add_cancel_l _ _ (n + p_k P * (1 + p_a P) * n)). rewrite <- Z.add_assoc, LS'. ring. }
  assert (EH : slice (R ++ FS ++ HS) ((1 + p_k P * (1 + p_a P)) * n) ((p_h P + p_d P * wlen P) * n) = HS).
  { rewrite slice_app_r by (unfold zlen in *; lia). rewrite slice_app_r by (unfold zlen in *; lia).
    replace ((1 + p_k P * (1 + p_a P)) * n - zlen R - zlen FS) with 0 by (rewrite LR, LF; ring). apply slice_all, LH. }
  rewrite EH. unfold HS, FS. clearbody D.
  assert (HL : 0 <= idx_leaf_of P D < 2 ^ p_h' P).
  { pose proof (h_div E) as X. rewrite EP in X. unfold idx_leaf_of. rewrite X. apply Z.mod_pos_bound, pow2_pos. pose proof (mh_bounds E) as Y. rewrite EP in Y. lia. }
  assert (HT : 0 <= idx_tree_of P D < 2 ^ (p_h P - p_h' P)).
  { pose proof (h_div E) as X. rewrite EP in X. unfold idx_tree_of. rewrite X. apply Z.mod_pos_bound, pow2_pos. pose proof (h_sub E) as Y. rewrite EP in Y. lia. }
  clear - HL HT Hsk EP. rewrite <- EP in *. clear EP.
  set (PKF := fors_pkFromSig _ _ _ _ _).
  rewrite (ht_sign_eq E _ Hsk) by lia. unfold ht_root.
  pose proof (d_bounds E) as Db. pose proof (mh_bounds E) as Mb.
  pose proof (ht_root_from_complete E _ Hsk PKF (idx_tree_of (e_P E) D) (idx_leaf_of (e_P E) D) (Z.to_nat (p_d (e_P E))) HL ltac:(lia) 0 ltac:(lia) ltac:(lia)) as X.
  rewrite upto_zrange in X.
  assert (T0 : tr E (idx_tree_of (e_P E) D) 0 = idx_tree_of (e_P E) D) by (unfold tr; rewrite Z.mul_0_r, Z.pow_0_r, Z.div_1_r; reflexivity).
  rewrite T0 in X.
  change (hmsg E sk0 PKF (idx_tree_of (e_P E) D) 0) with PKF in X.
  change (lf E (idx_tree_of (e_P E) D) (idx_leaf_of (e_P E) D) 0) with (idx_leaf_of (e_P E) D) in X.
  f_equal. etransitivity; [exact X|].
  unfold hmsg. destruct (Z.eqb_spec (p_d (e_P E)) 0); [lia|]. unfold slh_root. f_equal.
  unfold treeA, tr. rewrite Z.div_small; [reflexivity|].
  replace (p_h' (e_P E) * (p_d (e_P E) - 1)) with (p_h (e_P E) - p_h' (e_P E)) by (rewrite (h_eq E); ring). exact HT.
Qed.
End C.
