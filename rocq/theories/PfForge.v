(** * Two accepted signatures with the same digest break a hash function *)
From Verif Require Import Arr SpecSLH SpecMap SpecUses SpecForge SpecApi ModelParams PfIter PfEnv PfGlue PfTree PfBits PfWots PfSpec PfApi PfKeygen PfComplete PfUses.
Ltac Zify.zify_post_hook ::= idtac.

Lemma all_or (Q : Prop) (R : Z -> Prop) m : (forall i, 0 <= i < m -> Q \/ R i) -> Q \/ forall i, 0 <= i < m -> R i.
Proof.
  intros H. assert (K : forall j : nat, Z.of_nat j <= m -> Q \/ forall i, 0 <= i < Z.of_nat j -> R i).
  { induction j as [|j IH]; intros Hj; [right; intros; lia|]. destruct IH as [IH|IH]; [lia|auto|].
    destruct (H (Z.of_nat j) ltac:(lia)) as [q|r]; [auto|]. right. intros i Hi. destruct (Z.eq_dec i (Z.of_nat j)) as [->|]; [exact r|apply IH; lia]. }
  destruct (Z.le_gt_cases 0 m) as [Hm|Hm].
  - destruct (K (Z.to_nat m)) as [q|r]; [lia|auto|]. right. intros i Hi. apply r. lia.
  - right. intros; lia.
Qed.
Lemma blocks_eq W : 0 <= W -> forall m x y, zlen x = Z.of_nat m * W -> zlen y = Z.of_nat m * W ->
  (forall i, 0 <= i < Z.of_nat m -> slice x (i * W) W = slice y (i * W) W) -> x = y.
Proof.
  intros HW. induction m as [|m IH]; intros x y Lx Ly H.
  - destruct x, y; try reflexivity; unfold zlen in *; cbn in *; lia.
  - assert (E0 : firstn (Z.to_nat W) x = firstn (Z.to_nat W) y) by (apply (H 0); lia).
    rewrite <- (firstn_skipn (Z.to_nat W) x), <- (firstn_skipn (Z.to_nat W) y), E0. f_equal. apply IH.
    + unfold zlen in *. rewrite skipn_length. nia.
    + unfold zlen in *. rewrite skipn_length. nia.
    + intros i Hi. specialize (H (i + 1) ltac:(lia)). unfold slice in *. rewrite !skipn_skipn'.
      assert (Q : (Z.to_nat (i * W) + Z.to_nat W)%nat = Z.to_nat ((i + 1) * W)) by (rewrite <- Z2Nat.inj_add; [f_equal; ring|nia|lia]).
      first [rewrite Q|rewrite Nat.add_comm, Q]. exact H.
Qed.
Lemma flat_eq (f g : Z -> list Z) W m : 0 <= W -> (forall i, 0 <= i < m -> zlen (f i) = W) -> (forall i, 0 <= i < m -> zlen (g i) = W) ->
  flat_map f (upto m) = flat_map g (upto m) -> forall i, 0 <= i < m -> f i = g i.
Proof. intros HW Hf Hg E i Hi. rewrite <- (slice_flat f m W i Hf Hi HW), <- (slice_flat g m W i Hg Hi HW), E. reflexivity. Qed.
Lemma app_inj_z (a b c d : list Z) : zlen a = zlen c -> a ++ b = c ++ d -> a = c /\ b = d.
Proof. intros H. apply app_inj. unfold zlen in H. lia. Qed.

Section Forge.
Variable P : params.
Hypothesis OK : par_ok P.
Variable PKseed : list Z.
Local Notation n := (p_n P).
Local Notation nb := (fun X : list Z => zlen X = n /\ is_bytes X).
Local Notation trace := (list (use * list Z)).
Hypothesis Hn : 0 < n.
Definition hash_use (u : use) : Prop := match u with WotsSecret _ _ _ _ | ForsSecret _ _ _ => False | _ => True end.
Hypothesis Hok : forall u X, hash_use u -> is_bytes X -> nb (hash_at P PKseed u X).
Hypothesis Hdig : forall M i, 0 <= nth i (wots_msg P M) 0 <= w P - 1.
Hypothesis Hinc : forall M M', nb M -> nb M' -> M <> M' -> exists i, 0 <= i < wlen P /\
  nth (Z.to_nat i) (wots_msg P M') 0 < nth (Z.to_nat i) (wots_msg P M) 0.

Definition coll (T1 T2 : trace) : Prop :=
  exists u X Y, In (u, X) T1 /\ In (u, Y) T2 /\ X <> Y /\ hash_at P PKseed u X = hash_at P PKseed u Y.
Lemma coll_incl T1 T2 T1' T2' : incl T1 T1' -> incl T2 T2' -> coll T1 T2 -> coll T1' T2'.
Proof. intros I1 I2 (u & X & Y & H1 & H2 & H). exists u, X, Y. auto. Qed.
Lemma coll_here u X Y T1 T2 : In (u, X) T1 -> In (u, Y) T2 -> hash_at P PKseed u X = hash_at P PKseed u Y -> X = Y \/ coll T1 T2.
Proof. intros H1 H2 H. destruct (list_eq_dec Z.eq_dec X Y) as [|N]; [auto|]. right. exists u, X, Y. auto. Qed.

(** ** Paths *)
Section Path.
Variables (u : Z -> use) (left : Z -> bool).
Hypothesis Hu : forall j, hash_use (u j).
Definition joined (auth : Z -> list Z) (j : Z) (node : list Z) : list Z := if left j then node ++ auth j else auth j ++ node.
Definition climb (auth : Z -> list Z) (js : list Z) (node : list Z) : list Z :=
  fold_left (fun node j => hash_at P PKseed (u j) (joined auth j node)) js node.
Lemma joined_bytes auth j node : nb (auth j) -> nb node -> is_bytes (joined auth j node).
Proof. intros H1 H2. unfold joined. destruct (left j); apply bytes_app; first [apply H1|apply H2]. Qed.
Lemma climb_ok auth js : forall node, (forall j, In j js -> nb (auth j)) -> nb node -> nb (climb auth js node).
Proof.
  induction js as [|j js IH]; intros node HA HN; [exact HN|]. apply IH; [intros; apply HA; right; assumption|].
  apply Hok; [apply Hu|]. apply joined_bytes; [apply HA; left; reflexivity|exact HN].
Qed.
Lemma path_break auth1 auth2 js : forall node1 node2,
  (forall j, In j js -> nb (auth1 j)) -> (forall j, In j js -> nb (auth2 j)) -> nb node1 -> nb node2 ->
  climb auth1 js node1 = climb auth2 js node2 ->
  coll (path_inputs P PKseed u left auth1 node1 js) (path_inputs P PKseed u left auth2 node2 js) \/
  (node1 = node2 /\ forall j, In j js -> auth1 j = auth2 j).
Proof.
  induction js as [|j js IH]; intros node1 node2 A1 A2 N1 N2 E.
  - right. split; [exact E|intros j []].
  - pose proof (A1 j (or_introl eq_refl)) as B1. pose proof (A2 j (or_introl eq_refl)) as B2.
    destruct (IH (hash_at P PKseed (u j) (joined auth1 j node1)) (hash_at P PKseed (u j) (joined auth2 j node2))) as [C|[EX EA]].
    + intros; apply A1; right; assumption.
    + intros; apply A2; right; assumption.
    + apply Hok; [apply Hu|apply joined_bytes; assumption].
    + apply Hok; [apply Hu|apply joined_bytes; assumption].
    + exact E.
    + left. eapply coll_incl; [| |exact C]; cbn [path_inputs]; apply incl_tl, incl_refl.
    + destruct (coll_here (u j) (joined auth1 j node1) (joined auth2 j node2) (path_inputs P PKseed u left auth1 node1 (j :: js))
        (path_inputs P PKseed u left auth2 node2 (j :: js))) as [EJ|C]; [left; reflexivity|left; reflexivity|exact EX| |left; exact C].
      right. destruct B1 as [L1 _], B2 as [L2 _], N1 as [K1 _], N2 as [K2 _].
      assert (D : node1 = node2 /\ auth1 j = auth2 j).
      { unfold joined in EJ. destruct (left j).
        - apply app_inj_z in EJ; [exact EJ|]. congruence.
        - apply app_inj_z in EJ; [|congruence]. tauto. }
      split; [apply D|]. intros i [<-|Hi]; [apply D|apply EA, Hi].
Qed.
End Path.

(** ** Chains *)
Section Chain.
Variables l t leaf c : Z.
Local Notation A := (mkADRS l t WOTS_HASH leaf c 0).
Local Notation ins := (chain_inputs P PKseed l t leaf c).
Local Notation ch X i s := (chain P PKseed X i s A).
Lemma ch_S X i s : ch X i (S s) = ch (hash_at P PKseed (WotsStep l t leaf c i) X) (i + 1) s.
Proof. reflexivity. Qed.
Lemma ch_ok s : forall X i, nb X -> nb (ch X i s).
Proof. induction s as [|s IH]; intros X i H; [exact H|]. rewrite ch_S. apply IH, Hok; [exact I|apply H]. Qed.
Lemma ch_app s : forall X i s', ch (ch X i s) (i + Z.of_nat s) s' = ch X i (s + s').
Proof.
  induction s as [|s IH]; intros X i s'; [cbn [chain Nat.add]; rewrite Z.add_0_r; reflexivity|].
  cbn [Nat.add]. rewrite !ch_S, <- IH. f_equal. lia.
Qed.
Lemma ins_app s : forall X i s', ins X i (s + s') = ins X i s ++ ins (ch X i s) (i + Z.of_nat s) s'.
Proof.
  induction s as [|s IH]; intros X i s'; [cbn [chain Nat.add chain_inputs app]; rewrite Z.add_0_r; reflexivity|].
  cbn [Nat.add chain_inputs app]. rewrite IH, ch_S. do 3 f_equal. lia.
Qed.
Lemma chain_same s : forall X Y i, ch X i s = ch Y i s -> X = Y \/ coll (ins X i s) (ins Y i s).
Proof.
  induction s as [|s IH]; intros X Y i E; [left; exact E|]. rewrite !ch_S in E. destruct (IH _ _ _ E) as [E'|C].
  - eapply coll_here; [left; reflexivity|left; reflexivity|exact E'].
  - right. eapply coll_incl; [| |exact C]; cbn [chain_inputs]; apply incl_tl, incl_refl.
Qed.
Lemma chain_ahead X Y i j m : 0 <= i <= j -> j <= m -> ch X i (Z.to_nat (m - i)) = ch Y j (Z.to_nat (m - j)) ->
  ch X i (Z.to_nat (j - i)) = Y \/ coll (ins X i (Z.to_nat (m - i))) (ins Y j (Z.to_nat (m - j))).
Proof.
  intros Hij Hm. replace (Z.to_nat (m - i)) with (Z.to_nat (j - i) + Z.to_nat (m - j))%nat by lia.
  rewrite <- ch_app, ins_app. replace (i + Z.of_nat (Z.to_nat (j - i))) with j by lia. intros E.
  destruct (chain_same _ _ _ _ E) as [E'|C]; [auto|]. right. eapply coll_incl; [apply incl_appr, incl_refl|apply incl_refl|exact C].
Qed.
End Chain.
Lemma coll_sym T1 T2 : coll T1 T2 -> coll T2 T1.
Proof. intros (u & X & Y & H1 & H2 & H3 & H4). exists u, Y, X. auto. Qed.

(** ** WOTS+ *)
Definition ahead (l t leaf c : Z) (M1 X M2 Y : list Z) : Prop :=
  let from := position P M1 c in let to := position P M2 c in
  0 <= from < to /\ to <= w P - 1 /\ chain P PKseed X from (Z.to_nat (to - from)) (mkADRS l t WOTS_HASH leaf c 0) = Y.
Lemma flat_nb (f : Z -> list Z) l : (forall i, In i l -> nb (f i)) -> is_bytes (flat_map f l).
Proof. intros H. apply Forall_flat_map, Forall_forall. intros i Hi. apply H, Hi. Qed.
Section Wots.
Variables (l t leaf : Z) (sig1 sig2 M1 M2 : list Z).
Local Notation part s i := (slice s (i * n) n).
Hypothesis B1 : forall i, 0 <= i < wlen P -> nb (part sig1 i).
Hypothesis B2 : forall i, 0 <= i < wlen P -> nb (part sig2 i).
Hypothesis HM1 : nb M1.
Hypothesis HM2 : nb M2.
Local Notation W1 := (wots_inputs P PKseed l t leaf sig1 M1).
Local Notation W2 := (wots_inputs P PKseed l t leaf sig2 M2).
Local Notation dig M i := (nth (Z.to_nat i) (wots_msg P M) 0).
Lemma pk_eq sig M : wots_pkFromSig P PKseed sig M (mkADRS l t WOTS_HASH leaf 0 0) =
  hash_at P PKseed (WotsKey l t leaf) (flat_map (chain_end P PKseed l t leaf sig M) (upto (wlen P))).
Proof using P PKseed l t leaf. reflexivity. Qed.
Lemma in_wots sig M i : 0 <= i < wlen P ->
  incl (chain_inputs P PKseed l t leaf i (part sig i) (dig M i) (Z.to_nat (w P - 1 - dig M i))) (wots_inputs P PKseed l t leaf sig M).
Proof.
  intros Hi x Hx. unfold wots_inputs. apply in_or_app. left. apply in_flat_map. exists i. split; [|exact Hx].
  rewrite upto_zrange. apply zrange_in, Hi.
Qed.
Lemma end_ok sig M i : nb (part sig i) -> nb (chain_end P PKseed l t leaf sig M i).
Proof. intros H. apply ch_ok, H. Qed.
Lemma wots_break : wots_pkFromSig P PKseed sig1 M1 (mkADRS l t WOTS_HASH leaf 0 0) = wots_pkFromSig P PKseed sig2 M2 (mkADRS l t WOTS_HASH leaf 0 0) ->
  coll W1 W2 \/ (M1 = M2 /\ forall i, 0 <= i < wlen P -> part sig1 i = part sig2 i) \/
  (exists c c', 0 <= c < wlen P /\ 0 <= c' < wlen P /\ ahead l t leaf c M1 (part sig1 c) M2 (part sig2 c) /\ ahead l t leaf c' M2 (part sig2 c') M1 (part sig1 c')).
Proof.
  rewrite !pk_eq. intros E.
  destruct (coll_here (WotsKey l t leaf) _ _ W1 W2 ltac:(apply in_or_app; right; left; reflexivity) ltac:(apply in_or_app; right; left; reflexivity) E) as [EE|C]; [|left; exact C].
  assert (EI : forall i, 0 <= i < wlen P -> chain_end P PKseed l t leaf sig1 M1 i = chain_end P PKseed l t leaf sig2 M2 i).
  { apply (flat_eq _ _ n); [lia| | |exact EE]; intros i Hi; apply end_ok; auto. }
  destruct (list_eq_dec Z.eq_dec M1 M2) as [EM|NM].
  - destruct (all_or (coll W1 W2) (fun i => part sig1 i = part sig2 i) (wlen P)) as [C|Q]; [|auto|auto].
    intros i Hi. specialize (EI i Hi). unfold chain_end in EI. cbv zeta in EI. rewrite <- EM in EI.
    destruct (chain_same _ _ _ _ _ _ _ _ EI) as [?|C]; [auto|]. left. eapply coll_incl; [apply in_wots, Hi| |exact C].
    rewrite EM. apply in_wots, Hi.
  - destruct (Hinc M2 M1 HM2 HM1 (not_eq_sym NM)) as (i & Hi & Li). destruct (Hinc M1 M2 HM1 HM2 NM) as (j & Hj & Lj).
    pose proof (Hdig M1 (Z.to_nat i)). pose proof (Hdig M2 (Z.to_nat i)). pose proof (Hdig M1 (Z.to_nat j)). pose proof (Hdig M2 (Z.to_nat j)).
    destruct (chain_ahead l t leaf i (part sig1 i) (part sig2 i) (dig M1 i) (dig M2 i) (w P - 1) ltac:(lia) ltac:(lia) (EI i Hi)) as [Q1|C].
    2:{ left. eapply coll_incl; [apply in_wots, Hi|apply in_wots, Hi|exact C]. }
    destruct (chain_ahead l t leaf j (part sig2 j) (part sig1 j) (dig M2 j) (dig M1 j) (w P - 1) ltac:(lia) ltac:(lia) (eq_sym (EI j Hj))) as [Q2|C].
    2:{ left. apply coll_sym. eapply coll_incl; [apply in_wots, Hj|apply in_wots, Hj|exact C]. }
    right. right. exists i, j. split; [exact Hi|]. split; [exact Hj|]. split;
      (split; [unfold position; lia|]; split; [unfold position; lia|assumption]).
Qed.
Lemma wots_pk_ok1 : nb (wots_pkFromSig P PKseed sig1 M1 (mkADRS l t WOTS_HASH leaf 0 0)).
Proof. rewrite pk_eq. apply Hok; [exact I|]. apply flat_nb. intros i Hi. apply in_upto in Hi. apply end_ok, B1, Hi. Qed.
End Wots.

(** ** XMSS *)
Local Notation wl := (wlen P).
Local Notation h' := (p_h' P).
Definition xparts_ok (S : list Z) : Prop := forall i, 0 <= i < wl + h' -> nb (slice S (i * n) n).
Definition xauth (S : list Z) (j : Z) : list Z := slice S ((wl + j) * n) n.
Lemma sub_part S i : 0 <= i < wl -> slice (slice S 0 (wl * n)) (i * n) n = slice S (i * n) n.
Proof. intros Hi. rewrite slice_slice by nia. reflexivity. Qed.
Lemma xmss_eq l t idx S M : xmss_pkFromSig P PKseed idx S M (mkADRS l t 0 0 0 0) =
  climb (fun j => TreeNode l t (j + 1) (idx / 2 ^ (j + 1))) (fun j => (idx / 2 ^ j) mod 2 =? 0) (xauth S) (upto h')
    (wots_pkFromSig P PKseed (slice S 0 (wl * n)) M (mkADRS l t WOTS_HASH idx 0 0)).
Proof using P PKseed.
  unfold xmss_pkFromSig, climb. apply fold_left_ext_in. intros node j _. unfold joined, hash_at. cbv zeta.
  destruct (_ =? 0); reflexivity.
Qed.
Section Xmss.
Variables (l t idx : Z).
Lemma xmss_ok S M : xparts_ok S -> nb (xmss_pkFromSig P PKseed idx S M (mkADRS l t 0 0 0 0)).
Proof.
  intros HS. rewrite xmss_eq. apply climb_ok; [intros j; exact I| |].
  - intros j Hj. apply in_upto in Hj. pose proof (o_wlen _ OK). apply HS. lia.
  - apply wots_pk_ok1. intros i Hi. rewrite sub_part by exact Hi. apply HS. pose proof (o_h' _ OK). lia.
Qed.
Lemma xmss_break S1 S2 M1 M2 : xparts_ok S1 -> xparts_ok S2 -> nb M1 -> nb M2 ->
  xmss_pkFromSig P PKseed idx S1 M1 (mkADRS l t 0 0 0 0) = xmss_pkFromSig P PKseed idx S2 M2 (mkADRS l t 0 0 0 0) ->
  coll (xmss_inputs P PKseed l t idx S1 M1) (xmss_inputs P PKseed l t idx S2 M2) \/
  (M1 = M2 /\ forall i, 0 <= i < wl + h' -> slice S1 (i * n) n = slice S2 (i * n) n) \/
  (exists c c', 0 <= c < wl /\ 0 <= c' < wl /\ ahead l t idx c M1 (slice S1 (c * n) n) M2 (slice S2 (c * n) n) /\ ahead l t idx c' M2 (slice S2 (c' * n) n) M1 (slice S1 (c' * n) n)).
Proof.
  intros H1 H2 HM1 HM2. rewrite !xmss_eq. intros E. pose proof (o_h' _ OK) as Oh. pose proof (o_wlen _ OK) as Ow.
  assert (P1 : forall i, 0 <= i < wl -> nb (slice (slice S1 0 (wl * n)) (i * n) n)) by (intros i Hi; rewrite sub_part by exact Hi; apply H1; lia).
  assert (P2 : forall i, 0 <= i < wl -> nb (slice (slice S2 0 (wl * n)) (i * n) n)) by (intros i Hi; rewrite sub_part by exact Hi; apply H2; lia).
  apply path_break in E; [|intros j; exact I| | |apply wots_pk_ok1; assumption|apply wots_pk_ok1; assumption].
  2:{ intros j Hj. apply in_upto in Hj. apply H1. lia. } 2:{ intros j Hj. apply in_upto in Hj. apply H2. lia. }
  destruct E as [C|[EN EA]].
  { left. eapply coll_incl; [| |exact C]; unfold xmss_inputs; apply incl_appr, incl_refl. }
  destruct (wots_break _ _ _ _ _ _ _ P1 P2 HM1 HM2 EN) as [C|[[EM EP]|(c & c' & Hc & Hc' & Q1 & Q2)]].
  - left. eapply coll_incl; [| |exact C]; unfold xmss_inputs; apply incl_appl, incl_refl.
  - right. left. split; [exact EM|]. intros i Hi. destruct (Z.lt_ge_cases i wl) as [Hw|Hw].
    + rewrite <- (sub_part S1), <- (sub_part S2) by lia. apply EP. lia.
    + specialize (EA (i - wl)). unfold xauth in EA. replace (wl + (i - wl)) with i in EA by lia. apply EA.
      rewrite upto_zrange. apply zrange_in. lia.
  - right. right. exists c, c'. rewrite !sub_part in Q1, Q2 by assumption. auto.
Qed.
End Xmss.

(** ** The hypertree *)
Local Notation XL := ((h' + wl) * n).
Definition layer_part (SIG : list Z) (l c : Z) : list Z := slice SIG ((l * (h' + wl) + c) * n) n.
Lemma part_of_layer SIG j i : 0 <= j -> 0 <= i < wl + h' -> slice (slice SIG (j * XL) XL) (i * n) n = layer_part SIG j i.
Proof.
  intros Hj Hi. pose proof (o_h' _ OK) as Oh. pose proof (o_wlen _ OK) as Ow. unfold layer_part. rewrite slice_slice; [f_equal; ring| | | |]; nia.
Qed.
(** The tree and leaf at layer [j + m], from those at layer [j] *)
Definition up_tree (t m : Z) : Z := t / 2 ^ (h' * m).
Definition up_leaf (t leaf m : Z) : Z := if m =? 0 then leaf else up_tree t (m - 1) mod 2 ^ h'.
Lemma up_tree_S t m : 0 <= m -> up_tree (t / 2 ^ h') m = up_tree t (m + 1).
Proof.
  intros Hm. pose proof (o_h' _ OK) as Oh. unfold up_tree. rewrite Z.div_div; [|pose proof (pow2_pos h' ltac:(lia)); lia|apply pow2_pos; nia].
  f_equal. rewrite <- Z.pow_add_r by nia. f_equal. ring.
Qed.
Lemma up_leaf_S t leaf m : 0 <= m -> up_leaf (t / 2 ^ h') (t mod 2 ^ h') m = up_leaf t leaf (m + 1).
Proof.
  intros Hm. unfold up_leaf. destruct (Z.eqb_spec (m + 1) 0); [lia|]. destruct (Z.eqb_spec m 0) as [->|].
  - cbn [Z.add Z.sub]. unfold up_tree. rewrite Z.mul_0_r. cbn [Z.pow]. rewrite Z.div_1_r. reflexivity.
  - rewrite up_tree_S by lia. do 2 f_equal. lia.
Qed.
Lemma ht_break SIG1 SIG2 layers : forall j M1 M2 t leaf, 0 <= j ->
  (forall m c, 0 <= m < Z.of_nat layers -> 0 <= c < wl + h' -> nb (layer_part SIG1 (j + m) c)) ->
  (forall m c, 0 <= m < Z.of_nat layers -> 0 <= c < wl + h' -> nb (layer_part SIG2 (j + m) c)) -> nb M1 -> nb M2 ->
  ht_root_from P PKseed layers j M1 SIG1 t leaf = ht_root_from P PKseed layers j M2 SIG2 t leaf ->
  coll (ht_inputs P PKseed layers j M1 SIG1 t leaf) (ht_inputs P PKseed layers j M2 SIG2 t leaf) \/
  (M1 = M2 /\ forall m c, 0 <= m < Z.of_nat layers -> 0 <= c < wl + h' -> layer_part SIG1 (j + m) c = layer_part SIG2 (j + m) c) \/
  (exists m c c', 0 <= m < Z.of_nat layers /\ 0 <= c < wl /\ 0 <= c' < wl /\
     let N1 := ht_message P PKseed (Z.to_nat m) j M1 SIG1 t leaf in let N2 := ht_message P PKseed (Z.to_nat m) j M2 SIG2 t leaf in
     ahead (j + m) (up_tree t m) (up_leaf t leaf m) c N1 (layer_part SIG1 (j + m) c) N2 (layer_part SIG2 (j + m) c) /\
     ahead (j + m) (up_tree t m) (up_leaf t leaf m) c' N2 (layer_part SIG2 (j + m) c') N1 (layer_part SIG1 (j + m) c')).
Proof.
  induction layers as [|ls IH]; intros j M1 M2 t leaf Hj H1 H2 HM1 HM2 E.
  - right. left. split; [exact E|]. intros; lia.
  - cbn [ht_root_from] in E. cbv zeta in E. cbn [ht_inputs]. cbv zeta.
    change (setTreeAddress t (setLayerAddress j zero_ADRS)) with (mkADRS j t 0 0 0 0) in *.
    set (X1 := slice SIG1 (j * XL) XL) in *. set (X2 := slice SIG2 (j * XL) XL) in *.
    pose proof (o_h' _ OK) as Oh. pose proof (o_wlen _ OK) as Ow.
    assert (XP1 : xparts_ok X1).
    { intros i Hi. unfold X1. rewrite part_of_layer by assumption. replace j with (j + 0) by lia. apply H1; lia. }
    assert (XP2 : xparts_ok X2).
    { intros i Hi. unfold X2. rewrite part_of_layer by assumption. replace j with (j + 0) by lia. apply H2; lia. }
    destruct (IH (j + 1) (xmss_pkFromSig P PKseed leaf X1 M1 (mkADRS j t 0 0 0 0)) (xmss_pkFromSig P PKseed leaf X2 M2 (mkADRS j t 0 0 0 0))
      (t / 2 ^ h') (t mod 2 ^ h')) as [C|[[EM EP]|(m & c & c' & Hm & Hc & Hc' & Q1 & Q2)]].
    + lia.
    + intros m c Hm Hc. replace (j + 1 + m) with (j + (m + 1)) by lia. apply H1; lia.
    + intros m c Hm Hc. replace (j + 1 + m) with (j + (m + 1)) by lia. apply H2; lia.
    + apply xmss_ok, XP1.
    + apply xmss_ok, XP2.
    + exact E.
    + left. eapply coll_incl; [| |exact C]; apply incl_appr, incl_refl.
    + destruct (xmss_break j t leaf X1 X2 M1 M2 XP1 XP2 HM1 HM2 EM) as [C|[[EM' EX]|(c & c' & Hc & Hc' & Q1 & Q2)]].
      * left. eapply coll_incl; [| |exact C]; apply incl_appl, incl_refl.
      * right. left. split; [exact EM'|]. intros m c Hm Hc. destruct (Z.eq_dec m 0) as [->|].
        -- rewrite Z.add_0_r. rewrite <- !part_of_layer by lia. apply EX. lia.
        -- replace (j + m) with (j + 1 + (m - 1)) by lia. apply EP; lia.
      * right. right. exists 0, c, c'. split; [lia|]. split; [exact Hc|]. split; [exact Hc'|]. cbv zeta. cbn [ht_message Z.to_nat]. rewrite Z.add_0_r.
        unfold up_tree, up_leaf. cbn [Z.eqb]. rewrite Z.mul_0_r. cbn [Z.pow]. rewrite Z.div_1_r.
        unfold X1, X2 in Q1, Q2. rewrite !part_of_layer in Q1, Q2 by lia. auto.
    + right. right. exists (m + 1), c, c'. split; [lia|]. split; [exact Hc|]. split; [exact Hc'|].
      rewrite up_tree_S in Q1, Q2 by lia. rewrite (up_leaf_S t leaf) in Q1, Q2 by lia.
      replace (j + (m + 1)) with (j + 1 + m) by lia. replace (Z.to_nat (m + 1)) with (S (Z.to_nat m)) by lia. cbv zeta. cbn [ht_message]. cbv zeta.
      change (setTreeAddress t (setLayerAddress j zero_ADRS)) with (mkADRS j t 0 0 0 0). auto.
Qed.

(** ** FORS *)
Local Notation a := (p_a P).
Local Notation k := (p_k P).
Definition fors_part (F : list Z) (i j : Z) : list Z := slice F ((i * (a + 1) + j) * n) n.
Section Fors.
Variables (t leaf : Z) (md F1 F2 : list Z).
Local Notation A := (mkADRS 0 t FORS_TREE leaf 0 0).
Local Notation idx i := (nth (Z.to_nat i) (base_2b md a k) 0).
Definition fnode0 (F : list Z) (i : Z) : list Z := hash_at P PKseed (ForsNode t leaf 0 (i * 2 ^ a + idx i)) (fors_part F i 0).
Lemma fors_root_eq F i : fors_root_from P PKseed F i (idx i) A =
  climb (fun j => ForsNode t leaf (j + 1) ((i * 2 ^ a + idx i) / 2 ^ (j + 1))) (fun j => (idx i / 2 ^ j) mod 2 =? 0)
    (fun j => fors_part F i (1 + j)) (upto a) (fnode0 F i).
Proof using P PKseed t leaf md.
  clear Hok Hinc Hdig Hn OK F1 F2. unfold fors_root_from, climb, fnode0. cbv zeta.
  replace (fors_part F i 0) with (slice F (i * (a + 1) * n) n) by (unfold fors_part; f_equal; ring).
  apply fold_left_ext_in. intros node j Hj. apply in_upto in Hj. unfold joined, hash_at.
  destruct (Z.eqb_spec (j + 1) 0); [lia|]. cbv zeta. unfold fors_part. replace (i * (a + 1) + (1 + j)) with (i * (a + 1) + 1 + j) by ring.
  destruct (_ =? 0); reflexivity.
Qed.
Lemma fors_root_ok F i : (forall i j, 0 <= i < k -> 0 <= j < a + 1 -> nb (fors_part F i j)) -> 0 <= i < k -> nb (fors_root_from P PKseed F i (idx i) A).
Proof.
  intros HF Hi. rewrite fors_root_eq. pose proof (o_a _ OK). apply climb_ok; [intros; exact I| |].
  - intros j Hj. apply in_upto in Hj. apply HF; lia.
  - apply Hok; [exact I|]. apply HF; lia.
Qed.
Lemma fors_key_ok F : (forall i j, 0 <= i < k -> 0 <= j < a + 1 -> nb (fors_part F i j)) -> nb (fors_pkFromSig P PKseed F md A).
Proof.
  intros HF. change (fors_pkFromSig P PKseed F md A) with (hash_at P PKseed (ForsKey t leaf) (flat_map (fun i => fors_root_from P PKseed F i (idx i) A) (upto k))).
  apply Hok; [exact I|]. apply flat_nb. intros i Hi. apply in_upto in Hi. apply fors_root_ok; assumption.
Qed.
Definition tree_inputs (F : list Z) (i : Z) : trace :=
  (ForsNode t leaf 0 (i * 2 ^ a + idx i), fors_part F i 0) ::
  path_inputs P PKseed (fun j => ForsNode t leaf (j + 1) ((i * 2 ^ a + idx i) / 2 ^ (j + 1))) (fun j => (idx i / 2 ^ j) mod 2 =? 0)
    (fun j => fors_part F i (1 + j)) (fnode0 F i) (upto a).
Lemma path_inputs_ext u left f g js : (forall j, In j js -> f j = g j) -> forall node, path_inputs P PKseed u left f node js = path_inputs P PKseed u left g node js.
Proof.
  induction js as [|j js IH]; intros H node; [reflexivity|]. cbn [path_inputs]. rewrite H by (left; reflexivity).
  rewrite IH by (intros; apply H; right; assumption). reflexivity.
Qed.
Lemma fors_inputs_eq F : fors_inputs P PKseed t leaf F md = flat_map (tree_inputs F) (upto k) ++
  [(ForsKey t leaf, flat_map (fun i => fors_root_from P PKseed F i (idx i) A) (upto k))].
Proof using P PKseed t leaf md.
  unfold fors_inputs. f_equal. apply flat_map_ext_in. intros i Hi. unfold tree_inputs, fnode0. cbv zeta.
  replace (fors_part F i 0) with (slice F (i * (a + 1) * n) n) by (unfold fors_part; f_equal; ring). f_equal.
  apply path_inputs_ext. intros j Hj. unfold fors_part. f_equal. ring.
Qed.
Hypothesis H1 : forall i j, 0 <= i < k -> 0 <= j < a + 1 -> nb (fors_part F1 i j).
Hypothesis H2 : forall i j, 0 <= i < k -> 0 <= j < a + 1 -> nb (fors_part F2 i j).
Lemma fors_break : fors_pkFromSig P PKseed F1 md A = fors_pkFromSig P PKseed F2 md A ->
  coll (fors_inputs P PKseed t leaf F1 md) (fors_inputs P PKseed t leaf F2 md) \/
  forall i j, 0 <= i < k -> 0 <= j < a + 1 -> fors_part F1 i j = fors_part F2 i j.
Proof.
  intros E. rewrite !fors_inputs_eq. set (I1 := flat_map (tree_inputs F1) (upto k) ++ _). set (I2 := flat_map (tree_inputs F2) (upto k) ++ _).
  destruct (coll_here (ForsKey t leaf) _ _ I1 I2 ltac:(apply in_or_app; right; left; reflexivity) ltac:(apply in_or_app; right; left; reflexivity) E) as [EE|C]; [|left; exact C].
  pose proof (o_a _ OK) as Oa.
  assert (ER := flat_eq _ _ n k ltac:(lia) (fun i Hi => proj1 (fors_root_ok F1 i H1 Hi)) (fun i Hi => proj1 (fors_root_ok F2 i H2 Hi)) EE).
  cbv beta in ER.
  assert (IN : forall F i rest, 0 <= i < k -> incl (tree_inputs F i) (flat_map (tree_inputs F) (upto k) ++ rest)).
  { intros F i rest Hi x Hx. apply in_or_app. left. apply in_flat_map. exists i. split; [|exact Hx]. rewrite upto_zrange. apply zrange_in, Hi. }
  destruct (all_or (coll I1 I2) (fun i => forall j, 0 <= j < a + 1 -> fors_part F1 i j = fors_part F2 i j) k) as [C|Q]; [|left; exact C|right; auto].
  intros i Hi. specialize (ER i Hi). rewrite !fors_root_eq in ER.
  apply path_break in ER; [|intros; exact I| | | |].
  2:{ intros j Hj. apply in_upto in Hj. apply H1; lia. } 2:{ intros j Hj. apply in_upto in Hj. apply H2; lia. }
  2:{ apply Hok; [exact I|]. apply H1; lia. } 2:{ apply Hok; [exact I|]. apply H2; lia. }
  destruct ER as [C|[E0 EA]].
  { left. eapply coll_incl; [eapply incl_tran; [|apply (IN F1 i _ Hi)]|eapply incl_tran; [|apply (IN F2 i _ Hi)]|exact C]; apply incl_tl, incl_refl. }
  destruct (coll_here (ForsNode t leaf 0 (i * 2 ^ a + idx i)) (fors_part F1 i 0) (fors_part F2 i 0) I1 I2) as [E1|C];
    [apply (IN F1 i _ Hi); left; reflexivity|apply (IN F2 i _ Hi); left; reflexivity|exact E0| |left; exact C].
  right. intros j Hj. destruct (Z.eq_dec j 0) as [->|]; [exact E1|]. specialize (EA (j - 1)). replace (1 + (j - 1)) with j in EA by lia.
  apply EA. rewrite upto_zrange. apply zrange_in. lia.
Qed.
End Fors.
End Forge.

(** ** For the parameter sets *)
Lemma bytes_eqb_eq x : forall y, bytes_eqb x y = true -> x = y.
Proof.
  induction x as [|u x IH]; intros [|v y] H; try discriminate; [reflexivity|]. cbn [bytes_eqb] in H.
  apply andb_true_iff in H. destruct H as [H1 H2]. apply Z.eqb_eq in H1. f_equal; [exact H1|apply IH, H2].
Qed.
Section Inst.
Variable p : ps_name.
Local Notation P := (slh_of p).
Local Notation n := (p_n (slh_of p)).
Variable seed : list Z.
Hypothesis Ls : zlen seed = n.
Hypothesis Bs : is_bytes seed.
Lemma seed_env : exists E, KE full_cfg p 0 seed E.
Proof.
  destruct (KE_build full_cfg p 0 seed (mem_of 0 seed) (full_on p)) as (E & HE & Em); [|exact Bs|exists E; exact HE].
  rewrite <- Ls. change (@zlen Z) with len. apply holds_load, mem_of_holds, Bs.
Qed.
Lemma inst_ok u X : hash_use u -> is_bytes X -> zlen (hash_at P seed u X) = n /\ is_bytes (hash_at P seed u X).
Proof.
  destruct seed_env as (E & HE). pose proof HE as (_ & _ & _ & Es). destruct (KE_facts _ _ _ _ _ HE) as (En & EP & _).
  intros HU HX. pose proof (hF_ok E (use_address u) X HX) as KF. pose proof (hT_ok E (use_address u) X HX) as KT. pose proof (hH_ok E (use_address u) X HX) as KH.
  unfold str_ok, e_hs in KF, KT, KH. rewrite EP, En, Es in KF, KT, KH.
  destruct u; try contradiction; try assumption. cbn [hash_at]. destruct (height =? 0); assumption.
Qed.
Lemma inst_dig M i : 0 <= nth i (wots_msg P M) 0 <= w P - 1.
Proof.
  destruct seed_env as (E & HE). destruct (KE_facts _ _ _ _ _ HE) as (En & EP & _).
  pose proof (wots_msg_range E M i) as H. rewrite EP in H. rewrite (o_w _ (par_slh p)). lia.
Qed.
Lemma inst_inc M M' : (zlen M = n /\ is_bytes M) -> (zlen M' = n /\ is_bytes M') -> M <> M' ->
  exists i, 0 <= i < wlen P /\ nth (Z.to_nat i) (wots_msg P M') 0 < nth (Z.to_nat i) (wots_msg P M) 0.
Proof.
  intros HM HM' NE. destruct seed_env as (E & HE). destruct (KE_facts _ _ _ _ _ HE) as (En & EP & Nb).
  pose proof (wlen_eq E) as Hw. rewrite EP, En in Hw.
  destruct (all_or (exists i, 0 <= i < wlen P /\ nth (Z.to_nat i) (wots_msg P M') 0 < nth (Z.to_nat i) (wots_msg P M) 0)
    (fun i => nth (Z.to_nat i) (wots_msg P M) 0 <= nth (Z.to_nat i) (wots_msg P M') 0) (wlen P)) as [Q|Q]; [|exact Q|].
  - intros i Hi. destruct (Z.lt_ge_cases (nth (Z.to_nat i) (wots_msg P M') 0) (nth (Z.to_nat i) (wots_msg P M) 0)) as [L|L]; [left; exists i; auto|right; exact L].
  - exfalso. apply NE. apply (wots_incomparable E); unfold str_ok; rewrite ?EP, ?En; [exact HM|exact HM'|]. rewrite <- Hw. exact Q.
Qed.
End Inst.

Lemma par_pos p : 0 < p_k (slh_of p) /\ 0 < p_a (slh_of p) /\ 0 < p_d (slh_of p) /\ 0 < p_h' (slh_of p) /\ 0 < wlen (slh_of p) /\
  p_h (slh_of p) + p_d (slh_of p) * wlen (slh_of p) = p_d (slh_of p) * (p_h' (slh_of p) + wlen (slh_of p)).
Proof. destruct (par_slh p) as [o1 o2 o3 o4 o5 o6 o7 o8 o9 o10]. repeat split; lia. Qed.
Section Parts.
Variable p : ps_name.
Local Notation P := (slh_of p).
Local Notation n := (p_n (slh_of p)).
Lemma nbnd : 16 <= n <= 32. Proof. destruct p; cbn; lia. Qed.
Local Notation FO := (p_k P * (1 + p_a P)).
Local Notation HO := (p_h P + p_d P * wlen P).
Local Notation F S := (slice S n (FO * n)).
Local Notation HT S := (slice S ((1 + FO) * n) (HO * n)).
Lemma nb_part S o : is_bytes S -> zlen S = (1 + FO + HO) * n -> 0 <= o < 1 + FO + HO -> zlen (slice S (o * n) n) = n /\ is_bytes (slice S (o * n) n).
Proof.
  intros B L Ho. pose proof nbnd. split; [|apply slice_bytes, B]. apply slice_zlen; [nia|lia|]. rewrite L. nia.
Qed.
Lemma fpart_eq S i j : zlen S = (1 + FO + HO) * n -> 0 <= i < p_k P -> 0 <= j < p_a P + 1 ->
  fors_part P (F S) i j = slice S ((1 + (i * (p_a P + 1) + j)) * n) n /\ 0 <= i * (p_a P + 1) + j < FO.
Proof.
  intros L Hi Hj. pose proof nbnd. assert (R : 0 <= i * (p_a P + 1) + j < FO) by nia. split; [|exact R].
  unfold fors_part. rewrite slice_slice; [f_equal; ring|lia|nia|lia|nia].
Qed.
Lemma lpart_eq S l c : zlen S = (1 + FO + HO) * n -> 0 <= l < p_d P -> 0 <= c < wlen P + p_h' P ->
  layer_part P (HT S) l c = slice S ((1 + FO + l * (p_h' P + wlen P) + c) * n) n /\ 0 <= l * (p_h' P + wlen P) + c < HO.
Proof.
  intros L Hl Hc. pose proof nbnd. pose proof (par_pos p) as (Pk & Pa & Pd & Ph & Pw & EH).
  assert (R : 0 <= l * (p_h' P + wlen P) + c < HO) by (rewrite EH; nia). split; [|exact R].
  unfold layer_part. rewrite slice_slice; [f_equal; ring|nia|nia|lia|nia].
Qed.
End Parts.
Section Top.
Variable p : ps_name.
Local Notation P := (slh_of p).
Local Notation n := (p_n (slh_of p)).
Variables (PK M1 M2 S1 S2 : list Z).
Hypothesis BP : is_bytes PK.
Hypothesis LP : len PK = 2 * n.
Hypothesis BS1 : is_bytes S1.
Hypothesis BS2 : is_bytes S2.
Hypothesis V1 : slh_verify_internal P M1 S1 PK = true.
Hypothesis V2 : slh_verify_internal P M2 S2 PK = true.
Hypothesis ED : message_digest P M1 S1 PK = message_digest P M2 S2 PK.
Local Notation seed := (slice PK 0 n).
Local Notation FO := (p_k P * (1 + p_a P)).
Local Notation HO := (p_h P + p_d P * wlen P).
Local Notation F S := (slice S n (FO * n)).
Local Notation HT S := (slice S ((1 + FO) * n) (HO * n)).
Lemma sig_len M S : slh_verify_internal P M S PK = true -> zlen S = (1 + FO + HO) * n.
Proof.
  unfold slh_verify_internal. destruct (Z.eqb_spec (len S) (slh_sig_length P)) as [E|]; [|discriminate]. intros _.
  change (@zlen Z) with len. rewrite E. unfold slh_sig_length. ring.
Qed.
Theorem forge : slice S1 n (len S1) <> slice S2 n (len S2) ->
  collision P PK M1 S1 M2 S2 \/ chains_inverted P PK M1 S1 M2 S2.
Proof.
  intros NE. pose proof (nbnd p) as Nb. pose proof (par_pos p) as (Pk & Pa & Pd & Ph & Pw & EH). pose proof (par_slh p) as OK.
  pose proof (sig_len _ _ V1) as L1. pose proof (sig_len _ _ V2) as L2.
  assert (Ls : zlen seed = n) by (apply slice_zlen; [lia|lia|change (@zlen Z) with len; lia]).
  assert (Bs : is_bytes seed) by apply slice_bytes, BP.
  set (D := message_digest P M1 S1 PK) in *.
  assert (W1 : ht_root P seed (fors_pkFromSig P seed (F S1) (md_of P D) (fors_ADRS P D)) (HT S1) (idx_tree_of P D) (idx_leaf_of P D) = slice PK n n).
  { unfold slh_verify_internal in V1. destruct (negb _); [discriminate|]. apply bytes_eqb_eq. exact V1. }
  assert (W2 : ht_root P seed (fors_pkFromSig P seed (F S2) (md_of P D) (fors_ADRS P D)) (HT S2) (idx_tree_of P D) (idx_leaf_of P D) = slice PK n n).
  { rewrite ED. unfold slh_verify_internal in V2. destruct (negb _); [discriminate|]. apply bytes_eqb_eq. exact V2. }
  rewrite <- W2 in W1. clear W2.
  change (fors_ADRS P D) with (mkADRS 0 (idx_tree_of P D) FORS_TREE (idx_leaf_of P D) 0 0) in W1.
  assert (FP : forall S, is_bytes S -> zlen S = (1 + FO + HO) * n -> forall i j, 0 <= i < p_k P -> 0 <= j < p_a P + 1 ->
     zlen (fors_part P (F S) i j) = n /\ is_bytes (fors_part P (F S) i j)).
  { intros S B L i j Hi Hj. destruct (fpart_eq p S i j L Hi Hj) as [-> R]. apply (nb_part p); [exact B|exact L|]. nia. }
  assert (LP' : forall S, is_bytes S -> zlen S = (1 + FO + HO) * n -> forall l c, 0 <= l < p_d P -> 0 <= c < wlen P + p_h' P ->
     zlen (layer_part P (HT S) l c) = n /\ is_bytes (layer_part P (HT S) l c)).
  { intros S B L l c Hi Hj. destruct (lpart_eq p S l c L Hi Hj) as [-> R]. apply (nb_part p); [exact B|exact L|]. nia. }
  assert (IO := inst_ok p seed Ls Bs).
  assert (IN1 : incl (fors_inputs P seed (idx_tree_of P D) (idx_leaf_of P D) (F S1) (md_of P D)) (verify_inputs P M1 S1 PK)) by (apply incl_appl, incl_refl).
  assert (IN2 : incl (fors_inputs P seed (idx_tree_of P D) (idx_leaf_of P D) (F S2) (md_of P D)) (verify_inputs P M2 S2 PK)) by (rewrite ED; apply incl_appl, incl_refl).
  assert (LA : forall S, is_bytes S -> zlen S = (1 + FO + HO) * n -> forall m c, 0 <= m < Z.of_nat (Z.to_nat (p_d P)) -> 0 <= c < wlen P + p_h' P ->
     zlen (layer_part P (HT S) (0 + m) c) = n /\ is_bytes (layer_part P (HT S) (0 + m) c)).
  { intros S B L m c Hm Hc. apply LP'; [exact B|exact L|lia|lia]. }
  assert (FK : forall S, is_bytes S -> zlen S = (1 + FO + HO) * n ->
     zlen (fors_pkFromSig P seed (F S) (md_of P D) (mkADRS 0 (idx_tree_of P D) FORS_TREE (idx_leaf_of P D) 0 0)) = n /\
     is_bytes (fors_pkFromSig P seed (F S) (md_of P D) (mkADRS 0 (idx_tree_of P D) FORS_TREE (idx_leaf_of P D) 0 0))).
  { intros S B L. exact (fors_key_ok P OK seed IO (inst_dig p seed Ls Bs) (inst_inc p seed Ls Bs) _ _ _ [] [] _ (FP S B L)). }
  destruct (ht_break P OK seed ltac:(lia) IO (inst_dig p seed Ls Bs) (inst_inc p seed Ls Bs) (HT S1) (HT S2) (Z.to_nat (p_d P)) 0 _ _ _ _ ltac:(lia)
    (LA S1 BS1 L1) (LA S2 BS2 L2) (FK S1 BS1 L1) (FK S2 BS2 L2) W1)
    as [C|[[EF EP]|(m & c & c' & Hm & Hc & Hc' & Q1 & Q2)]].
  - left. refine (coll_incl P seed _ _ _ _ _ _ C); [apply incl_appr, incl_refl|rewrite ED; apply incl_appr, incl_refl].
  - destruct (fors_break P OK seed ltac:(lia) IO (inst_dig p seed Ls Bs) (inst_inc p seed Ls Bs) _ _ _ _ _ (FP S1 BS1 L1) (FP S2 BS2 L2) EF) as [C|EQ].
    { left. exact (coll_incl P seed _ _ _ _ IN1 IN2 C). }
    exfalso. apply NE.
    assert (PE : forall o, 0 <= o < FO + HO -> slice S1 ((1 + o) * n) n = slice S2 ((1 + o) * n) n).
    { intros o Ho. destruct (Z.lt_ge_cases o FO) as [Hf|Hf].
      - set (i := o / (p_a P + 1)). set (j := o mod (p_a P + 1)).
        assert (Eo : o = i * (p_a P + 1) + j) by (unfold i, j; pose proof (Z.div_mod o (p_a P + 1) ltac:(lia)); lia).
        assert (Hj : 0 <= j < p_a P + 1) by (apply Z.mod_pos_bound; lia).
        assert (Hi : 0 <= i < p_k P) by (split; [apply Z.div_pos; lia|apply Z.div_lt_upper_bound; lia]).
        specialize (EQ i j Hi Hj). rewrite (proj1 (fpart_eq p S1 i j L1 Hi Hj)), (proj1 (fpart_eq p S2 i j L2 Hi Hj)), <- Eo in EQ. exact EQ.
      - set (q := o - FO). set (l := q / (p_h' P + wlen P)). set (c := q mod (p_h' P + wlen P)).
        assert (Eq : q = l * (p_h' P + wlen P) + c) by (unfold l, c; pose proof (Z.div_mod q (p_h' P + wlen P) ltac:(lia)); lia).
        assert (Hc : 0 <= c < wlen P + p_h' P) by (unfold c; pose proof (Z.mod_pos_bound q (p_h' P + wlen P) ltac:(lia)); lia).
        assert (Hl : 0 <= l < p_d P) by (split; [apply Z.div_pos; lia|apply Z.div_lt_upper_bound; unfold q; lia]).
        specialize (EP l c ltac:(lia) Hc). change (0 + l) with l in EP. rewrite (proj1 (lpart_eq p S1 l c L1 Hl Hc)), (proj1 (lpart_eq p S2 l c L2 Hl Hc)) in EP.
        replace (1 + FO + l * (p_h' P + wlen P) + c) with (1 + o) in EP by (unfold q in Eq; lia). exact EP. }
    assert (LT : forall S, zlen S = (1 + FO + HO) * n -> zlen (slice S n (len S)) = Z.of_nat (Z.to_nat (FO + HO)) * n).
    { intros S L. assert (0 <= FO) by nia. assert (0 <= HO) by (rewrite EH; nia). rewrite Z2Nat.id by lia.
      unfold slice. change (len S) with (zlen S). unfold zlen in *. rewrite firstn_length, skipn_length. nia. }
    assert (SL : forall S o, zlen S = (1 + FO + HO) * n -> 0 <= o < FO + HO -> slice (slice S n (len S)) (o * n) n = slice S ((1 + o) * n) n).
    { intros S o L Ho. rewrite slice_slice; [f_equal; ring|lia|nia|lia|]. change (len S) with (zlen S). nia. }
    apply (blocks_eq n ltac:(lia) (Z.to_nat (FO + HO))); [apply LT, L1|apply LT, L2|].
    intros i Hi. assert (Hi' : 0 <= i < FO + HO) by lia. rewrite !SL by assumption. apply PE, Hi'.
  - right. exists m, c, c'. split; [lia|]. split; [exact Hc|]. split; [exact Hc'|]. cbv zeta. change (0 + m) with m in Q1, Q2.
    rewrite (proj1 (lpart_eq p S1 m c L1 ltac:(lia) ltac:(lia))), (proj1 (lpart_eq p S2 m c L2 ltac:(lia) ltac:(lia))) in Q1.
    rewrite (proj1 (lpart_eq p S1 m c' L1 ltac:(lia) ltac:(lia))), (proj1 (lpart_eq p S2 m c' L2 ltac:(lia) ltac:(lia))) in Q2.
    cbv zeta in Q1, Q2.
    unfold earlier_in_chain, layer_message. fold D. rewrite <- ED. split; assumption.
Qed.
End Top.
