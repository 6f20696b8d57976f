(** * One call: sums over the blocks of a range (C55) *)
From Verif Require Import Arr CLeak SpecSLH SpecApi SpecMap SpecSessions SpecReuse SpecForge SpecLeak SpecWork SpecBlocks SpecLatency ModelParams ModelCtx ModelVerify ModelApi.
From Verif Require Import PropVerify PfSpec PfEnv PfGlueSha PfWots PfApi PfComplete PfWorkTotals PfBlkTotals LeakVerify PfWorkCheck PfLeakErase4.
Ltac Zify.zify_post_hook ::= idtac.

(** ** At most so many blocks *)
Lemma sum_range (g : nat -> Z) B lo hi (sel : nat -> bool) : 0 <= B -> lo <= hi ->
  (forall i, sel i = true -> lo <= Z.of_nat i < hi) -> forall N, (forall i, (i < N)%nat -> sel i = true -> g i <= B) ->
  sum (map (fun i => if sel i then g i else 0) (seq 0 N)) <= B * Z.max 0 (Z.min (Z.of_nat N) hi - lo).
Proof.
  intros HB Hlh Hs N. induction N as [|N IH]; intros Hg; [cbn [seq map]; change (sum []) with 0; nia|].
  rewrite seq_S, map_app, PfWorkSign.sum_app, Nat.add_0_l. cbn [map]. specialize (IH (fun i Hi => Hg i (Nat.lt_lt_succ_r _ _ Hi))).
  change (sum [if sel N then g N else 0]) with ((if sel N then g N else 0) + 0). 
  destruct (sel N) eqn:E.
  - pose proof (Hs N E). pose proof (Hg N ltac:(lia) E).
    set (k := Z.max 0 (Z.min (Z.of_nat N) hi - lo)) in *. set (k1 := Z.max 0 (Z.min (Z.of_nat (S N)) hi - lo)).
    assert (k1 = k + 1) by (unfold k1, k; lia). clearbody k k1. subst k1. lia.
  - transitivity (B * Z.max 0 (Z.min (Z.of_nat N) hi - lo)); [lia|]. apply Z.mul_le_mono_nonneg_l; [exact HB|lia].
Qed.
Lemma ceil_iff n u i : 0 < n -> (n * i < u <-> i < (u + n - 1) / n).
Proof.
  intros Hn. pose proof (Z.div_mod (u + n - 1) n ltac:(lia)). pose proof (Z.mod_pos_bound (u + n - 1) n Hn).
  set (k := (u + n - 1) / n) in *. clearbody k. split; intros; nia.
Qed.
Lemma pieces_diff n u s : 0 < n -> 0 <= s -> (u + s + n - 1) / n - (u + n - 1) / n <= pieces n s.
Proof.
  intros Hn Hs. unfold pieces.
  pose proof (Z.div_mod (u + s + n - 1) n ltac:(lia)). pose proof (Z.mod_pos_bound (u + s + n - 1) n Hn).
  pose proof (Z.div_mod (u + n - 1) n ltac:(lia)). pose proof (Z.mod_pos_bound (u + n - 1) n Hn).
  pose proof (Z.div_mod (s + n - 1) n ltac:(lia)). pose proof (Z.mod_pos_bound (s + n - 1) n Hn).
  set (a := (u + s + n - 1) / n) in *. set (b := (u + n - 1) / n) in *. set (c := (s + n - 1) / n) in *. clearbody a b c. nia.
Qed.
Lemma pieces_nonneg n s : 0 < n -> 0 <= s -> 0 <= pieces n s.
Proof. intros. apply Z.div_pos; lia. Qed.

(** The blocks that a request begins *)
Lemma begun_step n xs u s B : 0 < n -> 0 <= s -> 0 <= B -> (forall x, In x xs -> x <= B) ->
  begun n xs (u + s) - begun n xs u <= pieces n s * B.
Proof.
  intros Hn Hs HB Hx. unfold begun.
  set (g := fun i => nth i xs 0).
  assert (E : sum (map (fun i => if n * Z.of_nat i <? u + s then nth i xs 0 else 0) (seq 0 (length xs)))
     = sum (map (fun i => if n * Z.of_nat i <? u then nth i xs 0 else 0) (seq 0 (length xs)))
     + sum (map (fun i => if (u <=? n * Z.of_nat i) && (n * Z.of_nat i <? u + s) then g i else 0) (seq 0 (length xs)))).
  { rewrite <- sum_plus. apply sum_ext. intros i _. fold (g i).
    destruct (Z.ltb_spec (n * Z.of_nat i) (u + s)), (Z.ltb_spec (n * Z.of_nat i) u), (Z.leb_spec u (n * Z.of_nat i)); cbn [andb]; lia. }
  rewrite E.
  pose proof (sum_range g B ((u + n - 1) / n) ((u + s + n - 1) / n) (fun i => (u <=? n * Z.of_nat i) && (n * Z.of_nat i <? u + s)) HB) as X.
  pose proof (pieces_diff n u s Hn Hs) as D. pose proof (pieces_nonneg n s Hn Hs) as PN.
  assert (LE : (u + n - 1) / n <= (u + s + n - 1) / n) by (apply Z.div_le_mono; lia).
  assert (X' := X LE). clear X.
  assert (Y : forall i : nat, (u <=? n * Z.of_nat i) && (n * Z.of_nat i <? u + s) = true -> (u + n - 1) / n <= Z.of_nat i < (u + s + n - 1) / n).
  { intros i Hi. apply andb_prop in Hi. destruct Hi as [H1 H2]. apply Z.leb_le in H1. apply Z.ltb_lt in H2.
    split; [|apply ceil_iff; lia]. destruct (Z.le_gt_cases ((u + n - 1) / n) (Z.of_nat i)) as [|Hgt]; [assumption|].
    apply ceil_iff in Hgt; lia. }
  specialize (X' Y (length xs) (fun i Hi _ => Hx _ (nth_In xs 0 Hi))).
  enough (B * Z.max 0 (Z.min (Z.of_nat (length xs)) ((u + s + n - 1) / n) - (u + n - 1) / n) <= pieces n s * B) by lia.
  rewrite Z.mul_comm. apply Z.mul_le_mono_nonneg_r; [exact HB|lia].
Qed.
(** One block *)
Lemma begun_one n xs i s : 0 < n -> 0 < s <= n -> (i < length xs)%nat ->
  begun n xs (n * Z.of_nat i + s) - begun n xs (n * Z.of_nat i) = nth i xs 0.
Proof.
  intros Hn Hs Hi. unfold begun.
  assert (E : sum (map (fun j => if n * Z.of_nat j <? n * Z.of_nat i + s then nth j xs 0 else 0) (seq 0 (length xs)))
     = sum (map (fun j => if n * Z.of_nat j <? n * Z.of_nat i then nth j xs 0 else 0) (seq 0 (length xs)))
     + sum (map (fun j => if Nat.eqb j i then nth i xs 0 else 0) (seq 0 (length xs)))).
  { rewrite <- sum_plus. apply sum_ext. intros j _.
    destruct (Z.ltb_spec (n * Z.of_nat j) (n * Z.of_nat i + s)), (Z.ltb_spec (n * Z.of_nat j) (n * Z.of_nat i)), (Nat.eqb_spec j i); subst; try lia; exfalso; nia. }
  rewrite E. enough (G : forall N a, (a <= i < a + N)%nat -> sum (map (fun j => if Nat.eqb j i then nth i xs 0 else 0) (seq a N)) = nth i xs 0)
    by (rewrite (G (length xs) 0%nat) by lia; lia).
  assert (Z0 : forall N a, (i < a)%nat -> sum (map (fun j => if Nat.eqb j i then nth i xs 0 else 0) (seq a N)) = 0).
  { intros N. induction N as [|N IH]; intros a Ha; [reflexivity|]. cbn [seq map]. rewrite sum_cons, IH by lia. destruct (Nat.eqb_spec a i); lia. }
  intros N. induction N as [|N IH]; intros a Ha; [lia|]. cbn [seq map]. rewrite sum_cons. destruct (Nat.eqb_spec a i) as [->|Hne]; [rewrite Z0 by lia; lia|].
  rewrite IH by lia. lia.
Qed.
(** The blocks that a chunk completes; the first one is counted apart *)
Lemma complete_step n x0 xs u s B : 0 < n -> 0 <= s -> 0 <= u -> 0 <= B -> (forall x, In x xs -> x <= B) ->
  SpecWork.complete n (x0 :: xs) (u + s) - SpecWork.complete n (x0 :: xs) u <= pieces n s * B + (if (u <? n) && (n <=? u + s) then Z.max 0 x0 else 0).
Proof.
  intros Hn Hs Hu HB Hx. unfold SpecWork.complete. cbn [length seq map]. rewrite <- !seq_shift, !map_map. rewrite !sum_cons. cbn [nth].
  set (g := fun i => nth i xs 0).
  assert (E : sum (map (fun i => if n * (Z.of_nat (S i) + 1) <=? u + s then nth i xs 0 else 0) (seq 0 (length xs)))
     = sum (map (fun i => if n * (Z.of_nat (S i) + 1) <=? u then nth i xs 0 else 0) (seq 0 (length xs)))
     + sum (map (fun i => if (u <? n * (Z.of_nat (S i) + 1)) && (n * (Z.of_nat (S i) + 1) <=? u + s) then g i else 0) (seq 0 (length xs)))).
  { rewrite <- sum_plus. apply sum_ext. intros i _. fold (g i).
    destruct (Z.leb_spec (n * (Z.of_nat (S i) + 1)) (u + s)), (Z.leb_spec (n * (Z.of_nat (S i) + 1)) u), (Z.ltb_spec u (n * (Z.of_nat (S i) + 1))); cbn [andb]; lia. }
  rewrite E.
  pose proof (sum_range g B (u / n - 1) ((u + s) / n - 1) (fun i => (u <? n * (Z.of_nat (S i) + 1)) && (n * (Z.of_nat (S i) + 1) <=? u + s)) HB) as X.
  assert (LE : u / n <= (u + s) / n) by (apply Z.div_le_mono; lia).
  assert (D : (u + s) / n - u / n <= pieces n s).
  { unfold pieces.
    pose proof (Z.div_mod (u + s) n ltac:(lia)). pose proof (Z.mod_pos_bound (u + s) n Hn).
    pose proof (Z.div_mod u n ltac:(lia)). pose proof (Z.mod_pos_bound u n Hn).
    pose proof (Z.div_mod (s + n - 1) n ltac:(lia)). pose proof (Z.mod_pos_bound (s + n - 1) n Hn).
    set (a := (u + s) / n) in *. set (b := u / n) in *. set (c := (s + n - 1) / n) in *. clearbody a b c. clear - H H0 H1 H2 H3 H4 Hn. nia. }
  pose proof (pieces_nonneg n s Hn Hs) as PN.
  assert (X' := X ltac:(lia)). clear X.
  assert (Y : forall i : nat, (u <? n * (Z.of_nat (S i) + 1)) && (n * (Z.of_nat (S i) + 1) <=? u + s) = true -> u / n - 1 <= Z.of_nat i < (u + s) / n - 1).
  { intros i Hi. apply andb_prop in Hi. destruct Hi as [H1 H2]. apply Z.leb_le in H2. apply Z.ltb_lt in H1.
    pose proof (Z.div_mod (u + s) n ltac:(lia)). pose proof (Z.mod_pos_bound (u + s) n Hn).
    pose proof (Z.div_mod u n ltac:(lia)). pose proof (Z.mod_pos_bound u n Hn).
    set (a := (u + s) / n) in *. set (b := u / n) in *. clearbody a b. rewrite Nat2Z.inj_succ in *. clear - H H0 H1 H2 H3 H4 Hn. split; nia. }
  specialize (X' Y (length xs) (fun i Hi _ => Hx _ (nth_In xs 0 Hi))).
  assert (B * Z.max 0 (Z.min (Z.of_nat (length xs)) ((u + s) / n - 1) - (u / n - 1)) <= pieces n s * B).
  { rewrite Z.mul_comm. apply Z.mul_le_mono_nonneg_r; [exact HB|lia]. }
  enough ((if n * (Z.of_nat 0 + 1) <=? u + s then x0 else 0) - (if n * (Z.of_nat 0 + 1) <=? u then x0 else 0) <= (if (u <? n) && (n <=? u + s) then Z.max 0 x0 else 0)) by lia.
  change (Z.of_nat 0 + 1) with 1. rewrite Z.mul_1_r.
  destruct (Z.leb_spec n (u + s)), (Z.leb_spec n u), (Z.ltb_spec u n); cbn [andb]; lia.
Qed.

(** ** Times *)
Lemma nth_map0 {A} (h : A -> Z) l d i : (i < length l)%nat -> nth i (map h l) 0 = h (nth i l d).
Proof. intros H. rewrite (nth_indep _ 0 (h d)) by (rewrite map_length; exact H). apply map_nth. Qed.
Lemma time_begun {A} w n (g : primitive -> A -> Z) bs u :
  time w (fun q => begun n (map (g q) bs) u) = begun n (map (fun b => time w (fun q => g q b)) bs) u.
Proof.
  unfold begun, time. rewrite !map_length. rewrite <- !sum_scale, <- !sum_plus. apply sum_ext. intros i Hi.
  apply in_seq in Hi. destruct bs as [|b0 bs']; [cbn in Hi; lia|].
  rewrite !(nth_map0 _ _ b0) by lia.
  destruct (n * Z.of_nat i <? u); lia.
Qed.
Lemma time_le w x y : (forall q, 0 <= w q) -> (forall q, x q <= y q) -> time w x <= time w y.
Proof.
  intros Hw H. unfold time.
  pose proof (Z.mul_le_mono_nonneg_l _ _ _ (Hw sha256_compression) (H sha256_compression)).
  pose proof (Z.mul_le_mono_nonneg_l _ _ _ (Hw sha512_compression) (H sha512_compression)).
  pose proof (Z.mul_le_mono_nonneg_l _ _ _ (Hw keccak_permutation) (H keccak_permutation)). lia.
Qed.

(** ** One block *)
Section Bounds.
Variables (cfg : config) (p : ps_name).
Local Notation P := (slh_of p).
Local Notation n := (p_n (slh_of p)).

Lemma of_le q0 a b q : a <= b -> of_ q0 a q <= of_ q0 b q.
Proof. unfold of_. destruct (rate q0 =? rate q); lia. Qed.
Lemma of_sub q0 a b q : of_ q0 a q - of_ q0 b q = of_ q0 (a - b) q.
Proof. unfold of_. destruct (rate q0 =? rate q); lia. Qed.
Lemma of_add q0 a b q : of_ q0 a q + of_ q0 b q = of_ q0 (a + b) q.
Proof. unfold of_. destruct (rate q0 =? rate q); lia. Qed.
Lemma of_nonneg q0 a q : 0 <= a -> 0 <= of_ q0 a q.
Proof. unfold of_. destruct (rate q0 =? rate q); lia. Qed.
Lemma rate_pos q : 64 <= rate q.
Proof. destruct q; cbn; lia. Qed.
Lemma saved_le : 0 <= saved cfg p <= 1.
Proof. unfold saved. destruct (cfg_sha2_opt cfg && is_sha2 p); lia. Qed.
Lemma hashed_pos q l : 0 <= l -> 1 <= hashed q l.
Proof.
  intros H. unfold hashed. assert (0 <= (l + padding q - 1) / rate q) by (apply Z.div_pos; [destruct q; cbn; lia|pose proof (rate_pos q); lia]). lia.
Qed.
Lemma header_pos q : 0 <= header q p.
Proof. destruct q, p; cbn; lia. Qed.
Lemma n_range : 16 <= n <= 32.
Proof. destruct p; cbn; lia. Qed.
Lemma PRF_nonneg q : 0 <= PRF_runs cfg p q.
Proof. apply of_nonneg. pose proof saved_le. pose proof (header_pos (narrow p)). pose proof n_range. pose proof (hashed_pos (narrow p) (header (narrow p) p + n)). lia. Qed.
Lemma T_nonneg j q : 0 <= j -> 0 <= T_runs cfg p j q.
Proof.
  intros Hj. apply of_nonneg. pose proof saved_le. pose proof (header_pos (wide p)). pose proof n_range.
  assert (0 <= j * n) by nia. pose proof (hashed_pos (wide p) (header (wide p) p + j * n)). lia.
Qed.
Lemma absorbed_saved : saved cfg p <= absorbed (wide p) (header (wide p) p).
Proof. unfold saved. destruct p, (cfg_sha2_opt cfg); cbv; discriminate. Qed.
Lemma begun_nonneg j q : 0 <= j -> 0 <= begun_runs cfg p j q.
Proof.
  intros Hj. apply of_nonneg. pose proof absorbed_saved as A. pose proof (rate_pos (wide p)). pose proof n_range.
  assert (0 <= j * n) by nia. enough (absorbed (wide p) (header (wide p) p) <= absorbed (wide p) (header (wide p) p + j * n)) by lia.
  unfold absorbed. apply Z.div_le_mono; lia.
Qed.
(** What was begun with one more string is one run more at most *)
Lemma begun_next j q : begun_runs cfg p (j + 1) q - begun_runs cfg p j q <= of_ (wide p) 1 q.
Proof.
  unfold begun_runs. rewrite of_sub. apply of_le. unfold absorbed. pose proof (rate_pos (wide p)). pose proof n_range.
  replace (header (wide p) p + (j + 1) * n) with (header (wide p) p + j * n + n) by ring. set (a := header (wide p) p + j * n).
  enough ((a + n) / rate (wide p) <= a / rate (wide p) + 1) by lia.
  replace (a / rate (wide p) + 1) with ((a + 1 * rate (wide p)) / rate (wide p)) by (rewrite Z.div_add; lia). apply Z.div_le_mono; lia.
Qed.
Lemma one_le_T j q : 0 <= j -> of_ (wide p) (1 - saved cfg p) q <= T_runs cfg p j q.
Proof.
  intros Hj. apply of_le. pose proof (header_pos (wide p)). pose proof n_range. assert (0 <= j * n) by nia.
  pose proof (hashed_pos (wide p) (header (wide p) p + j * n)). lia.
Qed.
Lemma k_range : 1 <= p_k P /\ 1 <= p_a P /\ 1 <= p_h' P /\ 1 <= wlen P /\ 1 <= p_d P.
Proof. destruct p; cbn; lia. Qed.

Lemma in_blocks b : In b (blocks_of P) ->
  b = TheRandomiser \/ (exists i, 0 <= i < p_k P /\ (b = FewTimeSecret i \/ exists j, 0 <= j < p_a P /\ b = FewTimePath i j)) \/
  (exists l, 0 <= l < p_d P /\ ((exists x, 0 <= x < wlen P /\ b = Chain l x) \/ (exists j, 0 <= j < p_h' P /\ b = TreePath l j))).
Proof.
  pose proof k_range as K.
  assert (U : forall a x, 0 <= a -> In x (upto a) -> 0 <= x < a).
  { intros a x Ha H. unfold upto in H. apply in_map_iff in H. destruct H as (y & <- & Hy). apply in_seq in Hy. lia. }
  unfold blocks_of. intros [<-|H]; [left; reflexivity|right]. apply in_app_or in H. destruct H as [H|H]; [left|right]; apply in_flat_map in H.
  - destruct H as (i & Hi & H). exists i. split; [apply U; [lia|exact Hi]|]. destruct H as [<-|H]; [left; reflexivity|right].
    apply in_map_iff in H. destruct H as (j & <- & Hj). exists j. split; [apply U; [lia|exact Hj]|reflexivity].
  - destruct H as (l & Hl & H). exists l. split; [apply U; [lia|exact Hl]|]. apply in_app_or in H.
    destruct H as [H|H]; [left|right]; apply in_map_iff in H; destruct H as (j & <- & Hj); exists j; (split; [apply U; [lia|exact Hj]|reflexivity]).
Qed.
Lemma in_blocks_rest b : In b (tl (blocks_of P)) -> b <> TheRandomiser.
Proof.
  unfold blocks_of. cbn [tl]. intros H E. subst b. apply in_app_or in H. destruct H as [H|H]; apply in_flat_map in H; destruct H as (x & _ & H).
  - destruct H as [H|H]; [discriminate|]. apply in_map_iff in H. destruct H as (? & ? & _). discriminate.
  - apply in_app_or in H. destruct H as [H|H]; apply in_map_iff in H; destruct H as (? & ? & _); discriminate.
Qed.

Lemma position_range X x : 0 <= position P X x <= 15.
Proof.
  unfold position.
  destruct (an_env p (repeat 0 (Z.to_nat (4 * p_n P)))) as (E & HE & _); [apply zeros_bytes'|unfold len; rewrite repeat_length; destruct p; reflexivity|].
  destruct (KE_facts _ _ _ _ _ HE) as (_ & EP & _). pose proof (wots_msg_range E X (Z.to_nat x)) as H. rewrite EP in H. exact H.
Qed.

Lemma subtree_mono leaf j j' q : 0 <= leaf -> 0 <= j <= j' -> subtree_runs cfg p leaf j q <= subtree_runs cfg p leaf j' q.
Proof.
  intros Hl Hj. unfold subtree_runs. assert (2 ^ j <= 2 ^ j') by (apply Z.pow_le_mono_r; lia). pose proof (T_nonneg 2 q ltac:(lia)) as HH.
  change (T_runs cfg p 2 q) with (H_runs cfg p q) in HH. nia.
Qed.
Lemma ots_nonneg q : 0 <= ots_key_runs cfg p q.
Proof. unfold ots_key_runs, F_runs. pose proof (PRF_nonneg q). pose proof k_range. pose proof (T_nonneg (wlen P) q ltac:(lia)). nia. Qed.
Lemma fl_nonneg q : 0 <= fors_leaf_runs cfg p q.
Proof. unfold fors_leaf_runs, F_runs. pose proof (PRF_nonneg q). lia. Qed.

Variables PK M SIG : list Z.
Lemma sign_path_le i j q : 0 <= i < p_k P -> 0 <= j < p_a P ->
  sign_runs cfg p PK M SIG q (FewTimePath i j) <= subtree_runs cfg p (fors_leaf_runs cfg p q) (p_a P - 1) q + H_runs cfg p q + T_runs cfg p (p_k P) q + of_ (wide p) 1 q.
Proof.
  intros Hi Hj. cbn [sign_runs]. pose proof (subtree_mono (fors_leaf_runs cfg p q) j (p_a P - 1) q (fl_nonneg q) ltac:(lia)).
  pose proof (begun_nonneg i q ltac:(lia)). pose proof (begun_next i q). pose proof (T_nonneg (p_k P) q ltac:(lia)). pose proof (of_nonneg (wide p) 1 q ltac:(lia)).
  destruct (j =? p_a P - 1); [|lia]. destruct (i =? p_k P - 1); lia.
Qed.
Lemma sign_chain_le l x q : sign_runs cfg p PK M SIG q (Chain l x) <= PRF_runs cfg p q + 15 * F_runs cfg p q + ots_key_runs cfg p q.
Proof.
  cbn [sign_runs]. pose proof (position_range (layer_message P M SIG PK l) x). pose proof (PRF_nonneg q). pose proof (ots_nonneg q). unfold F_runs.
  assert (position P (layer_message P M SIG PK l) x * PRF_runs cfg p q <= 15 * PRF_runs cfg p q) by (apply Z.mul_le_mono_nonneg_r; lia).
  destruct (x =? wlen P - 1); lia.
Qed.
Lemma sign_tree_le l j q : 0 <= j < p_h' P ->
  sign_runs cfg p PK M SIG q (TreePath l j) <= subtree_runs cfg p (ots_key_runs cfg p q) (p_h' P - 1) q + H_runs cfg p q.
Proof.
  intros Hj. cbn [sign_runs]. pose proof (subtree_mono (ots_key_runs cfg p q) j (p_h' P - 1) q (ots_nonneg q) ltac:(lia)). lia.
Qed.
Lemma twice_tree q : 2 * (subtree_runs cfg p (ots_key_runs cfg p q) (p_h' P - 1) q + H_runs cfg p q) = twice_sign_latency cfg p q.
Proof.
  unfold twice_sign_latency, keygen_runs, subtree_runs. pose proof k_range. set (a := p_h' P - 1). replace (p_h' P) with (Z.succ a) by (unfold a; lia).
  rewrite Z.pow_succ_r by (unfold a; lia). ring.
Qed.
End Bounds.

Ltac numbers x := let y := eval cbv beta in x in let v := eval vm_compute in y in change y with v.
Ltac numbers3 g := numbers (g sha256_compression); numbers (g sha512_compression); numbers (g keccak_permutation).
Lemma sign_block_time cfg p PK M SIG w b : plausible w -> In b (blocks_of (slh_of p)) ->
  2 * time w (fun q => sign_runs cfg p PK M SIG q b) <= time w (twice_sign_latency cfg p).
Proof.
  intros [W1 W2] Hb. pose proof (W1 sha256_compression) as Wa. pose proof (W1 sha512_compression) as Wb. pose proof (W1 keccak_permutation) as Wc.
  assert (U : forall g, (forall q, sign_runs cfg p PK M SIG q b <= g q) -> 2 * time w g <= time w (twice_sign_latency cfg p) ->
    2 * time w (fun q => sign_runs cfg p PK M SIG q b) <= time w (twice_sign_latency cfg p)).
  { intros g Hg Hle. pose proof (time_le w _ g W1 Hg). lia. }
  destruct (in_blocks p b Hb) as [->|[(i & Hi & [->|(j & Hj & ->)])|(l & Hl & [(x & Hx & ->)|(j & Hj & ->)])]].
  - apply (U (fun q => 0)); [intros q; cbn [sign_runs]; lia|]. unfold time. rewrite <- !twice_tree.
    assert (V : forall q, 0 <= subtree_runs cfg p (ots_key_runs cfg p q) (p_h' (slh_of p) - 1) q + H_runs cfg p q).
    { intros q. pose proof (sign_tree_le cfg p PK M SIG 0 0 q ltac:(pose proof (k_range p); lia)) as X. cbn [sign_runs] in X. unfold subtree_runs in X at 1.
      pose proof (ots_nonneg cfg p q). pose proof (T_nonneg cfg p 2 q ltac:(lia)). unfold H_runs in *. lia. }
    pose proof (Z.mul_nonneg_nonneg _ _ Wa (V sha256_compression)). pose proof (Z.mul_nonneg_nonneg _ _ Wb (V sha512_compression)). pose proof (Z.mul_nonneg_nonneg _ _ Wc (V keccak_permutation)). lia.
  - apply (U (fun q => PRF_runs cfg p q + fors_leaf_runs cfg p q)); [intros q; cbn [sign_runs]; lia|].
    clear U Hi Hb. destruct cfg as [c1 c2 c3 c4 c5 opt c6 c7 c8 c9]. unfold time.
    destruct opt, p;
    match goal with |- context [twice_sign_latency ?c ?s] =>
      numbers3 (twice_sign_latency c s); numbers3 (fun q => PRF_runs c s q + fors_leaf_runs c s q) end; lia.
  - apply (U (fun q => subtree_runs cfg p (fors_leaf_runs cfg p q) (p_a (slh_of p) - 1) q + H_runs cfg p q + T_runs cfg p (p_k (slh_of p)) q + of_ (wide p) 1 q)); [intros q; apply sign_path_le; assumption|].
    clear U Hi Hj Hb. destruct cfg as [c1 c2 c3 c4 c5 opt c6 c7 c8 c9]. unfold time.
    destruct opt, p;
    match goal with |- context [twice_sign_latency ?c ?s] =>
      numbers3 (twice_sign_latency c s);
      numbers3 (fun q => subtree_runs c s (fors_leaf_runs c s q) (p_a (slh_of s) - 1) q + H_runs c s q + T_runs c s (p_k (slh_of s)) q + of_ (wide s) 1 q) end; lia.
  - apply (U (fun q => PRF_runs cfg p q + 15 * F_runs cfg p q + ots_key_runs cfg p q)); [intros q; apply sign_chain_le|].
    clear U Hl Hx Hb. destruct cfg as [c1 c2 c3 c4 c5 opt c6 c7 c8 c9]. unfold time.
    destruct opt, p;
    match goal with |- context [twice_sign_latency ?c ?s] =>
      numbers3 (twice_sign_latency c s); numbers3 (fun q => PRF_runs c s q + 15 * F_runs c s q + ots_key_runs c s q) end; lia.
  - apply (U (fun q => subtree_runs cfg p (ots_key_runs cfg p q) (p_h' (slh_of p) - 1) q + H_runs cfg p q)); [intros q; apply sign_tree_le; assumption|].
    unfold time. rewrite <- !twice_tree. lia.
Qed.

(** Checking *)
Lemma H_ge cfg p q : of_ (wide p) 1 q <= H_runs cfg p q.
Proof.
  unfold H_runs, T_runs. apply of_le. destruct cfg as [c1 c2 c3 c4 c5 opt c6 c7 c8 c9]. destruct opt, p; cbv; discriminate.
Qed.
Lemma last_T cfg p q : T_runs cfg p (wlen (slh_of p)) q - begun_runs cfg p (wlen (slh_of p) - 1) q <= 3 * H_runs cfg p q /\
  T_runs cfg p (p_k (slh_of p)) q + begun_runs cfg p 0 q - begun_runs cfg p (p_k (slh_of p) - 1) q <= 2 * H_runs cfg p q.
Proof.
  destruct cfg as [c1 c2 c3 c4 c5 opt c6 c7 c8 c9]. destruct opt, p, q; vm_compute; split; discriminate.
Qed.
Lemma begun_0_le cfg p q : begun_runs cfg p 0 q <= H_runs cfg p q.
Proof. destruct cfg as [c1 c2 c3 c4 c5 opt c6 c7 c8 c9]. destruct opt, p, q; vm_compute; discriminate. Qed.
Lemma check_block_runs cfg p PK M SIG q b : In b (tl (blocks_of (slh_of p))) -> verify_runs cfg p PK M SIG q b <= check_latency cfg p q.
Proof.
  intros Hb. pose proof (in_blocks_rest p b Hb) as Hne. assert (Hb' : In b (blocks_of (slh_of p))) by (right; exact Hb).
  pose proof (PRF_nonneg cfg p q) as H1. pose proof (T_nonneg cfg p 2 q ltac:(lia)) as H2. change (T_runs cfg p 2 q) with (H_runs cfg p q) in H2.
  pose proof (H_ge cfg p q) as H3. destruct (last_T cfg p q) as [H4 H5]. pose proof (begun_0_le cfg p q) as H6. unfold check_latency, F_runs.
  destruct (in_blocks p b Hb') as [->|[(i & Hi & [->|(j & Hj & ->)])|(l & Hl & [(x & Hx & ->)|(j & Hj & ->)])]].
  - congruence.
  - cbn [verify_runs]. unfold F_runs. lia.
  - cbn [verify_runs]. pose proof (begun_next cfg p i q). destruct (j =? p_a (slh_of p) - 1); [|lia].
    destruct (Z.eqb_spec i (p_k (slh_of p) - 1)) as [->|]; lia.
  - cbn [verify_runs]. pose proof (begun_next cfg p x q). pose proof (position_range p (layer_message (slh_of p) M SIG PK l) x) as HP. unfold F_runs.
    assert ((15 - position (slh_of p) (layer_message (slh_of p) M SIG PK l) x) * PRF_runs cfg p q <= 15 * PRF_runs cfg p q) by (apply Z.mul_le_mono_nonneg_r; lia).
    destruct (Z.eqb_spec x (wlen (slh_of p) - 1)) as [->|]; lia.
  - cbn [verify_runs]. destruct ((j =? p_h' (slh_of p) - 1) && (l <? p_d (slh_of p) - 1)); lia.
Qed.

(** ** A session, and one chunk more *)
Lemma times_run_app q a b : times_run q (a ++ b) = times_run q a + times_run q b.
Proof. unfold times_run. rewrite filter_app, app_length. lia. Qed.
Lemma trace_bind {A B} (x : leaky A) (f : A -> leaky B) a : result x = Ok a -> trace (lbind x f) = trace x ++ trace (f a).
Proof. unfold result, trace, lbind. intros ->. reflexivity. Qed.
Lemma feeds_snoc cfg fd q fs : forall c os d, result (l_feeds cfg fs c) = Ok (os, d) ->
  (exists y, ts_update_verify cfg (fd_mem fd) (fd_chunk fd) (zlen (fd_chunk fd)) d = Ok y) ->
  times_run q (trace (l_feeds cfg (fs ++ [fd]) c)) =
    times_run q (trace (l_feeds cfg fs c)) + times_run q (trace (l_ts_update_verify cfg (fd_mem fd) (fd_chunk fd) (zlen (fd_chunk fd)) d)).
Proof.
  induction fs as [|f fs IH]; intros c os d H ([r y] & Y).
  - cbn [l_feeds] in H. assert (c = d) as <- by (unfold result, lret in H; cbn [snd] in H; congruence). cbn [app l_feeds].
    rewrite <- (er_update_verify cfg) in Y. rewrite (trace_bind _ _ _ Y). cbn [l_feeds]. rewrite times_run_app.
    change (trace (lret ([], c))) with (@nil event). change (times_run q []) with 0.
    unfold lbind, lret. cbn [snd fst trace app]. change (times_run q []) with 0. lia.
  - cbn [app l_feeds] in H |- *. rewrite result_bind in H.
    destruct (result (l_ts_update_verify cfg (fd_mem f) (fd_chunk f) (zlen (fd_chunk f)) c)) as [[r1 c1]|] eqn:E1; cbn [bind] in H; [|discriminate].
    rewrite result_bind in H. destruct (result (l_feeds cfg fs c1)) as [[os1 d1]|] eqn:E2; cbn [bind] in H; [|discriminate].
    assert (d1 = d) as -> by (unfold result, lret in H; cbn [snd] in H; congruence).
    specialize (IH c1 os1 d E2 (ex_intro _ (r, y) Y)).
    assert (E3 : exists z, result (l_feeds cfg (fs ++ [fd]) c1) = Ok z).
    { rewrite er_feeds in E2 |- *. unfold feed_calls in *. rewrite map_app. rewrite (PropVerify.calls_app cfg _ _ _ _ _ E2). cbn [map calls call bind]. rewrite Y. cbn [bind]. eexists. reflexivity. }
    destruct E3 as ([os3 d3] & E3).
    rewrite !(trace_bind _ _ _ E1), (trace_bind _ _ _ E2), (trace_bind _ _ _ E3), !times_run_app, IH.
    change (times_run q (trace (lret (Updated r1 :: os1, d)))) with 0. change (times_run q (trace (lret (Updated r1 :: os3, d3)))) with 0. lia.
Qed.
Lemma session_snoc cfg m0 msg l p pk fd q fs c os d : result (l_verify_session cfg m0 msg l p pk fs c) = Ok (os, d) ->
  (exists y, ts_update_verify cfg (fd_mem fd) (fd_chunk fd) (zlen (fd_chunk fd)) d = Ok y) ->
  times_run q (trace (l_verify_session cfg m0 msg l p pk (fs ++ [fd]) c)) =
    times_run q (trace (l_verify_session cfg m0 msg l p pk fs c)) + times_run q (trace (l_ts_update_verify cfg (fd_mem fd) (fd_chunk fd) (zlen (fd_chunk fd)) d)).
Proof.
  intros H [y Y]. unfold l_verify_session in H |- *. rewrite result_bind in H.
  destruct (result (l_ts_init_verify cfg m0 c msg l (the_ps cfg p) pk)) as [c1|] eqn:E1; cbn [bind] in H; [|discriminate].
  rewrite result_bind in H. destruct (result (l_feeds cfg fs c1)) as [[os1 d1]|] eqn:E2; cbn [bind] in H; [|discriminate].
  assert (d1 = d) as -> by (unfold result, lret in H; cbn [snd] in H; congruence).
  pose proof (feeds_snoc cfg fd q fs c1 os1 d E2 (ex_intro _ y Y)) as IH.
  assert (E3 : exists z, result (l_feeds cfg (fs ++ [fd]) c1) = Ok z).
  { rewrite er_feeds in E2 |- *. unfold feed_calls in *. rewrite map_app. rewrite (PropVerify.calls_app cfg _ _ _ _ _ E2). cbn [map calls call bind]. rewrite Y. destruct y. cbn [bind]. eexists. reflexivity. }
  destruct E3 as ([os3 d3] & E3).
  rewrite !(trace_bind _ _ _ E1), (trace_bind _ _ _ E2), (trace_bind _ _ _ E3), !times_run_app, IH.
  change (times_run q (trace (lret (Started :: os1, d)))) with 0. change (times_run q (trace (lret (Started :: os3, d3)))) with 0. lia.
Qed.
