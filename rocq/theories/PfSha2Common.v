(** * Lemmas about the SHA-2 specification (both word sizes) *)
From Verif Require Import Arr SpecSha2.

Definition word_range (w x : Z) : Prop := 0 <= x < 2 ^ w.

Lemma testbit_high w x i : 0 <= x < 2 ^ w -> w <= i -> Z.testbit x i = false.
Proof.
  intros Hx Hi. destruct (Z.eq_dec x 0) as [->|Hn]; [apply Z.bits_0|].
  apply Z.bits_above_log2; [lia|].
  apply Z.log2_lt_pow2; [lia|].
  eapply Z.lt_le_trans; [apply Hx|]. apply Z.pow_le_mono_r; [lia|exact Hi].
Qed.

Lemma range_of_bits w x : 0 <= w -> 0 <= x -> (forall i, w <= i -> Z.testbit x i = false) ->
  0 <= x < 2 ^ w.
Proof.
  intros Hw Hx H. split; [exact Hx|].
  assert (E : x = x mod 2 ^ w).
  { apply Z.bits_inj'; intros i Hi. destruct (Z.lt_ge_cases i w).
    - rewrite Z.mod_pow2_bits_low by lia. reflexivity.
    - rewrite Z.mod_pow2_bits_high by lia. apply H; lia. }
  rewrite E. apply Z.mod_pos_bound. apply Z.pow_pos_nonneg; lia.
Qed.

Section S.
Variable v : variant.
Local Notation w := (v_w v).
Hypothesis Hw : 0 < w.
Hypothesis Hw8 : w mod 8 = 0.
Local Notation wb := (Z.to_nat (w / 8)).

Lemma mod_range x : 0 <= x mod 2 ^ w < 2 ^ w.
Proof. apply Z.mod_pos_bound, Z.pow_pos_nonneg; lia. Qed.

Lemma extend_length k W : length (extend v k W) = (length W + k)%nat.
Proof.
  revert W; induction k as [|k IH]; intros W; cbn [extend]; [lia|].
  rewrite IH, app_length; cbn [length]; lia.
Qed.
Lemma extend_prefix k W : exists R, extend v k W = W ++ R.
Proof.
  revert W; induction k as [|k IH]; intros W; cbn [extend].
  - exists []. rewrite app_nil_r; reflexivity.
  - destruct (IH (W ++ [next_W v W])) as [R E]. rewrite E, <- app_assoc. eauto.
Qed.
Lemma extend_nth_low k W t : (t < length W)%nat -> nth t (extend v k W) 0 = nth t W 0.
Proof. intros H. destruct (extend_prefix k W) as [R ->]. apply app_nth1, H. Qed.
Lemma extend_nth_high k W t : (length W <= t < length W + k)%nat ->
  nth t (extend v k W) 0 = next_W v (firstn t (extend v k W)).
Proof.
  revert W; induction k as [|k IH]; intros W H; [lia|]. cbn [extend].
  destruct (Nat.eq_dec t (length W)) as [->|Hne].
  - rewrite extend_nth_low by (rewrite app_length; cbn; lia).
    rewrite nth_middle. f_equal.
    destruct (extend_prefix k (W ++ [next_W v W])) as [R ->].
    rewrite <- app_assoc, firstn_app_exact; reflexivity.
  - apply IH. rewrite app_length; cbn [length]; lia.
Qed.
Lemma next_W_range W : 0 <= next_W v W < 2 ^ w.
Proof. apply mod_range. Qed.
Lemma extend_ok k W : Forall (word_range w) W -> Forall (word_range w) (extend v k W).
Proof.
  revert W; induction k as [|k IH]; intros W H; cbn [extend]; [exact H|].
  apply IH, Forall_app; split; [exact H|]. constructor; [apply next_W_range|constructor].
Qed.

Variable blk : list Z.
Hypothesis Hblk : is_bytes blk.
Hypothesis Hlen : length blk = (16 * wb)%nat.
Hypothesis HK : (16 <= length (v_K v))%nat.

Lemma wb_pos : (0 < wb)%nat.
Proof. lia. Qed.

Lemma blocks_length {A} n (l : list A) : length (blocks n l) = (length l / n)%nat.
Proof. unfold blocks; rewrite map_length, seq_length; reflexivity. Qed.
Lemma blocks_nth {A} n (l : list A) i d : (i < length l / n)%nat ->
  nth i (blocks n l) d = firstn n (skipn (i * n) l).
Proof.
  intros H. unfold blocks.
  rewrite (nth_indep _ d (firstn n (skipn (O * n) l))) by (rewrite map_length, seq_length; exact H).
  rewrite (map_nth (fun i => firstn n (skipn (i * n) l))), seq_nth by exact H. reflexivity.
Qed.

Lemma block_words : length (blocks wb blk) = 16%nat.
Proof. rewrite blocks_length, Hlen. apply Nat.div_mul. pose proof wb_pos; lia. Qed.
Lemma load_words_ok : Forall (word_range w) (map toInt (blocks wb blk)).
Proof.
  apply Forall_forall; intros x Hx. apply in_map_iff in Hx; destruct Hx as (b & <- & Hb).
  unfold blocks in Hb. apply in_map_iff in Hb; destruct Hb as (i & <- & Hi).
  apply in_seq in Hi. pose proof wb_pos as Hp.
  assert (Hd : (length blk / wb = 16)%nat) by (rewrite Hlen; apply Nat.div_mul; lia).
  assert (L : length (firstn wb (skipn (i * wb) blk)) = wb).
  { apply firstn_len. rewrite skipn_length, Hlen. nia. }
  pose proof (toInt_range (firstn wb (skipn (i * wb) blk))) as H.
  rewrite L in H. unfold word_range.
  replace (2 ^ w) with (256 ^ Z.of_nat wb); [apply H; apply Forall_firstn', Forall_skipn', Hblk|].
  change 256 with (2 ^ 8). rewrite <- Z.pow_mul_r by lia. f_equal. lia.
Qed.
Lemma schedule_length : length (schedule v blk) = length (v_K v).
Proof. unfold schedule. rewrite extend_length, map_length, block_words. lia. Qed.
Lemma schedule_range : Forall (word_range w) (schedule v blk).
Proof. apply extend_ok, load_words_ok. Qed.
Lemma schedule_low t : (t < 16)%nat ->
  nth t (schedule v blk) 0 = toInt (firstn wb (skipn (t * wb) blk)).
Proof.
  intros Ht. unfold schedule.
  rewrite extend_nth_low by (rewrite map_length, block_words; exact Ht).
  change 0 with (toInt []) at 1. rewrite map_nth. f_equal. apply blocks_nth.
  rewrite Hlen, Nat.div_mul by (pose proof wb_pos; lia). exact Ht.
Qed.
Lemma schedule_high t : (16 <= t < length (v_K v))%nat ->
  let W := schedule v blk in
  nth t W 0 = (small_sigma w (v_sigma1 v) (nth (t - 2) W 0) + nth (t - 7) W 0
               + small_sigma w (v_sigma0 v) (nth (t - 15) W 0) + nth (t - 16) W 0) mod 2 ^ w.
Proof.
  intros Ht W. unfold W at 1. unfold schedule.
  rewrite extend_nth_high by (rewrite map_length, block_words; lia).
  fold (schedule v blk). unfold next_W.
  rewrite firstn_len by (rewrite schedule_length; lia).
  rewrite !nth_firstn by lia. reflexivity.
Qed.
End S.

(** ** Word operations *)
Lemma ROTR_range w n x : 0 <= n < w -> 0 <= x < 2 ^ w -> 0 <= ROTR w n x < 2 ^ w.
Proof.
  intros Hn Hx. apply range_of_bits; [lia| |].
  - apply Z.lor_nonneg; split; [apply Z.shiftr_nonneg; lia|].
    apply Z.mod_pos_bound, Z.pow_pos_nonneg; lia.
  - intros i Hi. unfold ROTR. rewrite Z.lor_spec, Z.shiftr_spec, Z.mod_pow2_bits_high by lia.
    rewrite (testbit_high w) by lia. reflexivity.
Qed.
Lemma SHR_range w n x : 0 <= n -> 0 <= w -> 0 <= x < 2 ^ w -> 0 <= SHR n x < 2 ^ w.
Proof.
  intros Hn Hw Hx. apply range_of_bits; [lia|apply Z.shiftr_nonneg; lia|].
  intros i Hi. unfold SHR. rewrite Z.shiftr_spec by lia. apply (testbit_high w); lia.
Qed.
Lemma lxor_range w a b : 0 <= w -> 0 <= a < 2 ^ w -> 0 <= b < 2 ^ w -> 0 <= Z.lxor a b < 2 ^ w.
Proof.
  intros Hw Ha Hb. apply range_of_bits; [lia|apply Z.lxor_nonneg; lia|].
  intros i Hi. rewrite Z.lxor_spec, !(testbit_high w) by lia. reflexivity.
Qed.
Lemma land_range w a b : 0 <= w -> 0 <= a < 2 ^ w -> 0 <= b < 2 ^ w -> 0 <= Z.land a b < 2 ^ w.
Proof.
  intros Hw Ha Hb. apply range_of_bits; [lia|apply Z.land_nonneg; lia|].
  intros i Hi. rewrite Z.land_spec, !(testbit_high w) by lia. reflexivity.
Qed.
Lemma ch_eq w x y z : 0 <= w -> 0 <= x < 2 ^ w -> 0 <= y < 2 ^ w -> 0 <= z < 2 ^ w ->
  Z.lxor z (Z.land x (Z.lxor y z)) = Ch w x y z.
Proof.
  intros Hw Hx Hy Hz. unfold Ch, bnot. apply Z.bits_inj'; intros i Hi.
  repeat rewrite ?Z.lxor_spec, ?Z.land_spec.
  destruct (Z.lt_ge_cases i w).
  - rewrite Z.ones_spec_low by lia.
    destruct (Z.testbit x i), (Z.testbit y i), (Z.testbit z i); reflexivity.
  - rewrite !(testbit_high w) by lia. destruct (Z.testbit (Z.ones w) i); reflexivity.
Qed.
Lemma maj_eq x y z : Z.lor (Z.land (Z.lor x y) z) (Z.land x y) = Maj x y z.
Proof.
  unfold Maj. apply Z.bits_inj'; intros i Hi.
  repeat rewrite ?Z.lxor_spec, ?Z.land_spec, ?Z.lor_spec.
  destruct (Z.testbit x i), (Z.testbit y i), (Z.testbit z i); reflexivity.
Qed.
