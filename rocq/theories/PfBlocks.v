(** * Lemmas about cutting strings into blocks *)
From Verif Require Import Arr SpecBytes.

Section B.
Context {A : Type}.
Variable n : nat.
Hypothesis Hn : (0 < n)%nat.
Implicit Types l msg q : list A.

(** What is left after the complete blocks. *)
Definition rest l : list A := skipn (n * (length l / n)) l.

Lemma rest_length l : length (rest l) = (length l mod n)%nat.
Proof.
  unfold rest. rewrite skipn_length. pose proof (Nat.div_mod (length l) n). lia.
Qed.
Lemma blocks_app_exact l l' k : length l = (n * k)%nat ->
  blocks n (l ++ l') = blocks n l ++ blocks n l'.
Proof.
  intros H. unfold blocks. rewrite app_length, H.
  rewrite (Nat.mul_comm n k), Nat.div_add_l, Nat.div_mul by lia.
  rewrite seq_app, map_app. f_equal.
  - apply map_ext_in; intros i Hi. apply in_seq in Hi.
    rewrite skipn_app_le by nia. apply firstn_app_le. rewrite skipn_length; nia.
  - assert (E : forall j m, map (fun i => firstn n (skipn (i * n) (l ++ l'))) (seq (k + j) m)
                = map (fun i => firstn n (skipn (i * n) l')) (seq j m)).
    { intros j m; revert j; induction m as [|m IH]; intros j; [reflexivity|].
      cbn [seq map]. f_equal.
      - rewrite skipn_app_ge by nia. do 2 f_equal. nia.
      - rewrite <- IH. do 2 f_equal. lia. }
    specialize (E O (length l' / n)%nat). rewrite Nat.add_0_r in E. exact E.
Qed.
Lemma blocks_short l : (length l < n)%nat -> blocks n l = [].
Proof. intros H. unfold blocks. rewrite Nat.div_small by exact H. reflexivity. Qed.
Lemma blocks_one l : length l = n -> blocks n l = [l].
Proof.
  intros H. unfold blocks. rewrite H, Nat.div_same by lia. cbn.
  rewrite <- H, firstn_all. reflexivity.
Qed.
Lemma split_rest l : exists a, l = a ++ rest l /\ length a = (n * (length l / n))%nat.
Proof.
  exists (firstn (n * (length l / n)) l). split; [symmetry; apply firstn_skipn|].
  apply firstn_len. pose proof (Nat.div_mod (length l) n). lia.
Qed.
Lemma blocks_rest l : exists a, l = a ++ rest l /\ length a = (n * (length l / n))%nat
  /\ blocks n l = blocks n a.
Proof.
  destruct (split_rest l) as (a & E & La). exists a; repeat split; auto.
  rewrite E at 1. rewrite (blocks_app_exact a (rest l) _ La).
  rewrite (blocks_short (rest l)).
  - apply app_nil_r.
  - rewrite rest_length. apply Nat.mod_upper_bound; lia.
Qed.
Lemma blocks_snoc msg q : (length (rest msg) + length q = n)%nat ->
  blocks n (msg ++ q) = blocks n msg ++ [rest msg ++ q] /\ rest (msg ++ q) = [].
Proof.
  intros H. destruct (blocks_rest msg) as (a & E & La & Eb). rewrite Eb. split.
  - rewrite E at 1. rewrite <- app_assoc, (blocks_app_exact a _ _ La). f_equal.
    apply blocks_one. rewrite app_length; exact H.
  - apply length_zero_iff_nil. rewrite rest_length, app_length.
    rewrite rest_length in H. rewrite Nat.add_mod, <- (Nat.mod_mod (length msg)) by lia.
    rewrite <- Nat.add_mod by lia.
    rewrite H. apply Nat.mod_same; lia.
Qed.
Lemma blocks_more msg q : (length (rest msg) + length q < n)%nat ->
  blocks n (msg ++ q) = blocks n msg /\ rest (msg ++ q) = rest msg ++ q.
Proof.
  intros H. destruct (blocks_rest msg) as (a & E & La & Eb). split.
  - rewrite Eb, E, <- app_assoc, (blocks_app_exact a _ _ La).
    rewrite (blocks_short (rest msg ++ q)) by (rewrite app_length; exact H). apply app_nil_r.
  - unfold rest at 1. rewrite app_length. rewrite rest_length in H.
    replace ((length msg + length q) / n)%nat with (length msg / n)%nat.
    + unfold rest. rewrite skipn_app_le; [reflexivity|].
      pose proof (Nat.div_mod (length msg) n); lia.
    + apply (Nat.div_unique _ _ _ (length msg mod n + length q)); [lia|].
      pose proof (Nat.div_mod (length msg) n); lia.
Qed.
Lemma rest_nil : rest [] = [].
Proof. unfold rest. apply skipn_nil. Qed.
Lemma blocks_nil : blocks n (@nil A) = [].
Proof. apply blocks_short; exact Hn. Qed.
End B.
