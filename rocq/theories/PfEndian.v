(** * Proofs about endian.c *)
From Verif Require Import Arr ModelEndian.

Lemma u64_idem x : u64 (u64 x) = u64 x.
Proof. unfold u64. apply Z.mod_mod; lia. Qed.

(** Horner's rule with wrap-around is the big-endian value modulo 2^64. *)
Lemma bytes_to_ull_firstn p n : 0 <= n <= zlen p ->
  ts_bytes_to_ull p n = Ok (u64 (toInt (firstn (Z.to_nat n) p))).
Proof.
  intros Hn. unfold ts_bytes_to_ull.
  destruct (for_loop_inv (fun i s => s = u64 (toInt (firstn (Z.to_nat i) p)))
    (fun i res => b <- rd p i ;; Ok (u64 (256 * res + b))) (Z.to_nat n) 0 0) as (s & E & H).
  - reflexivity.
  - intros i s Hi ->. unfold zlen in Hn.
    rewrite (rd_ok p i 0) by (unfold zlen; lia). cbn [bind]. eexists; split; [reflexivity|].
    replace (Z.to_nat (i + 1)) with (S (Z.to_nat i)) by lia.
    rewrite (firstn_S_nth _ p 0) by lia. rewrite toInt_snoc.
    unfold u64. rewrite <- Zplus_mod_idemp_l, Zmult_mod_idemp_r, Zplus_mod_idemp_l. reflexivity.
  - rewrite E. subst s. f_equal. f_equal. f_equal. f_equal. lia.
Qed.

Lemma bytes_to_ull_small p n : is_bytes p -> 0 <= n <= 8 -> zlen p = n ->
  ts_bytes_to_ull p n = Ok (toInt p).
Proof.
  intros Hp Hn Hl. rewrite bytes_to_ull_firstn by lia. unfold zlen in Hl.
  rewrite firstn_all2 by lia. f_equal. unfold u64. apply Z.mod_small.
  pose proof (toInt_range p Hp) as H. rewrite Hl in H.
  assert (256 ^ n <= 256 ^ 8) by (apply Z.pow_le_mono_r; lia).
  change (2 ^ 64) with (256 ^ 8). lia.
Qed.

Lemma ull_to_bytes_toByte v n : 0 <= v -> ull_to_bytes v n = toByte v n.
Proof.
  revert v; induction n as [|n IH]; intros v Hv; [reflexivity|].
  cbn [ull_to_bytes toByte]. rewrite Z.shiftr_div_pow2 by lia. change (2 ^ 8) with 256.
  rewrite IH by (apply Z.div_pos; lia). f_equal. f_equal.
  change 255 with (Z.ones 8). rewrite Z.land_ones by lia. reflexivity.
Qed.
Lemma ts_ull_to_bytes_eq v n : ts_ull_to_bytes v n = toByte (u64 v) (Z.to_nat n).
Proof. apply ull_to_bytes_toByte. unfold u64; apply Z.mod_pos_bound; lia. Qed.
Lemma ts_ull_to_bytes_small v n : 0 <= v < 2 ^ 64 -> ts_ull_to_bytes v n = toByte v (Z.to_nat n).
Proof. intros H; rewrite ts_ull_to_bytes_eq. unfold u64; rewrite Z.mod_small by exact H. reflexivity. Qed.

Lemma write_then_read v n : 0 <= n <= 8 -> 0 <= v < 256 ^ n ->
  ts_bytes_to_ull (ts_ull_to_bytes v n) n = Ok v.
Proof.
  intros Hn Hv. assert (256 ^ n <= 256 ^ 8) by (apply Z.pow_le_mono_r; lia).
  rewrite ts_ull_to_bytes_small by (change (2 ^ 64) with (256 ^ 8); lia).
  rewrite bytes_to_ull_small; auto using toByte_bytes.
  - f_equal. apply toInt_toByte. rewrite Z2Nat.id by lia. exact Hv.
  - unfold zlen. rewrite toByte_length. lia.
Qed.
Lemma read_then_write p n : is_bytes p -> 0 <= n <= 8 -> len p = n ->
  exists v, ts_bytes_to_ull p n = Ok v /\ 0 <= v < 256 ^ n /\ ts_ull_to_bytes v n = p.
Proof.
  intros Hp Hn Hl. exists (toInt p). rewrite bytes_to_ull_small by (unfold zlen, len in *; auto).
  pose proof (toInt_range p Hp) as R. unfold len in Hl. rewrite Hl in R.
  assert (256 ^ n <= 256 ^ 8) by (apply Z.pow_le_mono_r; lia).
  rewrite ts_ull_to_bytes_small by (change (2 ^ 64) with (256 ^ 8); lia).
  repeat split; try lia. rewrite <- Hl, Nat2Z.id. apply toByte_toInt, Hp.
Qed.
