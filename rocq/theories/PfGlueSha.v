(** * The hash state interface used by the glue code, in one form for each function *)
From Verif Require Import Arr SpecSha2 SpecSLH SpecKeccak ModelEndian ModelSha256 ModelSha512 ModelFips202
  ModelParams ModelCtx ModelHash PfEndian PfIter PfHashSessions.
From Verif Require PfSha256 PfSha512 PfBlocks PfShake PfKeccakBits.

Definition R256 (c : sha256_ctx) (m : list Z) : Prop := PfSha256.rep SHA256 c m.
Definition R512 (c : sha512_ctx) (m : list Z) : Prop := PfSha512.rep SHA512 c m.
Definition RK (s : list Z) (m : list Z) : Prop := PfShake.arep s m.
Definition D256 (m : list Z) : list Z := sha2 SHA256 m.
Definition D512 (m : list Z) : list Z := sha2 SHA512 m.
Definition S256 (m : list Z) : list Z := fold_left (hash_block SHA256) (blocks 64 m) (v_H0 SHA256).
Definition S512 (m : list Z) : list Z := fold_left (hash_block SHA512) (blocks 128 m) (v_H0 SHA512).

Lemma R256_init c : shape256 c -> R256 (ts_SHA256_init c) [].
Proof. intros (A & B & C). apply PfSha256.repx_init; auto using PfSha256.SHA256_is. Qed.
Lemma R512_init c : shape512 c -> R512 (ts_SHA512_init c) [].
Proof. intros (A & B & C). apply PfSha512.repx_init; auto using PfSha512.SHA512_is. Qed.
Lemma R256_update le c m p : R256 c m -> is_bytes p ->
  exists c', ts_SHA256_update le c p = Ok c' /\ R256 c' (m ++ p).
Proof. apply PfSha256.update_spec, PfSha256.SHA256_is. Qed.
Lemma R512_update le c m p : R512 c m -> is_bytes p ->
  exists c', ts_SHA512_update le c p = Ok c' /\ R512 c' (m ++ p).
Proof. apply PfSha512.update_spec, PfSha512.SHA512_is. Qed.
Lemma X256_shape c m : PfSha256.repx SHA256 c m -> shape256 c.
Proof.
  intros H. destruct (PfSha256.repx_ctx_ok SHA256 PfSha256.SHA256_is c m H) as ([A _] & _ & B & C).
  split; [exact A|]. split; [exact C|exact B].
Qed.
Lemma X512_shape c m : PfSha512.repx SHA512 c m -> shape512 c.
Proof.
  intros H. destruct (PfSha512.repx_ctx_ok SHA512 PfSha512.SHA512_is c m H) as ([A _] & _ & B & C).
  split; [exact A|]. split; [exact C|exact B].
Qed.
Lemma R256_shape c m : R256 c m -> shape256 c.
Proof. intros [H _]. eapply X256_shape, H. Qed.
Lemma R512_shape c m : R512 c m -> shape512 c.
Proof. intros [H _]. eapply X512_shape, H. Qed.
Lemma R256_ranged c m : R256 c m -> ranged256 c.
Proof.
  intros [H Hc]. destruct (PfSha256.repx_ctx_ok SHA256 PfSha256.SHA256_is c m H) as ([_ A] & B & _).
  split; [exact A|]. split; [rewrite Hc; unfold u64; apply Z.mod_pos_bound; lia|lia].
Qed.
Lemma R512_ranged c m : R512 c m -> ranged512 c.
Proof.
  intros [H Hc]. destruct (PfSha512.repx_ctx_ok SHA512 PfSha512.SHA512_is c m H) as ([_ A] & B & _).
  split; [exact A|]. split; [rewrite Hc; unfold u64; apply Z.mod_pos_bound; lia|lia].
Qed.
Lemma R256_final le c m k : R256 c m -> zlen m < 2 ^ 61 -> (k <= 8)%nat ->
  exists c', ts_SHA256_final_trunc le c (4 * Z.of_nat k) = Ok (Trunc (4 * Z.of_nat k) (D256 m), c')
    /\ shape256 c'.
Proof.
  intros H Hl Hk.
  destruct (PfSha256.final_trunc_spec SHA256 PfSha256.SHA256_is le c m k H) as (c' & Ec & m' & Hx).
  - change (len m) with (zlen m). lia.
  - exact Hk.
  - exists c'. rewrite Ec. split; [|eapply X256_shape, Hx].
    unfold Trunc, D256. do 3 f_equal. clear; lia.
Qed.
Lemma R512_final le c m k : R512 c m -> zlen m < 2 ^ 61 -> (k <= 8)%nat ->
  exists c', ts_SHA512_final_trunc le c (8 * Z.of_nat k) = Ok (Trunc (8 * Z.of_nat k) (D512 m), c')
    /\ shape512 c'.
Proof.
  intros H Hl Hk.
  destruct (PfSha512.final_trunc_spec SHA512 PfSha512.SHA512_is le c m k H) as (c' & Ec & m' & Hx).
  - change (len m) with (zlen m). lia.
  - exact Hk.
  - exists c'. rewrite Ec. split; [|eapply X512_shape, Hx].
    unfold Trunc, D512. do 3 f_equal. clear; lia.
Qed.
Lemma D256_len m : length (D256 m) = 32%nat.
Proof. apply sha256_length. Qed.
Lemma D512_len m : length (D512 m) = 64%nat.
Proof. apply sha512_length. Qed.
Lemma flat_toByte_bytes k l : is_bytes (flat_map (fun x => toByte x k) l).
Proof. induction l; cbn [flat_map]; [constructor|]. apply bytes_app; [apply toByte_bytes|assumption]. Qed.
Lemma D256_bytes m : is_bytes (D256 m).
Proof. apply flat_toByte_bytes. Qed.
Lemma D512_bytes m : is_bytes (D512 m).
Proof. apply flat_toByte_bytes. Qed.
Lemma R256_save c m : R256 c m -> length m = 64%nat -> ts_SHA256_save_state c = Ok (S256 m).
Proof.
  intros [H _] _. rewrite (PfSha256.save_spec SHA256 PfSha256.SHA256_is c m H).
  f_equal. apply (PfSha256.rx_h SHA256 c m H).
Qed.
Lemma R512_save c m : R512 c m -> length m = 128%nat -> ts_SHA512_save_state c = Ok (S512 m).
Proof.
  intros [H _] _. rewrite (PfSha512.save_spec SHA512 PfSha512.SHA512_is c m H).
  f_equal. apply (PfSha512.rx_h SHA512 c m H).
Qed.
Lemma R256_restore c m : shape256 c -> is_bytes m -> length m = 64%nat ->
  exists c', ts_SHA256_restore_state_after_64 c (S256 m) = Ok c' /\ R256 c' m.
Proof.
  intros (A & B & C) Hm Lm. apply PfSha256.restore_spec; auto using PfSha256.SHA256_is.
Qed.
Lemma R512_restore c m : shape512 c -> is_bytes m -> length m = 128%nat ->
  exists c', ts_SHA512_restore_state_after_128 c (S512 m) = Ok c' /\ R512 c' m.
Proof.
  intros (A & B & C) Hm Lm. apply PfSha512.restore_spec; auto using PfSha512.SHA512_is.
Qed.
Lemma S256_ok m : length (S256 m) = 8%nat /\ words_ok 4 (S256 m).
Proof. apply PfSha256.fold_h_ok, PfSha256.H0_ok; apply PfSha256.SHA256_is. Qed.
Lemma S512_ok m : length (S512 m) = 8%nat /\ words_ok 8 (S512 m).
Proof. apply PfSha512.fold_h_ok, PfSha512.H0_ok; apply PfSha512.SHA512_is. Qed.
Lemma R256_final_full le c m : R256 c m -> zlen m < 2 ^ 61 ->
  exists c', ts_SHA256_final le c = Ok (D256 m, c') /\ shape256 c'.
Proof.
  intros H Hl. destruct (R256_final le c m 8 H Hl) as (c' & Ec & S); [lia|].
  exists c'. split; [|exact S]. unfold ts_SHA256_final.
  change (4 * Z.of_nat 8) with 32 in Ec. rewrite Ec.
  unfold Trunc. rewrite firstn_all2; [reflexivity|]. rewrite D256_len. reflexivity.
Qed.
Lemma R512_final_full le c m : R512 c m -> zlen m < 2 ^ 61 ->
  exists c', ts_SHA512_final le c = Ok (D512 m, c') /\ shape512 c'.
Proof.
  intros H Hl. destruct (R512_final le c m 8 H Hl) as (c' & Ec & S); [lia|].
  exists c'. split; [|exact S]. unfold ts_SHA512_final.
  change (8 * Z.of_nat 8) with 64 in Ec. rewrite Ec.
  unfold Trunc. rewrite firstn_all2; [reflexivity|]. rewrite D512_len. reflexivity.
Qed.

(** Zero padding *)
Lemma zeros_bytes' k : is_bytes (repeat 0 k).
Proof. apply Forall_repeat. unfold is_byte; lia. Qed.
Lemma toByte_zero k : toByte 0 k = repeat 0 k.
Proof.
  induction k as [|k IH]; [reflexivity|]. cbn [toByte]. change (0 / 256) with 0. rewrite IH.
  change (0 mod 256) with 0. symmetry. apply repeat_cons.
Qed.
Lemma pad256 cfg c m n : R256 c m -> 
  exists c', sha256_pad_zero cfg c n = Ok c' /\ R256 c' (m ++ repeat 0 (Z.to_nat (64 - n))).
Proof.
  intros H. unfold sha256_pad_zero. generalize n at 2 as i. generalize (Z.to_nat (64 - n)) as k.
  intros k; revert c m H; induction k as [|k IH]; intros c m H i; cbn [for_loop repeat].
  - exists c. rewrite app_nil_r. auto.
  - destruct (R256_update (cfg_le cfg) c m [0] H) as (c1 & -> & H1); [apply (zeros_bytes' 1)|]. cbn [bind].
    destruct (IH c1 _ H1 (i + 1)) as (c' & -> & H'). exists c'; split; [reflexivity|].
    rewrite <- app_assoc in H'. exact H'.
Qed.
Lemma pad512 cfg c m n : R512 c m -> 
  exists c', sha512_pad_zero cfg c n = Ok c' /\ R512 c' (m ++ repeat 0 (Z.to_nat (128 - n))).
Proof.
  intros H. unfold sha512_pad_zero. generalize n at 2 as i. generalize (Z.to_nat (128 - n)) as k.
  intros k; revert c m H; induction k as [|k IH]; intros c m H i; cbn [for_loop repeat].
  - exists c. rewrite app_nil_r. auto.
  - destruct (R512_update (cfg_le cfg) c m [0] H) as (c1 & -> & H1); [apply (zeros_bytes' 1)|]. cbn [bind].
    destruct (IH c1 _ H1 (i + 1)) as (c' & -> & H'). exists c'; split; [reflexivity|].
    rewrite <- app_assoc in H'. exact H'.
Qed.

(** SHAKE *)
Lemma RK_init s : length s = 26%nat -> exists s', ts_shake256_inc_init s = Ok s' /\ RK s' [].
Proof. apply PfShake.shake_init_ok. Qed.
Lemma RK_absorb opt s m p : RK s m -> is_bytes p -> zlen p < 2 ^ 61 ->
  exists s', ts_shake256_inc_absorb opt s p = Ok s' /\ RK s' (m ++ p).
Proof. intros H Hp Hl. apply PfShake.shake_absorb_ok; auto. lia. Qed.
Lemma RK_shape s m : RK s m -> length s = 26%nat /\ words_ok 8 s.
Proof.
  intros (L & L0 & -> & [HL Ll] & _). split; [rewrite app_length, Ll; reflexivity|].
  apply Forall_app; split; [exact HL|]. constructor; [|constructor].
  pose proof (PfShake.rest_lt m). unfold zlen. change (2 ^ (8 * Z.of_nat 8)) with 18446744073709551616. lia.
Qed.
Lemma RK_final opt s m n : RK s m -> is_bytes m -> 0 <= n ->
  exists s1, ts_shake256_inc_finalize s = Ok s1 /\
  exists s2, ts_shake256_inc_squeeze opt n s1 = Ok (shake256 m n, s2) /\ length s2 = 26%nat.
Proof.
  intros H Hm Hn. destruct (PfShake.shake_finalize_ok s m H) as (s1 & E1 & F1).
  exists s1; split; [exact E1|]. apply PfShake.frep_srep in F1.
  destruct (PfShake.shake_squeeze_ok opt s1 _ n F1 Hn) as (s2 & E2 & R2).
  exists s2. rewrite E2, PfShake.shake256_stream by exact Hm. split; [reflexivity|].
  destruct R2 as (L & k & -> & [_ HL] & _). rewrite app_length, HL. reflexivity.
Qed.
