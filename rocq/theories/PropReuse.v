(** * What signatures under one private key have in common (C37, C38)

    SLH-DSA is built from one-time and few-time signature keys, all derived from one
    private key.  It is secure only as long as a one-time key never signs two different
    values.  Numbering of the key pairs, the parts of a signature and the value that a
    key pair signs: SpecReuse.v. *)
From Verif Require Import Arr SpecSLH SpecApi SpecMap SpecSessions SpecReuse ModelParams ModelCtx ModelKeygen ModelApi PfApi PfKeygen PfComplete PfSession PfReuse PropSign.
Ltac Zify.zify_post_hook ::= idtac.

(** [S] came out of a complete signing session for message [M] under the private key
    [SK], in a build [cfg]: any context contents, addresses, randomness, requests. *)
Definition produced (cfg : config) (p : ps_name) (SK M S : list Z) : Prop :=
  exists c m0 msg sk f rqs os c',
    ps_enabled cfg p = true /\ wf_ctx cfg c /\
    sign_init_ok m0 msg M p sk SK f /\ Forall (request_ok sk SK) rqs /\
    ts_size_signature (the_ps cfg p) <= asked rqs /\
    calls cfg (sign_history m0 msg (len M) p sk f rqs) c = Ok (Started :: os, c') /\
    S = concat (map taken os).

Lemma produced_eq cfg p SK M S : produced cfg p SK M S -> exists addrnd,
  is_bytes SK /\ len SK = 4 * p_n (slh_of p) /\ is_bytes M /\ is_bytes addrnd /\ S = slh_sign_internal (slh_of p) M SK addrnd.
Proof.
  intros (c & m0 & msg & sk & f & rqs & os & c' & on & W & HI & HR & HA & HC & ->).
  destruct (C02_signature_is_FIPS205 cfg p c m0 msg M sk SK f rqs on W HI HR HA) as (os2 & c2 & E & ET).
  rewrite HC in E. injection E as <- _. rewrite ET. destruct HI as (H1 & H2 & H3 & H4 & H5).
  eexists. split; [apply H1|]. split; [exact H2|]. split; [apply H3|]. split; [|reflexivity].
  exact (randomness_bytes f _ _ H5 (PfSpec.slice_bytes SK _ _ (proj1 H1))).
Qed.

(** The two seeds that all one-time and few-time keys are derived from *)
Definition sk_seed (p : ps_name) (SK : list Z) : list Z := slice SK 0 (p_n (slh_of p)).
Definition pk_seed (p : ps_name) (SK : list Z) : list Z := slice SK (2 * p_n (slh_of p)) (p_n (slh_of p)).
(** The digest that goes with [M] and its signature [S]: computable from public data *)
Definition digest (p : ps_name) (SK M S : list Z) : list Z :=
  digest_of (slh_of p) (skipn (Z.to_nat (2 * p_n (slh_of p))) SK) M S.

Section Keys.
Variable p : ps_name.
Local Notation P := (slh_of p).

(** C37: on every layer the signature contains exactly one one-time signature, at
    the position given by the digest, and what it signs there is a function of the seeds
    and that position: neither the message nor its digest nor the randomness. *)
Theorem C37_what_one_time_keys_sign : forall cfg SK M S, produced cfg p SK M S ->
  forall j, 0 <= j < p_d P ->
  let q := ots_index P (digest p SK M S) j in
  0 <= q < 2 ^ (p_h P - p_h' P * j) /\
  part_layer P S j =
    xmss_sign P (pk_seed p SK) (ots_message P (pk_seed p SK) (sk_seed p SK) j q) (sk_seed p SK)
      (q mod 2 ^ p_h' P) (mkADRS j (q / 2 ^ p_h' P) 0 0 0 0).
Proof.
  intros cfg SK M S H j Hj. destruct (produced_eq _ _ _ _ _ H) as (addrnd & BK & LK & BM & BA & ->).
  destruct (sig_parts p SK BK LK M addrnd BM BA) as (_ & _ & _ & X). split; [|exact (X j Hj)]. clear X.
  unfold ots_index, fts_index. set (D := digest p _ _ _).
  assert (B : p_h P = p_h' P * p_d P /\ 0 < p_h' P /\ 0 < p_d P /\ p_h P / p_d P = p_h' P) by (destruct p; cbv; intuition congruence).
  destruct B as (B1 & B2 & B3 & B4).
  assert (0 <= idx_leaf_of P D < 2 ^ p_h' P) by (unfold idx_leaf_of; rewrite B4; apply Z.mod_pos_bound, Z.pow_pos_nonneg; lia).
  assert (0 <= p_h P - p_h' P) by nia.
  assert (0 <= idx_tree_of P D < 2 ^ (p_h P - p_h' P)) by (unfold idx_tree_of; rewrite B4; apply Z.mod_pos_bound, Z.pow_pos_nonneg; lia).
  assert (0 <= p_h' P * j <= p_h P) by nia.
  assert (0 < 2 ^ (p_h' P * j)) by (apply Z.pow_pos_nonneg; lia).
  split; [apply Z.div_pos; nia|]. apply Z.div_lt_upper_bound; [lia|]. rewrite <- Z.pow_add_r by lia.
  replace (p_h' P * j + (p_h P - p_h' P * j)) with ((p_h P - p_h' P) + p_h' P) by lia. rewrite Z.pow_add_r by lia. nia.
Qed.

(** C37: hence whenever two signatures, of any messages, by any builds, under keys with
    these seeds, use the same one-time key, they contain the same one-time signature
    and authentication path. *)
Theorem C37_one_time_keys_sign_once : forall cfg1 cfg2 SK1 SK2 M1 M2 S1 S2,
  produced cfg1 p SK1 M1 S1 -> produced cfg2 p SK2 M2 S2 ->
  sk_seed p SK1 = sk_seed p SK2 -> pk_seed p SK1 = pk_seed p SK2 ->
  forall j, 0 <= j < p_d P ->
  ots_index P (digest p SK1 M1 S1) j = ots_index P (digest p SK2 M2 S2) j ->
  part_layer P S1 j = part_layer P S2 j.
Proof.
  intros cfg1 cfg2 SK1 SK2 M1 M2 S1 S2 H1 H2 Es Ep j Hj Eq.
  destruct (C37_what_one_time_keys_sign _ _ _ _ H1 j Hj) as [_ ->].
  destruct (C37_what_one_time_keys_sign _ _ _ _ H2 j Hj) as [_ ->].
  rewrite Es, Ep, Eq. reflexivity.
Qed.

(** C38: of each FORS tree the signature contains exactly the secret value that the
    digest selects, and its authentication path. *)
Theorem C38_what_few_time_keys_reveal : forall cfg SK M S, produced cfg p SK M S ->
  forall i, 0 <= i < p_k P ->
  let D := digest p SK M S in
  let q := fts_index P D in
  let A := mkADRS 0 (q / 2 ^ p_h' P) FORS_TREE (q mod 2 ^ p_h' P) 0 0 in
  0 <= q < 2 ^ p_h P /\ 0 <= fts_leaf P D i < 2 ^ p_a P /\
  part_fors P S i =
    fors_skGen P (pk_seed p SK) (sk_seed p SK) A (i * 2 ^ p_a P + fts_leaf P D i) ++
    flat_map (fun j => fors_node P (pk_seed p SK) (sk_seed p SK)
                         (i * 2 ^ (p_a P - j) + Z.lxor (fts_leaf P D i / 2 ^ j) 1) (Z.to_nat j) A)
      (upto (p_a P)).
Proof.
  intros cfg SK M S H i Hi. destruct (produced_eq _ _ _ _ _ H) as (addrnd & BK & LK & BM & BA & ->).
  destruct (sig_parts p SK BK LK M addrnd BM BA) as (_ & _ & X & _). cbv zeta.
  set (D := digest p _ _ _) in *.
  assert (B : p_h P = p_h' P * p_d P /\ 0 < p_h' P /\ 0 < p_d P /\ p_h P / p_d P = p_h' P /\ 0 < p_k P /\ 0 < p_a P) by (destruct p; cbv; intuition congruence).
  destruct B as (B1 & B2 & B3 & B4 & B5 & B6).
  assert (0 <= p_h P - p_h' P) by nia.
  assert (L : 0 <= idx_leaf_of P D < 2 ^ p_h' P) by (unfold idx_leaf_of; rewrite B4; apply Z.mod_pos_bound, Z.pow_pos_nonneg; lia).
  assert (T : 0 <= idx_tree_of P D < 2 ^ (p_h P - p_h' P)) by (unfold idx_tree_of; rewrite B4; apply Z.mod_pos_bound, Z.pow_pos_nonneg; lia).
  assert (EP : 2 ^ p_h P = 2 ^ (p_h P - p_h' P) * 2 ^ p_h' P) by (rewrite <- Z.pow_add_r by lia; f_equal; lia).
  assert (0 < 2 ^ p_h' P) by lia.
  split; [unfold fts_index; rewrite EP; nia|].
  split. { unfold fts_leaf. apply PfBits.base_2b_nth_range; lia. }
  assert (EA : fors_ADRS P D = mkADRS 0 (fts_index P D / 2 ^ p_h' P) FORS_TREE (fts_index P D mod 2 ^ p_h' P) 0 0).
  { unfold fors_ADRS, fts_index. rewrite Z.div_add_l, (Z.div_small (idx_leaf_of P D)), Z.add_0_r by lia.
    rewrite (Z.add_comm _ (idx_leaf_of P D)), Z.mod_add, Z.mod_small by lia. reflexivity. }
  rewrite <- EA. exact (X i Hi).
Qed.

(** C38: hence two signatures that select the same FORS key pair and the same leaf of
    one of its trees agree on that part ... *)
Theorem C38_same_leaf_same_part : forall cfg1 cfg2 SK1 SK2 M1 M2 S1 S2,
  produced cfg1 p SK1 M1 S1 -> produced cfg2 p SK2 M2 S2 ->
  sk_seed p SK1 = sk_seed p SK2 -> pk_seed p SK1 = pk_seed p SK2 ->
  forall i, 0 <= i < p_k P ->
  fts_index P (digest p SK1 M1 S1) = fts_index P (digest p SK2 M2 S2) ->
  fts_leaf P (digest p SK1 M1 S1) i = fts_leaf P (digest p SK2 M2 S2) i ->
  part_fors P S1 i = part_fors P S2 i.
Proof.
  intros cfg1 cfg2 SK1 SK2 M1 M2 S1 S2 H1 H2 Es Ep i Hi Eq El.
  destruct (C38_what_few_time_keys_reveal _ _ _ _ H1 i Hi) as (_ & _ & ->).
  destruct (C38_what_few_time_keys_reveal _ _ _ _ H2 i Hi) as (_ & _ & ->).
  rewrite Es, Ep, Eq, El. reflexivity.
Qed.

(** ... and after the first n bytes a signature depends on the message, the randomness
    and the rest of the key through the digest only. *)
Theorem C38_determined_by_the_digest : forall cfg1 cfg2 SK1 SK2 M1 M2 S1 S2,
  produced cfg1 p SK1 M1 S1 -> produced cfg2 p SK2 M2 S2 ->
  sk_seed p SK1 = sk_seed p SK2 -> pk_seed p SK1 = pk_seed p SK2 ->
  digest p SK1 M1 S1 = digest p SK2 M2 S2 ->
  skipn (Z.to_nat (p_n P)) S1 = skipn (Z.to_nat (p_n P)) S2.
Proof.
  intros cfg1 cfg2 SK1 SK2 M1 M2 S1 S2 H1 H2 Es Ep ED.
  destruct (produced_eq _ _ _ _ _ H1) as (a1 & BK1 & LK1 & BM1 & BA1 & ->).
  destruct (produced_eq _ _ _ _ _ H2) as (a2 & BK2 & LK2 & BM2 & BA2 & ->).
  apply sig_tail; assumption.
Qed.

End Keys.

(** ** A case that meets the hypotheses: the session of PropSign *)
Example ex_produced : exists S, produced full_cfg SHA2_128f ex_SK ex_M S.
Proof.
  destruct ex_sign_hypotheses as (on & W & HI & HR & HA & _).
  destruct (C02_signature_is_FIPS205 _ _ _ _ _ _ _ _ _ _ on W HI HR HA) as (os & c' & E & _).
  eexists. exists (zero_ctx full_cfg (the_ps full_cfg SHA2_128f)), ex_mem, 1064, 1000, ex_rng, ex_rqs, os, c'.
  split; [exact on|]. split; [exact W|]. split; [exact HI|]. split; [exact HR|]. split; [exact HA|]. split; [exact E|reflexivity].
Qed.
(** Keys are shared by different signatures all the time: layer d - 1 has 2^h' one-time
    keys, which is 8 for SHA2-128f. *)
Example ex_reuse : forall p,
  p_h (slh_of p) - p_h' (slh_of p) * (p_d (slh_of p) - 1) = p_h' (slh_of p) /\
  (p = SHA2_128f -> p_h' (slh_of p) = 3).
Proof. intros p. destruct p; (split; [reflexivity|]); intros E; try discriminate E; reflexivity. Qed.

Print Assumptions C37_what_one_time_keys_sign.
Print Assumptions C37_one_time_keys_sign_once.
Print Assumptions C38_what_few_time_keys_reveal.
Print Assumptions C38_same_leaf_same_part.
Print Assumptions C38_determined_by_the_digest.
