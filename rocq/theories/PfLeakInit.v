(** * What key generation and ts_init_sign show to an observer *)
From Verif Require Import CSem Arr CLeak ModelParams ModelCtx ModelHash ModelSphincs ModelKeygen LeakSha2 LeakHash LeakSphincs
  PfLeakErase3 PfLeakSha PfLeakShake PfLeakHash PfLeakSphincs.
Ltac Zify.zify_post_hook ::= idtac.

Lemma sim_wr_local_any a b o s t : samelen s t -> sim any (l_wr_local a o s) (l_wr_local b o t).
Proof. intros H. unfold l_wr_local. apply sim_tick; [rewrite (samelen_zlen _ _ H); reflexivity|]. apply sim_quiet. intros; exact I. Qed.

Section Init.
Variable cfg : config.
Variables mem mem' : memory.
Variable ps : parameter_set.
Hypothesis Hcons : consistent ps.
Hypothesis Hn : 0 <= ps_n ps < 2 ^ 63.

(** As long as other members of the contexts may differ *)
Definition href (c d : ts_context) : Prop := c_ps c = ps /\ c_ps d = ps /\ c_public_key c = c_public_key d.
Lemma href_h c d : href c d -> hrel c d. Proof. intros (A & B & C). split; [congruence|exact C]. Qed.
Lemma href_n c d : href c d -> 0 <= ps_n (c_ps c) < 2 ^ 63. Proof. intros (A & B & C). rewrite A. exact Hn. Qed.

Lemma sim_extract h h' off k : sim (fun a b => snd a = snd b) (l_extract_int_from_hash h off k) (l_extract_int_from_hash h' off k).
Proof.
  unfold l_extract_int_from_hash. eapply (sim_bind (fun a b : Z * Z => snd a = snd b)).
  - apply sim_for; [|reflexivity]. intros i [s o] [s' o'] _ Q. cbn [snd] in Q. subst o'. cbv zeta.
    eapply sim_bind; [apply sim_rd|]. intros x y _ _ _. sr. reflexivity.
  - intros [s o] [s' o'] _ _ Q. cbn [snd] in Q. subst o'. eapply (sim_bind eq); [apply sim_shift_count|]. intros sh ? _ _ <-. sr. reflexivity.
Qed.
Definition bitrel (a b : list Z * Z * Z * Z) : Prop := snd (fst (fst a)) = snd (fst (fst b)) /\ snd (fst a) = snd (fst b).
Lemma sim_bit a b : bitrel a b -> sim bitrel (l_convert_bit a) (l_convert_bit b).
Proof.
  destruct a as [[[m o] s] t], b as [[[m' o'] s'] t']. intros [A B]. cbn [fst snd] in A, B. subst o' s'. unfold l_convert_bit.
  eapply (sim_bind eq). { apply sim_if; [reflexivity|intros _; sr; reflexivity|intros _; sr; reflexivity]. }
  intros [o1 s1] ? _ _ <-. eapply sim_bind; [apply sim_rd|]. intros x y _ _ _. eapply sim_bind; [apply sim_wr|]. intros m1 m2 _ _ _. cbv zeta. sr. split; reflexivity.
Qed.
Lemma sim_set_fors_node x y k v w : sim any (l_set_fors_node cfg x k v) (l_set_fors_node cfg y k w).
Proof. unfold l_set_fors_node. destruct (_ && _); [apply sim_wr_word|apply sim_ub_l]. Qed.
Definition cvrel (a b : list Z * Z * Z * ts_context) : Prop :=
  snd (fst (fst a)) = snd (fst (fst b)) /\ snd (fst a) = snd (fst b) /\ href (snd a) (snd b).
Lemma sim_convert h h' c d : href c d -> sim (fun a b => href (snd a) (snd b))
  (l_ts_convert_message_hash_to_hypertree_position cfg h c) (l_ts_convert_message_hash_to_hypertree_position cfg h' d).
Proof.
  intros H. unfold l_ts_convert_message_hash_to_hypertree_position. cbv zeta. destruct H as (A & B & C). rewrite A, B.
  eapply (sim_bind cvrel).
  - apply sim_for; [|split; [reflexivity|split; [reflexivity|split; [exact A|split; [exact B|exact C]]]]].
    intros i [[[m o] s] e] [[[m' o'] s'] f] _ (Q1 & Q2 & Q3). cbn [fst snd] in Q1, Q2, Q3. subst o' s'.
    eapply (sim_bind bitrel). { apply sim_for; [intros; apply sim_bit; assumption|split; reflexivity]. }
    intros [[[m1 o1] s1] t1] [[[m2 o2] s2] t2] _ _ [Q4 Q5]. cbn [fst snd] in Q4, Q5. subst o2 s2.
    eapply sim_bind; [apply sim_set_fors_node|]. intros x y _ _ _. sr. split; [reflexivity|split; [reflexivity|exact Q3]].
  - intros [[[m o] s] e] [[[m' o'] s'] f] _ _ (Q1 & Q2 & Q3). cbn [fst snd] in Q1, Q2, Q3. subst o' s'.
    eapply sim_bind; [apply sim_extract|]. intros [v1 p1] [v2 p2] _ _ Q. cbn [snd] in Q. subst p2. cbv zeta.
    eapply sim_bind; [apply sim_extract|]. intros [v3 p3] [v4 p4] _ _ _. sr. cbn [snd]. exact Q3.
Qed.
Lemma href_small it it' c d e f : href c d -> e = set_small_iter it c -> f = set_small_iter it' d -> href e f.
Proof. intros (A & B & C) -> ->. split; [exact A|split; [exact B|exact C]]. Qed.
(** Two random functions that look the same: both NULL, or both succeed, or both fail *)
Definition gens {R R'} (rng : random_generator R) (r : R) (rng' : random_generator R') (r' : R') : Prop :=
  match rng, rng' with
  | None, None => True
  | Some f, Some f' => (fst (fst (f r (ps_n ps))) =? 0) = (fst (fst (f' r' (ps_n ps))) =? 0)
  | _, _ => False
  end.
Lemma sim_init_sign {R R'} (rng : random_generator R) r (rng' : random_generator R') r' c d ma lm sk :
  gens rng r rng' r' -> lm < 2 ^ 63 ->
  sim any (l_ts_init_sign_gen cfg mem c ma lm ps sk rng r) (l_ts_init_sign_gen cfg mem' d ma lm ps sk rng' r').
Proof.
  intros Hg Hl. unfold l_ts_init_sign_gen. cbv zeta.
  set (c1 := set_public_key _ (set_ps ps c)). set (d1 := set_public_key _ (set_ps ps d)).
  assert (H1 : href c1 d1) by (split; [reflexivity|split; reflexivity]).
  eapply sim_bind; [apply sim_call_prehash, href_h, H1|]. intros c2 d2 _ _ [(i1 & a1 & b1 & ->) (i2 & a2 & b2 & ->)].
  set (c2 := set_prehash_sha512 b1 _). set (d2 := set_prehash_sha512 b2 _). assert (H2 : href c2 d2) by exact H1. clearbody c2 d2.
  eapply (sim_bind (fun a b : bool * list (option Z) * _ => fst (fst a) = fst (fst b))).
  { unfold gens in Hg. destruct rng as [f|], rng' as [f'|]; try contradiction; (apply sim_tick; [reflexivity|]).
    - destruct (f r (ps_n ps)) as [[ret data] r1]. destruct (f' r' (ps_n ps)) as [[ret' data'] r1']. cbn [fst] in Hg. rewrite Hg.
      eapply sim_bind; [apply (sim_quiet any); intros; exact I|]. intros x y _ _ _. sr. reflexivity.
    - sr. reflexivity. }
  intros [[ok ob] r1] [[ok' ob'] r1'] _ _ Q. cbn [fst] in Q. subst ok'.
  eapply (sim_bind any).
  { destruct H2 as (_ & _ & E). rewrite <- E. apply sim_if; [reflexivity|intros _; sr; exact I|intros _].
    eapply sim_bind; [apply sim_load|]. intros x y _ _ S. apply sim_wr_local_any, S. }
  intros ob1 ob2 _ _ _. eapply sim_bind; [apply sim_load|]. intros m1 m2 EM _ Hm.
  eapply sim_bind; [apply sim_rd_local|]. intros o1 o2 _ _ _.
  assert (Lm : zlen m1 < 2 ^ 63).
  { unfold l_load in EM. rewrite result_tick in EM. apply load_length in EM. unfold zlen. lia. }
  eapply sim_bind; [apply sim_call_prf_msg; [apply href_h, H2|eapply href_n, H2|exact Hm|exact Lm]|].
  intros [x c3] [y d3] _ _ (Hxy & (i3 & E3) & (i4 & F3)). cbn [fst snd] in *.
  assert (H3 : href c3 d3) by (eapply href_small; eassumption). clear E3 F3.
  eapply (sim_bind href).
  { cbn [l_put_buf]. eapply sim_bind; [apply sim_wr_range, Hxy|]. intros p q _ _ _. sr. exact H3. }
  intros c4 d4 _ _ H4.
  eapply sim_bind; [apply sim_call_hash_msg; [apply href_h, H4|eapply href_n, H4|unfold MAX_MESSAGE_HASH; lia|exact Hm|exact Lm]|].
  intros [mh c5] [mh' d5] _ _ (Hmh & (i5 & E5) & (i6 & F5)). cbn [fst snd] in *.
  assert (H5 : href c5 d5) by (eapply href_small; eassumption). clear E5 F5.
  eapply sim_bind; [apply sim_wr_local_any, Hmh|]. intros l1 l2 _ _ _.
  eapply sim_bind; [apply (sim_quiet any); intros; exact I|]. intros l3 l4 _ _ _.
  eapply sim_bind; [apply sim_convert, H5|]. intros [z1 c6] [z2 d6] _ _ H6. cbn [snd] in H6.
  set (c7 := set_hypertree_level 0 _). set (d7 := set_hypertree_level 0 (set_merkle_level 0 (set_fors_tree 0 (set_state ts_fors_leaf (set_buffer_offset 0 d6))))).
  assert (H7 : crel any any any ps c7 d7).
  { destruct H6 as (A & B & C). apply mkCrel; [exact A|exact B|exact C|reflexivity|reflexivity|reflexivity|reflexivity|exact I|exact I|exact I]. }
  eapply sim_bind; [apply sim_fors_root_adr; apply (cr_ps _ _ _ _ _ _ H7)|]. intros c8 d8 _ _ [(a8 & ->) (b8 & ->)].
  eapply sim_bind; [apply sim_big_init with (RX := any) (RN := any) (RM := any) (ps := ps); [exact Hn|apply crel_adr, H7]|]. intros c9 d9 _ _ _. sr. exact I.
Qed.

(** ** The root of the top tree *)
Lemma sim_gen_root sk : sim samelen (l_gen_root cfg mem sk ps) (l_gen_root cfg mem' sk ps).
Proof.
  unfold l_gen_root. cbv zeta. set (c1 := set_public_key _ _).
  assert (H1 : hrel c1 c1) by (split; reflexivity).
  eapply sim_bind; [apply sim_call_prehash, H1|]. intros c2 d2 _ _ [(i1 & a1 & b1 & ->) (i2 & a2 & b2 & ->)].
  set (c2 := set_merkle_level 0 _). set (d2 := set_merkle_level 0 (set_auth_path_node 0 (set_tree_address 0 (set_hypertree_level (u8 (ps_d ps - 1)) (set_buffer_offset (u8 (ps_n ps)) (set_prehash_sha512 b2 (set_prehash_sha256 a2 (set_small_iter i2 c1)))))))).
  assert (H2 : crel any eq eq ps c2 d2).
  { apply mkCrel; try reflexivity; exact I. }
  eapply sim_bind; [apply sim_wots_leaf with (RX := any) (RN := eq) (RM := eq) (ps := ps); [exact Hcons|exact Hn|intros; exact I|exact H2]|]. intros c3 d3 _ _ H3.
  eapply (sim_bind (crel any eq eq ps)).
  { apply sim_for; [|exact H3]. intros i e f _ K. apply sim_xmss_path with (RX := any) (RN := eq) (RM := eq) (ps := ps); [exact Hcons|exact Hn|intros; exact I|intros; reflexivity| |exact K].
    intros a b ->. reflexivity. }
  intros c4 d4 _ _ H4. apply sim_rd_range.
Qed.
End Init.

(** ** Key generation *)
Definition alike {A B} (a : option A) (b : option B) : Prop := match a, b with Some _, Some _ | None, None => True | _, _ => False end.
Lemma sim_gen_key cfg {R R'} addr priv priv' pub pub' ps (rng : R -> Z -> Z * list Z * R) r (rng' : R' -> Z -> Z * list Z * R') r' :
  consistent ps -> 0 <= ps_n ps < 2 ^ 63 -> alike pub pub' ->
  (fst (fst (rng r (3 * ps_n ps))) =? 0) = (fst (fst (rng' r' (3 * ps_n ps))) =? 0) ->
  sim any (l_ts_gen_key_gen cfg (Some (addr, priv)) pub (Some ps) (Some rng) r) (l_ts_gen_key_gen cfg (Some (addr, priv')) pub' (Some ps) (Some rng') r').
Proof.
  intros Hc Hn Hp Hr. cbn [l_ts_gen_key_gen]. apply sim_tick; [reflexivity|]. cbv zeta.
  destruct (rng r (3 * ps_n ps)) as [[ret data] r1]. destruct (rng' r' (3 * ps_n ps)) as [[ret' data'] r1']. cbn [fst] in Hr.
  eapply sim_bind; [apply (sim_quiet any); intros; exact I|]. intros p q _ _ _.
  apply sim_if; [exact Hr|intros _; sr; exact I|intros _].
  eapply sim_bind; [apply sim_gen_root; assumption|]. intros rt rt' _ _ Hrt.
  eapply sim_bind; [apply sim_wr_range, Hrt|]. intros p1 q1 _ _ _.
  destruct pub as [pub|], pub' as [pub'|]; try contradiction; (apply sim_tick; [reflexivity|]).
  - eapply sim_bind; [apply sim_rd_range|]. intros p2 q2 _ _ Hpq. eapply sim_bind; [apply sim_wr_range, Hpq|]. intros p3 q3 _ _ _. sr. exact I.
  - sr. exact I.
Qed.
