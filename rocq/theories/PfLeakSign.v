(** * Two runs of ts_sign side by side *)
From Verif Require Import Arr CLeak SpecSLH SpecApi SpecLeak ModelParams ModelCtx ModelHash ModelSphincs SpecMap PfGlueSha PfIter PfEnv PfAdr PfGlue PfMsg PfCtx PfTree PfPaths PfBits PfWots PfSpec PfSign.
From Verif Require Import LeakSha2 LeakHash LeakSphincs PfLeakErase3 PfLeakSha PfLeakShake PfLeakHash PfLeakSphincs PfLeakInit.
Ltac Zify.zify_post_hook ::= idtac.

(** ** Iterators that hold equally many bytes look the same *)
Lemma rd_range_bytes l o k s : is_bytes l -> rd_range l o k = Ok s -> is_bytes s.
Proof.
  intros H. unfold rd_range. destruct (_ && _); [|discriminate]. intros Q. apply ok_inj in Q. subst s.
  apply Forall_firstn', Forall_skipn', H.
Qed.
Lemma word_inj le sz a b off i v : is_bytes a -> is_bytes b -> rd_word le sz a off i = Ok v -> rd_word le sz b off i = Ok v ->
  rd_range a (off + Z.of_nat sz * i) (Z.of_nat sz) = rd_range b (off + Z.of_nat sz * i) (Z.of_nat sz).
Proof.
  intros Ha Hb. unfold rd_word. intros A B.
  destruct (rd_range a _ _) as [x|] eqn:X; [|discriminate]. destruct (rd_range b _ _) as [y|] eqn:Y; [|discriminate].
  cbn [bind] in A, B. apply ok_inj in A. apply ok_inj in B.
  assert (Lx : length x = sz) by (apply rd_range_length in X; lia). assert (Ly : length y = sz) by (apply rd_range_length in Y; lia).
  pose proof (rd_range_bytes _ _ _ _ Ha X) as Bx. pose proof (rd_range_bytes _ _ _ _ Hb Y) as By.
  rewrite <- (enc_dec_word le sz x Bx Lx), <- (enc_dec_word le sz y By Ly). congruence.
Qed.
Lemma get256_num le it s : get_sha256 le it = Ok s -> rd_word le 4 it 40 0 = Ok (ModelSha256.s256_num s).
Proof.
  unfold get_sha256. destruct (for_loop 8 0 _ []) as [h|]; cbn [bind]; [|discriminate].
  destruct (rd_word le 8 it 32 0); cbn [bind]; [|discriminate]. destruct (rd_word le 4 it 40 0) as [v|]; cbn [bind]; [|discriminate].
  destruct (rd_range it 44 64); cbn [bind]; [|discriminate]. intros Q. apply ok_inj in Q. subst s. reflexivity.
Qed.
Lemma get512_num cfg it s : get_sha512 cfg it = Ok s -> rd_word (cfg_le cfg) 4 it 72 0 = Ok (ModelSha512.s512_num s).
Proof.
  unfold get_sha512. cbv zeta. destruct (for_loop 8 0 _ []) as [h|]; cbn [bind]; [|discriminate].
  destruct (rd_word _ 8 it 64 0); cbn [bind]; [|discriminate]. destruct (rd_word _ 4 it 72 0) as [v|]; cbn [bind]; [|discriminate].
  destruct (rd_range it _ 128); cbn [bind]; [|discriminate]. intros Q. apply ok_inj in Q. subst s. reflexivity.
Qed.
Lemma get_shake_num le it L k : get_shake le it = Ok (L ++ [k]) -> rd_word le 8 it 0 25 = Ok k.
Proof.
  unfold get_shake. change 26%nat with (25 + 1)%nat. rewrite for_loop_app. destruct (for_loop 25 0 _ []) as [h|]; cbn [bind]; [|discriminate].
  cbn [for_loop]. change (0 + Z.of_nat 25) with 25. destruct (rd_word le 8 it 0 25) as [w|]; cbn [bind]; [|discriminate].
  intros Q. apply ok_inj in Q. apply app_inj_tail in Q. destruct Q as [_ ->]. reflexivity.
Qed.
Lemma rest_len b (m m' : list Z) : (0 < b)%nat -> zlen m = zlen m' -> zlen (PfBlocks.rest b m) = zlen (PfBlocks.rest b m').
Proof. intros Hb H. unfold zlen in *. rewrite !PfBlocks.rest_length by exact Hb. do 2 f_equal. lia. Qed.
Lemma env_cons E : consistent (e_ps E).
Proof. unfold consistent. rewrite (ps_init_eq E), (ps_next_eq E), (ps_final_eq E). destruct (e_fam E); exact I. Qed.
Lemma irep_irel E1 E2 it it' A A' D D' : e_cfg E1 = e_cfg E2 -> e_p E1 = e_p E2 -> irep E1 it A D -> irep E2 it' A' D' -> zlen D = zlen D' ->
  irel (e_cfg E1) (e_ps E1) it it'.
Proof.
  intros Hc Hp (I1 & B1 & H1) (I2 & B2 & H2) HL.
  assert (Hf : e_fam E2 = e_fam E1) by (unfold e_fam; rewrite Hp; reflexivity).
  assert (Hn : e_n E2 = e_n E1) by (unfold e_n, e_P; rewrite Hp; reflexivity).
  unfold irel. rewrite (ps_init_eq E1). rewrite Hf in H2.
  assert (HA : zlen (adr_string E1 A) = zlen (adr_string E2 A')) by (rewrite !adr_string_len; unfold adr_len; rewrite Hf; reflexivity).
  destruct (e_fam E1) eqn:F1.
  - destruct H1 as (s & G1 & (L & L0 & -> & _)). destruct H2 as (s' & G2 & (L' & L0' & -> & _)).
    apply get_shake_num in G1. apply get_shake_num in G2. rewrite <- Hc in G2.
    destruct (iter_sizeK E1 it F1 I1) as [Y1 _]. destruct (iter_sizeK E2 it' Hf I2) as [Y2 _].
    rewrite (rest_len 136 _ (e_seed E1 ++ adr_string E1 A ++ D)) in G2
      by (try lia; rewrite !zlen_app, !seed_len, Hn, HL, HA; reflexivity).
    split; [exact (word_inj _ _ _ _ _ _ _ Y1 Y2 G1 G2)|]. eexists. split; [exact G1|].
    pose proof (PfShake.rest_lt (e_seed E1 ++ adr_string E1 A ++ D)). unfold zlen. lia.
  - destruct H1 as (s & G1 & [[_ _ N1 _ _ _] _]). destruct H2 as (s' & G2 & [[_ _ N2 _ _ _] _]).
    apply get256_num in G1. apply get256_num in G2. rewrite <- Hc in G2. rewrite N1 in G1. rewrite N2 in G2.
    assert (F1' : e_fam E1 <> FShake) by congruence. assert (F2' : e_fam E2 <> FShake) by congruence.
    destruct (iter_size256 E1 it F1' I1) as [Y1 _]. destruct (iter_size256 E2 it' F2' I2) as [Y2 _].
    rewrite (rest_len 64 _ (sha_seed_block E1 64 ++ adr_string E1 A ++ D)) in G2.
    + exact (word_inj _ _ _ _ _ _ _ Y1 Y2 G1 G2).
    + lia.
    + rewrite !zlen_app, !seed_block_len, HL, HA by (pose proof (n_bounds E1); pose proof (n_bounds E2); lia). reflexivity.
  - destruct H1 as (s & G1 & [[_ _ N1 _ _ _] _]). destruct H2 as (s' & G2 & [[_ _ N2 _ _ _] _]).
    apply get512_num in G1. apply get512_num in G2. rewrite <- Hc in G2. rewrite N1 in G1. rewrite N2 in G2.
    destruct (iter_size512 E1 it F1 I1) as [Y1 _]. destruct (iter_size512 E2 it' Hf I2) as [Y2 _].
    rewrite (rest_len 128 _ (sha_seed_block E1 128 ++ adr_string E1 A ++ D)) in G2.
    + exact (word_inj _ _ _ _ _ _ _ Y1 Y2 G1 G2).
    + lia.
    + rewrite !zlen_app, !seed_block_len, HL, HA by (pose proof (n_bounds E1); pose proof (n_bounds E2); lia). reflexivity.
Qed.

(** ** One pass through the switch *)
Lemma bit_samebit j a b : 0 <= j -> bit a j = bit b j -> samebit j a b.
Proof. intros Hj H. unfold samebit. rewrite !land_bit by exact Hj. unfold bit in H. rewrite H. reflexivity. Qed.

(** What the switch shows in each state *)
Definition vw (E : env) (sk md : list Z) (T leaf : Z) (s : sst) : Z :=
  match s with
  | FL _ => 0
  | FA i j => bit (fors_idx E md i) j
  | WT l q => nth (Z.to_nat q) (wots_msg (e_P E) (hmsg E sk (M0 E sk T leaf) T l)) 0
  | MK l j => bit (lf E T leaf l) j
  | DN => 0
  end.

Lemma at_run_copy E sk md T leaf s B o k c : at_run E sk md T leaf s B o c -> 0 <= k -> o + k <= e_n E ->
  at_run E sk md T leaf s B (o + k) (set_buffer_offset (o + k) c).
Proof.
  intros [HI HB HS Ho Hr] Hk Hle. pose proof (n_bounds E) as Nb. split; [|exact HB|exact HS|reflexivity|lia].
  destruct HI as (G & Rg & HI). split; [apply good_offset; [lia|exact G]|]. split; [exact Rg|]. destruct s; exact HI.
Qed.
Section Pair.
Variables E1 E2 : env.
Hypothesis Hcfg : e_cfg E1 = e_cfg E2.
Hypothesis Hp : e_p E1 = e_p E2.
Hypothesis Hpk : e_pk E1 = e_pk E2.
Variables sk1 sk2 md1 md2 : list Z.
Variables T1 T2 leaf1 leaf2 : Z.
Hypothesis Hsk1 : sk_at E1 sk1.
Hypothesis Hsk2 : sk_at E2 sk2.
Hypothesis HT1 : 0 <= T1 < 2 ^ 64.
Hypothesis HT2 : 0 <= T2 < 2 ^ 64.
Hypothesis Hl1 : 0 <= leaf1 < 2 ^ p_h' (e_P E1).
Hypothesis Hl2 : 0 <= leaf2 < 2 ^ p_h' (e_P E2).
Local Notation I1 := (Inv E1 sk1 md1 T1 leaf1).
Local Notation I2 := (Inv E2 sk2 md2 T2 leaf2).
Local Notation v1 := (vw E1 sk1 md1 T1 leaf1).
Local Notation v2 := (vw E2 sk2 md2 T2 leaf2).
Local Notation sw1 := (l_sign_switch (e_cfg E1) (e_mem E1)).
Local Notation sw2 := (l_sign_switch (e_cfg E1) (e_mem E2)).

Lemma pair_ps : e_ps E2 = e_ps E1. Proof. unfold e_ps. rewrite Hcfg, Hp. reflexivity. Qed.
Lemma pair_P : e_P E2 = e_P E1. Proof. unfold e_P. rewrite Hp. reflexivity. Qed.
Lemma pair_nxt s : nxt E2 s = nxt E1 s. Proof. unfold nxt. rewrite pair_P. reflexivity. Qed.
Lemma env_n63 : 0 <= ps_n (e_ps E1) < 2 ^ 63. Proof. rewrite (ps_n_eq E1). pose proof (n_bounds E1). lia. Qed.

Lemma pair_crel s c d : I1 s c -> I2 s d -> c_buffer_offset c = c_buffer_offset d -> s <> DN ->
  crel any any any (e_ps E1) c d.
Proof.
  intros (G1 & R1 & H1) (G2 & R2 & H2) Ho Hs.
  assert (X : c_state c = c_state d /\ c_hypertree_level c = c_hypertree_level d /\ c_fors_tree c = c_fors_tree d).
  { destruct s as [i|i j|l q|l j|]; [| | | |congruence].
    - destruct H1 as (A1 & B1 & C1 & _). destruct H2 as (A2 & B2 & C2 & _). rewrite A1, A2, B1, B2, C1, C2. auto.
    - destruct H1 as (A1 & (B1 & C1 & _) & _). destruct H2 as (A2 & (B2 & C2 & _) & _). rewrite A1, A2, B1, B2, C1, C2. auto.
    - destruct H1 as (A1 & (B1 & C1 & _) & _). destruct H2 as (A2 & (B2 & C2 & _) & _). rewrite A1, A2, B1, B2, C1, C2. auto.
    - destruct H1 as (A1 & (B1 & C1 & _) & _). destruct H2 as (A2 & (B2 & C2 & _) & _). rewrite A1, A2, B1, B2, C1, C2. auto. }
  destruct X as (X1 & X2 & X3).
  apply mkCrel; [exact (g_ps E1 c G1)|rewrite <- pair_ps; exact (g_ps E2 d G2)|rewrite (g_pk E1 c G1), (g_pk E2 d G2); exact Hpk|
    exact X1|exact Ho|exact X2|exact X3|exact I|exact I|exact I].
Qed.

Lemma pair_switch s c d : I1 s c -> I2 s d -> c_buffer_offset c = c_buffer_offset d -> v1 s = v2 s ->
  sim any (sw1 c) (sw2 d).
Proof.
  intros H1 H2 Ho Hv. destruct (sst_eq_DN s) as [->|Hs].
  { destruct H1 as (_ & _ & S1 & _). destruct H2 as (_ & _ & S2 & _). apply sim_done; [congruence|exact S1]. }
  pose proof (pair_crel s c d H1 H2 Ho Hs) as Q. pose proof (env_cons E1) as Hco. pose proof env_n63 as Hn.
  destruct s as [i|i j|l q|l j|]; [| | | |congruence]; destruct H1 as (G1 & R1 & H1); destruct H2 as (G2 & R2 & H2); cbn [rng vw] in *.
  - exact (sim_fl _ _ _ _ Hn c d Q (proj1 H1)).
  - destruct H1 as (S1 & (_ & _ & _ & _ & _ & B1) & M1 & N1 & _). destruct H2 as (S2 & (_ & _ & _ & _ & _ & B2) & M2 & N2 & _).
    apply (sim_fa _ _ _ _ Hco Hn c d).
    + apply (crel_weaken _ _ _ _ _ _ _ _ _ I I (eq_trans M1 (eq_sym M2)) Q).
    + exact S1.
    + refine (irep_irel E1 E2 _ _ _ _ _ _ Hcfg Hp B1 B2 _).
      rewrite !fors_roots_zlen by (assumption || lia). unfold e_n. rewrite pair_P. reflexivity.
    + rewrite M1, N1, N2. apply bit_samebit; [lia|exact Hv].
  - destruct H1 as (S1 & _ & D1 & X1). destruct H2 as (S2 & _ & D2 & X2).
    apply (sim_wt _ _ _ _ Hco Hn c d q Q S1 D1 D2); [lia|].
    assert (Hq : 0 <= q < 2 * e_n E1 + 3) by (rewrite (wlen_eq E1) in R1; lia).
    assert (Hq' : 0 <= q < 2 * e_n E2 + 3) by (rewrite (wlen_eq E2) in R2; lia).
    specialize (X1 q Hq). specialize (X2 q Hq'). unfold get_digits in X1, X2.
    destruct (_ && _); [|discriminate]. destruct (_ && _); [|discriminate]. rewrite X1, X2, Hv. reflexivity.
  - destruct H1 as (S1 & (_ & _ & _ & _ & N1) & M1 & _). destruct H2 as (S2 & (_ & _ & _ & _ & N2) & M2 & _).
    apply (sim_mk _ _ _ _ Hco Hn c d).
    + apply (crel_weaken _ _ _ _ _ _ _ _ _ I I (eq_trans M1 (eq_sym M2)) Q).
    + exact S1.
    + rewrite M1, N1, N2. apply bit_samebit; [lia|exact Hv].
Qed.

(** ** The loop.  After [b] passes through the switch the buffer holds block [b] of the
    signature, and [o] bytes of it have been handed over. *)
Definition st (b : nat) : sst := Nat.iter b (nxt E1) (FL 0).
Local Notation r1 := (at_run E1 sk1 md1 T1 leaf1).
Local Notation r2 := (at_run E2 sk2 md2 T2 leaf2).
Local Notation n := (e_n E1).
Definition after_loop (b : nat) (o m : Z) (x y : Z * list Z * ts_context) : Prop :=
  exists b' o' B1 B2, let m' := fst (fst x) in
    fst (fst y) = m' /\ r1 (st b') B1 o' (snd x) /\ r2 (st b') B2 o' (snd y) /\
    n * Z.of_nat b' + o' = n * Z.of_nat b + o + (m - m') /\ 0 <= m' <= m /\ (0 < o' \/ (b' = b /\ o' = o /\ m = 0)).

Lemma pair_loop fuel : forall dest dest' pos m b o B1 B2 c d, r1 (st b) B1 o c -> r2 (st b) B2 o d ->
  0 <= m < 2 ^ 32 -> (o = 0 -> b <> 0%nat -> 0 < m) ->
  (forall b', n * Z.of_nat b + o <= n * (Z.of_nat b' + 1) < n * Z.of_nat b + o + m -> v1 (st b') = v2 (st b')) ->
  sim (after_loop b o m) (l_sign_loop (e_cfg E1) (e_mem E1) fuel dest pos m c) (l_sign_loop (e_cfg E1) (e_mem E2) fuel dest' pos m d).
Proof.
  induction fuel as [|fuel IH]; intros dest dest' pos m b o B1 B2 c d HR1 HR2 Hm Hz Hv; [apply sim_ub_l|].
  pose proof (n_bounds E1) as Nb. assert (Hn2 : e_n E2 = n) by (unfold e_n; rewrite pair_P; reflexivity).
  cbn [l_sign_loop]. cbv zeta. apply sim_if; [reflexivity| |]; intros Em.
  { apply sim_ret. exists b, o, B1, B2. cbn [fst snd]. split; [reflexivity|]. split; [exact HR1|]. split; [exact HR2|]. lia. }
  apply Z.eqb_neq in Em.
  pose proof (r_off _ _ _ _ _ _ _ _ _ HR1) as O1. pose proof (r_off _ _ _ _ _ _ _ _ _ HR2) as O2. pose proof (r_rng _ _ _ _ _ _ _ _ _ HR1) as Og.
  pose proof (proj1 (r_inv _ _ _ _ _ _ _ _ _ HR1)) as G1. pose proof (proj1 (r_inv _ _ _ _ _ _ _ _ _ HR2)) as G2.
  rewrite (ps_n_c E1 c G1), (ps_n_c E2 d G2), O1, O2, Hn2. unfold u32. rewrite Z.mod_small by lia.
  apply sim_if; [reflexivity| |]; intros Eq.
  - apply Z.ltb_lt in Eq.
    apply (sim_bind (fun x y => x = y /\ x = Z.min m (n - o))).
    { apply sim_if; [reflexivity| |]; intros Em2; apply sim_ret; (split; [reflexivity|]); [apply Z.ltb_lt in Em2|apply Z.ltb_ge in Em2]; lia. }
    intros r ? _ _ [<- Er]. eapply sim_bind; [apply sim_rd_range|]. intros src src' _ _ Hs.
    eapply sim_bind; [apply sim_wr_range, Hs|]. intros d1 d1' _ _ _.
    unfold u8. rewrite (Z.mod_small (o + r)) by lia.
    eapply sim_weaken; [apply (IH d1 d1' (pos + r) (m - r) b (o + r) B1 B2)|].
    + apply at_run_copy; [exact HR1|lia|lia].
    + apply at_run_copy; [exact HR2|lia|lia].
    + lia.
    + lia.
    + intros b' Hb'. apply Hv. lia.
    + intros [[m1 e1] c1] [[m2 e2] c2] _ _ (b' & o' & Y1 & Y2 & K1 & K2 & K3 & K4 & K5 & K6). cbn [fst snd] in *.
      exists b', o', Y1, Y2. cbn [fst snd]. split; [exact K1|]. split; [exact K2|]. split; [exact K3|]. split; [lia|]. split; [lia|]. left. lia.
  - apply Z.ltb_ge in Eq. assert (Eo : o = n) by lia. rewrite Eo in *.
    assert (V : v1 (st b) = v2 (st b)) by (apply Hv; rewrite Z.mul_add_distr_l, Z.mul_1_r; clear - Em Hm Nb; lia).
    pose proof (pair_switch (st b) c d (r_inv _ _ _ _ _ _ _ _ _ HR1) (r_inv _ _ _ _ _ _ _ _ _ HR2) (eq_trans O1 (eq_sym O2)) V) as SW.
    eapply sim_bind; [exact SW|]. intros x y Rx Ry _.
    rewrite er_switch in Rx. rewrite er_switch in Ry.
    destruct (sst_eq_DN (st b)) as [Ed|Ed].
    + assert (X : forall e m0, c_state e = ts_done -> sign_switch (e_cfg E1) m0 e = Ok None).
      { intros e m0 S. unfold sign_switch. rewrite S. reflexivity. }
      pose proof (r_inv _ _ _ _ _ _ _ _ _ HR1) as Q1. pose proof (r_inv _ _ _ _ _ _ _ _ _ HR2) as Q2. rewrite Ed in Q1, Q2.
      rewrite X in Rx by apply Q1. rewrite X in Ry by apply Q2. apply ok_inj in Rx. apply ok_inj in Ry. subst x y.
      apply sim_ret. exists b, n, B1, B2. cbn [fst snd]. split; [reflexivity|]. split; [exact HR1|]. split; [exact HR2|]. lia.
    + destruct (switch_ok E1 sk1 Hsk1 md1 T1 leaf1 HT1 Hl1 (st b) c Ed (r_inv _ _ _ _ _ _ _ _ _ HR1)) as (c1 & S1 & J1 & P1 & Z1).
      destruct (switch_ok E2 sk2 Hsk2 md2 T2 leaf2 HT2 Hl2 (st b) d Ed (r_inv _ _ _ _ _ _ _ _ _ HR2)) as (c2 & S2 & J2 & P2 & Z2).
      rewrite Hcfg, S2 in Ry. rewrite S1 in Rx. apply ok_inj in Rx. apply ok_inj in Ry. subst x y.
      rewrite pair_nxt in J2.
      eapply sim_weaken; [apply (IH dest dest' pos m (Datatypes.S b) 0 (emit E1 sk1 md1 T1 leaf1 (st b)) (emit E2 sk2 md2 T2 leaf2 (st b)))|].
      * split; [exact J1|exact Z1|apply emit_ok; assumption|exact P1|lia].
      * split; [exact J2|exact Z2|apply emit_ok; assumption|exact P2|lia].
      * lia.
      * lia.
      * intros b' Hb'. apply Hv. lia.
      * intros [[m1 e1] c1'] [[m2 e2] c2'] _ _ (b' & o' & Y1 & Y2 & K1 & K2 & K3 & K4 & K5 & K6). cbn [fst snd] in *.
        exists b', o', Y1, Y2. cbn [fst snd]. split; [exact K1|]. split; [exact K2|]. split; [exact K3|]. split; [lia|]. split; [lia|]. left. lia.
Qed.
End Pair.
