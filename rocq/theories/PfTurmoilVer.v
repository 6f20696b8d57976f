(** * Verification with a key and a message that change: the shape of a run *)
From Verif Require Import Arr SpecSLH SpecApi ModelParams ModelCtx ModelHash ModelSphincs ModelVerify SpecMap PfIter PfEnv PfAdr PfGlue PfMsg PfCtx PfTree PfPaths PfBits PfWots PfSpec PfSign PfVerify PfApi PfTwoMem PfTurmoil.
Ltac Zify.zify_post_hook ::= idtac.

(** ** The parts of verification that see memory only through the hash functions *)
Section Two.
Variable cfg : config.
Variables m m' : memory.
Variables (ps0 : parameter_set) (pk0 : Z).
Local Notation K := (same_id ps0 pk0).
Hypothesis H_f : forall i c, K c -> call_f cfg m i c = call_f cfg m' i c.
Hypothesis H_init : forall it c, K c -> call_init_t cfg m it c = call_init_t cfg m' it c.
Lemma eq_do_f b i c : K c -> do_f cfg m b i c = do_f cfg m' b i c.
Proof using H_f. intros H. exact (proj1 (a_do_f cfg m m' ps0 pk0 H_f b i c H)). Qed.
Lemma eq_big_init c : K c -> big_init_t cfg m c = big_init_t cfg m' c.
Proof using H_init. intros H. exact (proj1 (a_big_init cfg m m' ps0 pk0 H_init c H)). Qed.
Lemma eq_chain b t d fr to c : K c -> chain_loop cfg m b t d fr to c = chain_loop cfg m' b t d fr to c.
Proof using H_f. intros H. exact (proj1 (a_chain cfg m m' ps0 pk0 H_f b t d fr to c H)). Qed.
Lemma eq_next_auth ty c : K c -> next_auth_path cfg m ty c = next_auth_path cfg m' ty c.
Proof using H_init.
  intros H. apply (fun G => proj1 (A := _ = _) (B := forall a, next_auth_path cfg m ty c = Ok a -> K a) G).
  change (agree K (next_auth_path cfg m ty c) (next_auth_path cfg m' ty c)).
  unfold next_auth_path. cbv zeta. apply agree_pure. intro.
  eapply agree_bind; [apply (a_merkle_adr cfg ps0 pk0); exact H|]. intros d Hd.
  eapply agree_bind; [apply (a_small_init cfg m m' ps0 pk0 H_init); exact Hd|]. intros e He.
  eapply (agree_bind K); [|intros; apply (a_small_final cfg ps0 pk0); assumption].
  destruct (negb _); (eapply agree_bind; [apply (a_small_next cfg ps0 pk0); exact He|]); intros g Hg; apply (a_small_next cfg ps0 pk0); exact Hg.
Qed.
Lemma eq_setup l c : K c -> set_up_wots_verify_signature cfg m l c = set_up_wots_verify_signature cfg m' l c.
Proof using H_init.
  intros H. apply (fun G => proj1 (A := _ = _) (B := forall a, set_up_wots_verify_signature cfg m l c = Ok a -> K a) G).
  change (agree K (set_up_wots_verify_signature cfg m l c) (set_up_wots_verify_signature cfg m' l c)).
  unfold set_up_wots_verify_signature. cbv zeta.
  eapply agree_bind; [apply (a_setup cfg ps0 pk0); exact H|]. intros d Hd.
  eapply agree_bind; [apply (a_wots_header_adr cfg ps0 pk0); exact Hd|]. intros e He.
  eapply agree_bind; [apply (a_big_init cfg m m' ps0 pk0 H_init); exact He|]. intros g Hg. apply agree_ok, Hg.
Qed.
End Two.

(** ** H_msg looks at no precomputed seed *)
Lemma hash_msg_frame cfg m lo r msg c d : c_ps c = c_ps d -> c_public_key c = c_public_key d -> c_small_iter c = c_small_iter d ->
  call_hash_msg cfg m lo r msg c = ('(o, e) <- call_hash_msg cfg m lo r msg d ;; Ok (o, set_small_iter (c_small_iter e) c)).
Proof.
  intros H1 H2 H3. unfold call_hash_msg. rewrite H1.
  destruct (ps_hash_msg (c_ps d)); [unfold ts_shake256_hash_msg|unfold ts_sha2_L1_hash_msg|unfold ts_sha2_L35_hash_msg]; rewrite H1, H2, H3; cbv zeta;
  repeat match goal with
  | |- bind ?x _ = bind (bind ?x _) _ => destruct x as [?|?]; cbn [bind]; [|reflexivity]
  | |- (let '(_, _) := ?p in _) = _ => destruct p
  end; reflexivity.
Qed.
Lemma hash_msg_any E m B r R msg c : good E c -> holds m (e_pk E) B -> len B = 2 * e_n E -> rd_range r 0 (e_n E) = Ok R -> str_ok E R -> msg_ok msg ->
  exists mh it, call_hash_msg (e_cfg E) m MAX_MESSAGE_HASH r msg c = Ok (mh, set_small_iter it c) /\ iter_ok E it /\ zlen mh = 49 /\ is_bytes mh.
Proof.
  intros G HB LB HR SR HM. pose proof (n_bounds E) as Nb. pose proof (proj1 HB) as BB.
  assert (Hs : load m (e_pk E) (p_n (slh_of (e_p E))) = Ok (slice B 0 (e_n E))).
  { replace (e_pk E) with (e_pk E + 0) by lia. apply load_slice; [exact HB|lia|change (p_n (slh_of (e_p E))) with (e_n E); lia|change (p_n (slh_of (e_p E))) with (e_n E); lia]. }
  set (E' := mkEnv (e_cfg E) m (e_p E) (e_pk E) (slice B 0 (e_n E)) (e_on E) Hs (slice_bytes _ _ _ BB)).
  assert (PG : pregood E' c) by (destruct G; split; assumption).
  destruct (prehash_ok_good E' c PG) as (d & _ & Gd & it0 & p & q & Ed).
  set (d' := set_small_iter (c_small_iter c) d).
  assert (Gd' : good E' d') by (apply good_small; [apply (small_ok E c G)|exact Gd]).
  assert (RT : root_at E' (slice B (e_n E) (e_n E))).
  { split; [apply load_slice; [exact HB|change (e_n E') with (e_n E); lia..]|].
    split; [change (e_n E') with (e_n E); apply slice_zlen; [lia|lia|change (@zlen Z) with len; lia]|apply slice_bytes, BB]. }
  destruct (hash_msg_ok E' R r (slice B (e_n E) (e_n E)) msg d' Gd' RT HR SR HM) as (it & EH & I).
  destruct (H49_ok E' R (slice B (e_n E) (e_n E)) msg) as [L49 B49]; [apply SR|apply slice_bytes, BB|apply HM|].
  exists (H49 E' R (slice B (e_n E) (e_n E)) msg), it. split; [|split; [exact I|split; [exact L49|exact B49]]].
  rewrite (hash_msg_frame (e_cfg E) m _ r msg c d').
  - change (e_cfg E') with (e_cfg E) in EH. change (e_mem E') with m in EH. rewrite EH. reflexivity.
  - rewrite (g_ps E c G). symmetry. exact (g_ps E' d' Gd').
  - rewrite (g_pk E c G). symmetry. exact (g_pk E' d' Gd').
  - reflexivity.
Qed.

(** ** The states of a verification run, without the values *)
Section Shape.
Variable E : env.
Variable m : memory.    (* what the call sees *)
Local Notation cfg := (e_cfg E).
Local Notation n := (e_n E).
Local Notation P := (e_P E).
Variables (maddr ml : Z).    (* address and length of the message *)

Definition VShp (s : vst) (c : ts_context) : Prop :=
  good E c /\ vrng E s /\
  match s with
  | VI => c_state c = ts_verify_init /\ get_verify_message cfg (c_x c) = Ok maddr /\ get_verify_len cfg (c_x c) = Ok ml
  | VFL i => c_state c = ts_verify_fors_leaf /\ in_fors E i c
  | VFA i j => c_state c = ts_verify_fors /\ in_fors E i c /\ c_merkle_level c = j
  | VWT l q => c_state c = ts_verify_wots /\ in_tree E l c /\ c_merkle_level c = 0 /\ get_digit (c_x c) = Ok q /\
      (exists msg, digits_at E (c_x c) msg) /\ taken_in E q (c_big_iter c)
  | VMK l j => c_state c = ts_verify_merkle /\ in_tree E l c /\ c_merkle_level c = j
  end.

Local Notation K := (same_id (e_ps E) (e_pk E)).
Hypothesis H_f : forall i c, K c -> call_f cfg m i c = call_f cfg (e_mem E) i c.
Hypothesis H_init : forall it c, K c -> call_init_t cfg m it c = call_init_t cfg (e_mem E) it c.
Definition msg_there : Prop := exists M, load m maddr ml = Ok M /\ msg_ok M.
Lemma K_good c : good E c -> K c.
Proof using. clear. intros G. split; [exact (g_ps E c G)|exact (g_pk E c G)]. Qed.

Lemma buf_some c : good E c -> exists v, buf_is BufBuffer v c /\ str_ok E v.
Proof using.
  clear. intros G. destruct (wf_buffer _ _ (g_wf E c G)) as [La Ba]. pose proof (n_max E) as Nm. pose proof (n_bounds E) as Nb.
  exists (firstn (Z.to_nat n) (c_buffer c)). split.
  - exists (skipn (Z.to_nat n) (c_buffer c)). cbn [buf_of]. rewrite firstn_skipn. reflexivity.
  - split; [unfold zlen in *; rewrite firstn_length; lia|]. apply Forall_firstn', Ba.
Qed.
Definition vshp_step (s : vst) (c : ts_context) : Prop :=
  forall k, exists c', verify_switch cfg m k c = Ok (inl c') /\ VShp (vnxt E s) c' /\ c_buffer_offset c' = c_buffer_offset c.

Lemma next_auth_any Y c h : good E c -> c_merkle_level c = h -> 0 <= h < 15 ->
  exists a s v, scr_ok E a s /\ str_ok E v /\ next_auth_path cfg m Y c = Ok (buf_set BufAuth v (scr a s (set_merkle_level (h + 1) c))).
Proof using H_f H_init.
  intros G Hl Hh. destruct (buf_some c G) as (X & HX & SX). destruct (auth_some E c G) as (N & HN & SN).
  rewrite (eq_next_auth cfg m (e_mem E) (e_ps E) (e_pk E) H_init Y c (K_good c G)).
  destruct (next_auth_ok E Y X N c h G Hl Hh HX SX HN SN) as (a & s & O & ->).
  eexists a, s, _. split; [exact O|]. split; [|reflexivity]. apply path_node_ok; [apply SN|apply SX].
Qed.

Lemma vshp_FL i c : VShp (VFL i) c -> vshp_step (VFL i) c.
Proof using H_f H_init.
  intros (G & R & HS & Hl & Hf & Hk & (md & Hx) & Hb) k. cbn [vrng] in R. unfold verify_switch.
  destruct (buf_some c G) as (X & HX & SX).
  rewrite HS. change (ts_verify_fors_leaf =? ts_verify_init) with false. change (ts_verify_fors_leaf =? ts_verify_fors_leaf) with true. cbv iota.
  rewrite Hf, (Hx i R). cbn [bind]. pose proof (fors_idx_range E md i) as Hi. fold (fors_idx E md i).
  pose proof (t_bounds E) as Hb'. assert (P14 : 2 ^ p_a P <= 2 ^ 14) by (apply Z.pow_le_mono_r; lia).
  unfold u16. rewrite Z.mod_small by lia. set (id := fors_idx E md i) in *.
  set (c1 := set_merkle_level 0 (set_auth_path_node id c)).
  assert (G1 : good E c1) by (apply good_merkle_level; [lia|]; apply good_auth_path_node; [lia|exact G]).
  change (c_auth_path_node c1) with id.
  destruct (ts_set_fors_leaf_ok E id c1 G1) as (a & -> & HA); [lia|]. cbn [bind].
  assert (G2 : good E (set_adr a c1)) by (apply good_adr; [exact (adr_rep_ok E _ _ HA)|exact G1]).
  rewrite (eq_do_f cfg m (e_mem E) (e_ps E) (e_pk E) H_f BufAuth BufBuffer _ (K_good _ G2)).
  destruct (do_f_ok E BufAuth BufBuffer X _ (set_adr a c1) G2 HA HX SX) as (s & I & ->). cbn [bind].
  eexists. split; [reflexivity|]. split; [|reflexivity]. cbn [vnxt]. split; [|split].
  - apply good_state; [unfold ts_verify_fors; lia|]. apply good_buf_set; [apply hF_ok, SX|]. apply good_small; assumption.
  - cbn [vrng]. lia.
  - split; [reflexivity|]. split; [|reflexivity].
    split; [exact Hl|]. split; [exact Hf|]. split; [exact Hk|]. split; [exists md; exact Hx|exact Hb].
Qed.

Lemma setup_any leaf c : good E c -> 0 <= leaf < 2 ^ 16 ->
  exists c' msg, set_up_wots_verify_signature cfg m leaf c = Ok c' /\ good E c' /\
    core c' = core (set_merkle_level 0 (set_fors_keypair_addr 0 (set_auth_path_node leaf (set_state ts_verify_wots c)))) /\
    get_digit (c_x c') = Ok 0 /\ digits_at E (c_x c') msg /\ taken_in E 0 (c_big_iter c').
Proof using H_f H_init.
  intros G Hl. destruct (auth_some E c G) as (N & HN & SN).
  rewrite (eq_setup cfg m (e_mem E) (e_ps E) (e_pk E) H_init leaf c (K_good c G)).
  destruct (setup_verify_ok E N leaf c G HN SN Hl) as (c' & -> & G' & C' & Dg & Ds & Bg).
  eexists c', _. split; [reflexivity|]. split; [exact G'|]. split; [exact C'|]. split; [exact Dg|]. split; [exact Ds|].
  eexists E, _, []. split; [apply alike_refl|]. split; [exact Bg|reflexivity].
Qed.

Lemma vshp_FA i j c : VShp (VFA i j) c -> vshp_step (VFA i j) c.
Proof using H_f H_init.
  intros (G & R & HS & (Hl & Hf & Hk & (md & Hx) & Hb) & Hj) k. cbn [vrng] in R. unfold verify_switch.
  rewrite HS. change (ts_verify_fors =? ts_verify_init) with false. change (ts_verify_fors =? ts_verify_fors_leaf) with false.
  change (ts_verify_fors =? ts_verify_fors) with true. cbv iota.
  pose proof (k_bounds E) as Kb. pose proof (t_bounds E) as Tb. pose proof (n_bounds E) as Nb.
  destruct (next_auth_any ADR_TYPE_FORSTREE c j G Hj ltac:(lia)) as (a & s & v & O & Sv & ->). cbn [bind].
  set (c1 := buf_set BufAuth v _).
  assert (G1 : good E c1) by (apply good_buf_set; [exact Sv|]; apply good_scr; [exact O|]; apply good_merkle_level; [lia|exact G]).
  assert (A1 : buf_is BufAuth v c1) by (apply buf_is_set).
  change (c_merkle_level c1) with (j + 1). rewrite (g_ps E c1 G1), (ps_t_eq E). cbn [vnxt].
  destruct (Z.eqb_spec (j + 1) (p_a P)) as [Ej|Ej].
  - destruct (big_next_any E i (c_auth_path_buffer c1) v c1 G1 Hb) as (g & -> & I2);
      [exact (buf_is_read E BufAuth _ c1 (proj1 Sv) A1)|exact Sv|]. cbn [bind].
    set (c2 := set_big_iter g c1). assert (G2 : good E c2) by (apply good_big; [exact (taken_ok E _ _ I2)|exact G1]).
    change (c_fors_tree (set_state ts_verify_fors_leaf c2)) with (c_fors_tree c). rewrite Hf.
    unfold u8. rewrite Z.mod_small by lia.
    set (c3 := set_fors_tree (i + 1) (set_state ts_verify_fors_leaf c2)).
    assert (G3 : good E c3) by (apply good_fors_tree; [lia|]; apply good_state; [unfold ts_verify_fors_leaf; lia|exact G2]).
    change (c_fors_tree c3) with (i + 1). rewrite (g_ps E c3 G3), (ps_k_eq E).
    destruct (Z.eqb_spec (i + 1) (p_k P)) as [Ei|Ei].
    + destruct (big_final_any E (i + 1) BufAuth c3 G3 I2) as (g4 & v4 & I4 & S4 & ->); [lia|]. cbn [bind].
      set (c4 := set_fors_tree 0 _).
      assert (G4 : good E c4).
      { apply good_fors_tree; [lia|]. apply good_buf_set; [exact S4|]. apply good_big; assumption. }
      change (c_fors_keypair_addr c4) with (c_fors_keypair_addr c).
      destruct (setup_any (c_fors_keypair_addr c) c4 G4 (h16 E _ Hk)) as (c5 & msg & -> & G5 & C5 & Dg & Ds & Bg). cbn [bind].
      apply core_inv in C5. destruct C5 as (K1 & K2 & K3 & K4 & K5 & K6 & K7 & K8).
      eexists. split; [reflexivity|]. split; [|exact K2].
      split; [exact G5|]. split; [cbn [vrng]; pose proof (d_bounds E); pose proof (wlen_eq E); lia|].
      split; [exact K1|]. split; [|split; [exact K5|split; [exact Dg|split; [exists msg; exact Ds|exact Bg]]]].
      split; [rewrite K3; exact Hl|]. split; [exact K4|]. split; [exact K7|]. rewrite K6. exact Hk.
    + eexists. split; [reflexivity|]. split; [|reflexivity].
      split; [exact G3|]. split; [cbn [vrng]; lia|]. split; [reflexivity|].
      split; [exact Hl|]. split; [reflexivity|]. split; [exact Hk|]. split; [exists md; exact Hx|exact I2].
  - eexists. split; [reflexivity|]. split; [|reflexivity].
    split; [exact G1|]. split; [cbn [vrng]; lia|]. split; [exact HS|].
    split; [|reflexivity].
    split; [exact Hl|]. split; [exact Hf|]. split; [exact Hk|]. split; [exists md; exact Hx|exact Hb].
Qed.

Lemma vshp_WT l q c : VShp (VWT l q) c -> vshp_step (VWT l q) c.
Proof using H_f H_init.
  intros (G & R & HS & (Hl & Hf & Hk & Hn) & Hm & Hq & (msg & Hd) & Hb) k. cbn [vrng] in R. unfold verify_switch.
  destruct (buf_some c G) as (X & HX & SX).
  rewrite HS. change (ts_verify_wots =? ts_verify_init) with false. change (ts_verify_wots =? ts_verify_fors_leaf) with false.
  change (ts_verify_wots =? ts_verify_fors) with false. change (ts_verify_wots =? ts_verify_wots) with true. cbv iota.
  pose proof (n_bounds E) as Nb. pose proof (wlen_eq E) as Wl.
  rewrite Hq. cbn [bind].
  destruct (set_digit_ok E (c_x c) (q + 1) (good_x_ok E c G)) as (x1 & -> & B1 & D1 & D2); [lia|]. cbn [bind].
  assert (G1 : good E (set_x x1 c)) by (apply good_x; assumption).
  change (c_x (set_x x1 c)) with x1. rewrite D2, (Hd q) by lia. cbn [bind].
  change (c_auth_path_node (set_x x1 c)) with (c_auth_path_node c).
  set (d := nth (Z.to_nat q) msg 0).
  rewrite (eq_chain cfg m (e_mem E) (e_ps E) (e_pk E) H_f _ _ _ _ _ _ (K_good _ G1)).
  destruct (chain_loop_ok E BufBuffer (c_auth_path_node c) q d 15 _ (set_x x1 c) G1 HX SX) as (a3 & s3 & O3 & ->). cbn [bind].
  match goal with |- context [buf_set BufBuffer ?w (scr a3 s3 _)] => set (v3 := w) end.
  assert (S3 : str_ok E v3) by (apply chain_ok, SX). clearbody v3.
  set (c3 := buf_set BufBuffer v3 _).
  assert (G3 : good E c3) by (apply good_buf_set; [exact S3|]; apply good_scr; assumption).
  assert (B3 : buf_is BufBuffer v3 c3) by (apply buf_is_set).
  destruct (big_next_any E q (c_buffer c3) v3 c3 G3 Hb) as (g & -> & I4);
    [exact (buf_is_read E BufBuffer _ c3 (proj1 S3) B3)|exact S3|]. cbn [bind].
  set (c4 := set_big_iter g c3).
  assert (G4 : good E c4) by (apply good_big; [exact (taken_ok E _ _ I4)|exact G3]).
  change (c_x c4) with x1. rewrite D1. cbn [bind]. rewrite (ps_n_c E c4 G4), <- Wl.
  cbn [vnxt]. destruct (Z.eqb_spec (q + 1) (wlen P)) as [Eq|Eq]; cbn [negb].
  - destruct (big_final_any E (q + 1) BufAuth c4 G4 I4) as (g5 & v5 & I5 & S5 & ->); [lia|]. cbn [bind].
    eexists. split; [reflexivity|]. split; [|reflexivity].
    split; [|split].
    + apply good_state; [unfold ts_verify_merkle; lia|]. apply good_buf_set; [exact S5|]. apply good_big; [exact I5|exact G4].
    + cbn [vrng]. pose proof (mh_bounds E). lia.
    + split; [reflexivity|]. split; [|exact Hm].
      split; [exact Hl|]. split; [exact Hf|]. split; [exact Hk|exact Hn].
  - eexists. split; [reflexivity|]. split; [|reflexivity].
    split; [exact G4|]. split; [cbn [vrng]; lia|]. split; [exact HS|]. split; [|split; [exact Hm|split; [exact D1|split; [|exact I4]]]].
    + split; [exact Hl|]. split; [exact Hf|]. split; [exact Hk|exact Hn].
    + exists msg. intros i Hi. change (c_x c4) with x1. rewrite D2. apply Hd, Hi.
Qed.

Lemma vshp_MK l j c : VShp (VMK l j) c -> VMK l j <> vlast E -> vshp_step (VMK l j) c.
Proof using H_f H_init.
  intros (G & R & HS & (Hl & Hf & Hk & Hn) & Hj) Hne k. cbn [vrng] in R. unfold verify_switch.
  rewrite HS. change (ts_verify_merkle =? ts_verify_init) with false. change (ts_verify_merkle =? ts_verify_fors_leaf) with false.
  change (ts_verify_merkle =? ts_verify_fors) with false. change (ts_verify_merkle =? ts_verify_wots) with false.
  change (ts_verify_merkle =? ts_verify_merkle) with true. cbv iota.
  pose proof (mh_bounds E) as Mb. pose proof (d_bounds E) as Db. pose proof (wlen_eq E) as Wl. pose proof (n_bounds E) as Nb.
  destruct (next_auth_any ADR_TYPE_HASHTREE c j G Hj ltac:(lia)) as (a & s & v & O & Sv & ->). cbn [bind].
  set (c1 := buf_set BufAuth v _).
  assert (G1 : good E c1) by (apply good_buf_set; [exact Sv|]; apply good_scr; [exact O|]; apply good_merkle_level; [lia|exact G]).
  change (c_merkle_level c1) with (j + 1). rewrite (g_ps E c1 G1), (ps_mh_eq E). cbn [vnxt].
  destruct (Z.eqb_spec (j + 1) (p_h' P)) as [Ej|Ej]; cbn [negb].
  - assert (El : l + 1 < p_d P).
    { destruct (Z.eq_dec (l + 1) (p_d P)); [|lia]. exfalso. apply Hne. unfold vlast. f_equal; lia. }
    change (c_hypertree_level c1) with (c_hypertree_level c). rewrite Hl. unfold u8. rewrite Z.mod_small by lia.
    set (c2 := set_hypertree_level (l + 1) c1). assert (G2 : good E c2) by (apply good_level; [lia|exact G1]).
    change (c_hypertree_level c2) with (l + 1). rewrite (g_ps E c2 G2), (ps_d_eq E), (ps_mh_eq E).
    destruct (Z.ltb_spec (l + 1) (p_d P)); [|lia]. rewrite shift_count_ok by lia. cbn [bind].
    pose proof (wf_tree_address _ _ (g_wf E c2 G2)) as Ht.
    set (t := c_tree_address c2) in *.
    assert (Em : Z.shiftl 1 (p_h' P) - 1 = Z.ones (p_h' P)) by (rewrite Z.ones_equiv, Z.shiftl_1_l; lia).
    rewrite Em, Z.land_ones by lia. pose proof (pow2_pos (p_h' P) ltac:(lia)) as Pp.
    pose proof (Z.mod_pos_bound t (2 ^ p_h' P) Pp) as Tm. pose proof (h16 E _ Tm) as T16.
    unfold u32. rewrite (Z.mod_small (t mod 2 ^ p_h' P)) by lia.
    set (c3 := set_tree_address _ c2).
    assert (G3 : good E c3).
    { apply good_tree; [|exact G2]. rewrite Z.shiftr_div_pow2 by lia. clear - Ht Pp. split; [apply Z.div_pos; lia|].
      apply Z.div_lt_upper_bound; nia. }
    destruct (setup_any _ c3 G3 T16) as (c5 & msg & -> & G5 & C5 & Dg & Ds & Bg). cbn [bind].
    apply core_inv in C5. destruct C5 as (K1 & K2 & K3 & K4 & K5 & K6 & K7 & K8).
    eexists. split; [reflexivity|]. split; [|rewrite K2; reflexivity].
    split; [exact G5|]. split; [cbn [vrng]; lia|].
    split; [exact K1|]. split; [|split; [exact K5|split; [exact Dg|split; [exists msg; exact Ds|exact Bg]]]].
    split; [exact K3|]. split; [rewrite K4; exact Hf|]. split; [exact K7|]. rewrite K6. exact Tm.
  - eexists. split; [reflexivity|]. split; [|reflexivity].
    split; [exact G1|]. split; [cbn [vrng]; lia|]. split; [exact HS|].
    split; [|reflexivity].
    split; [exact Hl|]. split; [exact Hf|]. split; [exact Hk|exact Hn].
Qed.

Variable B : list Z.    (* what is at the address of the key *)
Hypothesis HB : holds m (e_pk E) B.
Hypothesis LB : len B = 2 * n.
Lemma vshp_last k c : VShp (vlast E) c ->
  exists r c', verify_switch cfg m k c = Ok (inr (r, set_state (if r =? 1 then ts_verify_success else ts_verify_fail) c')) /\
    (r = 0 \/ r = 1 /\ k = 0) /\ good E c' /\ c_buffer_offset c' = c_buffer_offset c.
Proof using H_f H_init HB LB.
  intros (G & R & HS & (Hl & Hf & Hk & Hn) & Hj). cbn [vrng vlast] in R. unfold verify_switch.
  rewrite HS. change (ts_verify_merkle =? ts_verify_init) with false. change (ts_verify_merkle =? ts_verify_fors_leaf) with false.
  change (ts_verify_merkle =? ts_verify_fors) with false. change (ts_verify_merkle =? ts_verify_wots) with false.
  change (ts_verify_merkle =? ts_verify_merkle) with true. cbv iota.
  pose proof (mh_bounds E) as Mb. pose proof (d_bounds E) as Db. pose proof (n_bounds E) as Nb.
  destruct (next_auth_any ADR_TYPE_HASHTREE c _ G Hj ltac:(lia)) as (a & s & v & O & Sv & ->). cbn [bind].
  set (c1 := buf_set BufAuth v _).
  assert (G1 : good E c1) by (apply good_buf_set; [exact Sv|]; apply good_scr; [exact O|]; apply good_merkle_level; [lia|exact G]).
  change (c_merkle_level c1) with (p_h' P - 1 + 1). rewrite (g_ps E c1 G1), (ps_mh_eq E).
  destruct (Z.eqb_spec (p_h' P - 1 + 1) (p_h' P)) as [_|?]; [|lia]. cbn [negb].
  change (c_hypertree_level c1) with (c_hypertree_level c). rewrite Hl. unfold u8. rewrite Z.mod_small by lia.
  set (c2 := set_hypertree_level (p_d P - 1 + 1) c1). assert (G2 : good E c2) by (apply good_level; [lia|exact G1]).
  change (c_hypertree_level c2) with (p_d P - 1 + 1). rewrite (g_ps E c2 G2), (ps_d_eq E).
  destruct (Z.ltb_spec (p_d P - 1 + 1) (p_d P)); [lia|].
  destruct (Z.eqb_spec k 0) as [Ek|Ek].
  - rewrite (g_pk E c2 G2), (ps_n_c E c G). unfold CONVERT_PUBLIC_KEY_TO_ROOT.
    rewrite (load_slice _ _ B n n HB) by lia. cbn [bind].
    set (root := slice B n n).
    assert (SR : str_ok E root) by (split; [apply slice_zlen; [lia|lia|change (@zlen Z) with len; lia]|apply slice_bytes, (proj1 HB)]).
    destruct (auth_some E c2 G2) as (w & (t & A2) & Sw). cbn [buf_of] in A2. rewrite A2.
    pose proof (memcmp_ok root w [] [] t eq_refl) as X. cbn [app] in X. change (zlen (@nil Z)) with 0 in X.
    replace (Z.to_nat n) with (length root) by (apply (str_length E), SR).
    rewrite X by (rewrite (str_length E _ SR), (str_length E _ Sw); reflexivity). cbn [bind].
    destruct (bytes_eqb w root); cbn [Z.eqb].
    + exists 1, c2. split; [reflexivity|]. split; [right; split; [reflexivity|exact Ek]|]. split; [exact G2|reflexivity].
    + exists 0, c2. split; [reflexivity|]. split; [left; reflexivity|]. split; [exact G2|reflexivity].
  - exists 0, c2. split; [reflexivity|]. split; [left; reflexivity|]. split; [exact G2|reflexivity].
Qed.

Lemma leaf_range D : 0 <= idx_leaf_of P D < 2 ^ p_h' P.
Proof using. clear. unfold idx_leaf_of. rewrite (h_div E). apply Z.mod_pos_bound, pow2_pos. pose proof (mh_bounds E); lia. Qed.
Lemma tree_range D : 0 <= idx_tree_of P D < 2 ^ 64.
Proof using.
  clear. unfold idx_tree_of. rewrite (h_div E). pose proof (h_sub E) as Hs.
  pose proof (Z.mod_pos_bound (toInt (slice D (ceil_div (p_k P * p_a P) 8) (ceil_div (p_h P - p_h' P) 8))) (2 ^ (p_h P - p_h' P))) as X.
  assert (0 < 2 ^ (p_h P - p_h' P)) by (apply pow2_pos; lia).
  assert (2 ^ (p_h P - p_h' P) <= 2 ^ 64) by (apply Z.pow_le_mono_r; lia). lia.
Qed.

Lemma vshp_VI c : VShp VI c -> msg_there -> vshp_step VI c.
Proof using H_f H_init HB LB.
  intros (G & _ & HS & Ha & Hlen) (M & HL & HM) k. unfold verify_switch.
  pose proof (n_bounds E) as Nb. destruct (buf_some c G) as (X & HX & SX).
  rewrite HS. change (ts_verify_init =? ts_verify_init) with true. cbv iota.
  rewrite Ha. cbn [bind]. rewrite Hlen. cbn [bind]. rewrite HL. cbn [bind].
  destruct (hash_msg_any E m B (c_buffer c) X M c G HB LB (buf_is_read E BufBuffer X c (proj1 SX) HX) SX HM) as (H & it4 & -> & I4 & L49 & B49). cbn [bind].
  set (c1 := set_small_iter it4 c). assert (G1 : good E c1) by (apply good_small; assumption).
  pose proof (x_ge_fors E) as Xf. pose proof (fors_stack_min E) as Fm. pose proof (FORS_size_lt E) as Fl.
  destruct (good_x_ok E c1 G1) as [Lx Bx].
  unfold wr_stack at 1. unfold sub_wr. change (snd (fors_stack cfg)) with (FORS_STACK_SIZE cfg). change (fst (fors_stack cfg)) with FORS_STACK_OFFSET.
  set (o := FORS_STACK_OFFSET) in *. set (sz := FORS_STACK_SIZE cfg) in *.
  assert (Ho : 0 <= o) by (unfold o, FORS_STACK_OFFSET, TS_MAX_FORS; lia).
  destruct (Z.leb_spec (0 + zlen H) sz); [|lia]. cbn [Z.leb Z.compare andb]. rewrite Z.add_0_r.
  assert (W1 : exists x1, wr_range (c_x c1) o H = Ok x1) by (rewrite wr_range_ok by lia; eauto).
  destruct W1 as (x1 & W1). rewrite W1. cbn [bind].
  destruct (wr_then_rd _ _ _ _ W1) as [R1 L1].
  assert (B1 : is_bytes x1).
  { rewrite wr_range_ok in W1 by lia.
    assert (Ex : x1 = firstn (Z.to_nat o) (c_x c1) ++ H ++ skipn (Z.to_nat o + length H) (c_x c1)) by congruence. rewrite Ex.
    apply bytes_app; [apply Forall_firstn', Bx|]. apply bytes_app; [exact B49|apply Forall_skipn', Bx]. }
  set (c2 := set_x x1 c1). assert (G2 : good E c2) by (apply good_x; [split; [lia|exact B1]|exact G1]).
  unfold rd_stack, sub_rd. change (c_x c2) with x1.
  change (snd (fors_stack cfg)) with sz. change (fst (fors_stack cfg)) with o.
  destruct (Z.leb_spec (0 + sz) sz); [|lia]. cbn [Z.leb Z.compare andb]. rewrite Z.add_0_r.
  rewrite (rd_range_ok x1 o sz) by lia. cbn [bind].
  set (stk := firstn (Z.to_nat sz) (skipn (Z.to_nat o) x1)).
  assert (Lstk : zlen stk = sz) by (unfold stk, zlen in *; rewrite firstn_length, skipn_length; lia).
  assert (Bstk : is_bytes stk) by (apply Forall_firstn', Forall_skipn', B1).
  destruct (convert_ok E stk c2 G2 Bstk) as (mh & x' & -> & Bx' & Fx & _ & Lmh & Bmh); [lia|].
  set (D := firstn (Z.to_nat (p_m P)) stk) in *. cbn [bind].
  set (c3 := set_fors_keypair_addr _ _).
  pose proof (leaf_range D) as LR.
  assert (G3 : good E c3) by (apply good_keypair; [exact (h16 E _ LR)|]; apply good_tree; [apply tree_range|]; apply good_x; assumption).
  unfold wr_stack, sub_wr. change (c_x c3) with x'.
  change (snd (fors_stack cfg)) with sz. change (fst (fors_stack cfg)) with o.
  destruct (Z.leb_spec (0 + zlen mh) sz); [|lia]. cbn [Z.leb Z.compare andb]. rewrite Z.add_0_r.
  destruct Bx' as [Lx' Bx'].
  assert (W2 : exists x2, wr_range x' o mh = Ok x2) by (rewrite wr_range_ok by lia; eauto).
  destruct W2 as (x2 & W2). rewrite W2. cbn [bind].
  destruct (wr_then_rd _ _ _ _ W2) as [_ L2].
  assert (B2 : is_bytes x2).
  { rewrite wr_range_ok in W2 by lia.
    assert (Ex : x2 = firstn (Z.to_nat o) x' ++ mh ++ skipn (Z.to_nat o + length mh) x') by congruence. rewrite Ex.
    apply bytes_app; [apply Forall_firstn', Bx'|]. apply bytes_app; [exact Bmh|apply Forall_skipn', Bx']. }
  assert (F2 : fors_idx_at E x2 (md_of P D)).
  { intros i Hi. rewrite <- (Fx i Hi). apply (get_fors_node_firstn E); [lia| |].
    - pose proof (k_bounds E). unfold TS_MAX_FORS. lia.
    - apply (wr_firstn _ _ _ _ _ 0 W2). fold o. lia. }
  set (c4 := set_hypertree_level 0 _).
  assert (G4 : good E c4).
  { apply good_level; [lia|]. apply good_merkle_level; [lia|]. apply good_fors_tree; [lia|]. apply good_state; [unfold ts_verify_fors_leaf; lia|].
    apply good_x; [split; [lia|exact B2]|exact G3]. }
  destruct (ts_set_fors_root_ok E c4 G4) as (a & -> & HA). cbn [bind].
  assert (G5 : good E (set_adr a c4)) by (apply good_adr; [exact (adr_rep_ok E _ _ HA)|exact G4]).
  rewrite (eq_big_init cfg m (e_mem E) (e_ps E) (e_pk E) H_init _ (K_good _ G5)).
  destruct (big_init_ok E _ (set_adr a c4) G5 HA) as (g & -> & I7). cbn [bind].
  eexists. split; [reflexivity|]. split; [|reflexivity].
  split; [apply good_big; [exact (irep_ok E _ _ _ I7)|exact G5]|]. split; [cbn [vrng vnxt]; pose proof (k_bounds E); lia|].
  split; [reflexivity|]. split; [reflexivity|]. split; [reflexivity|]. split; [exact LR|].
  split; [exists (md_of P D); exact F2|]. eexists E, _, []. split; [apply alike_refl|]. split; [exact I7|reflexivity].
Qed.
Lemma vshp_switch s c : s <> vlast E -> VShp s c -> (s = VI -> msg_there) -> vshp_step s c.
Proof using H_f H_init HB LB.
  destruct s; intros Hne HI Hv; [apply vshp_VI; auto|apply vshp_FL|apply vshp_FA|apply vshp_WT|apply vshp_MK]; assumption.
Qed.

(** ** The loop *)
Record VRun (s : vst) (o : Z) (c : ts_context) : Prop := mkVRn {
  vr_shp : VShp s c;
  vr_off : c_buffer_offset c = o;
  vr_rng : 0 <= o < n }.
Lemma VShp_buffer s c b : VShp s c -> bytes_of (TS_MAX_HASH cfg) b -> VShp s (set_buffer b c).
Proof using. clear. intros (G & R & H) Bb. split; [apply good_buffer; assumption|]. split; [exact R|]. destruct s; exact H. Qed.
Lemma VShp_offset s c o : VShp s c -> 0 <= o < 256 -> VShp s (set_buffer_offset o c).
Proof using. clear. intros (G & R & H) Ho. split; [apply good_offset; assumption|]. split; [exact R|]. destruct s; exact H. Qed.

Lemma vloop_any fuel : forall sg pos k s o c, VRun s o c -> (vtot E s o < n -> n <= vtot E s o + k -> msg_there) ->
  0 <= k < 2 ^ 32 -> 0 <= pos -> pos + k <= zlen sg -> is_bytes sg -> k < Z.of_nat fuel ->
  exists r c', verify_loop cfg m fuel sg pos k c = Ok (r, c') /\ good E c' /\
  (vtot E s o + k < slh_sig_length P -> r = 1 /\ exists s' o', VRun s' o' c' /\ vtot E s' o' = vtot E s o + k) /\
  (slh_sig_length P <= vtot E s o + k -> (r = 0 /\ c_state c' = ts_verify_fail) \/
     (r = 1 /\ vtot E s o + k = slh_sig_length P /\ c_state c' = ts_verify_success /\ c_buffer_offset c' = 0)).
Proof using H_f H_init HB LB.
  induction fuel as [|fuel IH]; intros sg pos k s o c HR Hmem Hk Hpos Hfit Bsg Hfu; [lia|].
  pose proof HR as [HI Ho Hrg]. pose proof (n_bounds E) as Nb. pose proof (n_max E) as Nm.
  assert (G : good E c) by apply HI. assert (Rg : vrng E s) by apply HI. pose proof (vpos_range E s Rg) as Rp.
  pose proof (blk_fit E (vpos E s) (NB E) ltac:(lia) ltac:(lia)) as Bf. rewrite NB_len in Bf.
  cbn [verify_loop]. rewrite (ps_n_c E c G), Ho. unfold u32. rewrite (Z.mod_small (n - o)) by lia.
  set (r := if k <? n - o then k else n - o).
  assert (Hr : 0 <= r <= n - o /\ r <= k) by (unfold r; destruct (Z.ltb_spec k (n - o)); lia).
  rewrite rd_range_ok by lia. cbn [bind]. set (src := firstn _ _).
  assert (Ls : zlen src = r) by (unfold src, zlen in *; rewrite firstn_length, skipn_length; lia).
  assert (Bs : is_bytes src) by (apply Forall_firstn', Forall_skipn', Bsg).
  destruct (wf_buffer _ _ (g_wf E c G)) as [Lb Bb].
  rewrite wr_range_ok by lia. cbn [bind]. set (b1 := firstn _ _ ++ _).
  assert (Ob1 : bytes_of (TS_MAX_HASH cfg) b1).
  { split.
    - unfold b1. rewrite !zlen_app, Ls. unfold zlen in *. rewrite firstn_length, skipn_length. lia.
    - unfold b1. apply bytes_app; [apply Forall_firstn', Bb|]. apply bytes_app; [exact Bs|apply Forall_skipn', Bb]. }
  set (c1 := set_buffer b1 c).
  assert (HI1 : VShp s c1) by (apply VShp_buffer; assumption).
  rewrite (Z.mod_small (o + r)) by lia. rewrite (Z.mod_small (k - r)) by lia.
  destruct (Z.ltb_spec (o + r) n) as [Hlt|Hge].
  - assert (Er : r = k) by (unfold r in *; destruct (Z.ltb_spec k (n - o)); lia).
    assert (Hlt' : vtot E s o + k < slh_sig_length P) by (unfold vtot; lia).
    unfold u8. rewrite Z.mod_small by lia. exists 1, (set_buffer_offset (o + r) c1).
    assert (HI2 : VShp s (set_buffer_offset (o + r) c1)) by (apply VShp_offset; [exact HI1|lia]).
    split; [reflexivity|]. split; [apply HI2|]. split; [|intros; lia]. intros _. split; [reflexivity|].
    exists s, (o + r). split; [|unfold vtot; lia]. split; [exact HI2|reflexivity|lia].
  - assert (Eor : o + r = n) by lia.
    set (c2 := set_buffer_offset 0 c1).
    assert (HI2 : VShp s c2) by (apply VShp_offset; [exact HI1|lia]).
    assert (Et : vtot E s o + r = (vpos E s + 1) * n) by (unfold vtot; lia).
    assert (Hmm : s = VI -> msg_there) by (intros Es; apply Hmem; unfold vtot; rewrite Es; cbn [vpos]; lia).
    assert (Dl : {s = vlast E} + {s <> vlast E}).
    { destruct s as [| | | |l j]; try (right; unfold vlast; discriminate). unfold vlast.
      destruct (Z.eq_dec l (p_d P - 1)) as [->|]; [destruct (Z.eq_dec j (p_h' P - 1)) as [->|]|]; [left; reflexivity|right; congruence|right; congruence]. }
    destruct Dl as [Es|Es].
    + assert (Ep : (vpos E s + 1) * n = slh_sig_length P) by (rewrite <- NB_len, Es, vpos_last; reflexivity).
      rewrite Es in HI2.
      destruct (vshp_last (k - r) c2 HI2) as (v & c3 & -> & Hv & G3 & O3). cbn [bind].
      exists v, (set_state (if v =? 1 then ts_verify_success else ts_verify_fail) c3). split; [reflexivity|].
      split; [apply good_state; [|exact G3]; destruct (v =? 1); [unfold ts_verify_success|unfold ts_verify_fail]; lia|].
      split; [intros; lia|]. intros _. destruct Hv as [-> | [-> Hk0]]; [left; split; reflexivity|right].
      split; [reflexivity|]. split; [lia|]. split; [reflexivity|exact O3].
    + destruct (vshp_switch s c2 Es HI2 Hmm (k - r)) as (c3 & -> & HI3 & O3). cbn [bind].
      destruct (vpos_nxt E s Rg Es) as [Rn En].
      assert (HR3 : VRun (vnxt E s) 0 c3) by (split; [exact HI3|exact O3|lia]).
      assert (Et3 : vtot E (vnxt E s) 0 = vtot E s o + r) by (unfold vtot; rewrite En; lia).
      destruct (IH sg (pos + r) (k - r) (vnxt E s) 0 c3 HR3) as (v & c' & EV & G' & C1 & C2); try assumption; try lia.
      rewrite Et3 in C1, C2. replace (vtot E s o + r + (k - r)) with (vtot E s o + k) in C1, C2 by lia.
      exists v, c'. auto.
Qed.
End Shape.

(** From an honest run to its shape; and to any other environment the context does not tell apart *)
Lemma VRun_alike E E' ma ml s o c : alike E E' -> VRun E ma ml s o c -> VRun E' ma ml s o c.
Proof.
  intros A [(G & R & H) HO HR]. pose proof (alike_P _ _ A) as EP. pose proof (alike_n _ _ A) as EN. assert (EC : e_cfg E = e_cfg E') by apply A.
  split; [|exact HO|rewrite <- EN; exact HR]. split; [exact (good_alike _ _ _ A G)|].
  assert (HF : forall i, in_fors E i c -> in_fors E' i c).
  { intros i (A1 & A2 & A3 & (md & A4) & A5). split; [exact A1|]. split; [exact A2|]. split; [rewrite <- EP; exact A3|].
    split; [exists md; unfold fors_idx_at in *; rewrite <- EC, <- EP; exact A4|exact (taken_alike _ _ _ _ A A5)]. }
  assert (HT : forall l, in_tree E l c -> in_tree E' l c).
  { intros l (A1 & A2 & A3 & A4). split; [exact A1|]. split; [exact A2|]. split; [exact A3|rewrite <- EP; exact A4]. }
  split; [destruct s; cbn [vrng] in *; rewrite <- ?EP; exact R|].
  destruct s as [|i|i j|l q|l j].
  - rewrite <- EC. exact H.
  - destruct H as [A1 A2]. split; [exact A1|apply HF, A2].
  - destruct H as (A1 & A2 & A3). split; [exact A1|]. split; [apply HF, A2|exact A3].
  - destruct H as (A1 & A2 & A3 & A4 & (msg & A5) & A6). split; [exact A1|]. split; [apply HT, A2|]. split; [exact A3|]. split; [exact A4|].
    split; [exists msg; unfold digits_at in *; rewrite <- EC, <- EN; exact A5|exact (taken_alike _ _ _ _ A A6)].
  - destruct H as (A1 & A2 & A3). split; [exact A1|]. split; [apply HT, A2|exact A3].
Qed.
Lemma vtot_alike E E' s o : alike E E' -> vtot E s o = vtot E' s o.
Proof. intros A. pose proof (alike_P _ _ A) as EP. pose proof (alike_n _ _ A) as EN. unfold vtot, vpos, fpos, hpos. rewrite EP, EN. reflexivity. Qed.
