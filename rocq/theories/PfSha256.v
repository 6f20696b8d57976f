(** * sha256.c computes SHA-256 *)
From Verif Require Import Arr SpecSha2 ModelEndian ModelSha256 PfEndian PfSha2Common PfBlocks.

Local Notation block := 64%nat.
Local Notation wbytes := 4%nat.

(** The constants of the code are the ones of the standard. *)
Lemma K256_spec : v_K SHA256 = K256.
Proof. vm_compute; reflexivity. Qed.
Lemma H256_spec : v_H0 SHA256 = sha256_init_h.
Proof. vm_compute; reflexivity. Qed.

(** Everything the proofs need to know about the SHA-256 variant of the specification. *)
Record is256 (v : variant) : Prop := mkIs256 {
  w256_ : v_w v = 32;
  S256_0_ : v_Sigma0 v = (2, 13, 22);
  S256_1_ : v_Sigma1 v = (6, 11, 25);
  s256_0_ : v_sigma0 v = (7, 18, 3);
  s256_1_ : v_sigma1 v = (17, 19, 10);
  K256_spec_ : v_K v = K256;
  H256_spec_ : v_H0 v = sha256_init_h
}.
Lemma SHA256_is : is256 SHA256.
Proof. exact (mkIs256 SHA256 eq_refl eq_refl eq_refl eq_refl eq_refl K256_spec H256_spec). Qed.
Section V.
Variable v : variant.
Hypothesis Hv : is256 v.
Let w256 := w256_ v Hv.
Let S256_0 := S256_0_ v Hv.
Let S256_1 := S256_1_ v Hv.
Let s256_0 := s256_0_ v Hv.
Let s256_1 := s256_1_ v Hv.
Let K_spec := K256_spec_ v Hv.
Let H_spec := H256_spec_ v Hv.

Lemma wb256 : Z.to_nat (v_w v / 8) = wbytes.
Proof. rewrite w256; reflexivity. Qed.
Lemma K256_len : length (v_K v) = 64%nat.
Proof. rewrite K_spec; reflexivity. Qed.
Lemma K256_len16 : (16 <= length (v_K v))%nat.
Proof. rewrite K256_len; lia. Qed.
Lemma w256_pos : 0 < v_w v.
Proof. rewrite w256; reflexivity. Qed.
Lemma w256_mod : v_w v mod 8 = 0.
Proof. rewrite w256; reflexivity. Qed.
Lemma blk256 (blk : list Z) : length blk = block -> length blk = (16 * Z.to_nat (v_w v / 8))%nat.
Proof. rewrite w256; auto. Qed.

Lemma RORc_ROTR x r : 0 <= x < 2 ^ 32 -> 0 < r < 32 -> RORc x r = ROTR 32 r x.
Proof.
  intros Hx Hr. unfold RORc.
  assert (E : Z.land r 31 = r).
  { change 31 with (Z.ones 5). rewrite Z.land_ones by lia. apply Z.mod_small; lia. }
  rewrite E. destruct (Z.eqb_spec r 0) as [|_]; [lia|].
  change mask32 with (Z.ones 32).
  rewrite (Z.land_ones x) by lia. rewrite (Z.mod_small x) by exact Hx.
  unfold ROTR, u64. apply Z.bits_inj'; intros i Hi.
  rewrite Z.land_spec, !Z.lor_spec, !Z.shiftr_spec by lia.
  destruct (Z.lt_ge_cases i 32).
  - rewrite !Z.mod_pow2_bits_low by lia. rewrite Z.ones_spec_low by lia. apply andb_true_r.
  - rewrite Z.ones_spec_high by lia. rewrite (Z.mod_pow2_bits_high _ 32) by lia.
    rewrite (testbit_high 32) by lia. rewrite andb_false_r. reflexivity.
Qed.
Lemma R32_SHR x n : 0 <= x < 2 ^ 32 -> R32 x n = SHR n x.
Proof.
  intros Hx. unfold R32, SHR. f_equal. change mask32 with (Z.ones 32).
  rewrite Z.land_ones by lia. apply Z.mod_small, Hx.
Qed.

Lemma land15 i : Z.land i 15 = i mod 16.
Proof. change 15 with (Z.ones 4). apply Z.land_ones; lia. Qed.

(** ** Loading the block *)
Lemma load_W_spec le buf x blk :
  is_bytes x -> length x = block -> is_bytes blk -> length blk = block ->
  blk = match buf with Some b => b | None => x end ->
  sha256_load_W le buf x = Ok (enc_words le wbytes (map toInt (blocks wbytes blk))).
Proof.
  intros Hx Lx Hb Lb E. unfold sha256_load_W.
  set (body := fun i x => _).
  destruct (for_loop_inv (fun i y =>
     y = enc_words le wbytes (firstn (Z.to_nat i) (map toInt (blocks wbytes blk)))
         ++ skipn (wbytes * Z.to_nat i) x)
     body 16 0 x) as (y & Ey & Hy).
  - reflexivity.
  - intros i y Hi ->. unfold body.
    set (W := map toInt (blocks wbytes blk)).
    assert (LW : length W = 16%nat).
    { unfold W. rewrite map_length, blocks_length, Lb. reflexivity. }
    set (pre := enc_words le wbytes (firstn (Z.to_nat i) W)).
    assert (Lp : length pre = (wbytes * Z.to_nat i)%nat).
    { unfold pre. rewrite enc_words_length, firstn_len by lia. reflexivity. }
    assert (Es : rd_range match buf with Some b => b | None => pre ++ skipn (wbytes * Z.to_nat i) x end
              (4 * i) 4 = Ok (firstn 4 (skipn (wbytes * Z.to_nat i) blk))).
    { destruct buf as [b|].
      - subst b. rewrite rd_range_ok by (unfold zlen; lia). do 2 f_equal. f_equal; lia.
      - rewrite rd_range_ok; [|lia|lia|].
        + rewrite E. do 2 f_equal.
          rewrite skipn_app_ge by lia. rewrite skipn_skipn'. f_equal; lia.
        + unfold zlen; rewrite app_length, skipn_length; lia. }
    rewrite Es; cbn [bind].
    assert (Lc : length (firstn 4 (skipn (wbytes * Z.to_nat i) blk)) = 4%nat)
      by (apply firstn_len; rewrite skipn_length; lia).
    assert (Hc : is_bytes (firstn 4 (skipn (wbytes * Z.to_nat i) blk)))
      by (apply Forall_firstn', Forall_skipn', Hb).
    rewrite bytes_to_ull_small; [|exact Hc|lia|unfold zlen; rewrite Lc; reflexivity].
    cbn [bind].
    assert (EW : nth (Z.to_nat i) W 0 = toInt (firstn 4 (skipn (wbytes * Z.to_nat i) blk))).
    { unfold W. change 0 with (toInt []). rewrite map_nth, blocks_nth.
      - do 2 f_equal. f_equal; lia.
      - rewrite Lb. change (block / wbytes)%nat with 16%nat. lia. }
    pose proof (toInt_range _ Hc) as Hr. rewrite Lc in Hr.
    rewrite (Z.mod_small _ _ Hr : u32 (toInt _) = _) || (unfold u32; rewrite Z.mod_small by exact Hr).
    unfold wr_word. rewrite wr_range_ok; [| lia |].
    + eexists; split; [reflexivity|].
      replace (Z.to_nat (i + 1)) with (S (Z.to_nat i)) by lia.
      rewrite (firstn_S_nth _ W 0) by lia. rewrite enc_words_app. fold pre.
      rewrite <- app_assoc. rewrite EW.
      replace (Z.to_nat (0 + Z.of_nat 4 * i)) with (length pre) by lia.
      rewrite firstn_app_exact by reflexivity. f_equal.
      cbn [enc_words flat_map]. rewrite app_nil_r. f_equal.
      rewrite enc_word_length, skipn_app_ge by lia. rewrite skipn_skipn'. f_equal. lia.
    + unfold zlen. rewrite app_length, skipn_length, enc_word_length. lia.
  - rewrite Ey, Hy. f_equal.
    rewrite skipn_all2 by lia. rewrite app_nil_r, firstn_all2; [reflexivity|].
    rewrite map_length, blocks_length, Lb. reflexivity.
Qed.

(** ** The rounds *)
Definition to_vars (r : regs) : vars := (S0 r, S1 r, S2 r, S3 r, S4 r, S5 r, S6 r, S7 r).
Definition regs_ok (r : regs) : Prop :=
  word_range 32 (S0 r) /\ word_range 32 (S1 r) /\ word_range 32 (S2 r) /\ word_range 32 (S3 r)
  /\ word_range 32 (S4 r) /\ word_range 32 (S5 r) /\ word_range 32 (S6 r) /\ word_range 32 (S7 r).

Lemma small_sigma_g1 x : 0 <= x < 2 ^ 32 -> Gamma1_32 x = small_sigma 32 (17, 19, 10) x.
Proof. intros; unfold Gamma1_32, small_sigma; rewrite !RORc_ROTR, R32_SHR by (auto; lia); reflexivity. Qed.
Lemma small_sigma_g0 x : 0 <= x < 2 ^ 32 -> Gamma0_32 x = small_sigma 32 (7, 18, 3) x.
Proof. intros; unfold Gamma0_32, small_sigma; rewrite !RORc_ROTR, R32_SHR by (auto; lia); reflexivity. Qed.
Lemma big_sigma_1 x : 0 <= x < 2 ^ 32 -> Sigma1_32 x = big_sigma 32 (6, 11, 25) x.
Proof. intros; unfold Sigma1_32, big_sigma; rewrite !RORc_ROTR by (auto; lia); reflexivity. Qed.
Lemma big_sigma_0 x : 0 <= x < 2 ^ 32 -> Sigma0_32 x = big_sigma 32 (2, 13, 22) x.
Proof. intros; unfold Sigma0_32, big_sigma; rewrite !RORc_ROTR by (auto; lia); reflexivity. Qed.

Lemma u32_range x : word_range 32 (u32 x).
Proof. unfold word_range, u32. apply Z.mod_pos_bound; lia. Qed.

(** What the rounds need to know about the schedule of a block. *)
Record is_schedule (blk W : list Z) : Prop := mkSched {
  sc_length : length W = 64%nat;
  sc_range : forall t, (t < 64)%nat -> word_range 32 (nth t W 0);
  sc_low : forall t, (t < 16)%nat ->
    nth t W 0 = toInt (firstn wbytes (skipn (t * wbytes) blk));
  sc_high : forall t, (16 <= t < 64)%nat ->
    nth t W 0 = u32 (Gamma1_32 (nth (t - 2) W 0) + nth (t - 7) W 0
                     + Gamma0_32 (nth (t - 15) W 0) + nth (t - 16) W 0)
}.
Lemma schedule_is blk : is_bytes blk -> length blk = block ->
  is_schedule blk (schedule v blk).
Proof.
  intros Hb Lb. pose proof (blk256 blk Lb) as Lb'.
  assert (HL : length (schedule v blk) = 64%nat).
  { rewrite (schedule_length v w256_pos w256_mod blk Lb' K256_len16). apply K256_len. }
  assert (HR : forall t, (t < 64)%nat -> word_range 32 (nth t (schedule v blk) 0)).
  { intros t Ht. rewrite <- w256. refine (Forall_nth' _ _ 0 t _ _).
    - exact (schedule_range v w256_pos w256_mod blk Hb Lb' K256_len16).
    - rewrite HL; exact Ht. }
  split; [exact HL|exact HR| |].
  - intros t Ht. rewrite <- wb256. exact (schedule_low v w256_pos w256_mod blk Lb' K256_len16 t Ht).
  - intros t Ht.
    pose proof (schedule_high v w256_pos w256_mod blk Lb' K256_len16 t) as H.
    rewrite K256_len, w256, s256_0, s256_1 in H. specialize (H Ht). cbv zeta in H. rewrite H.
    assert (T2 : (t - 2 < 64)%nat) by (clear - Ht; lia).
    assert (T15 : (t - 15 < 64)%nat) by (clear - Ht; lia).
    pose proof (HR _ T2) as H2. pose proof (HR _ T15) as H15.
    rewrite (small_sigma_g1 _ H2), (small_sigma_g0 _ H15). reflexivity.
Qed.

Lemma load_words_ok256 blk : is_bytes blk -> length blk = block ->
  words_ok wbytes (map toInt (blocks wbytes blk)).
Proof.
  intros Hb Lb. pose proof (load_words_ok v w256_pos w256_mod blk Hb (blk256 blk Lb) K256_len16) as H.
  rewrite w256 in H. exact H.
Qed.
Lemma round256 s kw : round v s kw =
  let '(a, b, c, d, e, f, g, h) := s in
  let '(K_t, W_t) := kw in
  let T1 := u32 (h + big_sigma 32 (6, 11, 25) e + Ch 32 e f g + K_t + W_t) in
  let T2 := u32 (big_sigma 32 (2, 13, 22) a + Maj a b c) in
  (u32 (T1 + T2), a, b, c, u32 (d + T1), e, f, g).
Proof. unfold round. rewrite w256, S256_0, S256_1. reflexivity. Qed.
Lemma hash_block256 H blk : hash_block v H blk =
  let '(a, b, c, d, e, f, g, h) :=
    fold_left (round v) (combine K256 (schedule v blk))
      (nth 0 H 0, nth 1 H 0, nth 2 H 0, nth 3 H 0, nth 4 H 0, nth 5 H 0, nth 6 H 0, nth 7 H 0) in
  [u32 (a + nth 0 H 0); u32 (b + nth 1 H 0); u32 (c + nth 2 H 0); u32 (d + nth 3 H 0);
   u32 (e + nth 4 H 0); u32 (f + nth 5 H 0); u32 (g + nth 6 H 0); u32 (h + nth 7 H 0)].
Proof. unfold hash_block. rewrite w256, K_spec. reflexivity. Qed.

Section Round.
Variable le : bool.
Variable blk : list Z.
Hypothesis Hb : is_bytes blk.
Hypothesis Lb : length blk = block.
Variable W : list Z.
Hypothesis HWs : is_schedule blk W.
Let W_length := sc_length blk W HWs.
Let W_range := sc_range blk W HWs.
Let W_high := sc_high blk W HWs.

Definition winv (i : Z) (ws : list Z) : Prop :=
  length ws = 16%nat /\ words_ok wbytes ws /\
  forall t, Z.max 0 (i - 16) <= t < Z.max i 16 ->
    nth (Z.to_nat (t mod 16)) ws 0 = nth (Z.to_nat t) W 0.

Lemma round_spec i x r :
  0 <= i < 64 ->
  (exists ws, x = enc_words le wbytes ws /\ winv i ws) -> regs_ok r ->
  exists x' r', sha256_round le i (x, r) = Ok (x', r')
    /\ (exists ws, x' = enc_words le wbytes ws /\ winv (i + 1) ws)
    /\ regs_ok r'
    /\ to_vars r' = round v (to_vars r) (nth (Z.to_nat i) K256 0, nth (Z.to_nat i) W 0).
Proof.
  intros Hi (ws & -> & Lw & Ow & Hw) Hr. unfold sha256_round.
  assert (HW : exists ws', (if 16 <=? i then
          w2 <- rd_word le 4 (enc_words le wbytes ws) 0 (Z.land (i - 2) 15) ;;
          w7 <- rd_word le 4 (enc_words le wbytes ws) 0 (Z.land (i - 7) 15) ;;
          w15 <- rd_word le 4 (enc_words le wbytes ws) 0 (Z.land (i - 15) 15) ;;
          w16 <- rd_word le 4 (enc_words le wbytes ws) 0 (Z.land (i - 16) 15) ;;
          wr_word le 4 (enc_words le wbytes ws) 0 (Z.land i 15)
            (u32 (Gamma1_32 w2 + w7 + Gamma0_32 w15 + w16))
        else Ok (enc_words le wbytes ws)) = Ok (enc_words le wbytes ws')
      /\ winv (i + 1) ws').
  { destruct (Z.leb_spec 16 i) as [Hge|Hlt].
    - rewrite !land15.
      rewrite !rd_word_enc by (auto; unfold zlen; lia). cbn [bind].
      rewrite wr_word_enc by (unfold zlen; lia).
      rewrite !Hw by lia.
      rewrite !Z2Nat.inj_sub by lia.
      rewrite <- W_high by lia.
      eexists; split; [reflexivity|]. unfold winv.
      rewrite upd_length by lia. split; [exact Lw|]. split.
      + apply upd_Forall; [exact Ow|]. apply (W_range (Z.to_nat i)); lia.
      + intros t Ht. destruct (Z.eq_dec t i) as [->|Hne].
        * apply nth_upd_eq; lia.
        * rewrite nth_upd_neq by lia. apply Hw; lia.
    - exists ws; split; [reflexivity|]. split; [exact Lw|]. split; [exact Ow|].
      intros t Ht; apply Hw; lia. }
  destruct HW as (ws' & -> & Lw' & Ow' & Hw'). cbn [bind].
  rewrite (rd_ok K256 i 0) by (cbn; lia). cbn [bind].
  rewrite land15, rd_word_enc by (auto; unfold zlen; lia). cbn [bind].
  rewrite Hw' by lia.
  do 2 eexists; split; [reflexivity|].
  split; [exists ws'; split; [reflexivity|]; split; [exact Lw'|]; split; [exact Ow'|exact Hw']|].
  destruct Hr as (R0 & R1 & R2 & R3 & R4 & R5 & R6 & R7).
  split; [unfold regs_ok; cbn [S0 S1 S2 S3 S4 S5 S6 S7]; auto 12 using u32_range|].
  rewrite round256.
  unfold to_vars. cbn [S0 S1 S2 S3 S4 S5 S6 S7].
  unfold Ch32. rewrite (ch_eq 32) by (auto; lia).
  unfold Maj32. rewrite maj_eq.
  rewrite big_sigma_1, big_sigma_0 by auto. reflexivity.
Qed.

Lemma fold_combine_firstn (s : vars) (k : nat) : (k < 64)%nat ->
  fold_left (round v) (firstn (S k) (combine K256 W)) s
  = round v (fold_left (round v) (firstn k (combine K256 W)) s)
      (nth k K256 0, nth k W 0).
Proof.
  intros Hk. rewrite (firstn_S_nth _ _ (0, 0)).
  - rewrite fold_left_app. cbn [fold_left]. f_equal. rewrite combine_nth; [reflexivity|].
    rewrite W_length; reflexivity.
  - rewrite combine_length, W_length. cbn; lia.
Qed.

Lemma rounds_spec r : regs_ok r ->
  exists x' r', for_loop 64 0 (sha256_round le)
       (enc_words le wbytes (map toInt (blocks wbytes blk)), r) = Ok (x', r')
    /\ is_bytes x' /\ length x' = block /\ regs_ok r'
    /\ to_vars r' = fold_left (round v) (combine K256 W) (to_vars r).
Proof.
  intros Hr.
  destruct (for_loop_inv (fun i (st : list Z * regs) =>
     (exists ws, fst st = enc_words le wbytes ws /\ winv i ws) /\ regs_ok (snd st)
     /\ to_vars (snd st) = fold_left (round v) (firstn (Z.to_nat i) (combine K256 W)) (to_vars r))
     (sha256_round le) 64 0 (enc_words le wbytes (map toInt (blocks wbytes blk)), r))
     as ([x' r'] & E & (ws & Ex & Lw & Ow & _) & Hr' & Ev).
  - cbn [fst snd]. split; [|split; [exact Hr|reflexivity]].
    exists (map toInt (blocks wbytes blk)). split; [reflexivity|].
    split; [|split].
    + rewrite map_length, blocks_length, Lb; reflexivity.
    + exact (load_words_ok256 blk Hb Lb).
    + intros t Ht. rewrite Z.mod_small by lia.
      rewrite (sc_low blk W HWs) by lia.
      change 0 with (toInt []) at 1. rewrite map_nth. f_equal.
      apply blocks_nth. rewrite Lb. change (block / wbytes)%nat with 16%nat. lia.
  - intros i [x s] Hi (Hx & Hs & Ev). cbn [fst snd] in *.
    destruct (round_spec i x s Hi Hx Hs) as (x' & s' & E & Hx' & Hs' & Ev').
    exists (x', s'); split; [exact E|]. cbn [fst snd]. split; [exact Hx'|]. split; [exact Hs'|].
    rewrite Ev', Ev. replace (Z.to_nat (i + 1)) with (S (Z.to_nat i)) by lia.
    symmetry; apply fold_combine_firstn; lia.
  - cbn [fst snd] in *. exists x', r'. subst x'. split; [exact E|].
    split; [apply enc_words_bytes|].
    split; [rewrite enc_words_length, Lw; reflexivity|].
    split; [exact Hr'|].
    rewrite Ev. rewrite firstn_all2; [reflexivity|].
    rewrite combine_length, W_length. cbn; lia.
Qed.
End Round.

Definition h_ok (h : list Z) : Prop := length h = 8%nat /\ words_ok wbytes h.

Lemma hash_block_ok h blk : h_ok (hash_block v h blk).
Proof.
  rewrite hash_block256. destruct (fold_left _ _ _) as [[[[[[[a b] c] d] e] f] g] hh].
  split; [reflexivity|]. repeat (apply Forall_cons; [apply u32_range|]). apply Forall_nil.
Qed.

Lemma compress_spec le c buf blk :
  h_ok (s256_h c) -> is_bytes (s256_x c) -> length (s256_x c) = block ->
  is_bytes blk -> length blk = block ->
  blk = match buf with Some b => b | None => s256_x c end ->
  exists x', compress le c buf
     = Ok (mkSha256 (hash_block v (s256_h c) blk) (s256_count c) (s256_num c) x')
   /\ is_bytes x' /\ length x' = block.
Proof.
  intros [Lh Oh] Hx Lx Hb Lb E. unfold compress.
  assert (Hrd : forall i, 0 <= i < 8 -> rd (s256_h c) i = Ok (nth (Z.to_nat i) (s256_h c) 0)).
  { intros i Hi. apply rd_ok. unfold zlen; lia. }
  rewrite !Hrd by (clear; lia). cbn [bind].
  rewrite (load_W_spec le buf (s256_x c) blk) by auto. cbn [bind].
  assert (Hn : forall i, (i < 8)%nat -> word_range 32 (nth i (s256_h c) 0)).
  { intros i Hi. apply (Forall_nth' _ (s256_h c)); [exact Oh|lia]. }
  match goal with |- context [mkRegs ?a ?b ?cc ?d ?e ?f ?g ?h] =>
    set (r0 := mkRegs a b cc d e f g h) end.
  destruct (rounds_spec le blk Hb Lb _ (schedule_is blk Hb Lb) r0) as (x' & r & Er & Hx' & Lx' & Hr & Ev).
  { unfold regs_ok, r0; cbn [S0 S1 S2 S3 S4 S5 S6 S7].
    repeat match goal with |- _ /\ _ => split end; apply Hn; cbn; lia. }
  rewrite Er; cbn [bind]. exists x'. split; [|split; [exact Hx'|exact Lx']].
  rewrite hash_block256.
  change (to_vars r0) with (nth 0 (s256_h c) 0, nth 1 (s256_h c) 0, nth 2 (s256_h c) 0,
    nth 3 (s256_h c) 0, nth 4 (s256_h c) 0, nth 5 (s256_h c) 0, nth 6 (s256_h c) 0,
    nth 7 (s256_h c) 0) in Ev.
  rewrite <- Ev. unfold to_vars.
  change (Z.to_nat 0) with 0%nat. change (Z.to_nat 1) with 1%nat.
  change (Z.to_nat 2) with 2%nat. change (Z.to_nat 3) with 3%nat.
  change (Z.to_nat 4) with 4%nat. change (Z.to_nat 5) with 5%nat.
  change (Z.to_nat 6) with 6%nat. change (Z.to_nat 7) with 7%nat.
  rewrite (Z.add_comm (S0 r)), (Z.add_comm (S1 r)), (Z.add_comm (S2 r)), (Z.add_comm (S3 r)),
    (Z.add_comm (S4 r)), (Z.add_comm (S5 r)), (Z.add_comm (S6 r)), (Z.add_comm (S7 r)).
  reflexivity.
Qed.

(** ** Incremental hashing *)

(** The context after absorbing [msg] (everything but the bit count). *)
Record repx (c : sha256_ctx) (msg : list Z) : Prop := mkRepx {
  rx_msg : is_bytes msg;
  rx_h : s256_h c = fold_left (hash_block v) (blocks block msg) (v_H0 v);
  rx_num : s256_num c = zlen (rest block msg);
  rx_x : is_bytes (s256_x c);
  rx_len : length (s256_x c) = block;
  rx_tail : firstn (length (rest block msg)) (s256_x c) = rest block msg
}.
Record rep (c : sha256_ctx) (msg : list Z) : Prop := mkRep {
  rep_x : repx c msg;
  rep_count : s256_count c = u64 (8 * zlen msg)
}.

Lemma fold_h_ok l h : h_ok h -> h_ok (fold_left (hash_block v) l h).
Proof. revert h; induction l as [|b l IH]; intros h H; cbn [fold_left]; [exact H|]. apply IH, hash_block_ok. Qed.
Lemma H0_ok : h_ok (v_H0 v).
Proof. rewrite H_spec. split; [reflexivity|]. repeat constructor; cbn; lia. Qed.
Lemma repx_h_ok c msg : repx c msg -> h_ok (s256_h c).
Proof. intros H. rewrite (rx_h c msg H). apply fold_h_ok, H0_ok. Qed.
Lemma rest_lt (msg : list Z) : (length (rest block msg) < block)%nat.
Proof. rewrite rest_length by lia. apply Nat.mod_upper_bound; lia. Qed.

Lemma rest_bytes (msg : list Z) : is_bytes msg -> is_bytes (rest block msg).
Proof. intros; unfold rest; apply Forall_skipn'; auto. Qed.

Lemma repx_init c : is_bytes (s256_x c) -> length (s256_x c) = block -> rep (ts_SHA256_init c) [].
Proof.
  intros Hx Lx. split; [|reflexivity]. split; cbn; auto. constructor.
Qed.

Lemma update_loop_spec le fuel : forall c msg p,
  repx c msg -> is_bytes p -> (length p < fuel)%nat ->
  exists c', sha256_update_loop le fuel c p = Ok c' /\ repx c' (msg ++ p)
             /\ s256_count c' = s256_count c.
Proof.
  induction fuel as [|fuel IH]; intros c msg p Hc Hp Hf; [lia|].
  cbn [sha256_update_loop].
  destruct (Z.eqb_spec (zlen p) 0) as [E0|E0].
  { exists c. destruct p; [|unfold zlen in E0; cbn in E0; lia]. rewrite app_nil_r. auto. }
  pose proof (rest_lt msg) as Hrl. pose proof (rx_num c msg Hc) as Hnum.
  unfold zlen in *.
  set (r := length (rest block msg)) in *.
  assert (Es : u32 (64 - s256_num c) = 64 - Z.of_nat r).
  { unfold u32. rewrite Hnum. apply Z.mod_small; lia. }
  rewrite Es.
  set (st := if Z.of_nat (length p) <? 64 - Z.of_nat r then u32 (Z.of_nat (length p))
             else 64 - Z.of_nat r).
  assert (Est : st = Z.min (Z.of_nat (length p)) (64 - Z.of_nat r)).
  { unfold st. destruct (Z.ltb_spec (Z.of_nat (length p)) (64 - Z.of_nat r)); [|lia].
    unfold u32. rewrite Z.mod_small; lia. }
  clearbody st.
  assert (Hsplit : p = firstn (Z.to_nat st) p ++ skipn (Z.to_nat st) p)
    by (symmetry; apply firstn_skipn).
  assert (Lf : length (firstn (Z.to_nat st) p) = Z.to_nat st) by (apply firstn_len; lia).
  assert (Hfb : is_bytes (firstn (Z.to_nat st) p)) by (apply Forall_firstn', Hp).
  assert (Hsb : is_bytes (skipn (Z.to_nat st) p)) by (apply Forall_skipn', Hp).
  pose proof (repx_h_ok c msg Hc) as Hh.
  destruct (Z.eqb_spec st 64) as [E64|E64].
  - (* a block straight from the input *)
    assert (r = 0)%nat by lia.
    assert (Hr0 : rest block msg = []) by (apply length_zero_iff_nil; assumption).
    rewrite rd_range_ok by (unfold zlen; lia). cbn [bind].
    change (skipn (Z.to_nat 0) p) with p. change (Z.to_nat 64) with 64%nat.
    rewrite E64 in Lf, Hsplit, Hfb, Hsb. change (Z.to_nat 64) with 64%nat in Lf, Hsplit, Hfb, Hsb.
    destruct (compress_spec le (mkSha256 (s256_h c) (s256_count c) 0 (s256_x c))
      (Some (firstn 64 p)) (firstn 64 p)) as (x' & Ec & Hx' & Lx');
      cbn [s256_h s256_x]; auto; try apply Hc.
    rewrite Ec; cbn [bind s256_h s256_count s256_num].
    destruct (blocks_snoc block ltac:(lia) msg (firstn 64 p)) as [Eb Er].
    { fold r; lia. }
    edestruct (IH (mkSha256 (hash_block v (s256_h c) (firstn 64 p)) (s256_count c) 0 x')
      (msg ++ firstn 64 p) (skipn (Z.to_nat st) p)) as (c' & E' & Hr' & Hc').
    + split; cbn [s256_h s256_num s256_x]; auto.
      * apply Forall_app; split; [apply Hc|exact Hfb].
      * rewrite Eb, fold_left_app, Hr0. cbn [fold_left app]. rewrite (rx_h c msg Hc). reflexivity.
      * rewrite Er; reflexivity.
      * rewrite Er; reflexivity.
    + rewrite E64; exact Hsb.
    + rewrite skipn_length; lia.
    + exists c'. split; [exact E'|]. split; [|exact Hc'].
      rewrite E64 in Hr'. change (Z.to_nat 64) with 64%nat in Hr'.
      rewrite <- app_assoc, <- Hsplit in Hr'. exact Hr'.
  - rewrite rd_range_ok by (unfold zlen; lia). cbn [bind].
    change (skipn (Z.to_nat 0) p) with p.
    pose proof (rx_len c msg Hc) as Lx. pose proof (rx_x c msg Hc) as Hx.
    rewrite wr_range_ok by (unfold zlen; lia). cbn [bind].
    rewrite Hnum, Nat2Z.id. pose proof (rx_tail c msg Hc) as Ht. fold r in Ht. rewrite Ht, Lf.
    set (x' := rest block msg ++ firstn (Z.to_nat st) p ++ skipn (r + Z.to_nat st) (s256_x c)).
    assert (Lx' : length x' = block).
    { unfold x'. rewrite !app_length, Lf, skipn_length. fold r; lia. }
    assert (Hx' : is_bytes x').
    { unfold x'. apply Forall_app; split; [apply rest_bytes, Hc|].
      apply Forall_app; split; [exact Hfb|apply Forall_skipn', Hx]. }
    assert (Eu : u32 (st + Z.of_nat r) = st + Z.of_nat r) by (unfold u32; apply Z.mod_small; lia).
    rewrite Eu.
    destruct (Z.ltb_spec (st + Z.of_nat r) 64) as [Hlt|Hge].
    + (* not full *)
      assert (Hall : st = Z.of_nat (length p)) by lia.
      assert (Efp : firstn (Z.to_nat st) p = p) by (rewrite Hall, Nat2Z.id; apply firstn_all).
      eexists; split; [reflexivity|]. split; [|reflexivity].
      destruct (blocks_more block ltac:(lia) msg p) as [Eb Er]; [fold r; lia|].
      split; cbn [s256_h s256_num s256_x]; auto.
      * apply Forall_app; split; [apply Hc|exact Hp].
      * rewrite Eb; apply Hc.
      * rewrite Er. unfold zlen. rewrite app_length. fold r.
        rewrite Z.add_comm, Eu. lia.
      * rewrite Er. unfold x'. rewrite Efp, app_assoc.
        apply firstn_app_exact. reflexivity.
    + (* the buffer is full *)
      assert (Hfull : st = 64 - Z.of_nat r) by lia.
      assert (Ex' : x' = rest block msg ++ firstn (Z.to_nat st) p).
      { unfold x'. rewrite (skipn_all2 (s256_x c)) by lia. rewrite app_nil_r. reflexivity. }
      destruct (compress_spec le (mkSha256 (s256_h c) (s256_count c) 0 x')
        None x') as (x2 & Ec & Hx2 & Lx2);
        cbn [s256_h s256_x]; auto.
      rewrite Ec; cbn [bind s256_h s256_count s256_num].
      destruct (blocks_snoc block ltac:(lia) msg (firstn (Z.to_nat st) p)) as [Eb Er].
      { fold r; lia. }
      edestruct (IH (mkSha256 (hash_block v (s256_h c) x') (s256_count c) 0 x2)
        (msg ++ firstn (Z.to_nat st) p) (skipn (Z.to_nat st) p)) as (c' & E' & Hr' & Hc'); auto.
      * split; cbn [s256_h s256_num s256_x]; auto.
        -- apply Forall_app; split; [apply Hc|exact Hfb].
        -- rewrite Eb, fold_left_app. cbn [fold_left]. rewrite (rx_h c msg Hc), Ex'. reflexivity.
        -- rewrite Er; reflexivity.
        -- rewrite Er; reflexivity.
      * rewrite skipn_length; lia.
      * exists c'. split; [exact E'|]. split; [|exact Hc'].
        rewrite <- app_assoc, <- Hsplit in Hr'. exact Hr'.
Qed.

Lemma update_spec le c msg p : rep c msg -> is_bytes p ->
  exists c', ts_SHA256_update le c p = Ok c' /\ rep c' (msg ++ p).
Proof.
  intros [Hx Hc] Hp. unfold ts_SHA256_update.
  destruct (update_loop_spec le (S (S (length p)))
    (mkSha256 (s256_h c) (u64 (s256_count c + u64 (8 * zlen p))) (s256_num c) (s256_x c)) msg p)
    as (c' & E & Hr & Ec).
  - destruct Hx; split; cbn [s256_h s256_num s256_x]; auto.
  - exact Hp.
  - lia.
  - exists c'; split; [exact E|]. split; [exact Hr|]. rewrite Ec; cbn [s256_count].
    rewrite Hc, zlen_app. unfold u64. rewrite <- Zplus_mod. f_equal; lia.
Qed.
Lemma updatex_spec le c msg p : repx c msg -> is_bytes p ->
  exists c', ts_SHA256_update le c p = Ok c' /\ repx c' (msg ++ p).
Proof.
  intros Hx Hp. unfold ts_SHA256_update.
  destruct (update_loop_spec le (S (S (length p)))
    (mkSha256 (s256_h c) (u64 (s256_count c + u64 (8 * zlen p))) (s256_num c) (s256_x c)) msg p)
    as (c' & E & Hr & Ec).
  - destruct Hx; split; cbn [s256_h s256_num s256_x]; auto.
  - exact Hp.
  - lia.
  - exists c'; auto.
Qed.

(** ** Finalisation *)
Lemma flat_map_words_len (l : list Z) : length (flat_map (fun x => toByte x wbytes) l) = (wbytes * length l)%nat.
Proof. induction l as [|a l IH]; [reflexivity|]. cbn [flat_map]. rewrite app_length, IH, toByte_length. cbn [length]; lia. Qed.

Lemma digest_loop h k : h_ok h -> (k <= 8)%nat ->
  for_loop k 0 (fun i d => w <- rd h i ;; Ok (d ++ ts_ull_to_bytes w 4)) []
  = Ok (firstn (wbytes * k) (flat_map (fun x => toByte x wbytes) h)).
Proof.
  intros [Lh Oh] Hk.
  destruct (for_loop_inv (fun i d => d = flat_map (fun x => toByte x wbytes) (firstn (Z.to_nat i) h))
    (fun i d => w <- rd h i ;; Ok (d ++ ts_ull_to_bytes w 4)) k 0 []) as (d & E & Hd).
  - reflexivity.
  - intros i d Hi ->. rewrite (rd_ok h i 0) by (unfold zlen; lia). cbn [bind].
    eexists; split; [reflexivity|].
    replace (Z.to_nat (i + 1)) with (S (Z.to_nat i)) by lia.
    rewrite (firstn_S_nth _ h 0) by lia. rewrite flat_map_app. cbn [flat_map].
    rewrite app_nil_r. f_equal. apply ts_ull_to_bytes_small.
    assert (Hi8 : (Z.to_nat i < length h)%nat) by lia.
    pose proof (Forall_nth' _ h 0 _ Oh Hi8) as Hr. cbv beta in Hr.
    change (8 * Z.of_nat wbytes) with 32 in Hr. lia.
  - rewrite E, Hd. f_equal. rewrite Z.add_0_l, Nat2Z.id.
    rewrite <- (firstn_skipn k h) at 2. rewrite flat_map_app.
    symmetry. apply firstn_app_exact. rewrite flat_map_words_len, firstn_len by lia. reflexivity.
Qed.

Lemma pad_eq msg zs : is_bytes msg ->
  Z.of_nat zs = (64 - 1 - 8 - len msg) mod 64 ->
  pad v msg = msg ++ [128] ++ repeat 0 zs ++ toByte (8 * len msg) 8.
Proof.
  intros _ E. unfold pad. rewrite wb256. change (2 * 4)%nat with 8%nat.
  change (Z.of_nat (16 * 4) - 1 - 2 * Z.of_nat 4) with (64 - 1 - 8).
  change (Z.of_nat (16 * 4)) with 64. rewrite <- E, Nat2Z.id. reflexivity.
Qed.

Lemma zeros_bytes n : is_bytes (repeat 0 n).
Proof. apply Forall_repeat; unfold is_byte; lia. Qed.

Definition ctx_ok (c : sha256_ctx) : Prop :=
  h_ok (s256_h c) /\ 0 <= s256_num c < 64 /\ is_bytes (s256_x c) /\ length (s256_x c) = block.

Lemma repx_ctx_ok c msg : repx c msg -> ctx_ok c.
Proof.
  intros H. repeat split; try apply (repx_h_ok c msg H); try apply H.
  - rewrite (rx_num c msg H). apply zlen_nonneg.
  - rewrite (rx_num c msg H). pose proof (rest_lt msg); unfold zlen; lia.
Qed.

Lemma final_trunc_spec le c msg k : rep c msg -> 8 * len msg < 2 ^ 64 -> (k <= 8)%nat ->
  exists c', ts_SHA256_final_trunc le c (4 * Z.of_nat k)
    = Ok (firstn (wbytes * k) (sha2 v msg), c') /\ exists m', repx c' m'.
Proof.
  intros [Hx Hcount] Hlen Hk. unfold ts_SHA256_final_trunc.
  pose proof (rx_msg c msg Hx) as Hm.
  assert (H128 : is_bytes [128]) by (repeat constructor; unfold is_byte; lia).
  destruct (updatex_spec le c msg [128] Hx H128) as (c1 & E1 & R1). rewrite E1; cbn [bind].
  assert (L8 : 0 <= 8 * len msg) by (unfold len; lia).
  rewrite Hcount. change (zlen msg) with (len msg).
  rewrite ts_ull_to_bytes_small by (unfold u64; apply Z.mod_pos_bound; lia).
  unfold u64 at 1. rewrite (Z.mod_small (8 * len msg)) by lia. change (Z.to_nat 8) with 8%nat.
  (* zeros up to byte 56 of the last block *)
  assert (HZ : exists c2 zs,
    (ctx <- (if 56 <? s256_num c1 then ts_SHA256_update le c1 [0;0;0;0;0;0;0;0] else Ok c1) ;;
     x <- memset (s256_x ctx) (s256_num ctx) 0 (u32 (56 - s256_num ctx)) ;;
     Ok (mkSha256 (s256_h ctx) (s256_count ctx) 56 x)) = Ok c2
    /\ repx c2 (msg ++ [128] ++ repeat 0 zs)
    /\ Z.of_nat zs = (64 - 1 - 8 - len msg) mod 64).
  { assert (HC : exists c1' z0,
      (if 56 <? s256_num c1 then ts_SHA256_update le c1 [0;0;0;0;0;0;0;0] else Ok c1) = Ok c1'
      /\ repx c1' (msg ++ [128] ++ repeat 0 z0) /\ s256_num c1' <= 56
      /\ (z0 = 0%nat \/ (z0 = 8%nat /\ s256_num c1 > 56))).
    { destruct (Z.ltb_spec 56 (s256_num c1)) as [Hgt|Hle].
      - destruct (updatex_spec le c1 (msg ++ [128]) (repeat 0 8) R1) as (c1' & E & R).
        { apply zeros_bytes. }
        exists c1', 8%nat. split; [exact E|].
        rewrite <- app_assoc in R. split; [exact R|]. split.
        + rewrite (rx_num _ _ R). rewrite (rx_num _ _ R1) in Hgt. unfold zlen in *.
          rewrite rest_length in * by lia. rewrite !app_length in *. rewrite repeat_length.
          cbn [length] in *. clear - Hgt. lia.
        + right; split; [reflexivity|lia].
      - exists c1, 0%nat. split; [reflexivity|]. split; [exact R1|]. split; [exact Hle|].
        left; reflexivity. }
    destruct HC as (c1' & z0 & -> & R2 & Hn2 & Hz0). cbn [bind].
    pose proof (rx_num _ _ R2) as En. pose proof (rx_len _ _ R2) as Lx.
    pose proof (zlen_nonneg (rest block (msg ++ [128] ++ repeat 0 z0))) as Hnn. rewrite <- En in Hnn.
    assert (Eu : u32 (56 - s256_num c1') = 56 - s256_num c1')
      by (unfold u32; apply Z.mod_small; lia).
    rewrite Eu, memset_ok by (unfold zlen; lia). cbn [bind].
    set (z1 := Z.to_nat (56 - s256_num c1')).
    exists (mkSha256 (s256_h c1') (s256_count c1') 56
      (firstn (Z.to_nat (s256_num c1')) (s256_x c1') ++ repeat 0 z1 ++
       skipn (Z.to_nat (s256_num c1') + z1) (s256_x c1'))), (z0 + z1)%nat.
    split; [reflexivity|].
    destruct (blocks_more block ltac:(lia) (msg ++ [128] ++ repeat 0 z0) (repeat 0 z1)) as [Eb Er].
    { unfold zlen in En. rewrite repeat_length. unfold z1. lia. }
    replace (msg ++ [128] ++ repeat 0 (z0 + z1)) with ((msg ++ [128] ++ repeat 0 z0) ++ repeat 0 z1)
      by (rewrite repeat_app, <- !app_assoc; reflexivity).
    assert (En' : Z.to_nat (s256_num c1') = length (rest block (msg ++ [128] ++ repeat 0 z0)))
      by (rewrite En; unfold zlen; lia).
    split.
    - split; cbn [s256_h s256_num s256_x].
      + apply Forall_app; split; [apply R2|apply zeros_bytes].
      + rewrite Eb; apply R2.
      + rewrite Er, zlen_app, <- En, zlen_repeat. unfold z1; lia.
      + repeat (apply Forall_app; split).
        * apply Forall_firstn', R2. * apply zeros_bytes. * apply Forall_skipn', R2.
      + rewrite !app_length, firstn_len, repeat_length, skipn_length by lia. unfold z1; lia.
      + rewrite Er. rewrite En'. rewrite (rx_tail _ _ R2).
        set (q := rest block (msg ++ [128] ++ repeat 0 z0)).
        rewrite (app_assoc q). apply firstn_app_exact. reflexivity.
    - unfold z1. rewrite En in *. rewrite (rx_num _ _ R1) in Hz0. unfold zlen, len in *.
      rewrite !rest_length in * by lia. rewrite !app_length, ?repeat_length in *.
      cbn [length] in *. lia. }
  destruct HZ as (c2 & zs & EZ & R2 & Ezs).
  assert (Hfc : is_bytes (toByte (8 * len msg) 8)) by apply toByte_bytes.
  destruct (updatex_spec le c2 _ _ R2 Hfc) as (c3 & E3 & R3).
  apply bind_ok in EZ. destruct EZ as (ctx & EA & EZ). rewrite EA; cbn [bind].
  apply bind_ok in EZ. destruct EZ as (x & EB & EZ). rewrite EB; cbn [bind].
  injection EZ as EZ. rewrite EZ, E3; cbn [bind].
  replace (4 * Z.of_nat k / 4) with (Z.of_nat k) by lia. rewrite Nat2Z.id.
  rewrite digest_loop by (auto; eapply repx_h_ok; eassumption). cbn [bind].
  exists c3. split; [|eauto]. do 3 f_equal.
  unfold sha2. rewrite wb256.
  f_equal. rewrite (rx_h _ _ R3). f_equal. f_equal.
  rewrite (pad_eq msg zs) by auto. rewrite <- !app_assoc. reflexivity.
Qed.

(** ** Saving and restoring the state at a block boundary *)
Lemma save_spec c msg : repx c msg -> ts_SHA256_save_state c = Ok (s256_h c).
Proof.
  intros Hc. destruct (repx_h_ok c msg Hc) as [Lh _]. unfold ts_SHA256_save_state.
  destruct (for_loop_inv (fun i s => s = firstn (Z.to_nat i) (s256_h c))
    (fun i s => w <- rd (s256_h c) i ;; Ok (s ++ [w])) 8 0 []) as (s & E & Hs).
  - reflexivity.
  - intros i s Hi ->. rewrite (rd_ok _ i 0) by (unfold zlen; lia). cbn [bind].
    eexists; split; [reflexivity|]. replace (Z.to_nat (i + 1)) with (S (Z.to_nat i)) by lia.
    symmetry; apply firstn_S_nth; lia.
  - rewrite E, Hs. rewrite firstn_all2; [reflexivity|]. lia.
Qed.
Lemma restore_spec c s msg : length (s256_h c) = 8%nat -> is_bytes (s256_x c) ->
  length (s256_x c) = block -> is_bytes msg -> length msg = block ->
  s = fold_left (hash_block v) (blocks block msg) (v_H0 v) ->
  exists c', ts_SHA256_restore_state_after_64 c s = Ok c' /\ rep c' msg.
Proof.
  intros Lh Hx Lx Hm Lm Es.
  assert (Ls : length s = 8%nat) by (rewrite Es; apply fold_h_ok, H0_ok).
  unfold ts_SHA256_restore_state_after_64.
  destruct (for_loop_inv (fun i h => h = firstn (Z.to_nat i) s ++ skipn (Z.to_nat i) (s256_h c))
    (fun i h => w <- rd s i ;; wr h i w) 8 0 (s256_h c)) as (h & E & Hh).
  - reflexivity.
  - intros i h Hi ->. rewrite (rd_ok s i 0) by (unfold zlen; lia). cbn [bind].
    rewrite wr_ok by (unfold zlen; rewrite app_length, firstn_len, skipn_length; lia).
    eexists; split; [reflexivity|]. unfold upd.
    replace (Z.to_nat (i + 1)) with (S (Z.to_nat i)) by lia.
    rewrite (firstn_S_nth _ s 0) by lia. rewrite <- app_assoc.
    rewrite firstn_app_exact by (apply firstn_len; lia). f_equal. cbn [app]. f_equal.
    rewrite skipn_app_ge by (rewrite firstn_len; lia). rewrite firstn_len by lia.
    rewrite skipn_skipn'. f_equal; lia.
  - rewrite E; cbn [bind]. eexists; split; [reflexivity|].
    assert (Eh : h = s).
    { rewrite Hh. rewrite skipn_all2 by lia. rewrite app_nil_r. apply firstn_all2; lia. }
    assert (Er : rest block msg = []).
    { apply length_zero_iff_nil. rewrite rest_length, Lm by lia. reflexivity. }
    split; [split|]; cbn [s256_h s256_num s256_x s256_count]; auto.
    + congruence.
    + rewrite Er; reflexivity.
    + rewrite Er; reflexivity.
    + unfold zlen; rewrite Lm; reflexivity.
Qed.
End V.

(** [RORc] is the same whatever the width [w] of [unsigned long] (at least 32 bits): *)
Lemma RORc_any_unsigned_long w x rot0 : 32 <= w ->
  RORc x rot0 =
  (let rot := Z.land rot0 31 in
   if rot =? 0 then x else
   let right := Z.shiftr (Z.land x mask32) rot in
   let left := Z.shiftl (Z.land x mask32) (32 - rot) mod 2 ^ w in
   Z.land (Z.lor right left) mask32).
Proof.
  intros Hw. unfold RORc. cbv zeta. destruct (Z.land rot0 31 =? 0); [reflexivity|].
  unfold u64. change mask32 with (Z.ones 32). apply Z.bits_inj'. intros i Hi. rewrite !Z.land_spec, !Z.lor_spec.
  destruct (Z.ltb_spec i 32).
  - rewrite !Z.mod_pow2_bits_low by lia. reflexivity.
  - rewrite (Z.ones_spec_high 32 i) by lia. rewrite !Bool.andb_false_r. reflexivity.
Qed.
