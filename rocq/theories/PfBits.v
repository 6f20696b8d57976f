(** * Bit strings: Algorithm 4 in closed form, and the conversion of the message hash *)
From Verif Require Import Arr SpecSLH ModelParams ModelCtx ModelHash ModelSphincs SpecMap PfIter PfEnv PfAdr PfGlue PfCtx PfTree PfPaths.
Ltac Zify.zify_post_hook ::= idtac.

Lemma pow256 k : 0 <= k -> 256 ^ k = 2 ^ (8 * k).
Proof. intros. change 256 with (2 ^ 8). rewrite <- Z.pow_mul_r by lia. reflexivity. Qed.
Lemma toInt_app' a b : toInt (a ++ b) = toInt a * 2 ^ (8 * zlen b) + toInt b.
Proof. rewrite toInt_app, pow256 by lia. reflexivity. Qed.
Lemma toInt_range' l : is_bytes l -> 0 <= toInt l < 2 ^ (8 * zlen l).
Proof. intros H. pose proof (toInt_range l H) as R. rewrite pow256 in R by lia. exact R. Qed.
Lemma toInt_top a b : is_bytes b -> toInt (a ++ b) / 2 ^ (8 * zlen b) = toInt a.
Proof.
  intros H. rewrite toInt_app'. pose proof (toInt_range' b H). pose proof (zlen_nonneg b).
  rewrite Z.div_add_l by lia. rewrite (Z.div_small (toInt b)) by lia. lia.
Qed.

(** ** Algorithm 4 *)
Lemma fill_bits_ok b fuel : forall X Xc bits, 0 <= bits -> (length X < fuel)%nat -> b <= bits + 8 * zlen X ->
  exists u X' bits', fill_bits fuel b X bits (toInt Xc) = (X', bits', toInt (Xc ++ u)) /\
    X = u ++ X' /\ bits' + 8 * zlen X' = bits + 8 * zlen X /\ b <= bits' /\ 0 <= bits'.
Proof.
  induction fuel as [|fuel IH]; intros X Xc bits Hb Hf Hl; [lia|].
  cbn [fill_bits]. destruct (Z.ltb_spec bits b) as [L|L].
  - destruct X as [|x X]; [cbn in Hl; lia|].
    rewrite zlen_cons in *. cbn [length] in Hf.
    rewrite <- (toInt_snoc Xc x).
    destruct (IH X (Xc ++ [x]) (bits + 8)) as (u & X' & b' & E1 & E2 & E3 & E4 & E5); [lia|lia|lia|].
    exists (x :: u), X', b'. rewrite <- app_assoc in E1. split; [exact E1|]. split; [rewrite E2; reflexivity|]. lia.
  - exists [], X, bits. rewrite app_nil_r. repeat split; auto; lia.
Qed.
Lemma base_2b_from_nth b k : 0 <= b -> forall X Xc bits i, is_bytes X -> 0 <= bits ->
  b * Z.of_nat k <= bits + 8 * zlen X -> (i < k)%nat ->
  nth i (base_2b_from b k X bits (toInt Xc)) 0
  = (toInt (Xc ++ X) / 2 ^ (bits + 8 * zlen X - b * (Z.of_nat i + 1))) mod 2 ^ b.
Proof.
  intros Hb0. induction k as [|k IH]; intros X Xc bits i HX Hb Hl Hi; [lia|].
  cbn [base_2b_from].
  destruct (fill_bits_ok b (S (length X)) X Xc bits) as (u & X' & b' & E1 & E2 & E3 & E4 & E5); [lia|lia|nia|].
  rewrite E1. rewrite <- E3. subst X. apply Forall_app in HX. destruct HX as [_ HX].
  rewrite app_assoc. pose proof (zlen_nonneg X').
  destruct i as [|i]; cbn [nth].
  - f_equal. replace (b' + 8 * zlen X' - b * (Z.of_nat 0 + 1)) with (8 * zlen X' + (b' - b)) by lia.
    rewrite Z.pow_add_r, <- Z.div_div by (try apply Z.pow_nonzero; try apply Z.pow_pos_nonneg; lia).
    rewrite toInt_top by exact HX. reflexivity.
  - rewrite IH by (auto; lia). do 2 f_equal. f_equal. lia.
Qed.
Lemma base_2b_nth X b k i : 0 <= b -> is_bytes X -> 0 <= k -> b * k <= 8 * zlen X -> 0 <= i < k ->
  nth (Z.to_nat i) (base_2b X b k) 0 = (toInt X / 2 ^ (8 * zlen X - b * (i + 1))) mod 2 ^ b.
Proof.
  intros Hb HX Hk Hl Hi. unfold base_2b. change 0 with (toInt []) at 2.
  rewrite base_2b_from_nth by (auto; lia). rewrite app_nil_l. do 2 f_equal. f_equal. lia.
Qed.
Lemma base_2b_from_length b k : forall X bits t, length (base_2b_from b k X bits t) = k.
Proof.
  induction k; intros; cbn [base_2b_from]; [reflexivity|].
  destruct (fill_bits _ _ _ _ _) as [[? ?] ?]. cbn [length]. rewrite IHk. reflexivity.
Qed.
Lemma base_2b_length X b k : length (base_2b X b k) = Z.to_nat k.
Proof. apply base_2b_from_length. Qed.
Lemma base_2b_from_range b k : 0 <= b -> forall X bits t, Forall (fun v => 0 <= v < 2 ^ b) (base_2b_from b k X bits t).
Proof.
  intros Hb. induction k; intros; cbn [base_2b_from]; [constructor|].
  destruct (fill_bits _ _ _ _ _) as [[? ?] ?]. constructor; [|apply IHk]. apply Z.mod_pos_bound, Z.pow_pos_nonneg; lia.
Qed.
Lemma base_2b_range X b k : 0 <= b -> Forall (fun v => 0 <= v < 2 ^ b) (base_2b X b k).
Proof. intros; apply base_2b_from_range; assumption. Qed.
Lemma base_2b_nth_range X b k i : 0 <= b -> 0 <= nth i (base_2b X b k) 0 < 2 ^ b.
Proof.
  intros Hb. assert (0 < 2 ^ b) by (apply Z.pow_pos_nonneg; lia).
  destruct (Nat.lt_ge_cases i (length (base_2b X b k))) as [L|L].
  - exact (Forall_nth' _ _ 0 i (base_2b_range X b k Hb) L).
  - rewrite nth_overflow by lia. lia.
Qed.
(** a prefix that is long enough gives the same digits *)
Lemma firstn_div X k j : is_bytes X -> 0 <= k <= zlen X -> 0 <= j ->
  toInt (firstn (Z.to_nat k) X) / 2 ^ j = toInt X / 2 ^ (8 * (zlen X - k) + j).
Proof.
  intros HX Hk Hj. rewrite <- (firstn_skipn (Z.to_nat k) X) at 2.
  assert (L : zlen (skipn (Z.to_nat k) X) = zlen X - k) by (unfold zlen in *; rewrite skipn_length; lia).
  rewrite Z.pow_add_r, <- Z.div_div by (try apply Z.pow_nonzero; try apply Z.pow_pos_nonneg; lia).
  rewrite <- L, toInt_top by (apply Forall_skipn', HX). reflexivity.
Qed.

(** ** Bit [p] of a byte string, most significant bit first *)
Definition bitZ (X : list Z) (p : Z) : Z := (nth (Z.to_nat (p / 8)) X 0 / 2 ^ (7 - p mod 8)) mod 2.
Lemma bitZ_toInt X p : is_bytes X -> 0 <= p < 8 * zlen X ->
  bitZ X p = (toInt X / 2 ^ (8 * zlen X - p - 1)) mod 2.
Proof.
  intros HX Hp. unfold bitZ. set (q := p / 8). set (r := p mod 8).
  assert (Hq : p = 8 * q + r /\ 0 <= r < 8 /\ 0 <= q < zlen X) by (unfold q, r; clear - Hp; dlia).
  clearbody q r. destruct Hq as (-> & Hr & Hq).
  assert (Es : X = firstn (Z.to_nat q) X ++ [nth (Z.to_nat q) X 0] ++ skipn (Z.to_nat (q + 1)) X).
  { rewrite <- (firstn_skipn (Z.to_nat q) X) at 1. f_equal.
    replace (Z.to_nat (q + 1)) with (S (Z.to_nat q)) by lia. rewrite (skipn_nth_cons (Z.to_nat q) X 0); [reflexivity|].
    unfold zlen in Hq. lia. }
  assert (L : zlen (skipn (Z.to_nat (q + 1)) X) = zlen X - q - 1) by (unfold zlen in *; rewrite skipn_length; lia).
  replace (8 * zlen X - (8 * q + r) - 1) with (8 * (zlen X - q - 1) + (7 - r)) by lia.
  rewrite Z.pow_add_r, <- Z.div_div by (try apply Z.pow_nonzero; try apply Z.pow_pos_nonneg; lia).
  rewrite Es at 2. rewrite app_assoc, <- L, toInt_top by (apply Forall_skipn', HX). rewrite toInt_snoc.
  generalize (nth (Z.to_nat q) X 0) as x. generalize (toInt (firstn (Z.to_nat q) X)) as y. clear - Hr. intros y x.
  replace (256 * y + x) with (x + y * 2 ^ r * 2 * 2 ^ (7 - r)).
  - rewrite Z.div_add by (apply Z.pow_nonzero; lia). rewrite Z.mod_add by lia. reflexivity.
  - change 256 with (2 ^ 8). replace (2 ^ 8) with (2 ^ r * 2 ^ 1 * 2 ^ (7 - r)); [ring|].
    rewrite <- !Z.pow_add_r by lia. f_equal. lia.
Qed.

(** [j] bits from position [p] *)
Definition bitsv (X : list Z) (p j : Z) : Z := (toInt X / 2 ^ (8 * zlen X - p - j)) mod 2 ^ j.
Lemma bitsv_S X p j : is_bytes X -> 0 <= p -> 0 <= j -> p + j < 8 * zlen X ->
  2 * bitsv X p j + bitZ X (p + j) = bitsv X p (j + 1).
Proof.
  intros HX Hp Hj Hl. rewrite bitZ_toInt by (auto; lia). unfold bitsv.
  set (N := toInt X). replace (8 * zlen X - (p + j) - 1) with (8 * zlen X - p - (j + 1)) by lia.
  set (e := 8 * zlen X - p - (j + 1)). replace (8 * zlen X - p - j) with (e + 1) by lia.
  rewrite div_pow_S by lia. set (M := N / 2 ^ e). rewrite Z.pow_add_r by lia. change (2 ^ 1) with 2.
  rewrite (Z.mul_comm (2 ^ j) 2). rewrite Z.rem_mul_r by (try apply Z.pow_pos_nonneg; lia). lia.
Qed.

(** ** The conversion loop *)
Definition CI (X : list Z) (p : Z) (mh : list Z) (off bsf : Z) : Prop :=
  0 <= off /\ 0 <= bsf <= 8 /\ p = 8 * off + bsf /\ (0 < p -> 0 < bsf) /\ zlen mh = zlen X /\ is_bytes mh /\
  (forall j, off < j -> nth (Z.to_nat j) mh 0 = nth (Z.to_nat j) X 0) /\
  nth (Z.to_nat off) mh 0 = (nth (Z.to_nat off) X 0 * 2 ^ bsf) mod 256.

Lemma nth_byte (X : list Z) i : is_bytes X -> is_byte (nth i X 0).
Proof.
  intros H. destruct (Nat.lt_ge_cases i (length X)) as [L|L].
  - exact (Forall_nth' _ X 0 i H L).
  - rewrite nth_overflow by lia. unfold is_byte; lia.
Qed.

Lemma convert_bit_ok X p mh off bsf t : is_bytes X -> CI X p mh off bsf -> p < 8 * zlen X -> zlen X < 2 ^ 20 ->
  exists mh' off' bsf', convert_bit (mh, off, bsf, t) = Ok (mh', off', bsf', u32 (2 * t + bitZ X p)) /\
    CI X (p + 1) mh' off' bsf'.
Proof.
  intros HX HC Hp Hz. unfold convert_bit.
  assert (N : exists off1 bsf1, (if bsf =? 8 then (u32 (off + 1), 0) else (off, bsf)) = (off1, bsf1) /\
     bsf1 < 8 /\ 0 <= off1 /\ 0 <= bsf1 /\ p = 8 * off1 + bsf1 /\ zlen mh = zlen X /\ is_bytes mh /\
    (forall j, off1 < j -> nth (Z.to_nat j) mh 0 = nth (Z.to_nat j) X 0) /\
    nth (Z.to_nat off1) mh 0 = (nth (Z.to_nat off1) X 0 * 2 ^ bsf1) mod 256).
  { destruct HC as (C1 & C2 & C3 & C4 & C5 & C6 & C7 & C8). destruct (Z.eqb_spec bsf 8) as [->|Nb].
    - exists (off + 1), 0. unfold u32. rewrite Z.mod_small by lia. split; [reflexivity|].
      split; [lia|]. split; [lia|]. split; [lia|]. split; [lia|]. split; [exact C5|]. split; [exact C6|].
      split; [intros j Hj; apply C7; lia|]. rewrite C7 by lia. rewrite Z.pow_0_r, Z.mul_1_r, Z.mod_small; [reflexivity|].
      apply nth_byte, HX.
    - exists off, bsf. split; [reflexivity|]. split; [lia|]. split; [lia|]. split; [lia|]. split; [lia|]. auto. }
  destruct N as (o & b & -> & N1 & N2 & N3 & N4 & N5 & N6 & N7 & N8).
  rewrite (rd_ok mh o 0) by lia. cbn [bind]. rewrite wr_ok by lia. cbn [bind].
  rewrite N8. set (x := nth (Z.to_nat o) X 0) in *.
  assert (Hx : 0 <= x < 256) by (apply nth_byte, HX).
  set (y := (x * 2 ^ b) mod 256) in *.
  assert (Hy : 0 <= y < 256) by (apply Z.mod_pos_bound; lia).
  assert (Eb : Z.land (Z.shiftr y 7) 1 = bitZ X p).
  { rewrite land1, Z.shiftr_div_pow2 by lia. change (2 ^ 7) with 128. unfold bitZ.
    replace (p / 8) with o by (clear - N1 N3 N4; dlia). replace (p mod 8) with b by (clear - N1 N3 N4; dlia).
    fold x. unfold y. clear - Hx N1 N3.
    assert (Hc : b = 0 \/ b = 1 \/ b = 2 \/ b = 3 \/ b = 4 \/ b = 5 \/ b = 6 \/ b = 7) by lia.
    destruct Hc as [->|[->|[->|[->|[->|[->|[->| ->]]]]]]];
    match goal with |- ?a / 128 mod 2 = (_ / 2 ^ ?e) mod 2 => let e' := eval vm_compute in (2 ^ e) in change (2 ^ e) with e' end;
    match goal with |- (_ * ?q) mod 256 / 128 mod 2 = _ => let q' := eval vm_compute in q in change q with q' end; dlia. }
  rewrite Eb.
  exists (upd mh (Z.to_nat o) (u8 (Z.shiftl y 1))), o, (b + 1). split; [reflexivity|].
  assert (Lm : (Z.to_nat o < length mh)%nat) by (unfold zlen in *; lia).
  split; [lia|]. split; [lia|]. split; [lia|]. split; [lia|].
  split; [unfold zlen in *; rewrite upd_length by lia; lia|].
  split; [apply upd_Forall; [exact N6|]; unfold u8, is_byte; apply Z.mod_pos_bound; lia|]. split.
  - intros j Hj. rewrite nth_upd_neq by lia. apply N7; lia.
  - rewrite nth_upd_eq by exact Lm. fold x. unfold u8. rewrite Z.shiftl_mul_pow2 by lia. change (2 ^ 1) with 2. change (2 ^ 8) with 256.
    unfold y. rewrite Z.mul_mod_idemp_l by lia. f_equal. rewrite Z.pow_add_r by lia. change (2 ^ 1) with 2. ring.
Qed.

Lemma convert_bits_ok X p mh off bsf t : is_bytes X -> CI X p mh off bsf -> 0 <= p -> 0 <= t <= 30 ->
  p + t <= 8 * zlen X -> zlen X < 2 ^ 20 ->
  exists mh' off' bsf', for_loop (Z.to_nat t) 0 (fun _ st => convert_bit st) (mh, off, bsf, 0)
    = Ok (mh', off', bsf', bitsv X p t) /\ CI X (p + t) mh' off' bsf'.
Proof.
  intros HX HC Hp Ht Hl Hz.
  destruct (for_loop_inv (fun j st => exists mh' off' bsf', st = (mh', off', bsf', bitsv X p j) /\ CI X (p + j) mh' off' bsf')
    (fun _ st => convert_bit st) (Z.to_nat t) 0 (mh, off, bsf, 0)) as (st & E1 & mh' & off' & bsf' & -> & HC').
  - exists mh, off, bsf. rewrite Z.add_0_r. split; [|exact HC]. unfold bitsv. rewrite Z.pow_0_r, Z.mod_1_r. reflexivity.
  - intros j st Hj (mh1 & off1 & bsf1 & -> & HC1). rewrite Z2Nat.id in Hj by lia.
    destruct (convert_bit_ok X (p + j) mh1 off1 bsf1 (bitsv X p j) HX HC1) as (m2 & o2 & b2 & E2 & HC2); [lia|lia|].
    rewrite E2. eexists. split; [reflexivity|]. exists m2, o2, b2. split; [|rewrite Z.add_assoc; exact HC2].
    rewrite bitsv_S by (auto; lia). do 2 f_equal. unfold u32. apply Z.mod_small.
    unfold bitsv. pose proof (Z.mod_pos_bound (toInt X / 2 ^ (8 * zlen X - p - (j + 1))) (2 ^ (j + 1))) as Q.
    assert (0 < 2 ^ (j + 1)) by (apply Z.pow_pos_nonneg; lia).
    assert (2 ^ (j + 1) <= 2 ^ 31) by (apply Z.pow_le_mono_r; lia). lia.
  - exists mh', off', bsf'. rewrite Z2Nat.id in E1, HC' by lia. rewrite Z.add_0_l in HC', E1. auto.
Qed.

Lemma extract_ok X mh off nb : is_bytes X -> 0 <= off -> zlen mh = zlen X ->
  (forall j, off < j -> nth (Z.to_nat j) mh 0 = nth (Z.to_nat j) X 0) -> 0 < nb <= 64 ->
  off + 1 + ceil_div nb 8 <= zlen X -> zlen X < 2 ^ 20 ->
  exists off', extract_int_from_hash mh off nb = Ok (toInt (slice X (off + 1) (ceil_div nb 8)) mod 2 ^ nb, off') /\
    off' = off + ceil_div nb 8.
Proof.
  intros HX C1 C5 C7 Hnb Hl Hz. unfold extract_int_from_hash.
  replace ((nb + 7) / 8) with (ceil_div nb 8) by (unfold ceil_div; f_equal; lia).
  set (cn := ceil_div nb 8) in *.
  assert (Hcn : 0 < cn <= 8 /\ nb <= 8 * cn) by (unfold cn, ceil_div; clear - Hnb; dlia). clearbody cn.
  destruct (for_loop_inv (fun j st => st = (toInt (slice X (off + 1) j), off + j))
    (fun _ '(sum, off) => b <- rd mh (u32 (off + 1)) ;; Ok (u64 (256 * sum + b), u32 (off + 1))) (Z.to_nat cn) 0 (0, off)) as (st & E1 & ->).
  - rewrite Z.add_0_r. reflexivity.
  - intros j st Hj ->. rewrite Z2Nat.id in Hj by lia. unfold u32. rewrite Z.mod_small by lia.
    rewrite (rd_ok mh (off + j + 1) 0) by lia. cbn [bind]. eexists. split; [reflexivity|].
    rewrite C7 by lia. rewrite <- toInt_snoc.
    assert (Es : slice X (off + 1) j ++ [nth (Z.to_nat (off + j + 1)) X 0] = slice X (off + 1) (j + 1)).
    { unfold slice. replace (Z.to_nat (j + 1)) with (S (Z.to_nat j)) by lia.
      rewrite (firstn_S_nth (Z.to_nat j) _ 0) by (rewrite skipn_length; unfold zlen in *; lia).
      f_equal. f_equal. rewrite nth_skipn. f_equal. lia. }
    rewrite Es. f_equal; [|lia]. unfold u64. apply Z.mod_small.
    assert (B : is_bytes (slice X (off + 1) (j + 1))) by (apply Forall_firstn', Forall_skipn', HX).
    pose proof (toInt_range' _ B) as R. 
    assert (Lz : zlen (slice X (off + 1) (j + 1)) <= 8) by (unfold slice, zlen; rewrite firstn_length; lia).
    assert (2 ^ (8 * zlen (slice X (off + 1) (j + 1))) <= 2 ^ 64) by (apply Z.pow_le_mono_r; lia). lia.
  - rewrite Z2Nat.id, Z.add_0_l in E1 by lia. rewrite E1. cbn [bind]. rewrite shift_count_ok by lia. cbn [bind].
    exists (off + cn). split; [|lia]. do 2 f_equal.
    assert (Em : Z.shiftr (u64 (Z.lnot 0)) (64 - nb) = Z.ones nb).
    { change (u64 (Z.lnot 0)) with (Z.ones 64). 
      rewrite Z.shiftr_div_pow2 by lia. rewrite Z.ones_div_pow2 by lia. f_equal. lia. }
    rewrite Em, Z.land_ones by lia. reflexivity.
Qed.

(** ** x.fors.fors_node *)
Section Digest.
Variable E : env.
Local Notation cfg := (e_cfg E).
Local Notation n := (e_n E).
Local Notation P := (e_P E).

Lemma set_fors_node_ok x k v : bytes_of (SIZEOF_X cfg) x -> 0 <= k < TS_MAX_FORS -> 0 <= v < 2 ^ 16 ->
  exists x', set_fors_node cfg x k v = Ok x' /\ bytes_of (SIZEOF_X cfg) x' /\ get_fors_node cfg x' k = Ok v /\
    (forall j w, j <> k -> 0 <= j < TS_MAX_FORS -> get_fors_node cfg x j = Ok w -> get_fors_node cfg x' j = Ok w) /\
    skipn (Z.to_nat FORS_STACK_OFFSET) x' = skipn (Z.to_nat FORS_STACK_OFFSET) x.
Proof.
  intros [Lx Bx] Hk Hv. pose proof (x_ge_fors E) as Xf.
  assert (S0 : 0 <= FORS_STACK_SIZE cfg) by (pose proof (fors_stack_min E); lia).
  unfold FORS_STACK_OFFSET in *.
  unfold set_fors_node, get_fors_node. 
  destruct (Z.leb_spec 0 k), (Z.ltb_spec k TS_MAX_FORS); try lia. cbn [andb].
  unfold wr_word, rd_word, u16. rewrite Z.mod_small by lia.
  set (e := enc_word (cfg_le cfg) 2 v). assert (Le : zlen e = 2) by (apply zlen_enc_word).
  assert (W : exists x', wr_range x (0 + Z.of_nat 2 * k) e = Ok x') by (rewrite wr_range_ok by lia; eauto).
  destruct W as (x' & W). exists x'. split; [exact W|].
  destruct (wr_then_rd _ _ _ _ W) as [R L'].
  split; [|split; [|split]].
  - split; [lia|]. rewrite wr_range_ok in W by lia. injection W as <-. apply bytes_app; [apply Forall_firstn', Bx|].
    apply bytes_app; [apply enc_word_bytes|apply Forall_skipn', Bx].
  - rewrite Le in R. change (Z.of_nat 2) with 2 in *. rewrite R. cbn [bind]. f_equal. apply dec_enc_word. exact Hv.
  - intros j w Hjk Hj. destruct (Z.leb_spec 0 j), (Z.ltb_spec j TS_MAX_FORS); try lia. cbn [andb]. intros Hw. rewrite <- Hw.
    rewrite (wr_rd_disj _ _ _ _ (0 + Z.of_nat 2 * j) (Z.of_nat 2) 0 W); [reflexivity| |]; lia.
  - rewrite wr_range_ok in W by lia.
    assert (Ex : x' = firstn (Z.to_nat (0 + Z.of_nat 2 * k)) x ++ e ++ skipn (Z.to_nat (0 + Z.of_nat 2 * k) + length e) x) by congruence.
    rewrite Ex, app_assoc, skipn_app.
    assert (Lf : length (firstn (Z.to_nat (0 + Z.of_nat 2 * k)) x ++ e) = Z.to_nat (2 * k + 2)).
    { unfold zlen in *. rewrite app_length, firstn_length. lia. }
    rewrite Lf. rewrite skipn_all2 by (rewrite Lf; lia). rewrite skipn_skipn'. cbn [app]. f_equal. unfold zlen in *. lia.
Qed.
Lemma get_fors_node_firstn x x' k : zlen x = zlen x' -> 0 <= k < TS_MAX_FORS -> 
  firstn (Z.to_nat FORS_STACK_OFFSET) x' = firstn (Z.to_nat FORS_STACK_OFFSET) x ->
  get_fors_node cfg x' k = get_fors_node cfg x k.
Proof.
  intros L Hk Hf. unfold get_fors_node, FORS_STACK_OFFSET in *.
  destruct (Z.leb_spec 0 k), (Z.ltb_spec k TS_MAX_FORS); try lia. cbn [andb].
  unfold rd_word. f_equal. apply (rd_range_nth _ _ _ _ 0); [lia|]. intros i Hi.
  rewrite <- (nth_firstn x' 0 (Z.to_nat (2 * TS_MAX_FORS)) (Z.to_nat i)) by lia.
  rewrite <- (nth_firstn x 0 (Z.to_nat (2 * TS_MAX_FORS)) (Z.to_nat i)) by lia. congruence.
Qed.

(** The FORS leaf indices stored in x *)
Definition fors_idx_at (x : list Z) (md : list Z) : Prop :=
  forall i, 0 <= i < p_k P -> get_fors_node cfg x i = Ok (nth (Z.to_nat i) (base_2b md (p_a P) (p_k P)) 0).

Lemma slice_firstn X m a k : 0 <= a -> 0 <= k -> a + k <= m -> slice (firstn (Z.to_nat m) X) a k = slice X a k.
Proof.
  intros. unfold slice. rewrite skipn_firstn_comm, firstn_firstn. f_equal. lia.
Qed.

Lemma convert_ok X c : good E c -> is_bytes X -> 49 <= zlen X < 2 ^ 20 ->
  let D := firstn (Z.to_nat (p_m P)) X in
  exists mh x', ts_convert_message_hash_to_hypertree_position cfg X c
    = Ok (mh, set_fors_keypair_addr (idx_leaf_of P D) (set_tree_address (idx_tree_of P D) (set_x x' c))) /\
    bytes_of (SIZEOF_X cfg) x' /\ fors_idx_at x' (md_of P D) /\
    skipn (Z.to_nat FORS_STACK_OFFSET) x' = skipn (Z.to_nat FORS_STACK_OFFSET) (c_x c) /\
    zlen mh = zlen X /\ is_bytes mh.
Proof.
  intros G HX Hz D.
  pose proof (t_bounds E) as Ht. pose proof (k_bounds E) as Hk. pose proof (m_bounds E) as Hm.
  pose proof (m_split E) as Ms. pose proof (ceil_h E) as Ch. pose proof (h_sub E) as Hs. pose proof (mh_bounds E) as Hmh.
  pose proof (h_div E) as Hd.
  set (a := p_a P) in *. set (k := p_k P) in *.
  set (mdl := ceil_div (k * a) 8) in *. set (c1 := ceil_div (p_h P - p_h' P) 8) in *.
  assert (Hmd : k * a <= 8 * mdl < k * a + 8) by (unfold mdl, ceil_div; generalize (k * a); clear; intros; dlia).
  assert (Hc1 : 0 < c1 <= 8) by (unfold c1, ceil_div; clear - Hs; dlia).
  rewrite Ch in Ms. set (c2 := ceil_div (p_h' P) 8) in *.
  assert (Hc2 : 0 < c2 <= 2) by (unfold c2, ceil_div; clear - Hmh; dlia).
  assert (Hka : 0 < k * a) by (clear - Ht Hk; nia).
  unfold ts_convert_message_hash_to_hypertree_position. rewrite (g_ps E c G), (ps_k_eq E), (ps_t_eq E), (ps_h_eq E), (ps_mh_eq E).
  fold a k.
  assert (Emd : md_of P D = firstn (Z.to_nat mdl) X).
  { unfold md_of. fold a k mdl. unfold D. rewrite slice_firstn by nia. reflexivity. }
  assert (Hmlen : zlen (firstn (Z.to_nat mdl) X) = mdl) by (unfold zlen in *; rewrite firstn_length; nia).
  assert (Hval : forall i, 0 <= i < k -> bitsv X (a * i) a = nth (Z.to_nat i) (base_2b (md_of P D) a k) 0).
  { intros i Hi. rewrite Emd, base_2b_nth; [|lia|apply Forall_firstn', HX|lia|rewrite Hmlen; nia|lia].
    rewrite Hmlen. unfold bitsv. f_equal. rewrite firstn_div; [|exact HX|nia|nia]. f_equal. f_equal. ring. }
  match goal with |- exists mh x', (bind (for_loop ?N 0 ?f ?s) ?kk) = _ /\ _ =>
    destruct (for_loop_inv (fun i '(mh, off, bsf, c') => CI X (a * i) mh off bsf /\ 
       exists x', c' = set_x x' c /\ bytes_of (SIZEOF_X cfg) x' /\ skipn (Z.to_nat FORS_STACK_OFFSET) x' = skipn (Z.to_nat FORS_STACK_OFFSET) (c_x c) /\
       (forall j, 0 <= j < i -> get_fors_node cfg x' j = Ok (nth (Z.to_nat j) (base_2b (md_of P D) a k) 0))) f N 0 s)
      as ([[[mh off] bsf] c'] & E1 & HC & x' & -> & Bx & Sx & Nx) end.
  - split.
    + rewrite Z.mul_0_r. split; [lia|]. split; [lia|]. split; [lia|]. split; [lia|]. split; [reflexivity|]. split; [exact HX|].
      split; [reflexivity|]. rewrite Z.pow_0_r, Z.mul_1_r, Z.mod_small; [reflexivity|]. apply nth_byte, HX.
    + exists (c_x c). split; [destruct c; reflexivity|]. split; [apply (wf_x _ _ (g_wf E c G))|]. split; [reflexivity|]. lia.
  - intros i [[[mh off] bsf] c'] Hi (HC & x' & -> & Bx & Sx & Nx). rewrite Z2Nat.id in Hi by lia.
    destruct (convert_bits_ok X (a * i) mh off bsf a HX HC) as (m2 & o2 & b2 & E2 & HC2); [clear - Hi Ht; nia|clear - Ht; lia|clear - Hi Ms Hmd Hc1 Hc2 Hz Hm Ht Hk; nia|apply Hz|].
    rewrite E2. cbn [bind]. change (c_x (set_x x' c)) with x'. rewrite Hval by lia.
    set (v := nth (Z.to_nat i) (base_2b (md_of P D) a k) 0).
    assert (Hv : 0 <= v < 2 ^ 16).
    { unfold v. rewrite <- Hval by lia. unfold bitsv.
      pose proof (Z.mod_pos_bound (toInt X / 2 ^ (8 * zlen X - a * i - a)) (2 ^ a)).
      assert (0 < 2 ^ a) by (apply Z.pow_pos_nonneg; lia). assert (2 ^ a <= 2 ^ 16) by (apply Z.pow_le_mono_r; lia). lia. }
    destruct (set_fors_node_ok x' i v Bx) as (x2 & E3 & Bx2 & Gx2 & Fx2 & Sx2); [unfold TS_MAX_FORS; lia|exact Hv|].
    rewrite E3. cbn [bind]. eexists. split; [reflexivity|]. split; [replace (a * (i + 1)) with (a * i + a) by ring; exact HC2|].
    exists x2. split; [reflexivity|]. split; [exact Bx2|]. split; [congruence|].
    intros j Hj. destruct (Z.eq_dec j i) as [->|Nj]; [exact Gx2|]. apply Fx2; [exact Nj|unfold TS_MAX_FORS; lia|]. apply Nx; lia.
  - rewrite Z2Nat.id, Z.add_0_l in * by lia. rewrite E1. cbn [bind].
    assert (Hoff : off + 1 = mdl).
    { destruct HC as (C1 & C2 & C3 & C4 & _). assert (0 < bsf) by (apply C4; nia). lia. }
    destruct HC as (C1 & C2 & C3 & C4 & C5 & C6 & C7 & C8).
    destruct (extract_ok X mh off (p_h P - p_h' P) HX C1 C5 C7) as (o2 & E2 & Ho2); [lia|fold c1; lia|lia|].
    rewrite E2. cbn [bind]. fold c1 in Ho2.
    destruct (extract_ok X mh o2 (p_h' P) HX) as (o3 & E3 & Ho3); [clear - C1 Ho2 Hc1; lia|exact C5|intros j Hj; apply C7; clear - Hj Ho2 Hc1; lia|clear - Hmh; lia|fold c2; clear - Ho2 Hoff Ms Hz Hm; lia|apply Hz|].
    rewrite E3. cbn [bind]. exists mh, x'. split; [|split; [exact Bx|split; [exact Nx|split; [exact Sx|split; [exact C5|exact C6]]]]].
    do 2 f_equal.
    assert (El : u16 (toInt (slice X (o2 + 1) (ceil_div (p_h' P) 8)) mod 2 ^ p_h' P) = idx_leaf_of P D).
    { unfold idx_leaf_of. rewrite Hd. fold a k mdl c1. rewrite Ch. unfold D. fold c2. rewrite slice_firstn by (clear - Ms Hmd Hc1 Hc2 Hka; lia).
      replace (mdl + c1) with (o2 + 1) by (clear - Ho2 Hoff; lia).
      unfold u16. apply Z.mod_small.
      pose proof (Z.mod_pos_bound (toInt (slice X (o2 + 1) c2)) (2 ^ p_h' P)) as Q.
      assert (0 < 2 ^ p_h' P) by (apply Z.pow_pos_nonneg; lia).
      assert (2 ^ p_h' P <= 2 ^ 16) by (apply Z.pow_le_mono_r; lia). lia. }
    assert (Et : toInt (slice X (off + 1) (ceil_div (p_h P - p_h' P) 8)) mod 2 ^ (p_h P - p_h' P) = idx_tree_of P D).
    { unfold idx_tree_of. rewrite Hd. fold a k mdl c1. unfold D. rewrite slice_firstn by (clear - Ms Hmd Hc1 Hc2 Hka; lia). rewrite Hoff. reflexivity. }
    rewrite El, Et. reflexivity.
Qed.
End Digest.
