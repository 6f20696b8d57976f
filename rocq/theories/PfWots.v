(** * WOTS digits *)
From Verif Require Import Arr SpecSLH ModelParams ModelCtx ModelHash ModelSphincs SpecMap PfIter PfEnv PfAdr PfGlue PfCtx PfTree PfPaths PfBits.
Ltac Zify.zify_post_hook ::= idtac.

Lemma toInt_byte X i : is_bytes X -> 0 <= i < zlen X ->
  (toInt X / 2 ^ (8 * (zlen X - 1 - i))) mod 256 = nth (Z.to_nat i) X 0.
Proof.
  intros HX Hi.
  assert (Es : X = firstn (Z.to_nat i) X ++ [nth (Z.to_nat i) X 0] ++ skipn (Z.to_nat (i + 1)) X).
  { rewrite <- (firstn_skipn (Z.to_nat i) X) at 1. f_equal.
    replace (Z.to_nat (i + 1)) with (S (Z.to_nat i)) by lia. rewrite (skipn_nth_cons (Z.to_nat i) X 0); [reflexivity|].
    unfold zlen in Hi. lia. }
  assert (L : zlen (skipn (Z.to_nat (i + 1)) X) = zlen X - 1 - i) by (unfold zlen in *; rewrite skipn_length; lia).
  rewrite Es at 1. rewrite app_assoc, <- L, toInt_top by (apply Forall_skipn', HX). rewrite toInt_snoc.
  pose proof (nth_byte X (Z.to_nat i) HX) as B. unfold is_byte in B.
  rewrite Z.add_comm, Z.mul_comm, Z.mod_add by lia. apply Z.mod_small. lia.
Qed.
(** the digits of one byte *)
Lemma hex_digits M i : is_bytes M -> 0 <= i < zlen M ->
  nth (Z.to_nat (2 * i)) (base_2b M 4 (2 * zlen M)) 0 = nth (Z.to_nat i) M 0 / 16 /\
  nth (Z.to_nat (2 * i + 1)) (base_2b M 4 (2 * zlen M)) 0 = nth (Z.to_nat i) M 0 mod 16.
Proof.
  intros HM Hi. rewrite <- (toInt_byte M i HM Hi).
  set (e := 8 * (zlen M - 1 - i)).
  rewrite !base_2b_nth by (auto; lia).
  replace (8 * zlen M - 4 * (2 * i + 1)) with (e + 4) by lia.
  replace (8 * zlen M - 4 * (2 * i + 1 + 1)) with e by lia.
  rewrite Z.pow_add_r, <- Z.div_div by (try apply Z.pow_nonzero; try apply Z.pow_pos_nonneg; lia).
  change (2 ^ 4) with 16. generalize (toInt M / 2 ^ e). intros y. clear. split; dlia.
Qed.

Definition sumZ (l : list Z) : Z := fold_right Z.add 0 l.
Lemma sumZ_app a b : sumZ (a ++ b) = sumZ a + sumZ b.
Proof. induction a; cbn [app sumZ fold_right]; [reflexivity|]. unfold sumZ in IHa. rewrite IHa. unfold sumZ. lia. Qed.
Lemma sumZ_bound l m : 0 <= m -> Forall (fun v => 0 <= v <= m) l -> 0 <= sumZ l <= m * zlen l.
Proof.
  intros Hm. induction 1 as [|x l H H1 IH]; [cbn; lia|]. rewrite zlen_cons. cbn [sumZ fold_right]. unfold sumZ in IH. nia.
Qed.
Lemma csum_fold w l : forall c, fold_left (fun csum x => csum + (w - 1) - x) l c = c + (w - 1) * zlen l - sumZ l.
Proof.
  induction l as [|x l IH]; intros c; cbn [fold_left]; [cbn; lia|]. rewrite IH, zlen_cons. cbn [sumZ fold_right]. unfold sumZ. ring.
Qed.

Section Wots.
Variable E : env.
Local Notation cfg := (e_cfg E).
Local Notation n := (e_n E).
Local Notation P := (e_P E).

(** the message part and the checksum part of the digits *)
Lemma wots_msg_eq M : wots_msg P M =
  base_2b M 4 (2 * n) ++ base_2b (toByte (16 * (30 * n - sumZ (base_2b M 4 (2 * n)))) 2) 4 3.
Proof.
  unfold wots_msg. rewrite (len1_eq E), (len2_eq E), (p_lgw_eq E), (w_eq E), csum_fold.
  assert (L : zlen (base_2b M 4 (2 * n)) = 2 * n) by (unfold zlen; rewrite base_2b_length; pose proof (n_bounds E); lia).
  rewrite L. change (2 ^ ((8 - (3 * 4) mod 8) mod 8)) with 16. change (Z.to_nat (ceil_div (3 * 4) 8)) with 2%nat.
  replace (16 - 1) with 15 by lia.
  replace ((0 + 15 * (2 * n) - sumZ (base_2b M 4 (2 * n))) * 16)
    with (16 * (30 * n - sumZ (base_2b M 4 (2 * n)))) by ring. reflexivity.
Qed.
Lemma csum_digits s i : 0 <= s < 4096 -> 0 <= i < 3 ->
  nth (Z.to_nat i) (base_2b (toByte (16 * s) 2) 4 3) 0 = (s / 2 ^ (8 - 4 * i)) mod 16.
Proof.
  intros Hs Hi. pose proof (toByte_length (16 * s) 2) as L.
  rewrite base_2b_nth by (try apply toByte_bytes; unfold zlen; rewrite ?L; lia).
  rewrite toInt_toByte by (change (256 ^ Z.of_nat 2) with 65536; lia). unfold zlen. rewrite L. change (8 * Z.of_nat 2) with 16. change (2 ^ 4) with 16. f_equal.
  replace (16 - 4 * (i + 1)) with (4 + (8 - 4 * i)) by lia.
  rewrite Z.pow_add_r, <- Z.div_div by (try apply Z.pow_nonzero; try apply Z.pow_pos_nonneg; lia). f_equal.
  change (2 ^ 4) with 16. rewrite Z.mul_comm. apply Z.div_mul. lia.
Qed.
Lemma wots_msg_length M : length (wots_msg P M) = Z.to_nat (2 * n + 3).
Proof. rewrite wots_msg_eq, app_length, !base_2b_length. pose proof (n_bounds E). lia. Qed.
Lemma wots_msg_range M i : 0 <= nth i (wots_msg P M) 0 <= 15.
Proof.
  rewrite wots_msg_eq. destruct (Nat.lt_ge_cases i (length (base_2b M 4 (2 * n)))) as [L|L].
  - rewrite app_nth1 by exact L. pose proof (base_2b_nth_range M 4 (2 * n) i ltac:(lia)) as R. change (2 ^ 4) with 16 in R. lia.
  - rewrite app_nth2 by lia. match goal with |- 0 <= nth ?j (base_2b ?X 4 3) 0 <= 15 => pose proof (base_2b_nth_range X 4 3 j ltac:(lia)) as R end.
    change (2 ^ 4) with 16 in R. lia.
Qed.

Definition digits_at (x : list Z) (msg : list Z) : Prop :=
  forall i, 0 <= i < 2 * n + 3 -> get_digits cfg x i = Ok (nth (Z.to_nat i) msg 0).

Lemma max_digits : 2 * n + 3 <= TS_MAX_WOTS_DIGITS cfg.
Proof. unfold TS_MAX_WOTS_DIGITS. pose proof (n_max E). lia. Qed.
Lemma set_digits_ok x i v : bytes_of (SIZEOF_X cfg) x -> 0 <= i < 2 * n + 3 -> is_byte v ->
  exists x', set_digits cfg x i v = Ok x' /\ bytes_of (SIZEOF_X cfg) x' /\ get_digits cfg x' i = Ok v /\
    (forall j w, j <> i -> get_digits cfg x j = Ok w -> get_digits cfg x' j = Ok w) /\
    get_digit x' = get_digit x.
Proof.
  intros [Lx Bx] Hi Hv. pose proof (x_ge_wots E) as Xw. pose proof max_digits as Md.
  unfold set_digits, get_digits, get_digit. 
  destruct (Z.leb_spec 0 i), (Z.ltb_spec i (TS_MAX_WOTS_DIGITS cfg)); try lia. cbn [andb].
  rewrite wr_ok by lia. unfold u8. rewrite Z.mod_small by exact Hv.
  assert (Ll : (Z.to_nat (1 + i) < length x)%nat) by (unfold zlen in Lx; lia).
  eexists. split; [reflexivity|].
  assert (Lu : zlen (upd x (Z.to_nat (1 + i)) v) = SIZEOF_X cfg) by (unfold zlen in *; rewrite upd_length by lia; lia).
  split; [split; [exact Lu|apply upd_Forall; assumption]|]. split; [|split].
  - rewrite (rd_ok _ (1 + i) 0) by lia. rewrite nth_upd_eq by exact Ll. reflexivity.
  - intros j w Hj. destruct (Z.leb_spec 0 j), (Z.ltb_spec j (TS_MAX_WOTS_DIGITS cfg)); cbn [andb]; try discriminate.
    rewrite (rd_ok x (1 + j) 0), (rd_ok _ (1 + j) 0) by lia. rewrite nth_upd_neq by lia. auto.
  - rewrite (rd_ok x 0 0), (rd_ok _ 0 0) by lia. rewrite nth_upd_neq by lia. reflexivity.
Qed.

Lemma wots_digits_ok x hash M : bytes_of (SIZEOF_X cfg) x -> rd_range hash 0 n = Ok M -> str_ok E M ->
  exists x', compute_wots_digits cfg x hash n = Ok x' /\ bytes_of (SIZEOF_X cfg) x' /\
    digits_at x' (wots_msg P M) /\ get_digit x' = get_digit x.
Proof.
  intros Bx RM [LM BM]. pose proof (n_bounds E) as Hn. unfold compute_wots_digits.
  rewrite int_val_ok by lia. cbn [bind].
  set (msg := wots_msg P M). set (m1 := base_2b M 4 (2 * n)).
  assert (Lm1 : length m1 = Z.to_nat (2 * n)) by apply base_2b_length.
  assert (Hm1 : forall i, 0 <= i < 2 * n -> nth (Z.to_nat i) msg 0 = nth (Z.to_nat i) m1 0).
  { intros i Hi. unfold msg. rewrite wots_msg_eq. apply app_nth1. fold m1. lia. }
  assert (Fm : Forall (fun v => 0 <= v <= 15) m1).
  { eapply Forall_impl; [|apply base_2b_range; lia]. intros v Hv. cbv beta in *. change (2 ^ 4) with 16 in Hv. lia. }
  match goal with |- exists x', bind (for_loop ?k 0 ?f ?s) _ = _ /\ _ =>
    destruct (for_loop_inv (fun i '(x', sum) => bytes_of (SIZEOF_X cfg) x' /\ get_digit x' = get_digit x /\
      sum = 30 * n - sumZ (firstn (Z.to_nat (2 * i)) m1) /\
      (forall j, 0 <= j < 2 * i -> get_digits cfg x' j = Ok (nth (Z.to_nat j) msg 0))) f k 0 s)
      as ([x1 sum] & E1 & B1 & D1 & S1 & G1) end.
  - split; [exact Bx|]. split; [reflexivity|]. split; [unfold u32; rewrite Z.mod_small by lia; cbn; lia|lia].
  - intros i [x' sum] Hi (B' & D' & S' & G'). rewrite Z2Nat.id in Hi by lia.
    assert (Ehash : rd hash i = Ok (nth (Z.to_nat i) M 0)).
    { unfold rd_range in RM. destruct (Z.leb_spec 0 0), (Z.leb_spec 0 n), (Z.leb_spec (0 + n) (zlen hash)); cbn [andb] in RM; try discriminate.
      rewrite (rd_ok hash i 0) by lia. f_equal. injection RM as <-. rewrite nth_firstn by lia. reflexivity. }
    rewrite Ehash. cbn [bind]. set (b := nth (Z.to_nat i) M 0).
    assert (Hb : 0 <= b < 256) by (apply nth_byte, BM).
    destruct (hex_digits M i BM) as [Hx0 Hx1]; [lia|]. rewrite LM in Hx0, Hx1. fold m1 b in Hx0, Hx1.
    rewrite Z.shiftr_div_pow2 by lia. change (2 ^ 4) with 16.
    change 15 with (Z.ones 4). rewrite Z.land_ones by lia. change (2 ^ 4) with 16.
    destruct (set_digits_ok x' (2 * i) (b / 16) B') as (x2 & E2 & B2 & Gi2 & F2 & D2); [lia|unfold is_byte; clear - Hb; dlia|].
    rewrite E2. cbn [bind].
    destruct (set_digits_ok x2 (2 * i + 1) (b mod 16) B2) as (x3 & E3 & B3 & Gi3 & F3 & D3); [lia|unfold is_byte; clear - Hb; dlia|].
    rewrite E3. cbn [bind]. eexists. split; [reflexivity|]. split; [exact B3|]. split; [congruence|]. split.
    + replace (Z.to_nat (2 * (i + 1))) with (S (S (Z.to_nat (2 * i)))) by lia.
      rewrite (firstn_S_nth (S (Z.to_nat (2 * i))) m1 0), (firstn_S_nth (Z.to_nat (2 * i)) m1 0) by lia.
      replace (S (Z.to_nat (2 * i))) with (Z.to_nat (2 * i + 1)) by lia. rewrite !sumZ_app, Hx0, Hx1.
      set (sm := sumZ (firstn (Z.to_nat (2 * i)) m1)) in *.
      assert (Hsm : 0 <= sm <= 15 * (2 * i)).
      { pose proof (sumZ_bound (firstn (Z.to_nat (2 * i)) m1) 15 ltac:(lia) (Forall_firstn' _ _ _ Fm)) as Q.
        unfold zlen in Q. rewrite firstn_length in Q. unfold sm. lia. }
      assert (Hd : 0 <= b / 16 <= 15 /\ 0 <= b mod 16 <= 15) by (clear - Hb; dlia).
      rewrite S'. unfold u32. rewrite (Z.mod_small (30 * n - sm - b / 16)) by lia. rewrite Z.mod_small by lia. cbn; lia.
    + intros j Hj. destruct (Z.eq_dec j (2 * i + 1)) as [->|N1].
      { rewrite Gi3, Hm1, Hx1 by lia. reflexivity. }
      apply F3; [exact N1|]. destruct (Z.eq_dec j (2 * i)) as [->|N2].
      { rewrite Gi2, Hm1, Hx0 by lia. reflexivity. }
      apply F2; [exact N2|]. apply G'; lia.
  - rewrite Z2Nat.id, Z.add_0_l in * by lia. rewrite E1. cbn [bind].
    rewrite firstn_all2 in S1 by lia.
    assert (Hs : 0 <= sum < 4096).
    { pose proof (sumZ_bound m1 15 ltac:(lia) Fm) as Q. unfold zlen in Q. rewrite Lm1 in Q. rewrite S1. lia. }
    assert (Hc : forall i, 0 <= i < 3 -> nth (Z.to_nat (2 * n + i)) msg 0 = (sum / 2 ^ (8 - 4 * i)) mod 16).
    { intros i Hi. unfold msg. rewrite wots_msg_eq. fold m1. rewrite <- S1. rewrite app_nth2 by lia.
      rewrite <- csum_digits by lia. f_equal. lia. }
    rewrite !Z.shiftr_div_pow2 by lia. change 15 with (Z.ones 4). rewrite !Z.land_ones by lia. change (2 ^ 4) with 16. change (2 ^ 8) with 256.
    assert (Hmod : forall y, is_byte (y mod 16)) by (intros y; unfold is_byte; pose proof (Z.mod_pos_bound y 16); lia).
    destruct (set_digits_ok x1 (2 * n) ((sum / 256) mod 16) B1) as (x2 & E2 & B2 & Gi2 & F2 & D2); [lia|apply Hmod|].
    rewrite E2. cbn [bind].
    destruct (set_digits_ok x2 (2 * n + 1) ((sum / 16) mod 16) B2) as (x3 & E3 & B3 & Gi3 & F3 & D3); [lia|apply Hmod|].
    rewrite E3. cbn [bind].
    destruct (set_digits_ok x3 (2 * n + 2) (sum mod 16) B3) as (x4 & E4 & B4 & Gi4 & F4 & D4); [lia|apply Hmod|].
    rewrite E4. exists x4. split; [reflexivity|]. split; [exact B4|]. split; [|congruence].
    intros j Hj. destruct (Z.eq_dec j (2 * n + 2)) as [->|N2].
    { rewrite Gi4, Hc by lia. change (2 ^ (8 - 4 * 2)) with 1. rewrite Z.div_1_r. reflexivity. }
    apply F4; [exact N2|]. destruct (Z.eq_dec j (2 * n + 1)) as [->|N1].
    { rewrite Gi3, Hc by lia. reflexivity. }
    destruct (Z.eq_dec j (2 * n)) as [->|N0].
    { apply F3; [lia|]. rewrite Gi2. pose proof (Hc 0 ltac:(lia)) as H0. rewrite Z.add_0_r in H0. rewrite H0. reflexivity. }
    apply F3; [exact N1|]. apply F2; [exact N0|]. apply G1; lia.
Qed.

(** ** Incomparability of the digit strings of different messages *)
Lemma msg_digits_inj M M' : str_ok E M -> str_ok E M' ->
  (forall i, 0 <= i < 2 * n -> nth (Z.to_nat i) (base_2b M 4 (2 * n)) 0 = nth (Z.to_nat i) (base_2b M' 4 (2 * n)) 0) -> M = M'.
Proof.
  intros [L B] [L' B'] H. apply (nth_ext' 0); [unfold zlen in *; lia|]. intros i Hi.
  destruct (hex_digits M (Z.of_nat i) B) as [X0 X1]; [unfold zlen; lia|].
  destruct (hex_digits M' (Z.of_nat i) B') as [Y0 Y1]; [unfold zlen in *; lia|].
  rewrite L in X0, X1. rewrite L' in Y0, Y1. rewrite Nat2Z.id in *.
  assert (Z.of_nat i < n) by (unfold zlen in *; lia).
  pose proof (H (2 * Z.of_nat i) ltac:(lia)) as A0. pose proof (H (2 * Z.of_nat i + 1) ltac:(lia)) as A1.
  rewrite X0, Y0 in A0. rewrite X1, Y1 in A1. clear - A0 A1. dlia.
Qed.
Lemma sumZ_le a : forall b, length a = length b -> (forall i, nth i a 0 <= nth i b 0) -> sumZ a <= sumZ b.
Proof.
  induction a as [|x a IH]; intros [|y b] L H; try discriminate L; [cbn; lia|]. cbn [sumZ fold_right].
  pose proof (H 0%nat) as H0. cbn in H0. specialize (IH b ltac:(cbn in L; lia) (fun i => H (S i))). unfold sumZ in IH. lia.
Qed.
Lemma sumZ_eq a : forall b, length a = length b -> (forall i, nth i a 0 <= nth i b 0) -> sumZ a = sumZ b -> a = b.
Proof.
  induction a as [|x a IH]; intros [|y b] L H Hs; try discriminate; [reflexivity|]. cbn [sumZ fold_right] in Hs.
  pose proof (H 0%nat) as H0. cbn in H0.
  pose proof (sumZ_le a b ltac:(cbn in L; lia) (fun i => H (S i))) as Q. unfold sumZ in *.
  assert (x = y) by lia. f_equal; [assumption|]. apply IH; [cbn in L; lia|exact (fun i => H (S i))|lia].
Qed.
Lemma wots_incomparable M M' : str_ok E M -> str_ok E M' ->
  (forall i, 0 <= i < 2 * n + 3 -> nth (Z.to_nat i) (wots_msg P M) 0 <= nth (Z.to_nat i) (wots_msg P M') 0) -> M = M'.
Proof.
  intros HM HM' H. pose proof (n_bounds E) as Hn.
  set (a := base_2b M 4 (2 * n)). set (b := base_2b M' 4 (2 * n)).
  assert (La : length a = Z.to_nat (2 * n)) by apply base_2b_length. assert (Lb : length b = Z.to_nat (2 * n)) by apply base_2b_length.
  assert (Fa : 0 <= sumZ a <= 30 * n).
  { pose proof (sumZ_bound a 15 ltac:(lia)) as Q. unfold zlen in Q. rewrite La in Q. 
    assert (F : Forall (fun v => 0 <= v <= 15) a) by (eapply Forall_impl; [|apply base_2b_range; lia]; intros v Hv; cbv beta in *; change (2 ^ 4) with 16 in Hv; lia).
    specialize (Q F). lia. }
  assert (Fb : 0 <= sumZ b <= 30 * n).
  { pose proof (sumZ_bound b 15 ltac:(lia)) as Q. unfold zlen in Q. rewrite Lb in Q. 
    assert (F : Forall (fun v => 0 <= v <= 15) b) by (eapply Forall_impl; [|apply base_2b_range; lia]; intros v Hv; cbv beta in *; change (2 ^ 4) with 16 in Hv; lia).
    specialize (Q F). lia. }
  assert (Hab : forall i, nth i a 0 <= nth i b 0).
  { intros i. destruct (Nat.lt_ge_cases i (Z.to_nat (2 * n))) as [L|L].
    - specialize (H (Z.of_nat i) ltac:(lia)). rewrite !wots_msg_eq, Nat2Z.id in H. fold a b in H.
      rewrite !app_nth1 in H by lia. exact H.
    - rewrite !nth_overflow by lia. lia. }
  assert (Hc : 30 * n - sumZ a <= 30 * n - sumZ b).
  { assert (Hc : forall i, 0 <= i < 3 -> ((30 * n - sumZ a) / 2 ^ (8 - 4 * i)) mod 16 <= ((30 * n - sumZ b) / 2 ^ (8 - 4 * i)) mod 16).
    { intros i Hi. specialize (H (2 * n + i) ltac:(lia)). rewrite !wots_msg_eq in H. fold a b in H.
      rewrite !app_nth2 in H by lia. rewrite La, Lb in H. replace (Z.to_nat (2 * n + i) - Z.to_nat (2 * n))%nat with (Z.to_nat i) in H by lia.
      rewrite !csum_digits in H by lia. exact H. }
    pose proof (Hc 0 ltac:(lia)) as H0. pose proof (Hc 1 ltac:(lia)) as H1. pose proof (Hc 2 ltac:(lia)) as H2.
    change (2 ^ (8 - 4 * 0)) with 256 in H0. change (2 ^ (8 - 4 * 1)) with 16 in H1. change (2 ^ (8 - 4 * 2)) with 1 in H2.
    rewrite !Z.div_1_r in H2.
    set (u := 30 * n - sumZ a) in *. set (v := 30 * n - sumZ b) in *.
    assert (Hu : 0 <= u < 4096) by lia. assert (Hv : 0 <= v < 4096) by lia. clearbody u v. clear - H0 H1 H2 Hu Hv.
    assert (Eu : u = 256 * ((u / 256) mod 16) + 16 * ((u / 16) mod 16) + u mod 16) by dlia.
    assert (Ev : v = 256 * ((v / 256) mod 16) + 16 * ((v / 16) mod 16) + v mod 16) by dlia. lia. }
  assert (Hs : sumZ a = sumZ b) by (pose proof (sumZ_le a b ltac:(lia) Hab); lia).
  assert (Eab : a = b) by (apply sumZ_eq; [lia|exact Hab|exact Hs]).
  apply msg_digits_inj; auto. intros i Hi. fold a b. rewrite Eab. reflexivity.
Qed.
End Wots.
