(** * The incremental SHAKE256 is SHAKE256, for any chunking *)
From Verif Require Import Arr SpecKeccak ModelFips202 PfKeccakLanes PfSha2Common PfKeccakBits
  PfBlocks Sessions PfHashSessions.
From Coq Require Import ZifyNat.

(** ** Bits *)
Definition sbit (L : list Z) (i : nat) : bool := Z.testbit (nth (i / 64) L 0) (Z.of_nat (i mod 64)).
Definition mbit (m : list Z) (i : nat) : bool := Z.testbit (nth (i / 8) m 0) (Z.of_nat (i mod 8)).

Lemma byte_high b i : is_byte b -> 8 <= i -> Z.testbit b i = false.
Proof. intros Hb Hi. apply (testbit_high 8); [exact Hb|exact Hi]. Qed.
Lemma bits_of_byte_length b : length (bits_of_byte b) = 8%nat.
Proof. reflexivity. Qed.
Lemma bits_length m : length (bits_of_bytes m) = (8 * length m)%nat.
Proof. apply flat_map_len, bits_of_byte_length. Qed.
Lemma bits_of_byte_nth b i : (i < 8)%nat -> nth i (bits_of_byte b) false = Z.testbit b (Z.of_nat i).
Proof.
  intros H. unfold bits_of_byte.
  rewrite (nth_indep _ false (Z.testbit b (Z.of_nat 0))) by (rewrite map_length, seq_length; exact H).
  rewrite (map_nth (fun i => Z.testbit b (Z.of_nat i))), seq_nth by exact H. reflexivity.
Qed.
Lemma bits_nth m i : nth i (bits_of_bytes m) false = mbit m i.
Proof.
  destruct (Nat.lt_ge_cases i (8 * length m)) as [H|H].
  - unfold bits_of_bytes. rewrite (nth_flat_map bits_of_byte 8 m false 0) by (auto using bits_of_byte_length; lia).
    apply bits_of_byte_nth. lia.
  - rewrite nth_overflow by (rewrite bits_length; exact H). unfold mbit.
    rewrite (nth_overflow m) by lia. rewrite Z.bits_0. reflexivity.
Qed.
Lemma mbit_overflow m i : (8 * length m <= i)%nat -> mbit m i = false.
Proof. intros H. unfold mbit. rewrite nth_overflow by lia. apply Z.bits_0. Qed.
Lemma mbit_snoc m b i : mbit (m ++ [b]) i =
  if Nat.eq_dec (i / 8) (length m) then Z.testbit b (Z.of_nat (i mod 8)) else mbit m i.
Proof.
  unfold mbit. destruct (Nat.eq_dec (i / 8) (length m)) as [E|E].
  - rewrite E, nth_middle. reflexivity.
  - destruct (Nat.lt_ge_cases (i / 8) (length m)).
    + rewrite app_nth1 by assumption. reflexivity.
    + rewrite !nth_overflow by (rewrite ?app_length; cbn [length]; lia). reflexivity.
Qed.
Lemma mbit_app_zeros_nth m k i : nth i (bits_of_bytes m ++ zeros k) false = mbit m i.
Proof.
  destruct (Nat.lt_ge_cases i (8 * length m)) as [H|H].
  - rewrite app_nth1 by (rewrite bits_length; exact H). apply bits_nth.
  - rewrite app_nth2 by (rewrite bits_length; exact H).
    rewrite mbit_overflow by exact H. unfold zeros.
    destruct (Nat.lt_ge_cases (i - length (bits_of_bytes m)) k).
    + apply nth_repeat.
    + apply nth_overflow. rewrite repeat_length. assumption.
Qed.
Lemma xors_length a b : length a = length b -> length (xors a b) = length a.
Proof.
  revert b; induction a as [|x a IH]; intros [|y b] H; try discriminate; [reflexivity|].
  cbn [xors length] in *. rewrite IH by lia. reflexivity.
Qed.
Lemma xors_nth a b i : length a = length b ->
  nth i (xors a b) false = xorb (nth i a false) (nth i b false).
Proof.
  revert b i; induction a as [|x a IH]; intros [|y b] i H; try discriminate.
  - destruct i; reflexivity.
  - destruct i; cbn [xors nth]; [reflexivity|]. apply IH. cbn in H; lia.
Qed.
Lemma str_bits L i : length L = 25%nat -> (i < 1600)%nat -> nth i (str L) false = sbit L i.
Proof. intros H Hi. apply str_nth. lia. Qed.

(** ** Absorbing one byte *)
Lemma rd25 (L : list Z) k : length L = 25%nat -> rd (L ++ [k]) 25 = Ok k.
Proof.
  intros H. rewrite (rd_ok _ _ 0) by (unfold zlen; rewrite app_length; cbn [length]; lia).
  f_equal. change (Z.to_nat 25) with 25%nat. rewrite <- H, nth_middle. reflexivity.
Qed.
Lemma wr25 (L : list Z) k k' : length L = 25%nat -> wr (L ++ [k]) 25 k' = Ok (L ++ [k']).
Proof.
  intros H. rewrite wr_ok by (unfold zlen; rewrite app_length; cbn [length]; lia).
  unfold upd. change (Z.to_nat 25) with 25%nat.
  rewrite firstn_app_exact by exact H. rewrite skipn_app_ge by lia.
  rewrite H. reflexivity.
Qed.
Lemma rd_lane (L : list Z) k i : length L = 25%nat -> 0 <= i < 25 -> rd (L ++ [k]) i = Ok (nth (Z.to_nat i) L 0).
Proof.
  intros H Hi. rewrite (rd_ok _ _ 0) by (unfold zlen; rewrite app_length; cbn [length]; lia).
  f_equal. apply app_nth1. lia.
Qed.
Lemma wr_lane (L : list Z) k i v : length L = 25%nat -> 0 <= i < 25 ->
  wr (L ++ [k]) i v = Ok (upd L (Z.to_nat i) v ++ [k]).
Proof.
  intros H Hi. rewrite wr_ok by (unfold zlen; rewrite app_length; cbn [length]; lia).
  f_equal. unfold upd. rewrite firstn_app_le, skipn_app_le by lia. rewrite <- app_assoc. reflexivity.
Qed.
Lemma land7 x : 0 <= x -> Z.land x 7 = x mod 8.
Proof. intros H. change 7 with (Z.ones 3). rewrite Z.land_ones by lia. reflexivity. Qed.
Lemma shr3 x : Z.shiftr x 3 = x / 8.
Proof. rewrite Z.shiftr_div_pow2 by lia. reflexivity. Qed.

(** xor byte [b] into byte [p] *)
Definition xor_byte (L : list Z) (p : nat) (b : Z) : list Z :=
  upd L (p / 8) (Z.lxor (nth (p / 8) L 0) (u64 (Z.shiftl b (8 * (Z.of_nat p mod 8))))).
Lemma xor_byte_ok L p b : lanes_ok L -> (p < 200)%nat -> is_byte b ->
  lanes_ok (xor_byte L p b) /\
  forall i, (i < 1600)%nat -> sbit (xor_byte L p b) i =
    if Nat.eq_dec (i / 8) p then xorb (sbit L i) (Z.testbit b (Z.of_nat (i mod 8))) else sbit L i.
Proof.
  intros [HL Hlen] Hp Hb. unfold xor_byte. split.
  - split; [|rewrite upd_length; lia]. apply upd_Forall; [exact HL|].
    apply lxor_ok; [apply Forall_nth'; [exact HL|lia]|apply u64_ok].
  - intros i Hi. unfold sbit. destruct (Nat.eq_dec (i / 64) (p / 8)) as [E|E].
    + rewrite E, nth_upd_eq by lia. rewrite Z.lxor_spec. unfold u64.
      rewrite Z.mod_pow2_bits_low by lia. rewrite Z.shiftl_spec by lia.
      destruct (Nat.eq_dec (i / 8) p) as [E8|E8].
      * do 2 f_equal. lia.
      * assert (D : (i mod 64 < 8 * (p mod 8) \/ i mod 64 >= 8 * (p mod 8) + 8)%nat) by lia.
        destruct D as [D|D].
        -- rewrite (Z.testbit_neg_r b) by lia. apply xorb_false_r.
        -- rewrite (byte_high b) by (assumption || lia). apply xorb_false_r.
    + rewrite nth_upd_neq by lia. destruct (Nat.eq_dec (i / 8) p); [lia|reflexivity].
Qed.

(** The state [L] is [L0] with the bytes [r] xored in from the start. *)
Definition xored (L0 L r : list Z) : Prop :=
  forall i, (i < 1600)%nat -> sbit L i = xorb (sbit L0 i) (mbit r i).
Lemma xored_step L0 L r b : lanes_ok L -> (length r < 200)%nat -> is_byte b -> xored L0 L r ->
  xored L0 (xor_byte L (length r) b) (r ++ [b]).
Proof.
  intros HL Hr Hb H i Hi. destruct (xor_byte_ok L (length r) b HL Hr Hb) as [_ E].
  rewrite E by exact Hi. rewrite mbit_snoc. destruct (Nat.eq_dec (i / 8) (length r)) as [D|D].
  - rewrite H by exact Hi. rewrite (mbit_overflow r) by lia. rewrite xorb_false_r. reflexivity.
  - apply H, Hi.
Qed.
Lemma absorb_bytes_ok L0 L r m count : lanes_ok L -> xored L0 L r ->
  0 <= count <= zlen m -> zlen r + count <= 136 -> is_bytes m ->
  exists L', absorb_bytes (L ++ [zlen r]) m count = Ok (L' ++ [zlen r]) /\ lanes_ok L' /\
    xored L0 L' (r ++ firstn (Z.to_nat count) m).
Proof.
  intros HL HX Hc Hr Hm. unfold absorb_bytes.
  match goal with |- context [for_loop _ _ ?f _] => set (body := f) end.
  destruct (for_loop_inv (fun i s => exists L', s = L' ++ [zlen r] /\ lanes_ok L' /\
      xored L0 L' (r ++ firstn (Z.to_nat i) m)) body (Z.to_nat count) 0 (L ++ [zlen r]))
    as (s & E & L' & -> & H1 & H2).
  - exists L. split; [reflexivity|]. split; [exact HL|]. cbn [Z.to_nat firstn]. rewrite app_nil_r. exact HX.
  - intros i s Hi (L1 & -> & HL1 & HX1). unfold body.
    rewrite rd25 by apply HL1. cbn [bind].
    rewrite (rd_ok m i 0) by lia. cbn [bind].
    pose proof (zlen_nonneg r).
    unfold u64 at 1 2 3. rewrite Z.mod_small by lia. rewrite shr3.
    rewrite rd_lane by (try apply HL1; lia). cbn [bind].
    rewrite land7 by lia.
    unfold shift_count. replace ((0 <=? 8 * ((zlen r + i) mod 8)) && (8 * ((zlen r + i) mod 8) <? 64))
      with true by lia. cbn [bind].
    rewrite wr_lane by (try apply HL1; lia).
    eexists; split; [reflexivity|]. set (b := nth (Z.to_nat i) m 0).
    assert (Hb : is_byte b) by (apply Forall_nth'; [exact Hm|unfold zlen in *; lia]).
    set (r1 := r ++ firstn (Z.to_nat i) m) in *.
    assert (Lr1 : length r1 = Z.to_nat (zlen r + i)).
    { unfold r1. rewrite app_length, firstn_len by (unfold zlen in *; lia). unfold zlen; lia. }
    exists (xor_byte L1 (length r1) b). split; [|split].
    + unfold xor_byte. rewrite Lr1, Z2Nat.id by lia. f_equal. f_equal.
      * rewrite <- (Nat2Z.id (Z.to_nat (zlen r + i) / 8)). f_equal. lia.
      * f_equal. f_equal. rewrite <- (Nat2Z.id (Z.to_nat (zlen r + i) / 8)). f_equal. lia.
    + apply xor_byte_ok; auto. lia.
    + replace (Z.to_nat (i + 1)) with (S (Z.to_nat i)) by lia.
      rewrite (firstn_S_nth _ m 0) by (unfold zlen in *; lia). rewrite app_assoc.
      apply xored_step; auto. fold r1. lia.
  - exists L'. rewrite E. split; [reflexivity|]. split; [exact H1|].
    replace (0 + Z.of_nat (Z.to_nat count)) with count in H2 by lia. exact H2.
Qed.

(** ** Absorbing *)
Definition absorb_block (S : list bool) (b : list Z) : list bool :=
  keccak_p (xors S (bits_of_bytes b ++ zeros 512)).
Definition F (msg : list Z) : list bool := fold_left absorb_block (blocks 136 msg) (zeros 1600).
(** The context after absorbing [msg]. *)
Definition arep (s : list Z) (msg : list Z) : Prop :=
  exists L L0, s = L ++ [zlen (rest 136 msg)] /\ lanes_ok L /\ lanes_ok L0 /\
    str L0 = F msg /\ xored L0 L (rest 136 msg).

Lemma xored_str L0 L r : lanes_ok L -> lanes_ok L0 -> length r = 136%nat -> xored L0 L r ->
  xors (str L0) (bits_of_bytes r ++ zeros 512) = str L.
Proof.
  intros [_ H1] [_ H0] Hr HX.
  assert (E : length (str L0) = length (bits_of_bytes r ++ zeros 512)).
  { rewrite str_length, app_length, bits_length. unfold zeros. rewrite repeat_length. lia. }
  apply (nth_ext' false).
  - rewrite xors_length by exact E. rewrite !str_length. lia.
  - intros i Hi. rewrite xors_length, str_length in Hi by exact E.
    rewrite xors_nth by exact E. rewrite mbit_app_zeros_nth, !str_bits by lia.
    symmetry. apply HX. lia.
Qed.

Lemma absorb_loop_ok opt fuel s msg m : arep s msg -> is_bytes m -> zlen m < 2 ^ 64 - 136 ->
  (length m + length (rest 136 msg) < 136 * fuel)%nat ->
  exists s', absorb_loop opt fuel 136 s m = Ok s' /\ arep s' (msg ++ m).
Proof.
  revert s msg m; induction fuel as [|fuel IH]; intros s msg m Ha Hm Hl Hf; [lia|].
  destruct Ha as (L & L0 & -> & HL & HL0 & EF & HX).
  set (r := rest 136 msg) in *. cbn [absorb_loop].
  assert (Lr : (length r < 136)%nat).
  { unfold r. rewrite rest_length by lia. apply Nat.mod_upper_bound; lia. }
  rewrite rd25 by apply HL. cbn [bind].
  assert (Hz : zlen r < 136) by (unfold zlen; lia). pose proof (zlen_nonneg r). pose proof (zlen_nonneg m).
  unfold u64 at 1. rewrite Z.mod_small by lia.
  destruct (Z.leb_spec 136 (zlen m + zlen r)) as [Hge|Hlt].
  - unfold u64. rewrite Z.mod_small by lia. set (count := 136 - zlen r).
    destruct (absorb_bytes_ok L0 L r m count HL HX) as (L' & E & HL' & HX'); try (unfold count; lia); auto.
    rewrite E. cbn [bind]. rewrite wr25 by apply HL'. cbn [bind].
    rewrite permute_ok by apply HL'. cbn [bind].
    destruct (keccak_p_str L' HL') as [EP HP]. fold (perm L').
    assert (Lq : (length r + length (firstn (Z.to_nat count) m) = 136)%nat).
    { rewrite firstn_len by (unfold count, zlen in *; lia). unfold count, zlen in *; lia. }
    destruct (blocks_snoc 136 ltac:(lia) msg (firstn (Z.to_nat count) m) Lq) as [Eb Er].
    destruct (IH (perm L' ++ [0]) (msg ++ firstn (Z.to_nat count) m) (skipn (Z.to_nat count) m))
      as (s' & Es & Hs).
    + exists (perm L'), (perm L'). rewrite Er. repeat split; auto; try apply HP.
      * rewrite <- EP. unfold F. rewrite Eb, fold_left_app. cbn [fold_left]. unfold absorb_block at 1.
        fold (F msg). rewrite <- EF. f_equal. symmetry. apply xored_str; auto.
        rewrite app_length; exact Lq.
      * intros i Hi. unfold mbit. destruct (i / 8)%nat; cbn [nth]; rewrite Z.bits_0, xorb_false_r; reflexivity.
    + apply Forall_skipn', Hm.
    + unfold zlen in *. rewrite skipn_length. lia.
    + rewrite Er. cbn [length]. rewrite skipn_length. unfold count, zlen in *. lia.
    + exists s'. split; [exact Es|]. rewrite <- app_assoc, firstn_skipn in Hs. exact Hs.
  - destruct (absorb_bytes_ok L0 L r m (zlen m) HL HX) as (L' & E & HL' & HX'); try lia; auto.
    rewrite E. cbn [bind]. rewrite rd25 by apply HL'. cbn [bind]. rewrite wr25 by apply HL'.
    eexists; split; [reflexivity|].
    destruct (blocks_more 136 ltac:(lia) msg m) as [Eb Er]; [fold r; unfold zlen in *; lia|].
    exists L', L0. rewrite Er. fold r. split; [|split; [exact HL'|split; [exact HL0|split]]].
    + unfold u64. rewrite Z.mod_small by lia. rewrite zlen_app. reflexivity.
    + unfold F. rewrite Eb. exact EF.
    + unfold zlen in HX'. rewrite Nat2Z.id, firstn_all in HX'. exact HX'.
Qed.

Lemma shake_absorb_ok opt s msg m : arep s msg -> is_bytes m -> zlen m < 2 ^ 64 - 136 ->
  exists s', ts_shake256_inc_absorb opt s m = Ok s' /\ arep s' (msg ++ m).
Proof.
  intros Ha Hm Hl. apply absorb_loop_ok; auto.
  rewrite rest_length by lia. pose proof (Nat.mod_upper_bound (length msg) 136). lia.
Qed.

Lemma shake_init_ok s : length s = 26%nat ->
  exists s', ts_shake256_inc_init s = Ok s' /\ arep s' [].
Proof.
  intros Hs.
  exists (repeat 0 25 ++ [0]). split.
  - do 26 (destruct s as [|? s]; [discriminate|]). destruct s; [|discriminate]. reflexivity.
  - assert (HL : lanes_ok (repeat 0 25)).
    { split; [|reflexivity]. apply Forall_repeat. red; lia. }
    exists (repeat 0 25), (repeat 0 25).
    rewrite rest_nil by lia. split; [reflexivity|]. split; [exact HL|]. split; [exact HL|].
    split; [reflexivity|]. intros i Hi. unfold mbit.
    destruct (i / 8)%nat; cbn [nth]; rewrite Z.bits_0, xorb_false_r; reflexivity.
Qed.

(** ** Padding *)
Lemma skipn_bits k m : skipn (8 * k) (bits_of_bytes m) = bits_of_bytes (skipn k m).
Proof.
  revert m; induction k as [|k IH]; intros m; [reflexivity|].
  destruct m as [|b m]; [cbn [skipn]; apply skipn_nil|].
  replace (8 * S k)%nat with (8 + 8 * k)%nat by lia. cbn [skipn]. rewrite <- IH.
  unfold bits_of_bytes. cbn [flat_map]. rewrite skipn_app_ge by (rewrite bits_of_byte_length; lia).
  rewrite bits_of_byte_length. f_equal. lia.
Qed.
Lemma firstn_bits k m : firstn (8 * k) (bits_of_bytes m) = bits_of_bytes (firstn k m).
Proof.
  revert m; induction k as [|k IH]; intros m; [reflexivity|].
  destruct m as [|b m]; [apply firstn_nil|].
  replace (8 * S k)%nat with (8 + 8 * k)%nat by lia. cbn [firstn].
  unfold bits_of_bytes in *. cbn [flat_map]. rewrite firstn_app_ge by (rewrite bits_of_byte_length; lia).
  rewrite bits_of_byte_length. f_equal. rewrite <- IH. f_equal. lia.
Qed.
Lemma blocks_bits n m : (0 < n)%nat -> blocks (8 * n) (bits_of_bytes m) = map bits_of_bytes (blocks n m).
Proof.
  intros Hn. unfold blocks. rewrite bits_length, map_map.
  replace (8 * length m / (8 * n))%nat with (length m / n)%nat
    by (rewrite Nat.div_mul_cancel_l; lia).
  apply map_ext. intros i. replace (i * (8 * n))%nat with (8 * (i * n))%nat by lia.
  rewrite skipn_bits, firstn_bits. reflexivity.
Qed.
Lemma bits_app a b : bits_of_bytes (a ++ b) = bits_of_bytes a ++ bits_of_bytes b.
Proof. apply flat_map_app. Qed.

Lemma iter_succ_r {A} (f : A -> A) n x : Nat.iter (S n) f x = Nat.iter n f (f x).
Proof. induction n as [|n IH]; [reflexivity|]. cbn [Nat.iter nat_rect] in *. rewrite IH. reflexivity. Qed.

Definition padded (msg : list Z) : list bool :=
  let N := bits_of_bytes msg ++ [true; true; true; true] in
  N ++ pad101 1088 (Z.of_nat (length N)).
Definition last_block (msg : list Z) : list bool :=
  let r := rest 136 msg in
  bits_of_bytes r ++ [true; true; true; true; true] ++ zeros (1082 - 8 * length r) ++ [true].
Lemma rest_lt (msg : list Z) : (length (rest 136 msg) < 136)%nat.
Proof. rewrite rest_length by lia. apply Nat.mod_upper_bound; lia. Qed.
Lemma last_block_length msg : length (last_block msg) = 1088%nat.
Proof.
  unfold last_block. pose proof (rest_lt msg). rewrite !app_length, bits_length. unfold zeros.
  rewrite repeat_length. cbn [length]. lia.
Qed.
Lemma padded_blocks msg :
  blocks 1088 (padded msg) = map bits_of_bytes (blocks 136 msg) ++ [last_block msg].
Proof.
  destruct (blocks_rest 136 ltac:(lia) msg) as (a & E & La & Eb). rewrite Eb.
  pose proof (rest_lt msg) as Hr.
  assert (EP : padded msg = bits_of_bytes a ++ last_block msg).
  { unfold padded, last_block. cbv zeta. rewrite app_length, bits_length. cbn [length].
    rewrite E at 1. rewrite bits_app. rewrite <- !app_assoc. do 2 f_equal.
    unfold pad101. cbn [app]. do 5 f_equal. f_equal. f_equal.
    apply (f_equal (@length Z)) in E. rewrite app_length, La in E. lia. }
  rewrite EP, (blocks_app_exact 1088 ltac:(lia) _ _ (length msg / 136)).
  - f_equal.
    + apply (blocks_bits 136); lia.
    + apply blocks_one; [lia|]. apply last_block_length.
  - rewrite bits_length, La. lia.
Qed.
Definition Sfinal (msg : list Z) : list bool :=
  fold_left (fun S Pi => keccak_p (xors S (Pi ++ zeros 512))) (blocks 1088 (padded msg)) (zeros 1600).
Lemma fold_left_map_ {A B C} (f : A -> B -> A) (g : C -> B) l a :
  fold_left f (map g l) a = fold_left (fun a c => f a (g c)) l a.
Proof. revert a; induction l as [|c l IH]; intros a; [reflexivity|]. cbn [map fold_left]. apply IH. Qed.
Lemma fold_map_blocks l S :
  fold_left (fun S Pi => keccak_p (xors S (Pi ++ zeros 512))) (map bits_of_bytes l) S
  = fold_left absorb_block l S.
Proof. rewrite fold_left_map_. unfold absorb_block. reflexivity. Qed.
Lemma Sfinal_F msg : Sfinal msg = keccak_p (xors (F msg) (last_block msg ++ zeros 512)).
Proof.
  unfold Sfinal. rewrite padded_blocks, fold_left_app. cbn [fold_left].
  rewrite fold_map_blocks. reflexivity.
Qed.

Definition last_bit (r : list Z) (i : nat) : bool :=
  xorb (mbit (r ++ [0x1F]) i) (i =? 1087)%nat.
Lemma last_block_nth msg i : (i < 1600)%nat ->
  nth i (last_block msg ++ zeros 512) false = last_bit (rest 136 msg) i.
Proof.
  intros Hi. pose proof (last_block_length msg) as LL. pose proof (rest_lt msg) as Hr.
  assert (Z0 : forall k j, nth j (zeros k) false = false).
  { intros k j. unfold zeros. destruct (Nat.lt_ge_cases j k).
    - apply nth_repeat.
    - apply nth_overflow. rewrite repeat_length; lia. }
  set (r := rest 136 msg) in *.
  destruct (Nat.lt_ge_cases i 1088) as [H|H].
  - rewrite app_nth1 by lia. unfold last_block, last_bit. fold r. cbv zeta.
    rewrite mbit_snoc. destruct (Nat.lt_ge_cases i (8 * length r)) as [H1|H1].
    + rewrite app_nth1 by (rewrite bits_length; exact H1). rewrite bits_nth.
      destruct (Nat.eq_dec (i / 8) (length r)); [lia|].
      replace (i =? 1087)%nat with false by (symmetry; apply Nat.eqb_neq; lia).
      rewrite xorb_false_r. reflexivity.
    + rewrite app_nth2 by (rewrite bits_length; exact H1). rewrite bits_length.
      set (j := (i - 8 * length r)%nat).
      destruct (Nat.lt_ge_cases j 5) as [H2|H2].
      * rewrite app_nth1 by (cbn; lia).
        destruct (Nat.eq_dec (i / 8) (length r)); [|lia].
        replace (i =? 1087)%nat with false by (symmetry; apply Nat.eqb_neq; lia).
        replace (i mod 8)%nat with j by lia. clearbody j.
        do 5 (destruct j as [|j]; [reflexivity|]). lia.
      * rewrite app_nth2 by (cbn; lia). cbn [length].
        assert (EB : (if Nat.eq_dec (i / 8) (length r) then Z.testbit 31 (Z.of_nat (i mod 8))
                     else mbit r i) = false).
        { destruct (Nat.eq_dec (i / 8) (length r)).
          - replace (i mod 8)%nat with j by lia.
            assert (j < 8)%nat by lia. clearbody j.
            do 8 (destruct j as [|j]; [try reflexivity; lia|]). lia.
          - apply mbit_overflow. lia. }
        rewrite EB, xorb_false_l.
        destruct (Nat.lt_ge_cases (j - 5) (1082 - 8 * length r)) as [H3|H3].
        -- rewrite app_nth1 by (unfold zeros; rewrite repeat_length; exact H3).
           rewrite Z0. symmetry. apply Nat.eqb_neq. lia.
        -- rewrite app_nth2 by (unfold zeros; rewrite repeat_length; exact H3).
           unfold zeros. rewrite repeat_length.
           replace (j - 5 - (1082 - 8 * length r))%nat with O by lia.
           replace i with 1087%nat by lia. reflexivity.
  - rewrite app_nth2 by lia. rewrite Z0. unfold last_bit.
    rewrite mbit_overflow by (rewrite app_length; cbn [length]; lia).
    replace (i =? 1087)%nat with false by (symmetry; apply Nat.eqb_neq; lia). reflexivity.
Qed.

(** The context after finalize: nothing squeezed yet. *)
Definition frep (s : list Z) (msg : list Z) : Prop :=
  exists L, s = L ++ [0] /\ lanes_ok L /\ keccak_p (str L) = Sfinal msg.

Lemma shake_finalize_ok s msg : arep s msg ->
  exists s', ts_shake256_inc_finalize s = Ok s' /\ frep s' msg.
Proof.
  intros (L & L0 & -> & HL & HL0 & EF & HX).
  pose proof (rest_lt msg) as Hr. set (r := rest 136 msg) in *.
  unfold ts_shake256_inc_finalize, keccak_inc_finalize. rewrite rd25 by apply HL. cbn [bind].
  assert (Hz : 0 <= zlen r < 136) by (unfold zlen; lia).
  rewrite shr3, rd_lane by (try apply HL; lia). cbn [bind]. rewrite land7 by lia.
  unfold shift_count at 1. replace ((0 <=? 8 * (zlen r mod 8)) && (8 * (zlen r mod 8) <? 64)) with true by lia.
  cbn [bind]. rewrite wr_lane by (try apply HL; lia). cbn [bind].
  set (L1 := upd L _ _).
  assert (E1 : L1 = xor_byte L (length r) 0x1F).
  { unfold L1, xor_byte. replace (Z.to_nat (zlen r / 8)) with (length r / 8)%nat by (unfold zlen; lia).
    reflexivity. }
  destruct (xor_byte_ok L (length r) 0x1F HL) as [HL1 _]; [lia|red; lia|].
  assert (HX1 : xored L0 L1 (r ++ [0x1F])).
  { rewrite E1. apply xored_step; auto; [lia|red; lia]. }
  rewrite <- E1 in HL1. clearbody L1. clear E1.
  change SHAKE256_RATE with 136. change (Z.shiftr (136 - 1) 3) with 16.
  rewrite rd_lane by (try apply HL1; lia). cbn [bind].
  change (shift_count 64 (8 * Z.land (136 - 1) 7)) with (@Ok Z 56). cbn [bind].
  rewrite wr_lane by (try apply HL1; lia). cbn [bind].
  set (L2 := upd L1 _ _).
  assert (E2 : L2 = xor_byte L1 135 128) by reflexivity.
  destruct (xor_byte_ok L1 135 128 HL1) as [HL2 HB2]; [lia|red; lia|].
  rewrite <- E2 in HL2, HB2. clearbody L2. clear E2.
  rewrite wr25 by apply HL2. eexists; split; [reflexivity|].
  exists L2. split; [reflexivity|]. split; [exact HL2|].
  rewrite Sfinal_F. f_equal.
  assert (E : length (F msg) = length (last_block msg ++ zeros 512)).
  { rewrite <- EF, str_length, app_length, last_block_length. unfold zeros. rewrite repeat_length.
    destruct HL0; lia. }
  assert (LF : length (F msg) = 1600%nat).
  { rewrite <- EF, str_length. destruct HL0; lia. }
  apply (nth_ext' false).
  - rewrite xors_length by exact E. rewrite str_length, LF. destruct HL2; lia.
  - intros i Hi. rewrite str_length in Hi. rewrite xors_nth by exact E.
    rewrite str_bits by (destruct HL2; lia).
    rewrite HB2 by (destruct HL2; lia). rewrite last_block_nth by (destruct HL2; lia).
    unfold last_bit. rewrite <- EF, str_bits by (destruct HL2, HL0; lia). fold r.
    rewrite HX1 by (destruct HL2; lia). rewrite <- xorb_assoc.
    set (b := xorb (sbit L0 i) (mbit (r ++ [31]) i)). clearbody b.
    destruct (Nat.eq_dec (i / 8) 135) as [D|D].
    + f_equal. assert (Di : (i mod 8 < 8)%nat) by lia.
      replace i with (1080 + i mod 8)%nat at 2 by lia. revert Di. generalize (i mod 8)%nat.
      intros j Hj. do 8 (destruct j as [|j]; [reflexivity|]). lia.
    + replace (i =? 1087)%nat with false by (symmetry; apply Nat.eqb_neq; lia).
      symmetry; apply xorb_false_r.
Qed.

(** ** Squeezing: the output stream as a function of the position *)
Definition outb (L : list Z) (p : nat) : Z :=
  u8 (Z.shiftr (nth (p / 8) L 0) (8 * (Z.of_nat p mod 8))).
Definition iperm (n : nat) (L : list Z) : list Z := Nat.iter n perm L.
(** [k] bytes of the current block are left *)
Definition strm (L : list Z) (k : nat) (i : nat) : Z :=
  if (i <? k)%nat then outb L (136 - k + i)
  else outb (iperm (S ((i - k) / 136)) L) ((i - k) mod 136).

Lemma iperm_ok n L : lanes_ok L -> lanes_ok (iperm n L).
Proof. intros H; induction n; cbn; [exact H|]. apply keccak_p_str, IHn. Qed.
Lemma iperm_S n L : iperm n (perm L) = iperm (S n) L.
Proof. unfold iperm. symmetry. apply iter_succ_r. Qed.

Lemma state_byte_ok L k p : length L = 25%nat -> (p < 200)%nat ->
  state_byte (L ++ [k]) (Z.of_nat p) = Ok (outb L p).
Proof.
  intros HL Hp. unfold state_byte. rewrite shr3, rd_lane by lia. cbn [bind].
  rewrite land7 by lia. unfold shift_count.
  replace ((0 <=? 8 * (Z.of_nat p mod 8)) && (8 * (Z.of_nat p mod 8) <? 64)) with true by lia.
  cbn [bind]. unfold outb. do 4 f_equal. rewrite <- (Nat2Z.id (p / 8)). f_equal. lia.
Qed.
Lemma out_loop L k p n : length L = 25%nat -> (p + n <= 136)%nat -> forall f,
  (forall i, (i < n)%nat -> f (Z.of_nat i) = Z.of_nat (p + i)) ->
  for_loop n 0 (fun i h => b <- state_byte (L ++ [k]) (f i) ;; Ok (h ++ [b])) []
  = Ok (map (outb L) (seq p n)).
Proof.
  intros HL Hn f Hf.
  destruct (for_loop_inv (fun i h => h = map (outb L) (seq p (Z.to_nat i)))
    (fun i h => b <- state_byte (L ++ [k]) (f i) ;; Ok (h ++ [b])) n 0 []) as (s & E & Hs).
  - reflexivity.
  - intros i s Hi ->. assert (Ef : f i = Z.of_nat (p + Z.to_nat i)) by (rewrite <- Hf by lia; f_equal; lia).
    rewrite Ef, state_byte_ok by lia. cbn [bind]. eexists; split; [reflexivity|].
    replace (Z.to_nat (i + 1)) with (Z.to_nat i + 1)%nat by lia.
    rewrite seq_app, map_app. reflexivity.
  - rewrite E. subst s. do 3 f_equal. lia.
Qed.

Lemma map_seq_shift {A} (f : nat -> A) a n : map f (seq a n) = map (fun i => f (a + i)%nat) (seq 0 n).
Proof.
  revert f a; induction n as [|n IH]; intros f a; [reflexivity|]. cbn [seq map]. f_equal.
  - f_equal; lia.
  - rewrite (IH f), (IH (fun i => f (a + i)%nat)). apply map_ext. intros; f_equal; lia.
Qed.
Lemma strm_perm L i : strm L 0 (136 + i) = strm (perm L) 0 i.
Proof.
  unfold strm. rewrite !Nat.sub_0_r.
  replace (136 + i <? 0)%nat with false by (symmetry; apply Nat.ltb_ge; lia).
  replace (i <? 0)%nat with false by (symmetry; apply Nat.ltb_ge; lia).
  rewrite iperm_S. f_equal; [|lia]. f_equal. f_equal. lia.
Qed.

Lemma squeeze_loop_ok opt fuel L k n : lanes_ok L -> (0 < n -> k = 0) -> 0 <= n -> n + 136 <= 136 * Z.of_nat fuel ->
  0 <= k <= 136 ->
  exists L' k', squeeze_loop opt fuel 136 (L ++ [k]) n
      = Ok (map (strm L (Z.to_nat k)) (seq 0 (Z.to_nat n)), L' ++ [k']) /\
    lanes_ok L' /\ 0 <= k' <= 136 /\
    forall i, strm L' (Z.to_nat k') i = strm L (Z.to_nat k) (Z.to_nat n + i).
Proof.
  revert L k n; induction fuel as [|fuel IH]; intros L k n HL Hk Hn Hf Hk'; [lia|].
  cbn [squeeze_loop]. destruct (Z.leb_spec n 0) as [H0|H0].
  - replace n with 0 by lia. exists L, k. repeat split; auto; try apply HL; lia.
  - rewrite (Hk H0) in *. rewrite permute_ok by apply HL. cbn [bind]. fold (perm L).
    destruct (keccak_p_str L HL) as [_ HP].
    set (count := Z.min n 136).
    rewrite (out_loop (perm L) 0 0 (Z.to_nat count)) by (try apply HP; try (intros; reflexivity); lia).
    cbn [bind]. rewrite wr25 by apply HP. cbn [bind].
    unfold u64. rewrite Z.mod_small by lia.
    assert (HB : map (outb (perm L)) (seq 0 (Z.to_nat count)) = map (strm L 0) (seq 0 (Z.to_nat count))).
    { apply map_ext_in. intros i Hi. apply in_seq in Hi. unfold strm.
      replace (i <? 0)%nat with false by (symmetry; apply Nat.ltb_ge; lia).
      rewrite Nat.sub_0_r, Nat.div_small, Nat.mod_small by lia. reflexivity. }
    rewrite HB.
    destruct (Z.le_gt_cases n 136) as [Hc|Hc].
    + replace (n - count) with 0 by lia.
      destruct (IH (perm L) (136 - count) 0) as (L' & k' & E & HL' & Hk2 & HS); [exact HP|intros; unfold count in *; lia..|].
      rewrite E. cbn [bind]. exists L', k'. split; [|split; [exact HL'|split; [exact Hk2|]]].
      * apply (f_equal (fun o => Ok (o, L' ++ [k']))). rewrite app_nil_r.
        replace (Z.to_nat count) with (Z.to_nat n) by lia. reflexivity.
      * intros i. rewrite HS. unfold strm. cbn [Z.to_nat].
        replace (Z.to_nat n + i <? 0)%nat with false by (symmetry; apply Nat.ltb_ge; lia).
        rewrite Nat.sub_0_r, Nat.add_0_l.
        destruct (Nat.ltb_spec i (Z.to_nat (136 - count))).
        -- rewrite Nat.div_small, Nat.mod_small by lia.
           change (iperm 1 L) with (perm L). apply (f_equal (outb _)). lia.
        -- rewrite iperm_S. apply f_equal2; [|lia]. apply (f_equal (fun k => iperm k L)). lia.
    + replace count with 136 in * by lia. replace (136 - 136) with 0 by lia.
      destruct (IH (perm L) 0 (n - 136)) as (L' & k' & E & HL' & Hk2 & HS); [exact HP|intros; unfold count in *; lia..|].
      rewrite E. cbn [bind]. exists L', k'. split; [|split; [exact HL'|split; [exact Hk2|]]].
      * apply (f_equal (fun o => Ok (o, L' ++ [k']))). change (Z.to_nat 0) with O.
        replace (Z.to_nat n) with (Z.to_nat 136 + Z.to_nat (n - 136))%nat by lia.
        rewrite seq_app, map_app. apply (f_equal (app _)). rewrite (map_seq_shift _ (0 + _)).
        apply map_ext. intros i. symmetry. apply strm_perm.
      * intros i. rewrite HS. change (Z.to_nat 0) with O. rewrite <- strm_perm. apply (f_equal (strm L 0)). lia.
Qed.

Definition srep (s : list Z) (f : nat -> Z) : Prop :=
  exists L k, s = L ++ [k] /\ lanes_ok L /\ 0 <= k <= 136 /\ forall i, strm L (Z.to_nat k) i = f i.

Lemma shake_squeeze_ok opt s f n : srep s f -> 0 <= n ->
  exists s', ts_shake256_inc_squeeze opt n s = Ok (map f (seq 0 (Z.to_nat n)), s') /\
    srep s' (fun i => f (Z.to_nat n + i)%nat).
Proof.
  intros (L & k & -> & HL & Hk & Hf) Hn.
  unfold ts_shake256_inc_squeeze, keccak_inc_squeeze. change SHAKE256_RATE with 136.
  rewrite rd25 by apply HL. cbn [bind]. set (count := Z.min n k).
  rewrite (out_loop L k (Z.to_nat (136 - k)) (Z.to_nat count)).
  2: apply HL. 2: lia.
  2: { intros i Hi. unfold u64. rewrite Z.mod_small by lia. lia. }
  cbn [bind]. rewrite wr25 by apply HL. cbn [bind].
  unfold u64. rewrite Z.mod_small by lia.
  destruct (squeeze_loop_ok opt (S (Z.to_nat n)) L (k - count) (n - count))
    as (L' & k' & E & HL' & Hk2 & HS); [exact HL|intros; unfold count in *; lia..|].
  assert (EO : map (outb L) (seq (Z.to_nat (136 - k)) (Z.to_nat count)) = map f (seq 0 (Z.to_nat count))).
  { rewrite map_seq_shift. apply map_ext_in. intros i Hi. apply in_seq in Hi. rewrite <- Hf.
    unfold strm. replace (i <? Z.to_nat k)%nat with true by (symmetry; apply Nat.ltb_lt; lia).
    f_equal. lia. }
  assert (ES : forall i, strm L (Z.to_nat (k - count)) i = f (Z.to_nat count + i)%nat).
  { intros i. rewrite <- Hf. unfold strm.
    destruct (Nat.ltb_spec i (Z.to_nat (k - count))) as [D|D].
    - replace (Z.to_nat count + i <? Z.to_nat k)%nat with true by (symmetry; apply Nat.ltb_lt; lia).
      f_equal. lia.
    - replace (Z.to_nat count + i <? Z.to_nat k)%nat with false by (symmetry; apply Nat.ltb_ge; lia).
      f_equal; [f_equal; lia|lia]. }
  rewrite E. cbn [bind]. eexists; split.
  - do 2 f_equal. rewrite EO. replace (Z.to_nat n) with (Z.to_nat count + Z.to_nat (n - count))%nat by lia.
    rewrite seq_app, map_app. f_equal. rewrite (map_seq_shift f). apply map_ext. intros i.
    rewrite ES. reflexivity.
  - exists L', k'. split; [reflexivity|]. split; [exact HL'|]. split; [exact Hk2|].
    intros i. rewrite HS, ES. f_equal. lia.
Qed.

(** ** The stream is the one of the standard *)
Definition SHK (msg : list Z) (i : nat) : Z :=
  byte_of_bits (firstn 8 (skipn (8 * (i mod 136)) (Nat.iter (i / 136) keccak_p (Sfinal msg)))).

Lemma byte_of_bits_nth l i : (i < length l)%nat ->
  Z.testbit (byte_of_bits l) (Z.of_nat i) = nth i l false.
Proof.
  revert i; induction l as [|b l IH]; intros i Hi; [cbn in Hi; lia|].
  cbn [byte_of_bits fold_right]. fold (byte_of_bits l).
  rewrite Z.add_comm. destruct i as [|i].
  - cbn [nth]. change (Z.of_nat 0) with 0. destruct b.
    + apply Z.testbit_odd_0.
    + rewrite Z.add_0_r. apply Z.testbit_even_0.
  - cbn [nth]. rewrite Nat2Z.inj_succ. rewrite <- IH by (cbn in Hi; lia). destruct b.
    + apply Z.testbit_odd_succ. lia.
    + rewrite Z.add_0_r. apply Z.testbit_even_succ. lia.
Qed.
Lemma byte_of_bits_range l : 0 <= byte_of_bits l < 2 ^ Z.of_nat (length l).
Proof.
  induction l as [|b l IH]; [cbn; lia|]. cbn [byte_of_bits fold_right length]. fold (byte_of_bits l).
  rewrite Nat2Z.inj_succ, Z.pow_succ_r by lia. destruct b; lia.
Qed.
Lemma outb_bits L p : lanes_ok L -> (p < 200)%nat ->
  outb L p = byte_of_bits (firstn 8 (skipn (8 * p) (str L))).
Proof.
  intros [HL Hlen] Hp.
  assert (Ls : length (firstn 8 (skipn (8 * p) (str L))) = 8%nat).
  { apply firstn_len. rewrite skipn_length, str_length. lia. }
  apply Z.bits_inj'. intros j Hj. unfold outb, u8.
  destruct (Z.lt_ge_cases j 8) as [H|H].
  - rewrite Z.mod_pow2_bits_low by lia. rewrite Z.shiftr_spec by lia.
    replace j with (Z.of_nat (Z.to_nat j)) at 2 by lia.
    rewrite byte_of_bits_nth by lia. rewrite nth_firstn by lia. rewrite nth_skipn.
    rewrite str_nth by lia. f_equal; [f_equal|]; lia.
  - rewrite Z.mod_pow2_bits_high by lia. symmetry.
    apply (testbit_high 8); [|exact H].
    pose proof (byte_of_bits_range (firstn 8 (skipn (8 * p) (str L)))) as R. rewrite Ls in R. exact R.
Qed.
Lemma iter_keccak L n : lanes_ok L -> Nat.iter n keccak_p (str L) = str (iperm n L).
Proof.
  intros HL. induction n as [|n IH]; [reflexivity|].
  change (Nat.iter (S n) keccak_p (str L)) with (keccak_p (Nat.iter n keccak_p (str L))).
  rewrite IH. change (iperm (S n) L) with (perm (iperm n L)).
  apply keccak_p_str. apply (iperm_ok n L HL).
Qed.
Lemma frep_srep s msg : frep s msg -> srep s (SHK msg).
Proof.
  intros (L & -> & HL & E). exists L, 0. split; [reflexivity|]. split; [exact HL|].
  split; [lia|]. intros i. unfold strm. change (Z.to_nat 0) with O.
  replace (i <? 0)%nat with false by (symmetry; apply Nat.ltb_ge; lia). rewrite Nat.sub_0_r.
  rewrite outb_bits by (auto using iperm_ok; lia). unfold SHK.
  destruct (keccak_p_str L HL) as [EP HP]. rewrite <- E, EP, iter_keccak by exact HP.
  rewrite iperm_S. reflexivity.
Qed.

(** The context of a session in which [msg] has been absorbed exists for every byte
    string (absorb it byte by byte). *)
Lemma arep_exists msg : is_bytes msg -> exists s, arep s msg.
Proof.
  induction msg as [|b msg IH] using rev_ind; intros Hm.
  - destruct (shake_init_ok (repeat 0 26)) as (s0 & _ & A0); [reflexivity|]. eauto.
  - apply Forall_app in Hm as [Hm Hb]. destruct (IH Hm) as (s & Hs).
    destruct (shake_absorb_ok 0 s msg [b] Hs Hb) as (s' & _ & Hs'); [cbn; lia|]. eauto.
Qed.
Lemma Sfinal_lanes msg : is_bytes msg -> exists L, lanes_ok L /\ Sfinal msg = str L.
Proof.
  intros Hm. destruct (arep_exists msg Hm) as (s & A1).
  destruct (shake_finalize_ok s _ A1) as (s2 & _ & L & _ & HL & E).
  destruct (keccak_p_str L HL) as [EP HP]. exists (perm L). split; [exact HP|].
  rewrite <- EP. symmetry. exact E.
Qed.

Lemma squeeze_blocks_nth r k S i b : (i < k)%nat -> (b < r)%nat ->
  (forall j, length (Nat.iter j keccak_p S) = 1600%nat) -> (r <= 1600)%nat ->
  nth (i * r + b) (squeeze_blocks r k S) false = nth b (Nat.iter i keccak_p S) false.
Proof.
  revert S i; induction k as [|k IH]; intros S i Hi Hb HS Hr; [lia|].
  cbn [squeeze_blocks].
  assert (LS : length (firstn r S) = r) by (apply firstn_len; specialize (HS O); cbn in HS; lia).
  destruct i as [|i].
  - rewrite app_nth1 by lia. rewrite Nat.mul_0_l, Nat.add_0_l, nth_firstn by exact Hb. reflexivity.
  - rewrite app_nth2 by lia. rewrite LS.
    replace (Datatypes.S i * r + b - r)%nat with (i * r + b)%nat by lia.
    rewrite IH; [|lia|exact Hb| |exact Hr].
    + rewrite <- iter_succ_r. reflexivity.
    + intros j. rewrite <- iter_succ_r. apply HS.
Qed.
Lemma squeeze_blocks_length r k S :
  (forall j, length (Nat.iter j keccak_p S) = 1600%nat) -> (r <= 1600)%nat ->
  length (squeeze_blocks r k S) = (k * r)%nat.
Proof.
  revert S; induction k as [|k IH]; intros S HS Hr; [reflexivity|].
  cbn [squeeze_blocks]. rewrite app_length, IH; [| |exact Hr].
  - rewrite firstn_len by (specialize (HS O); cbn in HS; lia). lia.
  - intros j. rewrite <- iter_succ_r. apply HS.
Qed.

Theorem shake256_stream msg n : is_bytes msg ->
  shake256 msg n = map (SHK msg) (seq 0 (Z.to_nat n)).
Proof.
  intros Hm. destruct (Sfinal_lanes msg Hm) as (L & HL & ES).
  unfold shake256. set (N := Z.to_nat n). clearbody N. clear n.
  unfold SHAKE256_bits, sponge. change (1600 - 512)%nat with 1088%nat.
  change (Z.of_nat 1088) with 1088. fold (padded msg). cbv zeta.
  change (1600 - 1088)%nat with 512%nat. fold (Sfinal msg).
  assert (HI : forall j, length (Nat.iter j keccak_p (Sfinal msg)) = 1600%nat).
  { intros j. rewrite ES, iter_keccak, str_length by exact HL.
    destruct (iperm_ok j L HL); lia. }
  set (sq := squeeze_blocks _ _ _).
  assert (Lsq : length sq = ((8 * N / 1088 + 1) * 1088)%nat)
    by (apply squeeze_blocks_length; auto; lia).
  assert (Lf : length (firstn (8 * N) sq) = (8 * N)%nat) by (apply firstn_len; lia).
  unfold bytes_of_bits, blocks. rewrite Lf. replace (8 * N / 8)%nat with N by lia.
  rewrite map_map. apply map_ext_in. intros i Hi. apply in_seq in Hi. unfold SHK.
  f_equal. apply (nth_ext' false).
  - rewrite !firstn_len; [reflexivity| |].
    + rewrite skipn_length, HI. lia.
    + rewrite skipn_length, Lf. lia.
  - intros j Hj. rewrite firstn_len in Hj by (rewrite skipn_length, Lf; lia).
    rewrite !nth_firstn by exact Hj. rewrite !nth_skipn. rewrite nth_firstn by lia.
    replace (i * 8 + j)%nat with (i / 136 * 1088 + (8 * (i mod 136) + j))%nat by lia.
    unfold sq. apply squeeze_blocks_nth; auto; lia.
Qed.
Lemma shake256_length msg n : is_bytes msg -> length (shake256 msg n) = Z.to_nat n.
Proof. intros H. rewrite shake256_stream by exact H. rewrite map_length, seq_length. reflexivity. Qed.
Lemma SHK_byte msg i : is_byte (SHK msg i).
Proof.
  unfold SHK. match goal with |- context [byte_of_bits ?l] =>
    pose proof (byte_of_bits_range l) as R; assert (length l <= 8)%nat by apply firstn_le_length end.
  split; [lia|]. eapply Z.lt_le_trans; [apply R|]. change 256 with (2 ^ 8). apply Z.pow_le_mono_r; lia.
Qed.
Lemma shake256_bytes msg n : is_bytes msg -> is_bytes (shake256 msg n).
Proof.
  intros H. rewrite shake256_stream by exact H. apply Forall_map, Forall_forall. intros; apply SHK_byte.
Qed.
Lemma shake256_prefix msg n n' : is_bytes msg -> 0 <= n <= n' ->
  firstn (Z.to_nat n) (shake256 msg n') = shake256 msg n.
Proof.
  intros H Hn. rewrite !shake256_stream by exact H. rewrite firstn_map. f_equal.
  replace (Z.to_nat n') with (Z.to_nat n + (Z.to_nat n' - Z.to_nat n))%nat by lia.
  rewrite seq_app. apply firstn_app_exact. apply seq_length.
Qed.

Lemma is_bytes_concat l : Forall is_bytes l -> is_bytes (concat l).
Proof.
  intros H; induction H; cbn [concat]; [constructor|]. apply Forall_app; split; assumption.
Qed.

(** ** Sessions *)
Lemma feed_shake opt s msg chunks : arep s msg -> Forall is_bytes chunks ->
  Forall (fun c => len c < 2 ^ 64 - 136) chunks ->
  exists s', feed (ts_shake256_inc_absorb opt) s chunks = Ok s' /\ arep s' (msg ++ concat chunks).
Proof.
  revert s msg; induction chunks as [|p l IH]; intros s msg Hs Hl Hn.
  - exists s; split; [reflexivity|]. cbn [concat]; rewrite app_nil_r; exact Hs.
  - inversion Hl; subst. inversion Hn; subst.
    destruct (shake_absorb_ok opt s msg p Hs) as (s1 & E1 & R1); auto.
    rewrite feed_cons, E1; cbn [bind].
    destruct (IH s1 _ R1) as (s' & E & R); auto. exists s'; split; [exact E|].
    cbn [concat]. rewrite app_assoc. exact R.
Qed.
Lemma squeezes_ok opt sizes s f : srep s f -> Forall (fun n => 0 <= n) sizes ->
  exists outs s', squeezes opt sizes s = Ok (outs, s') /\
    map len outs = sizes /\
    concat outs = map f (seq 0 (Z.to_nat (fold_right Z.add 0 sizes))).
Proof.
  revert s f; induction sizes as [|n sizes IH]; intros s f Hs Hn.
  - exists [], s. repeat split.
  - inversion Hn; subst. cbn [squeezes].
    destruct (shake_squeeze_ok opt s f n Hs) as (s1 & E1 & R1); [assumption|].
    rewrite E1; cbn [bind]. destruct (IH s1 _ R1) as (outs & s' & E & EL & EC); [assumption|].
    rewrite E; cbn [bind]. do 2 eexists; split; [reflexivity|]. split.
    + cbn [map]. rewrite EL. f_equal. unfold len. rewrite map_length, seq_length. lia.
    + cbn [concat fold_right]. rewrite EC.
      assert (0 <= fold_right Z.add 0 sizes).
      { clear - H2. induction sizes; cbn; [lia|]. inversion H2; subst. specialize (IHsizes H3). lia. }
      rewrite Z2Nat.inj_add by lia. rewrite seq_app, map_app. f_equal.
      rewrite (map_seq_shift f). reflexivity.
Qed.
Theorem shake256_session_ok opt s0 chunks sizes : length s0 = 26%nat -> Forall is_bytes chunks ->
  Forall (fun c => len c < 2 ^ 64 - 136) chunks -> Forall (fun n => 0 <= n) sizes ->
  exists outs s', shake256_session opt s0 chunks sizes = Ok (outs, s') /\
    map len outs = sizes /\
    concat outs = shake256 (concat chunks) (fold_right Z.add 0 sizes).
Proof.
  intros H0 Hc Hl Hs. unfold shake256_session.
  destruct (shake_init_ok s0 H0) as (s1 & E1 & A1). rewrite E1; cbn [bind].
  destruct (feed_shake opt s1 [] chunks A1 Hc Hl) as (s2 & E2 & A2). rewrite E2; cbn [bind].
  cbn [app] in A2. destruct (shake_finalize_ok s2 _ A2) as (s3 & E3 & A3). rewrite E3; cbn [bind].
  destruct (squeezes_ok opt sizes s3 _ (frep_srep _ _ A3) Hs) as (outs & s' & E & EL & EC).
  exists outs, s'. split; [exact E|]. split; [exact EL|]. rewrite EC. symmetry. apply shake256_stream.
  apply is_bytes_concat, Hc.
Qed.
