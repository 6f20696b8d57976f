(** * Proof library: arrays, words, loops (lemmas about CSem; nothing of /repo) *)
From Coq Require Export ZifyBool ZifyNat.
From Verif Require Export SpecBytes CSem.
Ltac Zify.zify_post_hook ::= Z.to_euclidean_division_equations.

Lemma zlen_len (l : list Z) : zlen l = len l.
Proof. reflexivity. Qed.
Lemma zlen_nonneg {A} (l : list A) : 0 <= zlen l.
Proof. unfold zlen; lia. Qed.
Lemma zlen_app {A} (a b : list A) : zlen (a ++ b) = zlen a + zlen b.
Proof. unfold zlen; rewrite app_length; lia. Qed.
Lemma zlen_cons {A} (x : A) l : zlen (x :: l) = 1 + zlen l.
Proof. unfold zlen; simpl length; lia. Qed.
Lemma zlen_nil {A} : zlen (@nil A) = 0.
Proof. reflexivity. Qed.
Lemma zlen_repeat {A} (v : A) n : zlen (repeat v n) = Z.of_nat n.
Proof. unfold zlen; rewrite repeat_length; reflexivity. Qed.

(** ** firstn / skipn *)
Lemma firstn_len {A} n (l : list A) : (n <= length l)%nat -> length (firstn n l) = n.
Proof. intros; rewrite firstn_length; lia. Qed.
Lemma skipn_skipn' {A} a b (l : list A) : skipn a (skipn b l) = skipn (b + a) l.
Proof.
  revert l; induction b as [|b IH]; intros [|x l]; cbn; auto using skipn_nil.
Qed.
Lemma firstn_skipn_app {A} n (a b : list A) : length a = n ->
  firstn n (a ++ b) = a /\ skipn n (a ++ b) = b.
Proof.
  intros <-; split.
  - rewrite firstn_app, Nat.sub_diag, firstn_O, app_nil_r, firstn_all; reflexivity.
  - rewrite skipn_app, Nat.sub_diag, skipn_all; reflexivity.
Qed.
Lemma firstn_app_exact {A} n (a b : list A) : length a = n -> firstn n (a ++ b) = a.
Proof. intros H; apply (firstn_skipn_app n a b H). Qed.
Lemma skipn_app_exact {A} n (a b : list A) : length a = n -> skipn n (a ++ b) = b.
Proof. intros H; apply (firstn_skipn_app n a b H). Qed.
Lemma firstn_app_le {A} n (a b : list A) : (n <= length a)%nat ->
  firstn n (a ++ b) = firstn n a.
Proof.
  intros H; rewrite firstn_app. replace (n - length a)%nat with O by lia.
  rewrite firstn_O, app_nil_r; reflexivity.
Qed.
Lemma skipn_app_le {A} n (a b : list A) : (n <= length a)%nat ->
  skipn n (a ++ b) = skipn n a ++ b.
Proof.
  intros H; rewrite skipn_app. replace (n - length a)%nat with O by lia. reflexivity.
Qed.
Lemma skipn_app_ge {A} n (a b : list A) : (length a <= n)%nat ->
  skipn n (a ++ b) = skipn (n - length a) b.
Proof. intros H; rewrite skipn_app, skipn_all2 by lia; reflexivity. Qed.
Lemma firstn_app_ge {A} n (a b : list A) : (length a <= n)%nat ->
  firstn n (a ++ b) = a ++ firstn (n - length a) b.
Proof. intros H; rewrite firstn_app, firstn_all2 by lia; reflexivity. Qed.
Lemma nth_skipn {A} (l : list A) d a i : nth i (skipn a l) d = nth (a + i) l d.
Proof.
  revert l; induction a as [|a IH]; intros l; [reflexivity|].
  destruct l as [|x l]; cbn; [destruct i; reflexivity|apply IH].
Qed.
Lemma nth_firstn {A} (l : list A) d a i : (i < a)%nat -> nth i (firstn a l) d = nth i l d.
Proof.
  revert l i; induction a as [|a IH]; intros l i H; [lia|].
  destruct l as [|x l]; [reflexivity|]. destruct i; cbn; [reflexivity|apply IH; lia].
Qed.
Lemma firstn_S_nth {A} n (l : list A) d : (n < length l)%nat ->
  firstn (S n) l = firstn n l ++ [nth n l d].
Proof.
  revert l; induction n as [|n IH]; intros [|x l] H; cbn [length] in H; try lia; [reflexivity|].
  change (firstn (S (S n)) (x :: l)) with (x :: firstn (S n) l).
  rewrite IH by lia. reflexivity.
Qed.
Lemma skipn_nth_cons {A} n (l : list A) d : (n < length l)%nat ->
  skipn n l = nth n l d :: skipn (S n) l.
Proof.
  revert l; induction n as [|n IH]; intros [|x l] H; cbn [length] in H; try lia; [reflexivity|].
  cbn [skipn nth]. rewrite (IH l) by lia. reflexivity.
Qed.
Lemma list_split3 {A} (l : list A) off n : (off + n <= length l)%nat ->
  l = firstn off l ++ firstn n (skipn off l) ++ skipn (off + n) l.
Proof.
  intros H. rewrite <- (firstn_skipn off l) at 1. f_equal.
  rewrite <- (firstn_skipn n (skipn off l)) at 1. f_equal.
  rewrite skipn_skipn'; reflexivity.
Qed.

Lemma Forall_firstn' {A} (P : A -> Prop) n l : Forall P l -> Forall P (firstn n l).
Proof. intros H; revert n; induction H; intros [|n]; cbn; constructor; auto. Qed.
Lemma Forall_skipn' {A} (P : A -> Prop) n l : Forall P l -> Forall P (skipn n l).
Proof. intros H; revert n; induction H; intros [|n]; cbn; auto; constructor; auto. Qed.
Lemma Forall_repeat {A} (P : A -> Prop) v n : P v -> Forall P (repeat v n).
Proof. intros H; induction n; cbn; constructor; auto. Qed.
Lemma Forall_nth' {A} (P : A -> Prop) l d i : Forall P l -> (i < length l)%nat -> P (nth i l d).
Proof. intros H Hi; rewrite Forall_forall in H; apply H, nth_In, Hi. Qed.

(** ** upd *)
Definition upd {A} (l : list A) (i : nat) (v : A) : list A :=
  firstn i l ++ v :: skipn (S i) l.
Lemma upd_length {A} (l : list A) i v : (i < length l)%nat -> length (upd l i v) = length l.
Proof.
  intros H; unfold upd. rewrite app_length; cbn [length].
  rewrite firstn_length, skipn_length; lia.
Qed.
Lemma nth_upd_eq {A} (l : list A) i v d : (i < length l)%nat -> nth i (upd l i v) d = v.
Proof.
  intros H; unfold upd. rewrite app_nth2; rewrite firstn_length; [|lia].
  replace (i - Nat.min i (length l))%nat with O by lia. reflexivity.
Qed.
Lemma nth_upd_neq {A} (l : list A) i j v d : i <> j -> (i < length l)%nat ->
  nth j (upd l i v) d = nth j l d.
Proof.
  intros Hij Hi; unfold upd. destruct (Nat.lt_ge_cases j i) as [Hj|Hj].
  - rewrite app_nth1 by (rewrite firstn_length; lia). apply nth_firstn; lia.
  - rewrite app_nth2; rewrite firstn_length; [|lia].
    replace (j - Nat.min i (length l))%nat with (S (j - S i)) by lia. cbn [nth].
    rewrite nth_skipn. f_equal; lia.
Qed.
Lemma upd_Forall {A} (P : A -> Prop) l i v : Forall P l -> P v -> Forall P (upd l i v).
Proof.
  intros H Hv; unfold upd. apply Forall_app; split; [apply Forall_firstn', H|].
  constructor; [exact Hv|apply Forall_skipn', H].
Qed.
Lemma nth_ext' {A} (d : A) (a b : list A) : length a = length b ->
  (forall i, (i < length a)%nat -> nth i a d = nth i b d) -> a = b.
Proof. intros; apply (nth_ext a b d d); auto. Qed.

(** ** Bounds checked access *)
Lemma rd_ok {A} (a : list A) i d : 0 <= i < zlen a -> rd a i = Ok (nth (Z.to_nat i) a d).
Proof.
  unfold rd, zlen; intros H. destruct (Z.leb_spec 0 i) as [_|]; [|lia].
  rewrite (nth_error_nth' a d) by lia. reflexivity.
Qed.
Lemma rd_inv {A} (a : list A) i v d : rd a i = Ok v ->
  0 <= i < zlen a /\ v = nth (Z.to_nat i) a d.
Proof.
  unfold rd, zlen. destruct (Z.leb_spec 0 i) as [Hi|]; [|discriminate].
  destruct (nth_error a (Z.to_nat i)) as [w|] eqn:E; [|discriminate].
  intros [= <-]. assert (Z.to_nat i < length a)%nat by (apply nth_error_Some; congruence).
  split; [lia|]. symmetry; apply nth_error_nth, E.
Qed.
Lemma wr_ok {A} (a : list A) i v : 0 <= i < zlen a -> wr a i v = Ok (upd a (Z.to_nat i) v).
Proof.
  unfold wr; intros H. destruct (Z.leb_spec 0 i), (Z.ltb_spec i (zlen a)); try lia. reflexivity.
Qed.
Lemma rd_range_ok {A} (a : list A) off n : 0 <= off -> 0 <= n -> off + n <= zlen a ->
  rd_range a off n = Ok (firstn (Z.to_nat n) (skipn (Z.to_nat off) a)).
Proof.
  intros; unfold rd_range.
  destruct (Z.leb_spec 0 off), (Z.leb_spec 0 n), (Z.leb_spec (off + n) (zlen a)); try lia.
  reflexivity.
Qed.
Lemma rd_range_0 {A} (a b : list A) n : zlen a = n -> rd_range (a ++ b) 0 n = Ok a.
Proof.
  intros H. pose proof (zlen_nonneg a); pose proof (zlen_nonneg b).
  rewrite rd_range_ok; [|lia|lia|rewrite zlen_app; lia].
  cbn [Z.to_nat skipn]. rewrite firstn_app_exact; [reflexivity|unfold zlen in *; lia].
Qed.
Lemma rd_range_all {A} (a : list A) n : zlen a = n -> rd_range a 0 n = Ok a.
Proof. intros H. rewrite <- (app_nil_r a) at 1. apply rd_range_0, H. Qed.
Lemma wr_range_ok {A} (a : list A) off src : 0 <= off -> off + zlen src <= zlen a ->
  wr_range a off src =
  Ok (firstn (Z.to_nat off) a ++ src ++ skipn (Z.to_nat off + length src) a).
Proof.
  intros; unfold wr_range.
  destruct (Z.leb_spec 0 off), (Z.leb_spec (off + zlen src) (zlen a)); try lia. reflexivity.
Qed.
Lemma wr_range_0 {A} (a b : list A) : zlen b <= zlen a ->
  wr_range a 0 b = Ok (b ++ skipn (length b) a).
Proof. intros; rewrite wr_range_ok by lia. reflexivity. Qed.
Lemma memset_ok {A} (a : list A) off v n : 0 <= off -> 0 <= n -> off + n <= zlen a ->
  memset a off v n =
  Ok (firstn (Z.to_nat off) a ++ repeat v (Z.to_nat n)
      ++ skipn (Z.to_nat off + Z.to_nat n) a).
Proof.
  intros; unfold memset.
  destruct (Z.leb_spec 0 off), (Z.leb_spec 0 n), (Z.leb_spec (off + n) (zlen a)); try lia.
  reflexivity.
Qed.
Lemma zlen_splice {A} (a src : list A) off : 0 <= off -> off + zlen src <= zlen a ->
  zlen (firstn (Z.to_nat off) a ++ src ++ skipn (Z.to_nat off + length src) a) = zlen a.
Proof.
  intros. rewrite !zlen_app. unfold zlen in *.
  rewrite firstn_length, skipn_length; lia.
Qed.

(** ** Loops *)
Lemma for_loop_inv {S : Type} (P : Z -> S -> Prop) (body : Z -> S -> outcome S) n i0 s :
  P i0 s ->
  (forall i s, i0 <= i < i0 + Z.of_nat n -> P i s ->
     exists s', body i s = Ok s' /\ P (i + 1) s') ->
  exists s', for_loop n i0 body s = Ok s' /\ P (i0 + Z.of_nat n) s'.
Proof.
  revert i0 s; induction n as [|n IH]; intros i0 s H0 Hstep; cbn [for_loop].
  - exists s; split; [reflexivity|]. replace (i0 + Z.of_nat 0) with i0 by lia. exact H0.
  - destruct (Hstep i0 s) as (s' & E & H1); [lia|exact H0|].
    rewrite E; cbn [bind].
    destruct (IH (i0 + 1) s' H1) as (s2 & E2 & H2).
    + intros i s1 Hi; apply Hstep; lia.
    + exists s2; split; [exact E2|].
      replace (i0 + Z.of_nat (Datatypes.S n)) with (i0 + 1 + Z.of_nat n) by lia. exact H2.
Qed.
Lemma for_loop_ext {S : Type} (f g : Z -> S -> outcome S) n i0 s :
  (forall i s, i0 <= i < i0 + Z.of_nat n -> f i s = g i s) ->
  for_loop n i0 f s = for_loop n i0 g s.
Proof.
  revert i0 s; induction n as [|n IH]; intros i0 s H; cbn [for_loop]; [reflexivity|].
  rewrite H by lia. destruct (g i0 s); cbn [bind]; [|reflexivity].
  apply IH; intros; apply H; lia.
Qed.
Lemma for_loop_app {S : Type} (f : Z -> S -> outcome S) a b i0 s :
  for_loop (a + b) i0 f s = bind (for_loop a i0 f s) (for_loop b (i0 + Z.of_nat a) f).
Proof.
  revert i0 s; induction a as [|a IH]; intros i0 s.
  - cbn [Nat.add for_loop bind]. f_equal; lia.
  - cbn [Nat.add for_loop]. destruct (f i0 s) as [s'|r]; cbn [bind]; [|reflexivity].
    rewrite IH. destruct (for_loop a (i0 + 1) f s'); cbn [bind]; [|reflexivity].
    f_equal; lia.
Qed.
Lemma for_loop_S {S : Type} (f : Z -> S -> outcome S) n i0 s :
  for_loop (Datatypes.S n) i0 f s = bind (f i0 s) (for_loop n (i0 + 1) f).
Proof. reflexivity. Qed.

Lemma bind_ok {A B} (x : outcome A) (f : A -> outcome B) b :
  bind x f = Ok b -> exists a, x = Ok a /\ f a = Ok b.
Proof. destruct x as [a|r]; cbn; [eauto|discriminate]. Qed.
Lemma bind_assoc {A B C} (x : outcome A) (f : A -> outcome B) (g : B -> outcome C) :
  bind (bind x f) g = bind x (fun a => bind (f a) g).
Proof. destruct x; reflexivity. Qed.

(** ** Words *)
Lemma enc_le_length n v : length (enc_le n v) = n.
Proof. revert v; induction n; intros; cbn; auto. Qed.
Lemma enc_word_length le n v : length (enc_word le n v) = n.
Proof. destruct le; cbn; rewrite ?rev_length; apply enc_le_length. Qed.
Lemma enc_le_bytes n v : is_bytes (enc_le n v).
Proof.
  revert v; induction n as [|n IH]; intros v; cbn; constructor; [|apply IH].
  unfold is_byte; apply Z.mod_pos_bound; lia.
Qed.
Lemma enc_word_bytes le n v : is_bytes (enc_word le n v).
Proof. destruct le; [apply enc_le_bytes|]. unfold is_bytes; cbn [enc_word]. apply Forall_rev. apply enc_le_bytes. Qed.
Lemma dec_enc_le n v : 0 <= v < 2 ^ (8 * Z.of_nat n) -> dec_le (enc_le n v) = v.
Proof.
  revert v; induction n as [|n IH]; intros v Hv.
  - cbn in *; lia.
  - cbn [enc_le dec_le]. rewrite IH; [lia|].
    replace (8 * Z.of_nat (S n)) with (8 + 8 * Z.of_nat n) in Hv by lia.
    rewrite Z.pow_add_r in Hv by lia. change (2 ^ 8) with 256 in Hv.
    split; [apply Z.div_pos; lia|apply Z.div_lt_upper_bound; lia].
Qed.
Lemma enc_dec_le l : is_bytes l -> enc_le (length l) (dec_le l) = l.
Proof.
  induction 1 as [|b l Hb Hl IH]; [reflexivity|]. cbn [length enc_le dec_le].
  unfold is_byte in Hb.
  rewrite Z.mul_comm, Z.mod_add, Z.mod_small, Z.div_add, Z.div_small by lia.
  rewrite Z.add_0_l, IH. reflexivity.
Qed.
Lemma dec_le_range l : is_bytes l -> 0 <= dec_le l < 2 ^ (8 * Z.of_nat (length l)).
Proof.
  induction 1 as [|b l Hb Hl IH]; [cbn; lia|]. cbn [length dec_le].
  replace (8 * Z.of_nat (S (length l))) with (8 + 8 * Z.of_nat (length l)) by lia.
  rewrite Z.pow_add_r by lia. change (2 ^ 8) with 256. unfold is_byte in Hb.
  set (P := 2 ^ (8 * Z.of_nat (length l))) in *. lia.
Qed.
Lemma dec_enc_word le n v : 0 <= v < 2 ^ (8 * Z.of_nat n) -> dec_word le (enc_word le n v) = v.
Proof. destruct le; cbn; rewrite ?rev_involutive; apply dec_enc_le. Qed.
Lemma enc_dec_word le n l : is_bytes l -> length l = n -> enc_word le n (dec_word le l) = l.
Proof.
  intros Hl <-. destruct le; cbn; [apply enc_dec_le, Hl|].
  rewrite <- (rev_length l), enc_dec_le by (apply Forall_rev, Hl). apply rev_involutive.
Qed.
Lemma dec_word_range le l n : is_bytes l -> length l = n ->
  0 <= dec_word le l < 2 ^ (8 * Z.of_nat n).
Proof.
  intros Hl <-. destruct le; cbn; [apply dec_le_range, Hl|].
  rewrite <- (rev_length l). apply dec_le_range, Forall_rev, Hl.
Qed.

Definition words_ok (n : nat) (ws : list Z) : Prop :=
  Forall (fun w => 0 <= w < 2 ^ (8 * Z.of_nat n)) ws.

Lemma enc_words_length le n ws : length (enc_words le n ws) = (n * length ws)%nat.
Proof.
  induction ws as [|w ws IH]; [cbn; lia|]. cbn [enc_words flat_map].
  rewrite app_length, enc_word_length. unfold enc_words in IH; rewrite IH. cbn [length]; lia.
Qed.
Lemma enc_words_app le n a b : enc_words le n (a ++ b) = enc_words le n a ++ enc_words le n b.
Proof. apply flat_map_app. Qed.
Lemma enc_words_cons le n w b : enc_words le n (w :: b) = enc_word le n w ++ enc_words le n b.
Proof. reflexivity. Qed.
Lemma enc_words_bytes le n ws : is_bytes (enc_words le n ws).
Proof.
  induction ws as [|w ws IH]; [constructor|]. rewrite enc_words_cons.
  apply Forall_app; split; [apply enc_word_bytes|exact IH].
Qed.
Lemma skipn_enc_words le n ws i : skipn (n * i) (enc_words le n ws) = enc_words le n (skipn i ws).
Proof.
  revert i; induction ws as [|w ws IH]; intros i.
  - rewrite !skipn_nil; reflexivity.
  - destruct i as [|i]; [rewrite Nat.mul_0_r; reflexivity|].
    rewrite enc_words_cons. replace (n * S i)%nat with (n + n * i)%nat by lia.
    rewrite <- skipn_skipn', skipn_app_exact by apply enc_word_length. apply IH.
Qed.
Lemma firstn_enc_words le n ws i : firstn (n * i) (enc_words le n ws) = enc_words le n (firstn i ws).
Proof.
  revert i; induction ws as [|w ws IH]; intros i.
  - rewrite !firstn_nil; reflexivity.
  - destruct i as [|i]; [rewrite Nat.mul_0_r; reflexivity|].
    cbn [firstn]. rewrite !enc_words_cons.
    rewrite firstn_app, enc_word_length, firstn_all2 by (rewrite enc_word_length; lia).
    f_equal. replace (n * S i - n)%nat with (n * i)%nat by lia. apply IH.
Qed.
Lemma rd_word_enc le n ws i : words_ok n ws -> 0 <= i < zlen ws ->
  rd_word le n (enc_words le n ws) 0 i = Ok (nth (Z.to_nat i) ws 0).
Proof.
  intros Hws Hi. unfold rd_word. unfold zlen in Hi.
  rewrite rd_range_ok; [|nia|lia|unfold zlen; rewrite enc_words_length; nia].
  cbn [bind]. rewrite Nat2Z.id.
  replace (Z.to_nat (0 + Z.of_nat n * i)) with (n * Z.to_nat i)%nat by lia.
  rewrite skipn_enc_words, (skipn_nth_cons (Z.to_nat i) ws 0) by lia.
  rewrite enc_words_cons, firstn_app_exact by apply enc_word_length.
  rewrite dec_enc_word; [reflexivity|].
  apply (Forall_nth' (fun w => 0 <= w < 2 ^ (8 * Z.of_nat n))); [exact Hws|lia].
Qed.
Lemma wr_word_enc le n ws i v : 0 <= i < zlen ws ->
  wr_word le n (enc_words le n ws) 0 i v = Ok (enc_words le n (upd ws (Z.to_nat i) v)).
Proof.
  intros Hi. unfold wr_word. unfold zlen in Hi.
  rewrite wr_range_ok; [|nia|unfold zlen; rewrite enc_words_length, enc_word_length; nia].
  f_equal. replace (Z.to_nat (0 + Z.of_nat n * i)) with (n * Z.to_nat i)%nat by lia.
  unfold upd. rewrite enc_words_app, enc_words_cons, enc_word_length.
  rewrite firstn_enc_words. f_equal. f_equal.
  replace (n * Z.to_nat i + n)%nat with (n * S (Z.to_nat i))%nat by lia.
  apply skipn_enc_words.
Qed.
(** Any byte string of the right length is an array of words. *)
Lemma bytes_are_words le n k l : (0 < n)%nat -> is_bytes l -> length l = (n * k)%nat ->
  exists ws, l = enc_words le n ws /\ length ws = k /\ words_ok n ws.
Proof.
  intros Hn; revert l; induction k as [|k IH]; intros l Hl Hlen.
  - exists []. destruct l; [|cbn in Hlen; lia]. repeat split; constructor.
  - destruct (IH (skipn n l)) as (ws & E & Hw & Hok).
    + apply Forall_skipn', Hl.
    + rewrite skipn_length; lia.
    + exists (dec_word le (firstn n l) :: ws). repeat split.
      * rewrite enc_words_cons, <- E, enc_dec_word; [symmetry; apply firstn_skipn|apply Forall_firstn', Hl|].
        apply firstn_len; lia.
      * cbn; lia.
      * constructor; [|exact Hok]. apply dec_word_range; [apply Forall_firstn', Hl|apply firstn_len; lia].
Qed.

(** ** Big-endian integers *)
Lemma toByte_length x n : length (toByte x n) = n.
Proof. revert x; induction n as [|n IH]; intros x; cbn; [reflexivity|]. rewrite app_length, IH; cbn; lia. Qed.
Lemma toByte_bytes x n : is_bytes (toByte x n).
Proof.
  revert x; induction n as [|n IH]; intros x; cbn; [constructor|].
  apply Forall_app; split; [apply IH|]. constructor; [|constructor].
  apply Z.mod_pos_bound; lia.
Qed.
Lemma toInt_app a b : toInt (a ++ b) = toInt a * 256 ^ Z.of_nat (length b) + toInt b.
Proof.
  unfold toInt. rewrite fold_left_app. set (x := fold_left _ a 0). clearbody x.
  assert (H : forall y, fold_left (fun t c => 256 * t + c) b (x + y)
     = x * 256 ^ Z.of_nat (length b) + fold_left (fun t c => 256 * t + c) b y).
  { clear a. revert x. induction b as [|c b IH]; intros x y.
    - cbn; lia.
    - cbn [fold_left length]. rewrite Nat2Z.inj_succ, Z.pow_succ_r by lia.
      replace (256 * (x + y) + c) with (256 * x + (256 * y + c)) by lia.
      rewrite IH. lia. }
  rewrite <- (H 0). f_equal; lia.
Qed.
Lemma toInt_snoc l b : toInt (l ++ [b]) = 256 * toInt l + b.
Proof. unfold toInt; rewrite fold_left_app; reflexivity. Qed.
Lemma toInt_range l : is_bytes l -> 0 <= toInt l < 256 ^ Z.of_nat (length l).
Proof.
  induction l as [|b l IH] using rev_ind; intros H; [cbn; lia|].
  apply Forall_app in H; destruct H as [Hl Hb]. inversion Hb; subst.
  specialize (IH Hl). rewrite toInt_snoc, app_length; cbn [length].
  rewrite Nat.add_1_r, Nat2Z.inj_succ, Z.pow_succ_r by lia. unfold is_byte in *. nia.
Qed.
Lemma toInt_toByte n x : 0 <= x < 256 ^ Z.of_nat n -> toInt (toByte x n) = x.
Proof.
  revert x; induction n as [|n IH]; intros x Hx; [cbn in *; lia|].
  cbn [toByte]. rewrite toInt_snoc, IH.
  - lia.
  - rewrite Nat2Z.inj_succ, Z.pow_succ_r in Hx by lia.
    split; [apply Z.div_pos; lia|apply Z.div_lt_upper_bound; lia].
Qed.
Lemma toByte_toInt l : is_bytes l -> toByte (toInt l) (length l) = l.
Proof.
  induction l as [|b l IH] using rev_ind; intros H; [reflexivity|].
  apply Forall_app in H; destruct H as [Hl Hb]. inversion Hb; subst. unfold is_byte in *.
  rewrite app_length, Nat.add_1_r. cbn [toByte].
  rewrite toInt_snoc.
  replace ((256 * toInt l + b) / 256) with (toInt l) by lia.
  replace ((256 * toInt l + b) mod 256) with b by lia.
  rewrite IH by exact Hl. reflexivity.
Qed.
