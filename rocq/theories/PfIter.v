(** * Round trips of the hash states through the bytes of union t_iterator *)
From Verif Require Import Arr SpecBytes ModelEndian ModelSha256 ModelSha512 ModelFips202
  ModelParams ModelCtx.

Lemma rd_range_mid {A} (a b c : list A) off n : zlen a = off -> zlen b = n ->
  rd_range (a ++ b ++ c) off n = Ok b.
Proof.
  intros Ha Hb. pose proof (zlen_nonneg a); pose proof (zlen_nonneg b); pose proof (zlen_nonneg c).
  rewrite rd_range_ok; [|lia|lia|rewrite !zlen_app; lia].
  rewrite skipn_app_exact by (unfold zlen in *; lia).
  rewrite firstn_app_exact by (unfold zlen in *; lia). reflexivity.
Qed.
Lemma wr_range_mid {A} (a b c src : list A) off : zlen a = off -> zlen b = zlen src ->
  wr_range (a ++ b ++ c) off src = Ok (a ++ src ++ c).
Proof.
  intros Ha Hb. pose proof (zlen_nonneg a); pose proof (zlen_nonneg b); pose proof (zlen_nonneg c).
  rewrite wr_range_ok; [|lia|rewrite !zlen_app; lia].
  rewrite firstn_app_exact by (unfold zlen in *; lia).
  do 3 f_equal. rewrite app_assoc. apply skipn_app_exact.
  rewrite app_length. unfold zlen in *; lia.
Qed.
Lemma split_at {A} (l : list A) k : 0 <= k <= zlen l ->
  exists a b, l = a ++ b /\ zlen a = k /\ zlen b = zlen l - k.
Proof.
  intros H. exists (firstn (Z.to_nat k) l), (skipn (Z.to_nat k) l).
  rewrite firstn_skipn. unfold zlen in *. rewrite firstn_length, skipn_length. split; [reflexivity|lia].
Qed.

Lemma rd_words_ok le n ws tail : words_ok n ws ->
  for_loop (length ws) 0 (fun i h => w <- rd_word le n (enc_words le n ws ++ tail) 0 i ;; Ok (h ++ [w])) []
  = Ok ws.
Proof.
  intros Hw.
  destruct (for_loop_inv (fun i s => s = firstn (Z.to_nat i) ws)
    (fun i h => w <- rd_word le n (enc_words le n ws ++ tail) 0 i ;; Ok (h ++ [w])) (length ws) 0 []) as (s & E & Hs).
  - reflexivity.
  - intros i s Hi ->.
    assert (E : rd_word le n (enc_words le n ws ++ tail) 0 i = rd_word le n (enc_words le n ws) 0 i).
    { unfold rd_word.
      assert (zlen (enc_words le n ws) = Z.of_nat n * zlen ws) by (unfold zlen; rewrite enc_words_length; lia).
      unfold zlen in H at 2.
      rewrite !rd_range_ok; try nia; [|rewrite zlen_app; pose proof (zlen_nonneg tail); nia].
      f_equal. f_equal.
      pose proof (enc_words_length le n ws).
      rewrite skipn_app_le by nia. rewrite firstn_app_le; [reflexivity|].
      rewrite skipn_length; nia. }
    rewrite E, rd_word_enc by (auto; unfold zlen; lia). cbn [bind]. eexists; split; [reflexivity|].
    replace (Z.to_nat (i + 1)) with (S (Z.to_nat i)) by lia.
    symmetry. apply firstn_S_nth. lia.
  - rewrite E. f_equal. rewrite Hs. apply firstn_all2. lia.
Qed.
Lemma bytes_split (a b : list Z) : is_bytes (a ++ b) -> is_bytes a /\ is_bytes b.
Proof. apply Forall_app. Qed.
Lemma bytes_app (a b : list Z) : is_bytes a -> is_bytes b -> is_bytes (a ++ b).
Proof. intros; apply Forall_app; auto. Qed.

Lemma rd_word_mid le n (a b c : list Z) off : zlen a = off -> zlen b = Z.of_nat n ->
  rd_word le n (a ++ b ++ c) off 0 = Ok (dec_word le b).
Proof.
  intros Ha Hb. unfold rd_word. rewrite (rd_range_mid a b c) by lia. reflexivity.
Qed.
Lemma wr_word_mid le n (a b c : list Z) off v : zlen a = off -> zlen b = Z.of_nat n ->
  wr_word le n (a ++ b ++ c) off 0 v = Ok (a ++ enc_word le n v ++ c).
Proof.
  intros Ha Hb. unfold wr_word. apply wr_range_mid; [lia|].
  unfold zlen at 2. rewrite enc_word_length. exact Hb.
Qed.
Lemma zlen_enc_word le n v : zlen (enc_word le n v) = Z.of_nat n.
Proof. unfold zlen; rewrite enc_word_length; reflexivity. Qed.
Lemma zlen_enc_words le n v : zlen (enc_words le n v) = Z.of_nat n * zlen v.
Proof. unfold zlen; rewrite enc_words_length; lia. Qed.

(** ** SHA-256 *)
Definition shape256 (c : sha256_ctx) : Prop :=
  length (s256_h c) = 8%nat /\ length (s256_x c) = 64%nat /\ is_bytes (s256_x c).
Definition ranged256 (c : sha256_ctx) : Prop :=
  words_ok 4 (s256_h c) /\ 0 <= s256_count c < 2 ^ 64 /\ 0 <= s256_num c < 2 ^ 32.

Lemma lay256_get le h count num (x tail : list Z) :
  words_ok 4 h -> length h = 8%nat -> zlen count = 8 -> zlen num = 4 -> zlen x = 64 ->
  get_sha256 le (enc_words le 4 h ++ count ++ num ++ x ++ tail)
  = Ok (mkSha256 h (dec_word le count) (dec_word le num) x).
Proof.
  intros Hw Hh Hc Hn Hx. unfold get_sha256.
  assert (L : zlen (enc_words le 4 h) = 32) by (rewrite zlen_enc_words; unfold zlen; rewrite Hh; reflexivity).
  match goal with |- context [enc_words ?a ?b h ++ ?t] => pose proof (rd_words_ok a b h t Hw) as E end.
  rewrite Hh in E. rewrite E. clear E. cbn [bind].
  rewrite rd_word_mid by (auto; exact L). cbn [bind].
  rewrite (app_assoc (enc_words le 4 h) count).
  rewrite rd_word_mid; [|rewrite zlen_app; lia|auto]. cbn [bind].
  rewrite (app_assoc _ num).
  rewrite rd_range_mid; [|rewrite !zlen_app; lia|auto]. reflexivity.
Qed.
Lemma get256_any le it : is_bytes it -> 108 <= zlen it ->
  exists c, get_sha256 le it = Ok c /\ shape256 c.
Proof.
  intros Hb Hl.
  destruct (split_at it 32) as (h & t1 & -> & Lh & L1); [lia|].
  rewrite zlen_app in *. apply bytes_split in Hb as [Bh Hb].
  destruct (split_at t1 8) as (c & t2 & -> & Lc & L2); [lia|].
  rewrite zlen_app in *. apply bytes_split in Hb as [Bc Hb].
  destruct (split_at t2 4) as (m & t3 & -> & Lm & L3); [lia|].
  rewrite zlen_app in *. apply bytes_split in Hb as [Bm Hb].
  destruct (split_at t3 64) as (x & t4 & -> & Lx & L4); [lia|].
  rewrite zlen_app in *. apply bytes_split in Hb as [Bx Hb].
  destruct (bytes_are_words le 4 8 h) as (ws & -> & Lw & Ow); [lia|exact Bh|unfold zlen in *; lia|].
  eexists; split; [apply lay256_get; auto|].
  split; [exact Lw|]. split; [unfold zlen in *; cbn; lia|exact Bx].
Qed.
Lemma put256 le it c : is_bytes it -> 108 <= zlen it -> shape256 c ->
  exists it', put_sha256 le it c = Ok it' /\ is_bytes it' /\ zlen it' = zlen it /\
    (ranged256 c -> get_sha256 le it' = Ok c).
Proof.
  intros Hb Hl (Sh & Sx & Bx').
  destruct (split_at it 32) as (h & t1 & -> & Lh & L1); [lia|].
  rewrite zlen_app in *. apply bytes_split in Hb as [Bh Hb].
  destruct (split_at t1 8) as (cc & t2 & -> & Lc & L2); [lia|].
  rewrite zlen_app in *. apply bytes_split in Hb as [Bc Hb].
  destruct (split_at t2 4) as (m & t3 & -> & Lm & L3); [lia|].
  rewrite zlen_app in *. apply bytes_split in Hb as [Bm Hb].
  destruct (split_at t3 64) as (x & t4 & -> & Lx & L4); [lia|].
  rewrite zlen_app in *. apply bytes_split in Hb as [Bx Hb].
  assert (L : zlen (enc_words le 4 (s256_h c)) = 32) by (rewrite zlen_enc_words; unfold zlen; rewrite Sh; reflexivity).
  assert (Lx' : zlen (s256_x c) = 64) by (unfold zlen; rewrite Sx; reflexivity).
  pose proof (zlen_enc_word le 8 (s256_count c)) as Le8. pose proof (zlen_enc_word le 4 (s256_num c)) as Le4.
  exists (enc_words le 4 (s256_h c) ++ enc_word le 8 (s256_count c) ++ enc_word le 4 (s256_num c) ++ s256_x c ++ t4).
  split; [|split; [|split]].
  - unfold put_sha256.
    pose proof (wr_range_mid (@nil Z) h (cc ++ m ++ x ++ t4) (enc_words le 4 (s256_h c)) 0) as E.
    cbn [app] in E. rewrite E by (auto; lia). cbn [bind].
    rewrite wr_word_mid by (auto; lia). cbn [bind].
    rewrite (app_assoc (enc_words _ _ _)). rewrite wr_word_mid; [|rewrite zlen_app; lia|auto]. cbn [bind].
    rewrite (app_assoc _ (enc_word le 4 _)). rewrite wr_range_mid; [|rewrite !zlen_app; lia|lia].
    rewrite <- !app_assoc. reflexivity.
  - repeat apply bytes_app; auto using enc_words_bytes, enc_word_bytes.
  - rewrite !zlen_app. lia.
  - intros (R1 & R2 & R3). rewrite lay256_get by auto. rewrite !dec_enc_word by assumption.
    destruct c; reflexivity.
Qed.

(** ** SHA-512 *)
Definition shape512 (c : sha512_ctx) : Prop :=
  length (s512_h c) = 8%nat /\ length (s512_x c) = 128%nat /\ is_bytes (s512_x c).
Definition ranged512 (c : sha512_ctx) : Prop :=
  words_ok 8 (s512_h c) /\ 0 <= s512_count c < 2 ^ 64 /\ 0 <= s512_num c < 2 ^ 32.

Lemma x512_bounds cfg : 76 <= SHA512_X_OFFSET cfg /\ SIZEOF_SHA512_CTX cfg = SHA512_X_OFFSET cfg + 128.
Proof. split; [|reflexivity]. unfold SHA512_X_OFFSET, ALIGN_64. destruct (cfg_al64 cfg); vm_compute; discriminate. Qed.
Lemma lay512_get cfg h count num (gap x tail : list Z) : let le := cfg_le cfg in
  words_ok 8 h -> length h = 8%nat -> zlen count = 8 -> zlen num = 4 -> zlen gap = SHA512_X_OFFSET cfg - 76 -> zlen x = 128 ->
  get_sha512 cfg (enc_words le 8 h ++ count ++ num ++ gap ++ x ++ tail)
  = Ok (mkSha512 h (dec_word le count) (dec_word le num) x).
Proof.
  intros le Hw Hh Hc Hn Hg Hx. unfold get_sha512. cbv zeta. fold le.
  assert (L : zlen (enc_words le 8 h) = 64) by (rewrite zlen_enc_words; unfold zlen; rewrite Hh; reflexivity).
  match goal with |- context [enc_words ?a ?b h ++ ?t] => pose proof (rd_words_ok a b h t Hw) as E end.
  rewrite Hh in E. rewrite E. clear E. cbn [bind].
  rewrite rd_word_mid by (auto; exact L). cbn [bind].
  rewrite (app_assoc (enc_words le 8 h) count).
  rewrite rd_word_mid; [|rewrite zlen_app; lia|auto]. cbn [bind].
  rewrite (app_assoc _ num), (app_assoc _ gap).
  rewrite rd_range_mid; [|rewrite !zlen_app; lia|auto]. reflexivity.
Qed.
Lemma get512_any cfg it : is_bytes it -> SIZEOF_SHA512_CTX cfg <= zlen it ->
  exists c, get_sha512 cfg it = Ok c /\ shape512 c.
Proof.
  intros Hb Hl. set (le := cfg_le cfg). destruct (x512_bounds cfg) as [X1 X2].
  destruct (split_at it 64) as (h & t1 & -> & Lh & L1); [lia|].
  rewrite zlen_app in *. apply bytes_split in Hb as [Bh Hb].
  destruct (split_at t1 8) as (c & t2 & -> & Lc & L2); [lia|].
  rewrite zlen_app in *. apply bytes_split in Hb as [Bc Hb].
  destruct (split_at t2 4) as (m & t3 & -> & Lm & L3); [lia|].
  rewrite zlen_app in *. apply bytes_split in Hb as [Bm Hb].
  destruct (split_at t3 (SHA512_X_OFFSET cfg - 76)) as (g & t5 & -> & Lg & L5); [lia|].
  rewrite zlen_app in *. apply bytes_split in Hb as [Bg Hb].
  destruct (split_at t5 128) as (x & t4 & -> & Lx & L4); [lia|].
  rewrite zlen_app in *. apply bytes_split in Hb as [Bx Hb].
  destruct (bytes_are_words le 8 8 h) as (ws & -> & Lw & Ow); [lia|exact Bh|unfold zlen in *; lia|].
  eexists; split; [apply (lay512_get cfg); auto|].
  split; [exact Lw|]. split; [unfold zlen in *; cbn; lia|exact Bx].
Qed.
Lemma put512 cfg it c : is_bytes it -> SIZEOF_SHA512_CTX cfg <= zlen it -> shape512 c ->
  exists it', put_sha512 cfg it c = Ok it' /\ is_bytes it' /\ zlen it' = zlen it /\
    (ranged512 c -> get_sha512 cfg it' = Ok c).
Proof.
  intros Hb Hl. set (le := cfg_le cfg). destruct (x512_bounds cfg) as [X1 X2]. revert Hb Hl. intros Hb Hl (Sh & Sx & Bx').
  destruct (split_at it 64) as (h & t1 & -> & Lh & L1); [lia|].
  rewrite zlen_app in *. apply bytes_split in Hb as [Bh Hb].
  destruct (split_at t1 8) as (cc & t2 & -> & Lc & L2); [lia|].
  rewrite zlen_app in *. apply bytes_split in Hb as [Bc Hb].
  destruct (split_at t2 4) as (m & t3 & -> & Lm & L3); [lia|].
  rewrite zlen_app in *. apply bytes_split in Hb as [Bm Hb].
  destruct (split_at t3 (SHA512_X_OFFSET cfg - 76)) as (g & t5 & -> & Lg & L5); [lia|].
  rewrite zlen_app in *. apply bytes_split in Hb as [Bg Hb].
  destruct (split_at t5 128) as (x & t4 & -> & Lx & L4); [lia|].
  rewrite zlen_app in *. apply bytes_split in Hb as [Bx Hb].
  assert (L : zlen (enc_words le 8 (s512_h c)) = 64) by (rewrite zlen_enc_words; unfold zlen; rewrite Sh; reflexivity).
  assert (Lx' : zlen (s512_x c) = 128) by (unfold zlen; rewrite Sx; reflexivity).
  pose proof (zlen_enc_word le 8 (s512_count c)) as Le8. pose proof (zlen_enc_word le 4 (s512_num c)) as Le4.
  exists (enc_words le 8 (s512_h c) ++ enc_word le 8 (s512_count c) ++ enc_word le 4 (s512_num c) ++ g ++ s512_x c ++ t4).
  split; [|split; [|split]].
  - unfold put_sha512. cbv zeta. fold le.
    pose proof (wr_range_mid (@nil Z) h (cc ++ m ++ g ++ x ++ t4) (enc_words le 8 (s512_h c)) 0) as E.
    cbn [app] in E. rewrite E by (auto; lia). cbn [bind].
    rewrite wr_word_mid by (auto; lia). cbn [bind].
    rewrite (app_assoc (enc_words _ _ _)). rewrite wr_word_mid; [|rewrite zlen_app; lia|auto]. cbn [bind].
    rewrite (app_assoc _ (enc_word le 4 _)), (app_assoc _ g). rewrite wr_range_mid; [|rewrite !zlen_app; lia|lia].
    rewrite <- !app_assoc. reflexivity.
  - repeat apply bytes_app; auto using enc_words_bytes, enc_word_bytes.
  - rewrite !zlen_app. lia.
  - intros (R1 & R2 & R3). unfold le; rewrite lay512_get by auto. rewrite !dec_enc_word by assumption.
    destruct c; reflexivity.
Qed.

(** ** SHAKE256 *)
Lemma getshake_any le it : is_bytes it -> 208 <= zlen it ->
  exists s, get_shake le it = Ok s /\ length s = 26%nat.
Proof.
  intros Hb Hl.
  destruct (split_at it 208) as (h & t1 & -> & Lh & L1); [lia|].
  apply bytes_split in Hb as [Bh Hb].
  destruct (bytes_are_words le 8 26 h) as (ws & -> & Lw & Ow); [lia|exact Bh|unfold zlen in *; lia|].
  exists ws. split; [|exact Lw]. unfold get_shake. rewrite <- Lw. apply rd_words_ok, Ow.
Qed.
Lemma putshake le it s : is_bytes it -> 208 <= zlen it -> length s = 26%nat ->
  exists it', put_shake le it s = Ok it' /\ is_bytes it' /\ zlen it' = zlen it /\
    (words_ok 8 s -> get_shake le it' = Ok s).
Proof.
  intros Hb Hl Ls.
  destruct (split_at it 208) as (h & t1 & -> & Lh & L1); [lia|].
  apply bytes_split in Hb as [Bh Hb].
  assert (L : zlen (enc_words le 8 s) = 208) by (rewrite zlen_enc_words; unfold zlen; rewrite Ls; reflexivity).
  exists (enc_words le 8 s ++ t1). split; [|split; [|split]].
  - unfold put_shake. rewrite wr_range_0 by (rewrite zlen_app; pose proof (zlen_nonneg t1); lia).
    do 2 f_equal. apply skipn_app_exact. unfold zlen in *; lia.
  - apply bytes_app; auto using enc_words_bytes.
  - rewrite !zlen_app. lia.
  - intros Hw. unfold get_shake. rewrite <- Ls. apply rd_words_ok, Hw.
Qed.
