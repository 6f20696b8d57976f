(** * What SHA-2 shows to an observer does not depend on the data it hashes *)
From Verif Require Import CSem Arr CLeak ModelEndian ModelSha256 ModelSha512 LeakSha2.
Ltac Zify.zify_post_hook ::= idtac.

(** A step of the proof: a sequence; the first part by a known lemma *)
Create HintDb sim.
#[global] Hint Resolve sim_int_val sim_shift_count sim_rd sim_wr sim_rd_range sim_memset sim_rd_local sim_load sim_rd_word sim_wr_word : sim.
Ltac sb := eapply sim_bind; [solve [eauto 3 with sim nocore] | cbv beta; intros ? ? _ _ ?].
Ltac sr := apply sim_ret.

Lemma samelen_refl {A} (a : list A) : samelen a a. Proof. reflexivity. Qed.
Lemma samelen_app {A} (a b c d : list A) : samelen a b -> samelen c d -> samelen (a ++ c) (b ++ d).
Proof. unfold samelen. rewrite !app_length. lia. Qed.
Lemma samelen_skipn {A} n (a b : list A) : samelen a b -> samelen (skipn n a) (skipn n b).
Proof. unfold samelen. rewrite !skipn_length. lia. Qed.
Lemma samelen_zlen {A} (a b : list A) : samelen a b -> zlen a = zlen b. Proof. unfold samelen, zlen. congruence. Qed.
#[global] Hint Resolve samelen_refl samelen_app samelen_skipn : sim.
Lemma wr_length {A} (a : list A) i v b : wr a i v = Ok b -> length b = length a.
Proof.
  intros H. assert (K : 0 <= i < zlen a).
  { unfold wr in H. destruct ((0 <=? i) && (i <? zlen a)) eqn:E; [|discriminate].
    apply andb_prop in E. destruct E as [E1 E2]. apply Z.leb_le in E1. apply Z.ltb_lt in E2. lia. }
  rewrite (wr_ok a i v K) in H. assert (b = upd a (Z.to_nat i) v) as -> by congruence. apply upd_length. unfold zlen in K. lia.
Qed.
Lemma sim_wr_len {A} (a b : list A) i v w : samelen a b -> sim samelen (l_wr a i v) (l_wr b i w).
Proof. intros H. apply sim_tick; [reflexivity|]. apply sim_quiet. intros x y Hx Hy. apply wr_length in Hx, Hy. unfold samelen in *. congruence. Qed.
Lemma sim_wr_word_len le sz a b o i v w : samelen a b -> sim samelen (l_wr_word le sz a o i v) (l_wr_word le sz b o i w).
Proof. intros H. apply sim_tick; [reflexivity|]. apply sim_quiet. unfold wr_word. intros x y Hx Hy. apply wr_range_length in Hx, Hy. unfold samelen in *. congruence. Qed.
Lemma sim_wr_range_len {A} (a b : list A) o s t : samelen s t -> samelen a b -> sim samelen (l_wr_range a o s) (l_wr_range b o t).
Proof.
  intros H K. apply sim_tick; [unfold zlen; rewrite H; reflexivity|]. apply sim_quiet. intros x y Hx Hy.
  apply wr_range_length in Hx, Hy. unfold samelen in *. congruence.
Qed.
Lemma memset_length {A} (a : list A) o v k b : memset a o v k = Ok b -> length b = length a.
Proof.
  unfold memset. destruct ((0 <=? o) && (0 <=? k) && (o + k <=? zlen a)) eqn:E; [|discriminate]. intros H.
  apply andb_prop in E. destruct E as [E E3]. apply andb_prop in E. destruct E as [E1 E2]. apply Z.leb_le in E1, E2, E3. unfold zlen in E3.
  assert (b = firstn (Z.to_nat o) a ++ repeat v (Z.to_nat k) ++ skipn (Z.to_nat o + Z.to_nat k) a) as -> by congruence.
  rewrite !app_length, firstn_length, repeat_length, skipn_length. lia.
Qed.
Lemma sim_memset_len {A} (a b : list A) o v w k : samelen a b -> sim samelen (l_memset a o v k) (l_memset b o w k).
Proof.
  intros H. apply sim_tick; [reflexivity|]. apply sim_quiet. intros x y Hx Hy.
  apply memset_length in Hx, Hy. unfold samelen in *. congruence.
Qed.

Lemma ull_length n : forall v, length (ull_to_bytes v n) = n.
Proof. induction n as [|n IH]; intros v; [reflexivity|]. cbn [ull_to_bytes]. rewrite app_length, IH. cbn [length]. lia. Qed.
Lemma sim_ull v w n : sim samelen (l_ts_ull_to_bytes v n) (l_ts_ull_to_bytes w n).
Proof. apply sim_tick; [reflexivity|]. apply sim_ret. unfold samelen, ts_ull_to_bytes. rewrite !ull_length. reflexivity. Qed.
Lemma sim_bytes_to_ull p q n : sim any (l_ts_bytes_to_ull p n) (l_ts_bytes_to_ull q n).
Proof. apply sim_for; [|exact I]. intros j s t _ _. sb. apply sim_ret. exact I. Qed.
#[global] Hint Resolve sim_ull sim_bytes_to_ull : sim.

(** ** SHA-256 *)
Lemma sim_RORc x y k : sim any (l_RORc x k) (l_RORc y k).
Proof. unfold l_RORc. cbv zeta. apply sim_if; [reflexivity| |]; intros _; [|apply sim_tick; [reflexivity|]]; apply sim_ret; exact I. Qed.
#[global] Hint Resolve sim_RORc : sim.
Lemma sim_Sigma0 x y : sim any (l_Sigma0_32 x) (l_Sigma0_32 y). Proof. unfold l_Sigma0_32. sb. sb. sb. sr. exact I. Qed.
Lemma sim_Sigma1 x y : sim any (l_Sigma1_32 x) (l_Sigma1_32 y). Proof. unfold l_Sigma1_32. sb. sb. sb. sr. exact I. Qed.
Lemma sim_Gamma0 x y : sim any (l_Gamma0_32 x) (l_Gamma0_32 y). Proof. unfold l_Gamma0_32. sb. sb. sr. exact I. Qed.
Lemma sim_Gamma1 x y : sim any (l_Gamma1_32 x) (l_Gamma1_32 y). Proof. unfold l_Gamma1_32. sb. sb. sr. exact I. Qed.
#[global] Hint Resolve sim_Sigma0 sim_Sigma1 sim_Gamma0 sim_Gamma1 : sim.
Lemma sim_load_W256 le b b' x y : (b = None <-> b' = None) -> samelen x y -> sim samelen (l_sha256_load_W le b x) (l_sha256_load_W le b' y).
Proof.
  intros Hb Hx. apply sim_for; [|exact Hx]. intros j s t _ H. sb. sb. apply sim_wr_word_len, H.
Qed.
Lemma sim_round256 le i st st' : samelen (fst st) (fst st') -> sim (fun a b => samelen (fst a) (fst b)) (l_sha256_round le i st) (l_sha256_round le i st').
Proof.
  destruct st as [x r]. destruct st' as [y s]. cbn [fst]. intros H. unfold l_sha256_round.
  eapply (sim_bind samelen).
  - apply sim_if; [reflexivity| |]; intros _; [|apply sim_ret, H].
    sb. sb. sb. sb. sb. sb. apply sim_wr_word_len, H.
  - intros a b _ _ Hab. sb. sb. sb. sb. cbv zeta. sr. exact Hab.
Qed.
(** Two contexts that look the same *)
Record r256 (c d : sha256_ctx) : Prop := mkR256 {
  r256_num : s256_num c = s256_num d;
  r256_h : samelen (s256_h c) (s256_h d);
  r256_x : samelen (s256_x c) (s256_x d) }.
Lemma sim_compress le c d b b' : (b = None <-> b' = None) -> r256 c d -> sim r256 (l_compress le c b) (l_compress le d b').
Proof.
  intros Hb [Hn Hh Hx]. unfold l_compress. apply sim_tick; [reflexivity|]. cbv zeta. do 8 sb.
  eapply (sim_bind samelen); [apply sim_load_W256; assumption|]. intros x y _ _ Hxy.
  eapply (sim_bind (fun a b => samelen (fst a) (fst b))).
  - apply sim_for; [|exact Hxy]. intros j s t _ H'. apply sim_round256, H'.
  - intros [u r] [v s] _ _ Huv. cbn [fst] in Huv. sr. apply mkR256; [exact Hn|reflexivity|exact Huv].
Qed.
Lemma sim_update_loop256 le fuel : forall fuel' c d p q, fuel = fuel' -> samelen p q -> r256 c d ->
  sim r256 (l_sha256_update_loop le fuel c p) (l_sha256_update_loop le fuel' d q).
Proof.
  induction fuel as [|fuel IH]; intros fuel' c d p q <- Hp Hc; [apply sim_ub_l|]. cbn [l_sha256_update_loop]. cbv zeta.
  rewrite (samelen_zlen _ _ Hp), (r256_num _ _ Hc). apply sim_if; [reflexivity|intros _; sr; exact Hc|intros _].
  eapply (sim_bind eq); [apply sim_if; [reflexivity| |]; intros _; sr; reflexivity|]. intros st ? _ _ <-.
  apply sim_if; [reflexivity| |]; intros _.
  - sb. eapply (sim_bind r256); [apply sim_compress; [split; discriminate|apply mkR256; [reflexivity|apply Hc|apply Hc]]|].
    intros e f _ _ Hef. apply IH; [reflexivity|apply samelen_skipn, Hp|exact Hef].
  - sb. eapply (sim_bind samelen); [apply sim_wr_range_len; [assumption|apply Hc]|]. intros x y _ _ Hxy.
    apply sim_if; [reflexivity| |]; intros _.
    + sr. apply mkR256; [reflexivity|apply Hc|exact Hxy].
    + eapply (sim_bind r256); [apply sim_compress; [split; reflexivity|apply mkR256; [reflexivity|apply Hc|exact Hxy]]|].
      intros e f _ _ Hef. apply IH; [reflexivity|apply samelen_skipn, Hp|exact Hef].
Qed.
Lemma sim_update256 le c d p q : samelen p q -> r256 c d -> sim r256 (l_ts_SHA256_update le c p) (l_ts_SHA256_update le d q).
Proof.
  intros Hp Hc. apply sim_update_loop256; [rewrite Hp; reflexivity|exact Hp|]. destruct Hc as [? ? ?]. apply mkR256; assumption.
Qed.
#[global] Hint Resolve sim_update256 : sim.
Definition out256 (a b : list Z * sha256_ctx) : Prop := samelen (fst a) (fst b) /\ r256 (snd a) (snd b).
Lemma sim_final256 le c d n : r256 c d -> sim out256 (l_ts_SHA256_final_trunc le c n) (l_ts_SHA256_final_trunc le d n).
Proof.
  intros Hc. unfold l_ts_SHA256_final_trunc. sb. eapply (sim_bind r256); [apply sim_update256; [reflexivity|exact Hc]|]. intros e f _ _ Hef.
  eapply (sim_bind r256).
  - rewrite (r256_num _ _ Hef). apply sim_if; [reflexivity| |]; intros _; [apply sim_update256; [reflexivity|exact Hef]|sr; exact Hef].
  - intros e' f' _ _ H'. rewrite (r256_num _ _ H'). eapply (sim_bind samelen); [apply sim_memset_len; apply H'|]. intros x y _ _ Hxy.
    eapply (sim_bind r256); [apply sim_update256; [assumption|apply mkR256; [reflexivity|apply H'|exact Hxy]]|]. intros g g' _ _ Hg.
    eapply (sim_bind samelen).
    + apply sim_for; [|reflexivity]. intros j s t _ Hst. sb. sb. sr. apply samelen_app; assumption.
    + intros u v _ _ Huv. sr. split; [exact Huv|exact Hg].
Qed.
Lemma sim_final256' le c d : r256 c d -> sim out256 (l_ts_SHA256_final le c) (l_ts_SHA256_final le d).
Proof. exact (sim_final256 le c d 32). Qed.
Lemma sim_save256 c d : sim samelen (l_ts_SHA256_save_state c) (l_ts_SHA256_save_state d).
Proof. apply sim_for; [|reflexivity]. intros j s t _ H. sb. sr. apply samelen_app; [exact H|reflexivity]. Qed.
Lemma sim_restore256 c d s t : samelen (s256_h c) (s256_h d) -> samelen (s256_x c) (s256_x d) ->
  sim r256 (l_ts_SHA256_restore_state_after_64 c s) (l_ts_SHA256_restore_state_after_64 d t).
Proof.
  intros Hh Hx. unfold l_ts_SHA256_restore_state_after_64. eapply (sim_bind samelen).
  - apply sim_for; [|exact Hh]. intros j u v _ H. sb. apply sim_wr_len, H.
  - intros u v _ _ H. sr. apply mkR256; [reflexivity|exact H|exact Hx].
Qed.
Lemma init256 c d : samelen (s256_x c) (s256_x d) -> r256 (ts_SHA256_init c) (ts_SHA256_init d).
Proof. intros H. apply mkR256; [reflexivity|reflexivity|exact H]. Qed.
#[global] Hint Resolve sim_final256 sim_final256' sim_save256 sim_restore256 init256 : sim.

(** ** SHA-512 *)
Lemma sim_ROR64 x y k : sim any (l_ROR64c x k) (l_ROR64c y k).
Proof. unfold l_ROR64c. eapply (sim_bind eq); [apply sim_shift_count|]. intros ? ? _ _ _. sr. exact I. Qed.
#[global] Hint Resolve sim_ROR64 : sim.
Lemma sim_Sigma0' x y : sim any (l_Sigma0_64 x) (l_Sigma0_64 y). Proof. unfold l_Sigma0_64. sb. sb. sb. sr. exact I. Qed.
Lemma sim_Sigma1' x y : sim any (l_Sigma1_64 x) (l_Sigma1_64 y). Proof. unfold l_Sigma1_64. sb. sb. sb. sr. exact I. Qed.
Lemma sim_Gamma0' x y : sim any (l_Gamma0_64 x) (l_Gamma0_64 y). Proof. unfold l_Gamma0_64. sb. sb. sr. exact I. Qed.
Lemma sim_Gamma1' x y : sim any (l_Gamma1_64 x) (l_Gamma1_64 y). Proof. unfold l_Gamma1_64. sb. sb. sr. exact I. Qed.
#[global] Hint Resolve sim_Sigma0' sim_Sigma1' sim_Gamma0' sim_Gamma1' : sim.
Lemma sim_load_W512 le b b' x y : (b = None <-> b' = None) -> samelen x y -> sim samelen (l_sha512_load_W le b x) (l_sha512_load_W le b' y).
Proof.
  intros Hb Hx. apply sim_for; [|exact Hx]. intros j s t _ H. sb. sb. apply sim_wr_word_len, H.
Qed.
Lemma sim_round512 le i st st' : samelen (fst st) (fst st') -> sim (fun a b => samelen (fst a) (fst b)) (l_sha512_round le i st) (l_sha512_round le i st').
Proof.
  destruct st as [x r]. destruct st' as [y s]. cbn [fst]. intros H. unfold l_sha512_round.
  eapply (sim_bind samelen).
  - apply sim_if; [reflexivity| |]; intros _; [|apply sim_ret, H].
    sb. sb. sb. sb. sb. sb. apply sim_wr_word_len, H.
  - intros a b _ _ Hab. sb. sb. sb. sb. cbv zeta. sr. exact Hab.
Qed.
(** Two contexts that look the same *)
Record r512 (c d : sha512_ctx) : Prop := mkR512 {
  r512_num : s512_num c = s512_num d;
  r512_h : samelen (s512_h c) (s512_h d);
  r512_x : samelen (s512_x c) (s512_x d) }.
Lemma sim_compress512 le c d b b' : (b = None <-> b' = None) -> r512 c d -> sim r512 (l_sha512_compress le c b) (l_sha512_compress le d b').
Proof.
  intros Hb [Hn Hh Hx]. unfold l_sha512_compress. apply sim_tick; [reflexivity|]. cbv zeta. do 8 sb.
  eapply (sim_bind samelen); [apply sim_load_W512; assumption|]. intros x y _ _ Hxy.
  eapply (sim_bind (fun a b => samelen (fst a) (fst b))).
  - apply sim_for; [|exact Hxy]. intros j s t _ H'. apply sim_round512, H'.
  - intros [u r] [v s] _ _ Huv. cbn [fst] in Huv. sr. apply mkR512; [exact Hn|reflexivity|exact Huv].
Qed.
Lemma sim_update_loop512 le fuel : forall fuel' c d p q, fuel = fuel' -> samelen p q -> r512 c d ->
  sim r512 (l_sha512_update_loop le fuel c p) (l_sha512_update_loop le fuel' d q).
Proof.
  induction fuel as [|fuel IH]; intros fuel' c d p q <- Hp Hc; [apply sim_ub_l|]. cbn [l_sha512_update_loop]. cbv zeta.
  rewrite (samelen_zlen _ _ Hp), (r512_num _ _ Hc). apply sim_if; [reflexivity|intros _; sr; exact Hc|intros _].
  eapply (sim_bind eq); [apply sim_if; [reflexivity| |]; intros _; sr; reflexivity|]. intros st ? _ _ <-.
  apply sim_if; [reflexivity| |]; intros _.
  - sb. eapply (sim_bind r512); [apply sim_compress512; [split; discriminate|apply mkR512; [reflexivity|apply Hc|apply Hc]]|].
    intros e f _ _ Hef. apply IH; [reflexivity|apply samelen_skipn, Hp|exact Hef].
  - sb. eapply (sim_bind samelen); [apply sim_wr_range_len; [assumption|apply Hc]|]. intros x y _ _ Hxy.
    apply sim_if; [reflexivity| |]; intros _.
    + sr. apply mkR512; [reflexivity|apply Hc|exact Hxy].
    + eapply (sim_bind r512); [apply sim_compress512; [split; reflexivity|apply mkR512; [reflexivity|apply Hc|exact Hxy]]|].
      intros e f _ _ Hef. apply IH; [reflexivity|apply samelen_skipn, Hp|exact Hef].
Qed.
Lemma sim_update512 le c d p q : samelen p q -> r512 c d -> sim r512 (l_ts_SHA512_update le c p) (l_ts_SHA512_update le d q).
Proof.
  intros Hp Hc. apply sim_update_loop512; [rewrite Hp; reflexivity|exact Hp|]. destruct Hc as [? ? ?]. apply mkR512; assumption.
Qed.
#[global] Hint Resolve sim_update512 : sim.
Definition out512 (a b : list Z * sha512_ctx) : Prop := samelen (fst a) (fst b) /\ r512 (snd a) (snd b).
Lemma sim_final512 le c d n : r512 c d -> sim out512 (l_ts_SHA512_final_trunc le c n) (l_ts_SHA512_final_trunc le d n).
Proof.
  intros Hc. unfold l_ts_SHA512_final_trunc. sb. eapply (sim_bind r512); [apply sim_update512; [reflexivity|exact Hc]|]. intros e f _ _ Hef.
  eapply (sim_bind r512).
  - rewrite (r512_num _ _ Hef). apply sim_if; [reflexivity| |]; intros _; [apply sim_update512; [reflexivity|exact Hef]|sr; exact Hef].
  - intros e' f' _ _ H'. rewrite (r512_num _ _ H'). eapply (sim_bind samelen); [apply sim_memset_len; apply H'|]. intros x y _ _ Hxy.
    eapply (sim_bind r512); [apply sim_update512; [assumption|apply mkR512; [reflexivity|apply H'|exact Hxy]]|]. intros g g' _ _ Hg.
    eapply (sim_bind samelen).
    + apply sim_for; [|reflexivity]. intros j s t _ Hst. sb. sb. sr. apply samelen_app; assumption.
    + intros u v _ _ Huv. sr. split; [exact Huv|exact Hg].
Qed.
Lemma sim_final512' le c d : r512 c d -> sim out512 (l_ts_SHA512_final le c) (l_ts_SHA512_final le d).
Proof. exact (sim_final512 le c d 64). Qed.
Lemma sim_save512 c d : sim samelen (l_ts_SHA512_save_state c) (l_ts_SHA512_save_state d).
Proof. apply sim_for; [|reflexivity]. intros j s t _ H. sb. sr. apply samelen_app; [exact H|reflexivity]. Qed.
Lemma sim_restore512 c d s t : samelen (s512_h c) (s512_h d) -> samelen (s512_x c) (s512_x d) ->
  sim r512 (l_ts_SHA512_restore_state_after_128 c s) (l_ts_SHA512_restore_state_after_128 d t).
Proof.
  intros Hh Hx. unfold l_ts_SHA512_restore_state_after_128. eapply (sim_bind samelen).
  - apply sim_for; [|exact Hh]. intros j u v _ H. sb. apply sim_wr_len, H.
  - intros u v _ _ H. sr. apply mkR512; [reflexivity|exact H|exact Hx].
Qed.
Lemma init512 c d : samelen (s512_x c) (s512_x d) -> r512 (ts_SHA512_init c) (ts_SHA512_init d).
Proof. intros H. apply mkR512; [reflexivity|reflexivity|exact H]. Qed.
#[global] Hint Resolve sim_final512 sim_final512' sim_save512 sim_restore512 init512 : sim.
