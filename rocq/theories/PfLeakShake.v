(** * What SHAKE256 shows to an observer does not depend on the data it absorbs *)
From Verif Require Import CSem Arr CLeak ModelFips202 PfKeccakLanes LeakFips202 PfLeakErase PfLeakErase2 PfLeakSha.
Ltac Zify.zify_post_hook ::= idtac.

Lemma ok_inj {A} (a b : A) : Ok a = Ok b -> a = b. Proof. intros H. injection H as H. exact H. Qed.
Lemma sim_ub_r {A B} (R : A -> B -> Prop) x r : sim R x (lub r).
Proof. intros ? ? _ [=]. Qed.
Lemma sim_same {A} (x : leaky A) : sim eq x x.
Proof. intros a b E F. split; [reflexivity|congruence]. Qed.
Lemma sim_some {A B} (o : option A) (p : option B) r r' :
  sim any (match o with Some v => lret v | None => lub r end) (match p with Some v => lret v | None => lub r' end).
Proof. destruct o, p; try apply sim_ub_l; try apply sim_ub_r. sr. exact I. Qed.
#[global] Hint Resolve sim_same sim_some : sim.

Lemma sim_ROL a b k : sim any (l_ROL a k) (l_ROL b k).
Proof. unfold l_ROL. eapply (sim_bind eq); [apply sim_shift_count|]. intros ? ? _ _ _. eapply (sim_bind eq); [apply sim_shift_count|]. intros ? ? _ _ _. sr. exact I. Qed.
#[global] Hint Resolve sim_ROL : sim.
Lemma sim_keval r e f x : sim any (l_keval r e x) (l_keval r f x).
Proof.
  induction x as [[i|i]|a IHa b IHb|a IHa b IHb|a IHa|[i|i] k|k]; cbn [l_keval].
  - apply sim_rd.
  - sb. apply sim_some.
  - eapply sim_bind; [apply IHa|]. intros. eapply sim_bind; [apply IHb|]. intros. sr. exact I.
  - eapply sim_bind; [apply IHa|]. intros. eapply sim_bind; [apply IHb|]. intros. sr. exact I.
  - eapply sim_bind; [apply IHa|]. intros. sr. exact I.
  - eapply sim_bind; [apply sim_rd|]. intros. apply sim_ROL.
  - eapply (sim_bind any); [sb; apply sim_some|]. intros. apply sim_ROL.
  - apply sim_rd.
Qed.
Definition renv (e f : kenv) : Prop := samelen (k_mat e) (k_mat f).
Lemma sim_kexec r e f s : renv e f -> sim renv (l_kexec r e s) (l_kexec r f s).
Proof.
  intros H. destruct s as [v x]. unfold l_kexec. eapply sim_bind; [apply sim_keval|]. intros a b _ _ _. destruct v as [i|i].
  - eapply sim_bind; [apply sim_wr_len, H|]. intros. sr. assumption.
  - eapply sim_bind; [apply sim_wr|]. intros. sr. exact H.
Qed.
Lemma sim_kexecs r l : forall e f, renv e f -> sim renv (l_kexecs r e l) (l_kexecs r f l).
Proof.
  induction l as [|s l IH]; intros e f H; cbn [l_kexecs]; [sr; exact H|].
  eapply sim_bind; [apply sim_kexec, H|]. intros a b _ _ K. apply IH, K.
Qed.
Lemma sim_rounds01 e f : renv e f -> sim renv (l_keccak_rounds_01 e) (l_keccak_rounds_01 f).
Proof. intros H. apply sim_for; [|exact H]. intros j s t _ K. apply sim_kexecs, K. Qed.
Lemma sim_opt0 s t : sim any (l_KeccakF1600_opt0 s) (l_KeccakF1600_opt0 t).
Proof.
  unfold l_KeccakF1600_opt0. eapply (sim_bind samelen); [apply sim_rd_range|]. intros a b _ _ H.
  eapply (sim_bind renv); [apply sim_rounds01, H|]. intros e f _ _ K. apply sim_wr_range, K.
Qed.
Lemma sim_opt1 s t : samelen s t -> sim any (l_KeccakF1600_opt1 s) (l_KeccakF1600_opt1 t).
Proof.
  intros H. unfold l_KeccakF1600_opt1. eapply (sim_bind renv); [apply sim_rounds01, H|]. intros e f _ _ K. sr. exact I.
Qed.
Lemma sim_rd_bc a b i : sim any (l_rd_bc a i) (l_rd_bc b i).
Proof. unfold l_rd_bc. sb. apply sim_some. Qed.
#[global] Hint Resolve sim_rd_bc : sim.
Lemma sim_theta s t : sim any (l_opt2_theta s) (l_opt2_theta t).
Proof.
  destruct s as [s bc]. destruct t as [t bd]. unfold l_opt2_theta. eapply (sim_bind any).
  - apply sim_for; [|exact I]. intros. do 5 sb. apply sim_wr.
  - intros x y _ _ _. eapply (sim_bind any).
    + apply sim_for; [|exact I]. intros. sb. sb. sb. cbv zeta. apply sim_for; [|exact I]. intros. sb. apply sim_wr.
    + intros. sr. exact I.
Qed.
Lemma sim_rhopi s t : sim any (l_opt2_rhopi s) (l_opt2_rhopi t).
Proof.
  destruct s as [s bc]. destruct t as [t bd]. unfold l_opt2_rhopi. sb. eapply (sim_bind any).
  - apply sim_for; [|exact I]. intros i [[u bu] v] [[u' bu'] v'] _ _.
    eapply (sim_bind eq); [apply sim_same|]. intros j ? _ _ <-. sb. sb. eapply (sim_bind eq); [apply sim_same|]. intros r ? _ _ <-.
    sb. sb. sb. sr. exact I.
  - intros [[u bu] v] [[u' bu'] v'] _ _ _. sr. exact I.
Qed.
Lemma sim_chi s t : sim any (l_opt2_chi s) (l_opt2_chi t).
Proof.
  apply sim_for; [|exact I]. intros j [u bu] [v bv] _ _. cbv zeta. eapply (sim_bind any).
  - apply sim_for; [|exact I]. intros. sb. apply sim_wr.
  - intros x y _ _ _. eapply (sim_bind any).
    + apply sim_for; [|exact I]. intros. do 3 sb. apply sim_wr.
    + intros. sr. exact I.
Qed.
Lemma sim_opt2 s t : sim any (l_KeccakF1600_opt2 s) (l_KeccakF1600_opt2 t).
Proof.
  unfold l_KeccakF1600_opt2. eapply (sim_bind any); [|intros [? ?] [? ?] _ _ _; sr; exact I].
  apply sim_for; [|exact I]. intros r x y _ _. unfold l_opt2_round.
  eapply (sim_bind any); [apply sim_theta|]. intros. eapply (sim_bind any); [apply sim_rhopi|]. intros.
  eapply (sim_bind any); [apply sim_chi|]. intros [u bu] [v bv] _ _ _. do 3 sb. sr. exact I.
Qed.

(** Two sponges that look the same: the same position below the rate *)
Definition srel (s t : list Z) : Prop := exists L M k, length L = 25%nat /\ length M = 25%nat /\ 0 <= k < 136 /\ s = L ++ [k] /\ t = M ++ [k].
Lemma srel_len s t : srel s t -> samelen s t.
Proof. intros (L & M & k & HL & HM & _ & -> & ->). unfold samelen. rewrite !app_length, HL, HM. reflexivity. Qed.
Lemma rd25 (L : list Z) k : length L = 25%nat -> rd (L ++ [k]) 25 = Ok k.
Proof. intros H. unfold rd. change (0 <=? 25) with true. change (Z.to_nat 25) with 25%nat. cbv iota. rewrite nth_error_app2 by lia. rewrite H. reflexivity. Qed.
Lemma wr25 (L : list Z) k v : length L = 25%nat -> wr (L ++ [k]) 25 v = Ok (L ++ [v]).
Proof.
  intros H. unfold wr, zlen. rewrite app_length, H. change (_ && _) with true. cbv iota. change (Z.to_nat 25) with 25%nat.
  rewrite firstn_app, H. rewrite firstn_all2 by lia. rewrite skipn_all2 by (rewrite app_length, H; cbn; lia). rewrite app_nil_r. reflexivity.
Qed.
Lemma wr_low (L : list Z) k i v s' : length L = 25%nat -> i < 25 -> wr (L ++ [k]) i v = Ok s' -> exists M, length M = 25%nat /\ s' = M ++ [k].
Proof.
  intros H Hi E. assert (K : 0 <= i).
  { unfold wr in E. destruct (0 <=? i) eqn:E0; [apply Z.leb_le, E0|discriminate]. }
  rewrite wr_ok in E by (unfold zlen; rewrite app_length, H; cbn [length]; lia).
  exists (upd L (Z.to_nat i) v). split; [rewrite upd_length; rewrite H; lia|].
  assert (s' = upd (L ++ [k]) (Z.to_nat i) v) as -> by congruence. unfold upd. rewrite firstn_app_le by (rewrite H; lia).
  rewrite <- app_assoc. f_equal. cbn [app]. f_equal. rewrite skipn_app_le by (rewrite H; lia). reflexivity.
Qed.
Lemma sim_perm opt s t : srel s t -> sim srel (l_KeccakF1600_StatePermute opt s) (l_KeccakF1600_StatePermute opt t).
Proof.
  intros H. apply (sim_weaken (fun a b => any a b /\ result (l_KeccakF1600_StatePermute opt s) = Ok a /\ result (l_KeccakF1600_StatePermute opt t) = Ok b)).
  - apply sim_both. unfold l_KeccakF1600_StatePermute. apply sim_tick; [reflexivity|]. destruct (opt =? 2); [apply sim_opt2|]. destruct (opt =? 1); [apply sim_opt1, srel_len, H|apply sim_opt0].
  - intros a b _ _ (_ & Ha & Hb). destruct H as (L & M & k & HL & HM & Hk & -> & ->).
    rewrite er_perm, permute_ok in Ha by exact HL. rewrite er_perm, permute_ok in Hb by exact HM.
    apply ok_inj in Ha, Hb. exists (lrounds rcs L), (lrounds rcs M), k.
    split; [apply lrounds_length, HL|]. split; [apply lrounds_length, HM|]. split; [exact Hk|]. split; symmetry; assumption.
Qed.
Lemma srel_rd s t : srel s t -> sim (fun a b => a = b /\ 0 <= a < 136 /\ rd s 25 = Ok a) (l_rd s 25) (l_rd t 25).
Proof.
  intros (L & M & k & HL & HM & Hk & -> & ->). apply sim_tick; [reflexivity|]. apply sim_quiet. rewrite rd25 by exact HL. rewrite rd25 by exact HM.
  intros a b [= <-] [= <-]. split; [reflexivity|]. split; [exact Hk|reflexivity].
Qed.
Lemma srel_wr25 s t v : 0 <= v < 136 -> srel s t -> sim srel (l_wr s 25 v) (l_wr t 25 v).
Proof.
  intros Hv (L & M & k & HL & HM & Hk & -> & ->). apply sim_tick; [reflexivity|]. apply sim_quiet. rewrite wr25 by exact HL. rewrite wr25 by exact HM.
  intros a b Ea Eb. apply ok_inj in Ea, Eb. subst a b. exists L, M, v. auto.
Qed.
Lemma srel_wr s t i v w : i < 25 -> srel s t -> sim (fun a b => srel a b /\ rd a 25 = rd s 25) (l_wr s i v) (l_wr t i w).
Proof.
  intros Hi (L & M & k & HL & HM & Hk & -> & ->). apply sim_tick; [reflexivity|]. apply sim_quiet. intros a b Ha Hb.
  destruct (wr_low _ _ _ _ _ HL Hi Ha) as (L' & HL' & ->). destruct (wr_low _ _ _ _ _ HM Hi Hb) as (M' & HM' & ->).
  split; [exists L', M', k; auto|]. rewrite !rd25 by assumption. reflexivity.
Qed.
Lemma sim_inc_init s t : length s = 26%nat -> length t = 26%nat -> sim srel (l_keccak_inc_init s) (l_keccak_inc_init t).
Proof.
  intros Hs Ht. unfold l_keccak_inc_init. eapply (sim_bind (fun a b => length a = 26%nat /\ length b = 26%nat)).
  - apply sim_for; [|split; assumption]. intros j a b _ [Ha Hb]. apply sim_tick; [reflexivity|]. apply sim_quiet. intros x y Hx Hy.
    apply wr_length in Hx, Hy. split; congruence.
  - intros a b _ _ [Ha Hb]. apply sim_tick; [reflexivity|]. apply sim_quiet. intros x y Hx Hy.
    rewrite <- (firstn_skipn 25 a) in Hx. rewrite <- (firstn_skipn 25 b) in Hy.
    assert (La : length (firstn 25 a) = 25%nat) by (rewrite firstn_length; lia). assert (Lb : length (firstn 25 b) = 25%nat) by (rewrite firstn_length; lia).
    assert (Ka : length (skipn 25 a) = 1%nat) by (rewrite skipn_length; lia). assert (Kb : length (skipn 25 b) = 1%nat) by (rewrite skipn_length; lia).
    destruct (skipn 25 a) as [|u [|]]; [discriminate| |discriminate]. destruct (skipn 25 b) as [|v [|]]; [discriminate| |discriminate].
    rewrite wr25 in Hx by exact La. rewrite wr25 in Hy by exact Lb. exists (firstn 25 a), (firstn 25 b), 0.
    split; [exact La|]. split; [exact Lb|]. split; [lia|]. split; congruence.
Qed.
Lemma u64_small x : 0 <= x < 2 ^ 64 -> u64 x = x. Proof. intros H. unfold u64. apply Z.mod_small, H. Qed.
Lemma sim_absorb_bytes s t m m' k c : srel s t -> rd s 25 = Ok k -> k + c <= 136 ->
  sim (fun a b => srel a b /\ rd a 25 = Ok k) (l_absorb_bytes s m c) (l_absorb_bytes t m' c).
Proof.
  intros H E Hc. assert (Hk : 0 <= k < 136).
  { destruct H as (L & M & k' & HL & HM & Hk & -> & ->). rewrite rd25 in E by exact HL. injection E as <-. exact Hk. }
  apply sim_for; [|split; assumption]. intros i a b Hi [Hab Ha].
  eapply sim_bind; [apply srel_rd, Hab|]. intros x ? _ _ (<- & Hx & Ex). assert (x = k) as -> by congruence.
  sb. cbv zeta. assert (Hi' : i < c) by (destruct (Z.le_gt_cases c 0); lia).
  rewrite (u64_small (k + i)) by lia. sb. eapply (sim_bind eq); [apply sim_shift_count|]. intros sh ? _ _ <-.
  assert (Hlow : Z.shiftr (k + i) 3 < 25).
  { rewrite Z.shiftr_div_pow2 by lia. change (2 ^ 3) with 8. apply Z.div_lt_upper_bound; lia. }
  eapply sim_weaken; [apply srel_wr; [exact Hlow|exact Hab]|]. intros u v _ _ [Huv Hu]. split; [exact Huv|congruence].
Qed.
Lemma sim_absorb_loop opt fuel : forall fuel' s t m m', fuel = fuel' -> samelen m m' -> zlen m < 2 ^ 63 -> srel s t ->
  sim srel (l_absorb_loop opt fuel 136 s m) (l_absorb_loop opt fuel' 136 t m').
Proof.
  induction fuel as [|fuel IH]; intros fuel' s t m m' <- Hm Hz H; [apply sim_ub_l|]. cbn [l_absorb_loop].
  eapply sim_bind; [apply srel_rd, H|]. intros k ? _ _ (<- & Hk & Ek).
  assert (Hm0 : 0 <= zlen m) by (unfold zlen; lia).
  rewrite <- (samelen_zlen _ _ Hm), (u64_small (zlen m + k)) by lia. apply sim_if; [reflexivity| |]; intros Hb.
  - cbv zeta. rewrite (u64_small (136 - k)) by lia.
    eapply sim_bind; [apply (sim_absorb_bytes _ _ _ _ k); [exact H|exact Ek|lia]|]. intros a b _ _ [Hab _].
    eapply sim_bind; [apply srel_wr25; [lia|exact Hab]|]. intros a' b' _ _ Hab'.
    eapply sim_bind; [apply sim_perm, Hab'|]. intros a2 b2 _ _ H2. apply IH; [reflexivity|apply samelen_skipn, Hm| |exact H2].
    unfold zlen in *. rewrite skipn_length. lia.
  - apply Z.leb_gt in Hb. eapply sim_bind; [apply (sim_absorb_bytes _ _ _ _ k); [exact H|exact Ek|lia]|]. intros a b _ _ [Hab Ea].
    eapply sim_bind; [apply srel_rd, Hab|]. intros x ? _ _ (<- & Hx & Ex). assert (x = k) as -> by congruence.
    rewrite (u64_small (k + zlen m)) by lia. apply srel_wr25; [lia|exact Hab].
Qed.
Lemma sim_sh_absorb opt s t m m' : samelen m m' -> zlen m < 2 ^ 63 -> srel s t ->
  sim srel (l_ts_shake256_inc_absorb opt s m) (l_ts_shake256_inc_absorb opt t m').
Proof. intros Hm Hz H. exact (sim_absorb_loop opt _ _ s t m m' (f_equal (fun k => S (S k)) Hm) Hm Hz H). Qed.
Lemma shr3_low k : k < 136 -> Z.shiftr k 3 < 25.
Proof. intros H. rewrite Z.shiftr_div_pow2 by lia. change (2 ^ 3) with 8. apply Z.div_lt_upper_bound; lia. Qed.
Lemma sim_sh_finalize s t : srel s t -> sim srel (l_ts_shake256_inc_finalize s) (l_ts_shake256_inc_finalize t).
Proof.
  intros H. unfold l_ts_shake256_inc_finalize, l_keccak_inc_finalize.
  eapply sim_bind; [apply srel_rd, H|]. intros k ? _ _ (<- & Hk & Ek). sb. eapply (sim_bind eq); [apply sim_shift_count|]. intros sh ? _ _ <-.
  eapply sim_bind; [apply srel_wr; [apply shr3_low; lia|exact H]|]. intros s1 t1 _ _ [Hab _].
  sb. eapply (sim_bind eq); [apply sim_shift_count|]. intros sh' ? _ _ <-.
  eapply sim_bind; [apply srel_wr; [reflexivity|exact Hab]|]. intros s2 t2 _ _ [Hab' _]. apply srel_wr25; [lia|exact Hab'].
Qed.
Lemma sim_state_byte s t p : sim any (l_state_byte s p) (l_state_byte t p).
Proof. unfold l_state_byte. sb. eapply (sim_bind eq); [apply sim_shift_count|]. intros. sr. exact I. Qed.
#[global] Hint Resolve sim_state_byte : sim.
Definition sout (a b : list Z * list Z) : Prop := samelen (fst a) (fst b) /\ srel (snd a) (snd b).
Lemma sim_squeeze_loop opt fuel : forall s t k, srel s t -> sim sout (l_squeeze_loop opt fuel 136 s k) (l_squeeze_loop opt fuel 136 t k).
Proof.
  induction fuel as [|fuel IH]; intros s t k H; [apply sim_ub_l|]. cbn [l_squeeze_loop]. apply sim_if; [reflexivity| |]; intros Hb.
  - sr. split; [reflexivity|exact H].
  - apply Z.leb_gt in Hb. eapply sim_bind; [apply sim_perm, H|]. intros a b _ _ Hab. cbv zeta.
    eapply (sim_bind samelen).
    + apply sim_for; [|reflexivity]. intros i u v _ Huv. sb. sr. apply samelen_app; [exact Huv|reflexivity].
    + intros o o' _ _ Ho. rewrite u64_small by lia. eapply sim_bind; [apply srel_wr25; [lia|exact Hab]|]. intros a' b' _ _ Hab'.
      eapply sim_bind; [apply IH, Hab'|]. intros [r x] [r' y] _ _ [Hr Hx]. cbn [fst snd] in Hr, Hx. sr. split; [|exact Hx]. apply samelen_app; assumption.
Qed.
Lemma sim_sh_squeeze opt k s t : 0 <= k -> srel s t -> sim sout (l_ts_shake256_inc_squeeze opt k s) (l_ts_shake256_inc_squeeze opt k t).
Proof.
  intros Hk H. unfold l_ts_shake256_inc_squeeze, l_keccak_inc_squeeze. change SHAKE256_RATE with 136.
  eapply sim_bind; [apply srel_rd, H|]. intros z ? _ _ (<- & Hz & Ez). cbv zeta. eapply (sim_bind samelen).
  - apply sim_for; [|reflexivity]. intros i u v _ Huv. sb. sr. apply samelen_app; [exact Huv|reflexivity].
  - intros o o' _ _ Ho. rewrite u64_small by lia. eapply sim_bind; [apply srel_wr25; [lia|exact H]|]. intros a' b' _ _ Hab'.
    eapply sim_bind; [apply sim_squeeze_loop, Hab'|]. intros [r x] [r' y] _ _ [Hr Hx]. cbn [fst snd] in Hr, Hx. sr. split; [|exact Hx]. apply samelen_app; assumption.
Qed.
