(** * The watched program has the outcomes of the model *)
From Verif Require Import CSem CLeak ModelEndian ModelSha256 ModelSha512 ModelFips202 ModelParams ModelCtx ModelHash ModelSphincs ModelKeygen
  LeakSha2 LeakFips202 LeakHash LeakSphincs.
Ltac Zify.zify_post_hook ::= idtac.

Create HintDb er.
Lemma result_quiet {A} (o : outcome A) : result (quiet o) = o. Proof. reflexivity. Qed.
Ltac er0 := first
  [ reflexivity
  | solve [auto with er nocore]
  | match goal with
    | |- result (lbind _ _) = bind _ _ => rewrite result_bind; apply bind_ext2; [er0 | intros; er0]
    | |- result (lif _ _ _) = (if _ then _ else _) => rewrite result_if; match goal with |- (if ?b then _ else _) = _ => destruct b end; er0
    | |- result (l_for _ _ _ _) = for_loop _ _ _ _ => apply result_for; intros; er0
    | |- result (tick _ _) = _ => rewrite result_tick; er0
    | |- result (match ?x with _ => _ end) = match ?x with _ => _ end => destruct x; er0
    | |- result (match ?x with _ => _ end) = _ => destruct x; er0
    | |- context [match ?x with _ => _ end] => is_var x; destruct x; er0
    end ].
Tactic Notation "er" := cbv zeta; er0.

Lemma er_bytes_to_ull p n : result (l_ts_bytes_to_ull p n) = ts_bytes_to_ull p n.
Proof. unfold l_ts_bytes_to_ull, ts_bytes_to_ull. er. Qed.
Lemma er_ull v n : result (l_ts_ull_to_bytes v n) = Ok (ts_ull_to_bytes v n). Proof. reflexivity. Qed.
#[global] Hint Resolve er_bytes_to_ull : er.
(** A step that cannot fail and is pure in the model *)
Lemma bind_pure {A B} (x : leaky A) (a : A) (f : A -> leaky B) o : result x = Ok a -> result (f a) = o -> result (lbind x f) = o.
Proof. intros E H. rewrite result_bind, E. exact H. Qed.

(** ** sha256.c *)
Lemma er_RORc x k : result (l_RORc x k) = Ok (RORc x k).
Proof. unfold l_RORc; cbv zeta; rewrite result_if; unfold RORc; cbv zeta. destruct (Z.land k 31 =? 0); reflexivity. Qed.
Lemma er_Sigma0 x : result (l_Sigma0_32 x) = Ok (Sigma0_32 x).
Proof. unfold l_Sigma0_32. repeat (eapply bind_pure; [apply er_RORc|]). reflexivity. Qed.
Lemma er_Sigma1 x : result (l_Sigma1_32 x) = Ok (Sigma1_32 x).
Proof. unfold l_Sigma1_32. repeat (eapply bind_pure; [apply er_RORc|]). reflexivity. Qed.
Lemma er_Gamma0 x : result (l_Gamma0_32 x) = Ok (Gamma0_32 x).
Proof. unfold l_Gamma0_32. repeat (eapply bind_pure; [apply er_RORc|]). reflexivity. Qed.
Lemma er_Gamma1 x : result (l_Gamma1_32 x) = Ok (Gamma1_32 x).
Proof. unfold l_Gamma1_32. repeat (eapply bind_pure; [apply er_RORc|]). reflexivity. Qed.
Lemma er_load_W256 le b x : result (l_sha256_load_W le b x) = sha256_load_W le b x.
Proof. unfold l_sha256_load_W, sha256_load_W. er. Qed.
Lemma er_round256 le i st : result (l_sha256_round le i st) = sha256_round le i st.
Proof.
  unfold l_sha256_round, sha256_round. destruct st as [x r]. cbv zeta. rewrite result_bind. apply bind_ext2.
  - rewrite result_if. destruct (16 <=? i); [|reflexivity].
    rewrite result_bind. apply bind_ext2; [reflexivity|intros w2]. rewrite result_bind. apply bind_ext2; [reflexivity|intros w7].
    rewrite result_bind. apply bind_ext2; [reflexivity|intros w15]. rewrite result_bind. apply bind_ext2; [reflexivity|intros w16].
    eapply bind_pure; [apply er_Gamma1|]. eapply bind_pure; [apply er_Gamma0|]. reflexivity.
  - intros x'. rewrite result_bind. apply bind_ext2; [reflexivity|intros k]. rewrite result_bind. apply bind_ext2; [reflexivity|intros w].
    eapply bind_pure; [apply er_Sigma1|]. eapply bind_pure; [apply er_Sigma0|]. reflexivity.
Qed.
#[global] Hint Resolve er_load_W256 er_round256 : er.
Lemma er_compress le c b : result (l_compress le c b) = compress le c b.
Proof. unfold l_compress, compress. er. Qed.
#[global] Hint Resolve er_compress : er.
Lemma er_update_loop256 le fuel : forall c p, result (l_sha256_update_loop le fuel c p) = sha256_update_loop le fuel c p.
Proof.
  induction fuel as [|fuel IH]; intros c p; [reflexivity|]. cbn [l_sha256_update_loop sha256_update_loop]. cbv zeta.
  rewrite result_if. destruct (zlen p =? 0); [reflexivity|].
  eapply (bind_pure _ (if zlen p <? u32 (64 - s256_num c) then u32 (zlen p) else u32 (64 - s256_num c))); [rewrite result_if; destruct (_ <? _); reflexivity|].
  rewrite result_if. destruct (_ =? 64).
  - er.
  - er.
Qed.
#[global] Hint Resolve er_update_loop256 : er.
Lemma er_update256 le c p : result (l_ts_SHA256_update le c p) = ts_SHA256_update le c p. Proof. apply er_update_loop256. Qed.
#[global] Hint Resolve er_update256 : er.
Lemma er_final256 le c n : result (l_ts_SHA256_final_trunc le c n) = ts_SHA256_final_trunc le c n.
Proof. unfold l_ts_SHA256_final_trunc, ts_SHA256_final_trunc. eapply bind_pure; [apply er_ull|]. er. Qed.
Lemma er_final256' le c : result (l_ts_SHA256_final le c) = ts_SHA256_final le c. Proof. exact (er_final256 le c 32). Qed.
Lemma er_save256 c : result (l_ts_SHA256_save_state c) = ts_SHA256_save_state c. Proof. unfold l_ts_SHA256_save_state, ts_SHA256_save_state. er. Qed.
Lemma er_restore256 c s : result (l_ts_SHA256_restore_state_after_64 c s) = ts_SHA256_restore_state_after_64 c s.
Proof. unfold l_ts_SHA256_restore_state_after_64, ts_SHA256_restore_state_after_64. er. Qed.
#[global] Hint Resolve er_final256 er_final256' er_save256 er_restore256 : er.

(** ** sha512.c *)
Lemma er_ROR64 x k : result (l_ROR64c x k) = ROR64c x k. Proof. unfold l_ROR64c, ROR64c. er. Qed.
#[global] Hint Resolve er_ROR64 : er.
Lemma er_Sigma0' x : result (l_Sigma0_64 x) = Sigma0_64 x. Proof. unfold l_Sigma0_64, Sigma0_64. er. Qed.
Lemma er_Sigma1' x : result (l_Sigma1_64 x) = Sigma1_64 x. Proof. unfold l_Sigma1_64, Sigma1_64. er. Qed.
Lemma er_Gamma0' x : result (l_Gamma0_64 x) = Gamma0_64 x. Proof. unfold l_Gamma0_64, Gamma0_64. er. Qed.
Lemma er_Gamma1' x : result (l_Gamma1_64 x) = Gamma1_64 x. Proof. unfold l_Gamma1_64, Gamma1_64. er. Qed.
#[global] Hint Resolve er_Sigma0' er_Sigma1' er_Gamma0' er_Gamma1' : er.
Lemma er_load_W512 le b x : result (l_sha512_load_W le b x) = sha512_load_W le b x.
Proof. unfold l_sha512_load_W, sha512_load_W. er. Qed.
Lemma er_round512 le i st : result (l_sha512_round le i st) = sha512_round le i st.
Proof. unfold l_sha512_round, sha512_round. er. Qed.
#[global] Hint Resolve er_load_W512 er_round512 : er.
Lemma er_compress512 le c b : result (l_sha512_compress le c b) = sha512_compress le c b.
Proof. unfold l_sha512_compress, sha512_compress. er. Qed.
#[global] Hint Resolve er_compress512 : er.
Lemma er_update_loop512 le fuel : forall c p, result (l_sha512_update_loop le fuel c p) = sha512_update_loop le fuel c p.
Proof.
  induction fuel as [|fuel IH]; intros c p; [reflexivity|]. cbn [l_sha512_update_loop sha512_update_loop]. cbv zeta.
  rewrite result_if. destruct (zlen p =? 0); [reflexivity|].
  eapply (bind_pure _ (if zlen p <? u32 (128 - s512_num c) then u32 (zlen p) else u32 (128 - s512_num c))); [rewrite result_if; destruct (_ <? _); reflexivity|].
  rewrite result_if. destruct (_ =? 128).
  - er.
  - er.
Qed.
#[global] Hint Resolve er_update_loop512 : er.
Lemma er_update512 le c p : result (l_ts_SHA512_update le c p) = ts_SHA512_update le c p. Proof. apply er_update_loop512. Qed.
#[global] Hint Resolve er_update512 : er.
Lemma er_final512 le c n : result (l_ts_SHA512_final_trunc le c n) = ts_SHA512_final_trunc le c n.
Proof. unfold l_ts_SHA512_final_trunc, ts_SHA512_final_trunc. eapply bind_pure; [apply er_ull|]. er. Qed.
Lemma er_final512' le c : result (l_ts_SHA512_final le c) = ts_SHA512_final le c. Proof. exact (er_final512 le c 64). Qed.
Lemma er_save512 c : result (l_ts_SHA512_save_state c) = ts_SHA512_save_state c. Proof. unfold l_ts_SHA512_save_state, ts_SHA512_save_state. er. Qed.
Lemma er_restore512 c s : result (l_ts_SHA512_restore_state_after_128 c s) = ts_SHA512_restore_state_after_128 c s.
Proof. unfold l_ts_SHA512_restore_state_after_128, ts_SHA512_restore_state_after_128. er. Qed.
#[global] Hint Resolve er_final512 er_final512' er_save512 er_restore512 : er.
