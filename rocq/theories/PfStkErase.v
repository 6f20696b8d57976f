(** * The program whose storage is measured has the outcomes of the model *)
From Verif Require Import CSem CStack ModelEndian ModelSha256 ModelSha512 ModelFips202 ModelParams ModelCtx ModelHash ModelSphincs ModelKeygen
  StkSha2 StkFips202 StkHash StkSphincs.
Ltac Zify.zify_post_hook ::= idtac.

Create HintDb ke.
Lemma answer_calm {A} (o : outcome A) : answer (calm o) = o. Proof. reflexivity. Qed.
(** A step that cannot fail and is pure in the model *)
Lemma kbind_pure {A B} (x : stacked A) (a : A) (f : A -> stacked B) o : answer x = Ok a -> answer (f a) = o -> answer (sbind x f) = o.
Proof. intros E H. rewrite answer_bind, E. exact H. Qed.
Ltac ke0 := first
  [ reflexivity
  | solve [auto with ke nocore]
  | match goal with
    | |- answer (sbind (k_ts_SHA256_init _ _) _) = _ => eapply kbind_pure; [reflexivity|ke0]
    | |- answer (sbind (k_ts_SHA512_init _ _) _) = _ => eapply kbind_pure; [reflexivity|ke0]
    | |- answer (sbind _ _) = bind _ _ => rewrite answer_bind; apply bind_ext2; [ke0 | intros; ke0]
    | |- answer (kif _ _ _) = (if _ then _ else _) => rewrite answer_if; match goal with |- (if ?b then _ else _) = _ => destruct b end; ke0
    | |- answer (k_for _ _ _ _) = for_loop _ _ _ _ => apply answer_for; intros; ke0
    | |- answer (call _ _) = _ => rewrite answer_call; ke0
    | |- answer (match ?x with _ => _ end) = match ?x with _ => _ end => destruct x; ke0
    | |- answer (match ?x with _ => _ end) = _ => destruct x; ke0
    | |- context [match ?x with _ => _ end] => is_var x; destruct x; ke0
    end ].
Tactic Notation "ke" := cbv zeta; ke0.

Lemma ke_bytes_to_ull (P : Z) p n : answer (k_ts_bytes_to_ull P p n) = ts_bytes_to_ull p n.
Proof. unfold k_ts_bytes_to_ull, ts_bytes_to_ull; rewrite ?answer_call. ke. Qed.
Lemma ke_ull (P : Z) v n : answer (k_ts_ull_to_bytes P v n) = Ok (ts_ull_to_bytes v n). Proof. reflexivity. Qed.
#[global] Hint Resolve ke_bytes_to_ull : ke.
(** ** sha256.c *)
Lemma ke_RORc (P : Z) x k : answer (k_RORc P x k) = Ok (RORc x k).
Proof. unfold k_RORc; rewrite ?answer_call; cbv zeta; rewrite answer_if; unfold RORc; cbv zeta. destruct (Z.land k 31 =? 0); reflexivity. Qed.
Lemma ke_Sigma0 (P : Z) x : answer (k_Sigma0_32 P x) = Ok (Sigma0_32 x).
Proof. unfold k_Sigma0_32; rewrite ?answer_call. repeat (eapply kbind_pure; [apply ke_RORc|]). reflexivity. Qed.
Lemma ke_Sigma1 (P : Z) x : answer (k_Sigma1_32 P x) = Ok (Sigma1_32 x).
Proof. unfold k_Sigma1_32; rewrite ?answer_call. repeat (eapply kbind_pure; [apply ke_RORc|]). reflexivity. Qed.
Lemma ke_Gamma0 (P : Z) x : answer (k_Gamma0_32 P x) = Ok (Gamma0_32 x).
Proof. unfold k_Gamma0_32; rewrite ?answer_call. repeat (eapply kbind_pure; [apply ke_RORc|]). reflexivity. Qed.
Lemma ke_Gamma1 (P : Z) x : answer (k_Gamma1_32 P x) = Ok (Gamma1_32 x).
Proof. unfold k_Gamma1_32; rewrite ?answer_call. repeat (eapply kbind_pure; [apply ke_RORc|]). reflexivity. Qed.
Lemma ke_load_W256 (P : Z) le b x : answer (k_sha256_load_W P le b x) = sha256_load_W le b x.
Proof. unfold k_sha256_load_W, sha256_load_W; rewrite ?answer_call. ke. Qed.
Lemma ke_round256 (P : Z) le i st : answer (k_sha256_round P le i st) = sha256_round le i st.
Proof.
  unfold k_sha256_round, sha256_round; rewrite ?answer_call. destruct st as [x r]. cbv zeta. rewrite answer_bind. apply bind_ext2.
  - rewrite answer_if. destruct (16 <=? i); [|reflexivity].
    rewrite answer_bind. apply bind_ext2; [reflexivity|intros w2]. rewrite answer_bind. apply bind_ext2; [reflexivity|intros w7].
    rewrite answer_bind. apply bind_ext2; [reflexivity|intros w15]. rewrite answer_bind. apply bind_ext2; [reflexivity|intros w16].
    eapply kbind_pure; [apply ke_Gamma1|]. eapply kbind_pure; [apply ke_Gamma0|]. reflexivity.
  - intros x'. rewrite answer_bind. apply bind_ext2; [reflexivity|intros k]. rewrite answer_bind. apply bind_ext2; [reflexivity|intros w].
    eapply kbind_pure; [apply ke_Sigma1|]. eapply kbind_pure; [apply ke_Sigma0|]. reflexivity.
Qed.
#[global] Hint Resolve ke_load_W256 ke_round256 : ke.
Lemma ke_compress (P : Z) le c b : answer (k_compress P le c b) = compress le c b.
Proof. unfold k_compress, compress; rewrite ?answer_call. ke. Qed.
#[global] Hint Resolve ke_compress : ke.
Lemma ke_update_loop256 (P : Z) le fuel : forall c p, answer (k_sha256_update_loop P le fuel c p) = sha256_update_loop le fuel c p.
Proof.
  induction fuel as [|fuel IH]; intros c p; [reflexivity|]. cbn [k_sha256_update_loop sha256_update_loop]. cbv zeta.
  rewrite answer_if. destruct (zlen p =? 0); [reflexivity|].
  eapply (kbind_pure _ (if zlen p <? u32 (64 - s256_num c) then u32 (zlen p) else u32 (64 - s256_num c))); [rewrite answer_if; destruct (_ <? _); reflexivity|].
  rewrite answer_if. destruct (_ =? 64).
  - ke.
  - ke.
Qed.
#[global] Hint Resolve ke_update_loop256 : ke.
Lemma ke_update256 (P : Z) le c p : answer (k_ts_SHA256_update P le c p) = ts_SHA256_update le c p. Proof. apply ke_update_loop256. Qed.
#[global] Hint Resolve ke_update256 : ke.
Lemma ke_final256 (P : Z) le c n : answer (k_ts_SHA256_final_trunc P le c n) = ts_SHA256_final_trunc le c n.
Proof. unfold k_ts_SHA256_final_trunc, ts_SHA256_final_trunc; rewrite ?answer_call. eapply kbind_pure; [apply ke_ull|]. ke. Qed.
Lemma ke_final256' (P : Z) le c : answer (k_ts_SHA256_final P le c) = ts_SHA256_final le c. Proof. exact (ke_final256 P le c 32). Qed.
Lemma ke_save256 (P : Z) c : answer (k_ts_SHA256_save_state P c) = ts_SHA256_save_state c. Proof. unfold k_ts_SHA256_save_state, ts_SHA256_save_state; rewrite ?answer_call. ke. Qed.
Lemma ke_restore256 (P : Z) c s : answer (k_ts_SHA256_restore_state_after_64 P c s) = ts_SHA256_restore_state_after_64 c s.
Proof. unfold k_ts_SHA256_restore_state_after_64, ts_SHA256_restore_state_after_64; rewrite ?answer_call. ke. Qed.
#[global] Hint Resolve ke_final256 ke_final256' ke_save256 ke_restore256 : ke.

(** ** sha512.c *)
Lemma ke_ROR64 x k : answer (k_ROR64c x k) = ROR64c x k. Proof. unfold k_ROR64c, ROR64c; rewrite ?answer_call. ke. Qed.
#[global] Hint Resolve ke_ROR64 : ke.
Lemma ke_Sigma0' x : answer (k_Sigma0_64 x) = Sigma0_64 x. Proof. unfold k_Sigma0_64, Sigma0_64; rewrite ?answer_call. ke. Qed.
Lemma ke_Sigma1' x : answer (k_Sigma1_64 x) = Sigma1_64 x. Proof. unfold k_Sigma1_64, Sigma1_64; rewrite ?answer_call. ke. Qed.
Lemma ke_Gamma0' x : answer (k_Gamma0_64 x) = Gamma0_64 x. Proof. unfold k_Gamma0_64, Gamma0_64; rewrite ?answer_call. ke. Qed.
Lemma ke_Gamma1' x : answer (k_Gamma1_64 x) = Gamma1_64 x. Proof. unfold k_Gamma1_64, Gamma1_64; rewrite ?answer_call. ke. Qed.
#[global] Hint Resolve ke_Sigma0' ke_Sigma1' ke_Gamma0' ke_Gamma1' : ke.
Lemma ke_load_W512 (P : Z) le b x : answer (k_sha512_load_W P le b x) = sha512_load_W le b x.
Proof. unfold k_sha512_load_W, sha512_load_W; rewrite ?answer_call. ke. Qed.
Lemma ke_round512 le i st : answer (k_sha512_round le i st) = sha512_round le i st.
Proof. unfold k_sha512_round, sha512_round; rewrite ?answer_call. ke. Qed.
#[global] Hint Resolve ke_load_W512 ke_round512 : ke.
Lemma ke_compress512 (P : Z) le c b : answer (k_sha512_compress P le c b) = sha512_compress le c b.
Proof. unfold k_sha512_compress, sha512_compress; rewrite ?answer_call. ke. Qed.
#[global] Hint Resolve ke_compress512 : ke.
Lemma ke_update_loop512 (P : Z) le fuel : forall c p, answer (k_sha512_update_loop P le fuel c p) = sha512_update_loop le fuel c p.
Proof.
  induction fuel as [|fuel IH]; intros c p; [reflexivity|]. cbn [k_sha512_update_loop sha512_update_loop]. cbv zeta.
  rewrite answer_if. destruct (zlen p =? 0); [reflexivity|].
  eapply (kbind_pure _ (if zlen p <? u32 (128 - s512_num c) then u32 (zlen p) else u32 (128 - s512_num c))); [rewrite answer_if; destruct (_ <? _); reflexivity|].
  rewrite answer_if. destruct (_ =? 128).
  - ke.
  - ke.
Qed.
#[global] Hint Resolve ke_update_loop512 : ke.
Lemma ke_update512 (P : Z) le c p : answer (k_ts_SHA512_update P le c p) = ts_SHA512_update le c p. Proof. apply ke_update_loop512. Qed.
#[global] Hint Resolve ke_update512 : ke.
Lemma ke_final512 (P : Z) le c n : answer (k_ts_SHA512_final_trunc P le c n) = ts_SHA512_final_trunc le c n.
Proof. unfold k_ts_SHA512_final_trunc, ts_SHA512_final_trunc; rewrite ?answer_call. eapply kbind_pure; [apply ke_ull|]. ke. Qed.
Lemma ke_final512' (P : Z) le c : answer (k_ts_SHA512_final P le c) = ts_SHA512_final le c. Proof. exact (ke_final512 P le c 64). Qed.
Lemma ke_save512 (P : Z) c : answer (k_ts_SHA512_save_state P c) = ts_SHA512_save_state c. Proof. unfold k_ts_SHA512_save_state, ts_SHA512_save_state; rewrite ?answer_call. ke. Qed.
Lemma ke_restore512 (P : Z) c s : answer (k_ts_SHA512_restore_state_after_128 P c s) = ts_SHA512_restore_state_after_128 c s.
Proof. unfold k_ts_SHA512_restore_state_after_128, ts_SHA512_restore_state_after_128; rewrite ?answer_call. ke. Qed.
#[global] Hint Resolve ke_final512 ke_final512' ke_save512 ke_restore512 : ke.
