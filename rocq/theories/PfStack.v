(** * Bounds for the automatic storage: the hash functions *)
From Verif Require Import CSem CStack ModelEndian ModelSha256 ModelSha512 ModelFips202 ModelParams ModelCtx ModelHash ModelSphincs ModelKeygen
  StkSha2 StkFips202 StkHash.
Ltac Zify.zify_post_hook ::= idtac.

(** The parameter set of the context (or contexts) in an outcome is [ps] *)
Definition keep (ps : parameter_set) (c : ts_context) : Prop := c_ps c = ps.
Definition keep2 {A} (ps : parameter_set) (p : A * ts_context) : Prop := c_ps (snd p) = ps.
Definition keep1 {A} (ps : parameter_set) (p : ts_context * A) : Prop := c_ps (fst p) = ps.
Definition keepo (ps : parameter_set) (o : option ts_context) : Prop := match o with Some c => c_ps c = ps | None => True end.
Definition keeps (ps : parameter_set) (o : ts_context + Z * ts_context) : Prop := match o with inl c => c_ps c = ps | inr p => c_ps (snd p) = ps end.

Create HintDb ft discriminated.
#[global] Hint Constants Opaque : ft.
Lemma ft_calm {A} (o : outcome A) : fits 0 anything (calm o). Proof. split; [reflexivity|intros; exact I]. Qed.
Lemma ft_int_val x : fits 0 anything (k_int_val x). Proof. apply ft_calm. Qed.
Lemma ft_shift w x : fits 0 anything (k_shift_count w x). Proof. apply ft_calm. Qed.
Lemma ft_rd {A} (a : list A) i : fits 0 anything (k_rd a i). Proof. apply ft_calm. Qed.
Lemma ft_wr {A} (a : list A) i v : fits 0 anything (k_wr a i v). Proof. apply ft_calm. Qed.
Lemma ft_rd_range {A} (a : list A) o n : fits 0 anything (k_rd_range a o n). Proof. apply ft_calm. Qed.
Lemma ft_wr_range {A} (a : list A) o s : fits 0 anything (k_wr_range a o s). Proof. apply ft_calm. Qed.
Lemma ft_memset {A} (a : list A) o v n : fits 0 anything (k_memset a o v n). Proof. apply ft_calm. Qed.
Lemma ft_defined l : fits 0 anything (k_defined l). Proof. apply ft_calm. Qed.
Lemma ft_rd_local a o n : fits 0 anything (k_rd_local a o n). Proof. apply ft_calm. Qed.
Lemma ft_wr_local a o s : fits 0 anything (k_wr_local a o s). Proof. apply ft_calm. Qed.
Lemma ft_load m a n : fits 0 anything (k_load m a n). Proof. apply ft_calm. Qed.
Lemma ft_rd_word le sz a o i : fits 0 anything (k_rd_word le sz a o i). Proof. apply ft_calm. Qed.
Lemma ft_wr_word le sz a o i v : fits 0 anything (k_wr_word le sz a o i v). Proof. apply ft_calm. Qed.
#[global] Hint Resolve ft_calm ft_int_val ft_shift ft_rd ft_wr ft_rd_range ft_wr_range ft_memset ft_defined ft_rd_local ft_wr_local ft_load ft_rd_word ft_wr_word : ft.

Lemma hp P : P = 4 \/ P = 8 -> 4 <= P <= 8. Proof. lia. Qed.
Ltac qs := solve [exact I | assumption | reflexivity | unfold keep, keep1, keep2, keepo, keeps in *; assumption
  | unfold keep, keep1, keep2, keepo, keeps in *; cbn [fst snd] in *; (assumption || (intros; exact I) || reflexivity) ].
Ltac leaf := eapply fits_le; [solve [eauto 3 with ft nocore] | lia].
(** The property that the outcome of a compound first step gets, by its type *)
Ltac prop_of x ps :=
  lazymatch type of x with
  | stacked ts_context => constr:(keep ps)
  | stacked (?A * ts_context) => constr:(@keep2 A ps)
  | stacked (option ts_context) => constr:(keepo ps)
  | stacked ?A => constr:(@anything A)
  end.
Ltac tidy := repeat match goal with
  | H : anything _ |- _ => clear H
  | H : answer _ = Ok _ |- _ => clear H
  | H : keep2 _ (_, _) |- _ => unfold keep2 in H; cbn [snd] in H
  | H : keep1 _ (_, _) |- _ => unfold keep1 in H; cbn [fst] in H
  end.
Ltac ft_with ps :=
  lazymatch goal with
  | |- fits _ _ (let x := _ in _) => cbv zeta; ft_with ps
  | |- fits _ _ (call _ _) => apply fits_call; ft_with ps
  | |- fits _ _ (kret _) => apply fits_ret; [lia | qs]
  | |- fits _ _ (kub _) => apply fits_ub; lia
  | |- fits _ _ (kif _ _ _) => apply fits_if; intros _; ft_with ps
  | |- fits _ _ (sbind ?x _) =>
      first [ eapply fits_bind; [leaf|]
            | let Q := prop_of x ps in apply (fits_bind _ Q); [ft_with ps|] ];
      [.. | let a := fresh "a" in let Ea := fresh "E" in let Ha := fresh "Ha" in
            intros a Ea Ha;
            try (lazymatch type of a with (_ * _)%type => let b := fresh "b" in destruct a as [a b] | _ => idtac end);
            try (lazymatch type of a with (_ * _)%type => let b := fresh "b" in destruct a as [a b] | _ => idtac end);
            try (lazymatch type of a with (_ * _)%type => let b := fresh "b" in destruct a as [a b] | _ => idtac end);
            tidy; cbv beta iota; ft_with ps ]
  | |- fits _ ?Q (k_for _ _ _ _) => apply fits_for; [lia | let j := fresh "j" in let s := fresh "s" in let H := fresh "Hs" in
            intros j s H;
            try (lazymatch type of s with (_ * _)%type => let b := fresh "b" in destruct s as [s b] | _ => idtac end);
            try (lazymatch type of s with (_ * _)%type => let b := fresh "b" in destruct s as [s b] | _ => idtac end);
            try (lazymatch type of s with (_ * _)%type => let b := fresh "b" in destruct s as [s b] | _ => idtac end);
            tidy; cbv beta iota; ft_with ps | qs]
  | |- fits _ _ (if ?b then _ else _) => destruct b; ft_with ps
  | |- fits _ _ (match ?x with _ => _ end) => destruct x; ft_with ps
  | |- fits _ _ _ => first [ eapply fits_le; [eapply fits_weaken; [solve [eauto 3 with ft nocore] | intros ? ? ?; qs] | lia] ]
  end.
Ltac ft := ft_with (@None unit).

(** ** endian.c, sha256.c, sha512.c *)
Section Sha2.
Variable P : Z.
Hypothesis HP : 4 <= P <= 8.
Lemma ft_bytes_to_ull p n : fits (P + 16) anything (k_ts_bytes_to_ull P p n). Proof using HP. unfold k_ts_bytes_to_ull. ft. Qed.
Lemma ft_ull v n : fits (P + 16) anything (k_ts_ull_to_bytes P v n). Proof using HP. unfold k_ts_ull_to_bytes. ft. Qed.
Lemma ft_RORc x k : fits (2 * P + 8) anything (k_RORc P x k). Proof using HP. unfold k_RORc. ft. Qed.
Hint Resolve ft_bytes_to_ull ft_ull ft_RORc : ft.
Lemma ft_Sigma0 x : fits (2 * P + 8) anything (k_Sigma0_32 P x). Proof using HP. unfold k_Sigma0_32. ft. Qed.
Lemma ft_Sigma1 x : fits (2 * P + 8) anything (k_Sigma1_32 P x). Proof using HP. unfold k_Sigma1_32. ft. Qed.
Lemma ft_Gamma0 x : fits (2 * P + 8) anything (k_Gamma0_32 P x). Proof using HP. unfold k_Gamma0_32. ft. Qed.
Lemma ft_Gamma1 x : fits (2 * P + 8) anything (k_Gamma1_32 P x). Proof using HP. unfold k_Gamma1_32. ft. Qed.
Hint Resolve ft_Sigma0 ft_Sigma1 ft_Gamma0 ft_Gamma1 : ft.
Lemma ft_load256 le b x : fits (P + 16) anything (k_sha256_load_W P le b x). Proof using HP. unfold k_sha256_load_W. ft. Qed.
Lemma ft_round256 le i st : fits (P + 16) anything (k_sha256_round P le i st). Proof using HP. unfold k_sha256_round. ft. Qed.
Hint Resolve ft_load256 ft_round256 : ft.
Lemma ft_compress le c b : fits (4 * P + 64) anything (k_compress P le c b). Proof using HP. unfold k_compress. ft. Qed.
Hint Resolve ft_compress : ft.
Lemma ft_loop256 le fuel : forall c p, fits (4 * P + 64) anything (k_sha256_update_loop P le fuel c p).
Proof using HP. induction fuel as [|fuel IH]; intros c p; cbn [k_sha256_update_loop]; ft. Qed.
Hint Resolve ft_loop256 : ft.
Lemma ft_update256 le c p : fits (8 * P + 76) anything (k_ts_SHA256_update P le c p). Proof using HP. unfold k_ts_SHA256_update. ft. Qed.
Hint Resolve ft_update256 : ft.
Lemma ft_final256 le c n : fits (10 * P + 92) anything (k_ts_SHA256_final_trunc P le c n). Proof using HP. unfold k_ts_SHA256_final_trunc. ft. Qed.
Hint Resolve ft_final256 : ft.
Lemma ft_final256' le c : fits (12 * P + 92) anything (k_ts_SHA256_final P le c). Proof using HP. unfold k_ts_SHA256_final. ft. Qed.
Lemma ft_save256 c : fits (3 * P + 20) anything (k_ts_SHA256_save_state P c). Proof using HP. unfold k_ts_SHA256_save_state. ft. Qed.
Lemma ft_restore256 c s : fits (3 * P + 20) anything (k_ts_SHA256_restore_state_after_64 P c s). Proof using HP. unfold k_ts_SHA256_restore_state_after_64. ft. Qed.
Lemma ft_init256 c : fits P anything (k_ts_SHA256_init P c). Proof using HP. unfold k_ts_SHA256_init. ft. Qed.
(** sha512.c *)
Lemma ft_ROR64 x k : fits 0 anything (k_ROR64c x k). Proof. unfold k_ROR64c. ft. Qed.
Hint Resolve ft_ROR64 : ft.
Lemma ft_Sigma0' x : fits 0 anything (k_Sigma0_64 x). Proof. unfold k_Sigma0_64. ft. Qed.
Lemma ft_Sigma1' x : fits 0 anything (k_Sigma1_64 x). Proof. unfold k_Sigma1_64. ft. Qed.
Lemma ft_Gamma0' x : fits 0 anything (k_Gamma0_64 x). Proof. unfold k_Gamma0_64. ft. Qed.
Lemma ft_Gamma1' x : fits 0 anything (k_Gamma1_64 x). Proof. unfold k_Gamma1_64. ft. Qed.
Hint Resolve ft_Sigma0' ft_Sigma1' ft_Gamma0' ft_Gamma1' : ft.
Lemma ft_load512 le b x : fits (P + 16) anything (k_sha512_load_W P le b x). Proof using HP. unfold k_sha512_load_W. ft. Qed.
Lemma ft_round512 le i st : fits 0 anything (k_sha512_round le i st). Proof. unfold k_sha512_round. ft. Qed.
Hint Resolve ft_load512 ft_round512 : ft.
Lemma ft_compress512 le c b : fits (4 * P + 100) anything (k_sha512_compress P le c b). Proof using HP. unfold k_sha512_compress. ft. Qed.
Hint Resolve ft_compress512 : ft.
Lemma ft_loop512 le fuel : forall c p, fits (4 * P + 100) anything (k_sha512_update_loop P le fuel c p).
Proof using HP. induction fuel as [|fuel IH]; intros c p; cbn [k_sha512_update_loop]; ft. Qed.
Hint Resolve ft_loop512 : ft.
Lemma ft_update512 le c p : fits (8 * P + 112) anything (k_ts_SHA512_update P le c p). Proof using HP. unfold k_ts_SHA512_update. ft. Qed.
Hint Resolve ft_update512 : ft.
Lemma ft_final512 le c n : fits (10 * P + 136) anything (k_ts_SHA512_final_trunc P le c n). Proof using HP. unfold k_ts_SHA512_final_trunc. ft. Qed.
Hint Resolve ft_final512 : ft.
Lemma ft_final512' le c : fits (12 * P + 136) anything (k_ts_SHA512_final P le c). Proof using HP. unfold k_ts_SHA512_final. ft. Qed.
Lemma ft_save512 c : fits (3 * P + 20) anything (k_ts_SHA512_save_state P c). Proof using HP. unfold k_ts_SHA512_save_state. ft. Qed.
Lemma ft_restore512 c s : fits (3 * P + 20) anything (k_ts_SHA512_restore_state_after_128 P c s). Proof using HP. unfold k_ts_SHA512_restore_state_after_128. ft. Qed.
Lemma ft_init512 c : fits P anything (k_ts_SHA512_init P c). Proof using HP. unfold k_ts_SHA512_init. ft. Qed.
End Sha2.

(** ** fips202.c *)
(** What the permutation takes beside its pointer, by TS_SHAKE256_OPT *)
Definition perm_space (opt : Z) : Z := if opt =? 2 then 72 else if opt =? 1 then 296 else 496.
Lemma perm_space_pos opt : 72 <= perm_space opt. Proof. unfold perm_space. destruct (opt =? 2), (opt =? 1); lia. Qed.
Section Fips202.
Variable P : Z.
Hypothesis HP : 4 <= P <= 8.
Lemma ft_ROL a k : fits 12 anything (k_ROL a k). Proof. unfold k_ROL. ft. Qed.
Hint Resolve ft_ROL : ft.
Lemma ft_keval r env e : fits 12 anything (k_keval r env e). Proof. induction e; cbn [k_keval]; ft. Qed.
Hint Resolve ft_keval : ft.
Lemma ft_kexec r env s : fits 12 anything (k_kexec r env s). Proof. destruct s as [v e]. unfold k_kexec. ft. Qed.
Hint Resolve ft_kexec : ft.
Lemma ft_kexecs r l : forall env, fits 12 anything (k_kexecs r env l). Proof. induction l as [|s l IH]; intros env; cbn [k_kexecs]; ft. Qed.
Hint Resolve ft_kexecs : ft.
Lemma ft_rounds01 env : fits 12 anything (k_keccak_rounds_01 env). Proof. unfold k_keccak_rounds_01. ft. Qed.
Hint Resolve ft_rounds01 : ft.
Lemma ft_opt0 s : fits (P + 496) anything (k_KeccakF1600_opt0 P s). Proof using HP. unfold k_KeccakF1600_opt0. ft. Qed.
Lemma ft_opt1 s : fits (P + 296) anything (k_KeccakF1600_opt1 P s). Proof using HP. unfold k_KeccakF1600_opt1. ft. Qed.
Lemma ft_rd_bc bc i : fits 0 anything (k_rd_bc bc i). Proof. unfold k_rd_bc. ft. Qed.
Hint Resolve ft_rd_bc : ft.
Lemma ft_theta s : fits 12 anything (k_opt2_theta s). Proof. unfold k_opt2_theta. ft. Qed.
Lemma ft_rhopi s : fits 12 anything (k_opt2_rhopi s). Proof. unfold k_opt2_rhopi. ft. Qed.
Lemma ft_chi s : fits 12 anything (k_opt2_chi s). Proof. unfold k_opt2_chi. ft. Qed.
Hint Resolve ft_theta ft_rhopi ft_chi : ft.
Lemma ft_round2 r s : fits 12 anything (k_opt2_round r s). Proof. unfold k_opt2_round. ft. Qed.
Hint Resolve ft_round2 : ft.
Lemma ft_opt2 s : fits (P + 72) anything (k_KeccakF1600_opt2 P s). Proof using HP. unfold k_KeccakF1600_opt2. ft. Qed.
Hint Resolve ft_opt0 ft_opt1 ft_opt2 : ft.
Lemma ft_perm opt s : fits (P + perm_space opt) anything (k_KeccakF1600_StatePermute P opt s).
Proof using HP. unfold k_KeccakF1600_StatePermute, perm_space. destruct (opt =? 2); [|destruct (opt =? 1)]; ft. Qed.
Hint Resolve ft_perm : ft.
Variable opt : Z.
Let HK := perm_space_pos opt.
Lemma ft_inc_init s : fits (2 * P) anything (k_keccak_inc_init P s). Proof using HP. unfold k_keccak_inc_init. ft. Qed.
Lemma ft_absorb_bytes s m k : fits 0 anything (k_absorb_bytes s m k). Proof. unfold k_absorb_bytes. ft. Qed.
Hint Resolve ft_inc_init ft_absorb_bytes : ft.
Lemma ft_absorb_loop fuel r : forall s m, fits (P + perm_space opt) anything (k_absorb_loop P opt fuel r s m).
Proof using HP HK. induction fuel as [|fuel IH]; intros s m; cbn [k_absorb_loop]; ft. Qed.
Hint Resolve ft_absorb_loop : ft.
Lemma ft_absorb s r m : fits (6 * P + 4 + perm_space opt) anything (k_keccak_inc_absorb P opt s r m).
Proof using HP HK. unfold k_keccak_inc_absorb. ft. Qed.
Lemma ft_finalize s r p : fits (2 * P + 5) anything (k_keccak_inc_finalize P s r p). Proof using HP. unfold k_keccak_inc_finalize. ft. Qed.
Lemma ft_state_byte s p : fits 0 anything (k_state_byte s p). Proof. unfold k_state_byte. ft. Qed.
Hint Resolve ft_absorb ft_finalize ft_state_byte : ft.
Lemma ft_squeeze_loop fuel r : forall s n, fits (P + perm_space opt) anything (k_squeeze_loop P opt fuel r s n).
Proof using HP HK. induction fuel as [|fuel IH]; intros s n; cbn [k_squeeze_loop]; ft. Qed.
Hint Resolve ft_squeeze_loop : ft.
Lemma ft_squeeze n s r : fits (6 * P + 4 + perm_space opt) anything (k_keccak_inc_squeeze P opt n s r).
Proof using HP HK. unfold k_keccak_inc_squeeze. ft. Qed.
Hint Resolve ft_squeeze : ft.
Lemma ft_sh_init s : fits (3 * P) anything (k_ts_shake256_inc_init P s). Proof using HP. unfold k_ts_shake256_inc_init. ft. Qed.
Lemma ft_sh_absorb s m : fits (9 * P + 4 + perm_space opt) anything (k_ts_shake256_inc_absorb P opt s m). Proof using HP HK. unfold k_ts_shake256_inc_absorb. ft. Qed.
Lemma ft_sh_finalize s : fits (3 * P + 5) anything (k_ts_shake256_inc_finalize P s). Proof using HP. unfold k_ts_shake256_inc_finalize. ft. Qed.
Lemma ft_sh_squeeze n s : fits (9 * P + 4 + perm_space opt) anything (k_ts_shake256_inc_squeeze P opt n s). Proof using HP HK. unfold k_ts_shake256_inc_squeeze. ft. Qed.
End Fips202.

(** ** The hash glue *)
Section Hash.
Variable cfg : config.
Variable mem : memory.
Local Notation P := (SIZEOF_PTR cfg).
Local Notation T := (TS_MAX_HASH cfg).
Local Notation K := (perm_space (cfg_shake_opt cfg)).
Lemma ptr_size : 4 <= P <= 8. Proof. unfold SIZEOF_PTR. destruct (cfg_ptr64 cfg); lia. Qed.
Let HP := ptr_size.
Let HK := perm_space_pos (cfg_shake_opt cfg).
Lemma max_hash_pos : 16 <= T <= 32. Proof. unfold TS_MAX_HASH. destruct (cfg_L5 cfg), (cfg_L3 cfg); lia. Qed.
Let HT := max_hash_pos.
Hint Resolve ft_bytes_to_ull ft_ull ft_update256 ft_final256 ft_final256' ft_save256 ft_restore256 ft_init256
  ft_update512 ft_final512 ft_final512' ft_save512 ft_restore512 ft_init512 ft_sh_init ft_sh_absorb ft_sh_finalize ft_sh_squeeze : ft.
Hint Extern 0 (4 <= SIZEOF_PTR _ <= 8) => apply ptr_size : ft.
Lemma ft_get_sha256 le it : fits 0 anything (k_get_sha256 le it). Proof. unfold k_get_sha256. ft. Qed.
Lemma ft_put_sha256 le it c : fits 0 anything (k_put_sha256 le it c). Proof. unfold k_put_sha256. ft. Qed.
Lemma ft_get_sha512 it : fits 0 anything (k_get_sha512 cfg it). Proof. unfold k_get_sha512. ft. Qed.
Lemma ft_put_sha512 it c : fits 0 anything (k_put_sha512 cfg it c). Proof. unfold k_put_sha512. ft. Qed.
Lemma ft_get_shake le it : fits 0 anything (k_get_shake le it). Proof. unfold k_get_shake. ft. Qed.
Lemma ft_put_shake le it s : fits 0 anything (k_put_shake le it s). Proof. unfold k_put_shake. ft. Qed.
Lemma ft_sub_rd x b z o n : fits 0 anything (k_sub_rd x b z o n). Proof. unfold k_sub_rd. ft. Qed.
Lemma ft_sub_wr x b z o v : fits 0 anything (k_sub_wr x b z o v). Proof. unfold k_sub_wr. ft. Qed.
Hint Resolve ft_get_sha256 ft_put_sha256 ft_get_sha512 ft_put_sha512 ft_get_shake ft_put_shake ft_sub_rd ft_sub_wr : ft.
Lemma ft_get_node x k : fits 0 anything (k_get_fors_node cfg x k). Proof. unfold k_get_fors_node. ft. Qed.
Lemma ft_set_node x k v : fits 0 anything (k_set_fors_node cfg x k v). Proof. unfold k_set_fors_node. ft. Qed.
Lemma ft_get_digit x : fits 0 anything (k_get_digit x). Proof. unfold k_get_digit. ft. Qed.
Lemma ft_set_digit x v : fits 0 anything (k_set_digit x v). Proof. unfold k_set_digit. ft. Qed.
Lemma ft_get_digits x v : fits 0 anything (k_get_digits cfg x v). Proof. unfold k_get_digits. ft. Qed.
Lemma ft_set_digits x i v : fits 0 anything (k_set_digits cfg x i v). Proof. unfold k_set_digits. ft. Qed.
Lemma ft_get_buf c b n : fits 0 anything (k_get_buf cfg c b n). Proof. unfold k_get_buf. ft. Qed.
Lemma ft_put_buf ps c b v : c_ps c = ps -> fits 0 (keep ps) (k_put_buf cfg c b v). Proof. intros H. unfold k_put_buf. ft_with ps. Qed.
Lemma ft_pad256 c n : fits (8 * P + 76) anything (k_sha256_pad_zero cfg c n). Proof using HP. unfold k_sha256_pad_zero. ft. Qed.
Lemma ft_pad512 c n : fits (8 * P + 112) anything (k_sha512_pad_zero cfg c n). Proof using HP. unfold k_sha512_pad_zero. ft. Qed.
Hint Resolve ft_pad256 ft_pad512 : ft.
Lemma ft_init_ctx256 c sc : fits (10 * P + 84) anything (k_ts_sha256_init_ctx cfg mem c sc).
Proof using HP. unfold k_ts_sha256_init_ctx. destruct (cfg_sha2_opt cfg); ft. Qed.
Lemma ft_init_ctx512 c sc : fits (10 * P + 120) anything (k_ts_sha512_init_ctx cfg mem c sc).
Proof using HP. unfold k_ts_sha512_init_ctx. destruct (cfg_sha2_opt cfg); ft. Qed.
Hint Resolve ft_init_ctx256 ft_init_ctx512 : ft.
Variable ps : parameter_set.
Lemma ft_sha2_prf c : c_ps c = ps -> fits (13 * P + 96) (keep2 ps) (k_ts_sha2_prf cfg mem c).
Proof using HP. intros H. unfold k_ts_sha2_prf. ft_with ps. Qed.
Lemma ft_sha2_f b c : c_ps c = ps -> fits (14 * P + 96) (keep2 ps) (k_ts_sha2_f_simple cfg mem b c).
Proof using HP. intros H. unfold k_ts_sha2_f_simple. ft_with ps. Qed.
Lemma ft_L1_init t c : fits (12 * P + 84) anything (k_ts_sha2_L1_init_t_simple cfg mem t c).
Proof using HP. unfold k_ts_sha2_L1_init_t_simple. ft. Qed.
Lemma ft_L1_next t i c : fits (11 * P + 80) anything (k_ts_sha2_L1_next_t_simple cfg t i c).
Proof using HP. unfold k_ts_sha2_L1_next_t_simple. ft. Qed.
Lemma ft_L1_final t c : fits (13 * P + 96) anything (k_ts_sha2_L1_final_t_simple cfg t c).
Proof using HP. unfold k_ts_sha2_L1_final_t_simple. ft. Qed.
Lemma ft_L1_prehash c : c_ps c = ps -> fits (10 * P + 84) (keep ps) (k_ts_sha2_L1_prehash cfg mem c).
Proof using HP. intros H. unfold k_ts_sha2_L1_prehash. ft_with ps. Qed.
Lemma ft_L35_init t c : fits (12 * P + 120) anything (k_ts_sha2_L35_init_t_simple cfg mem t c).
Proof using HP. unfold k_ts_sha2_L35_init_t_simple. ft. Qed.
Lemma ft_L35_next t i c : fits (11 * P + 116) anything (k_ts_sha2_L35_next_t_simple cfg t i c).
Proof using HP. unfold k_ts_sha2_L35_next_t_simple. ft. Qed.
Lemma ft_L35_final t c : fits (13 * P + 140) anything (k_ts_sha2_L35_final_t_simple cfg t c).
Proof using HP. unfold k_ts_sha2_L35_final_t_simple. ft. Qed.
Hint Resolve ft_L1_prehash : ft.
Lemma ft_L35_prehash c : c_ps c = ps -> fits (10 * P + 120) (keep ps) (k_ts_sha2_L35_prehash cfg mem c).
Proof using HP. intros H. unfold k_ts_sha2_L35_prehash. ft_with ps. Qed.
Lemma ft_hmac b s v pk n : fits 0 anything (k_hmac_block mem b s v pk n). Proof. unfold k_hmac_block. ft. Qed.
Hint Resolve ft_hmac : ft.
Lemma ft_L1_prf_msg o m c : c_ps c = ps -> fits (19 * P + 200) (keep2 ps) (k_ts_sha2_L1_prf_msg cfg mem o m c).
Proof using HP. intros H. unfold k_ts_sha2_L1_prf_msg. ft_with ps. Qed.
Lemma ft_mgf256 fuel n : forall mh c i k, fits (12 * P + 92) anything (k_sha256_mgf_loop cfg fuel n mh c i k).
Proof using HP. induction fuel as [|fuel IH]; intros mh c i k; cbn [k_sha256_mgf_loop]; ft. Qed.
Hint Resolve ft_mgf256 : ft.
Lemma ft_L1_hash_msg k r m c : c_ps c = ps -> fits (20 * P + 172 + 2 * T) (keep2 ps) (k_ts_sha2_L1_hash_msg cfg mem k r m c).
Proof using HP HT. intros H. unfold k_ts_sha2_L1_hash_msg. ft_with ps. Qed.
Lemma ft_L35_prf_msg o m c : c_ps c = ps -> fits (19 * P + 340) (keep2 ps) (k_ts_sha2_L35_prf_msg cfg mem o m c).
Proof using HP. intros H. unfold k_ts_sha2_L35_prf_msg. ft_with ps. Qed.
Lemma ft_mgf512 fuel n : forall mh c i k, fits (12 * P + 136) anything (k_sha512_mgf_loop cfg fuel n mh c i k).
Proof using HP. induction fuel as [|fuel IH]; intros mh c i k; cbn [k_sha512_mgf_loop]; ft. Qed.
Hint Resolve ft_mgf512 : ft.
Lemma ft_L35_hash_msg k r m c : c_ps c = ps -> fits (20 * P + 280 + 2 * T) (keep2 ps) (k_ts_sha2_L35_hash_msg cfg mem k r m c).
Proof using HP HT. intros H. unfold k_ts_sha2_L35_hash_msg. ft_with ps. Qed.
Lemma ft_shk_prf_msg o m c : c_ps c = ps -> fits (16 * P + 8 + K) (keep2 ps) (k_ts_shake256_prf_msg cfg mem o m c).
Proof using HP HK. intros H. unfold k_ts_shake256_prf_msg. ft_with ps. Qed.
Lemma ft_shk_hash_msg k r m c : c_ps c = ps -> fits (19 * P + 8 + K) (keep2 ps) (k_ts_shake256_hash_msg cfg mem k r m c).
Proof using HP HK. intros H. unfold k_ts_shake256_hash_msg. ft_with ps. Qed.
Lemma ft_shk_prf c : c_ps c = ps -> fits (12 * P + 8 + K) (keep2 ps) (k_ts_shake256_prf cfg mem c).
Proof using HP HK. intros H. unfold k_ts_shake256_prf. ft_with ps. Qed.
Lemma ft_shk_init t c : fits (13 * P + 8 + K) anything (k_ts_shake256_init_t_simple cfg mem t c).
Proof using HP HK. unfold k_ts_shake256_init_t_simple. ft. Qed.
Lemma ft_shk_next t i c : fits (13 * P + 8 + K) anything (k_ts_shake256_next_t_simple cfg t i c).
Proof using HP HK. unfold k_ts_shake256_next_t_simple. ft. Qed.
Lemma ft_shk_final t c : fits (13 * P + 8 + K) anything (k_ts_shake256_final_t_simple cfg t c).
Proof using HP HK. unfold k_ts_shake256_final_t_simple. ft. Qed.
Hint Resolve ft_shk_init ft_shk_next ft_shk_final : ft.
Lemma ft_shk_f b c : c_ps c = ps -> fits (17 * P + 8 + K) (keep2 ps) (k_ts_shake256_f_simple cfg mem b c).
Proof using HP HK. intros H. unfold k_ts_shake256_f_simple. ft_with ps. Qed.
End Hash.
