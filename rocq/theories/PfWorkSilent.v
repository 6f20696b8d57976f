(** * Counting calls: the hash functions themselves call nothing through a pointer *)
From Verif Require Import CSem CLeak ModelSha256 ModelSha512 ModelFips202 ModelParams ModelCtx ModelHash
  LeakSha2 LeakFips202 LeakHash SpecWork.
Ltac Zify.zify_post_hook ::= idtac.

Definition quiet_event (e : event) : Prop := match e with Jump _ => False | _ => True end.
Definition silent {A} (x : leaky A) : Prop := Forall quiet_event (trace x).
Lemma silent_bind {A B} (x : leaky A) (k : A -> leaky B) : silent x -> (forall a, silent (k a)) -> silent (lbind x k).
Proof.
  intros H K. unfold silent, trace, lbind in *. destruct (snd x) as [a|]; [|exact H]. cbn [fst]. apply Forall_app. split; [exact H|apply K].
Qed.
Lemma silent_tick {A} e (x : leaky A) : quiet_event e -> silent x -> silent (tick e x).
Proof. intros H K. constructor; assumption. Qed.
Lemma silent_if {A} b (x y : leaky A) : silent x -> silent y -> silent (lif b x y).
Proof. intros H K. apply silent_tick; [exact I|]. destruct b; assumption. Qed.
Lemma silent_quiet {A} (o : outcome A) : silent (quiet o). Proof. constructor. Qed.
Lemma silent_ret {A} (a : A) : silent (lret a). Proof. constructor. Qed.
Lemma silent_ub {A} r : silent (@lub A r). Proof. constructor. Qed.
Lemma silent_for {S} n : forall i (b : Z -> S -> leaky S) s, (forall i s, silent (b i s)) -> silent (l_for n i b s).
Proof.
  induction n as [|n IH]; intros i b s H; cbn [l_for]; (apply silent_tick; [exact I|]); [apply silent_ret|].
  apply silent_bind; [apply H|]. intros a. apply IH, H.
Qed.
Create HintDb si.
Lemma si_rd {A} (a : list A) i : silent (l_rd a i). Proof. apply silent_tick; [exact I|constructor]. Qed.
Lemma si_wr {A} (a : list A) i v : silent (l_wr a i v). Proof. apply silent_tick; [exact I|constructor]. Qed.
Lemma si_rd_range {A} (a : list A) i k : silent (l_rd_range a i k). Proof. apply silent_tick; [exact I|constructor]. Qed.
Lemma si_wr_range {A} (a : list A) i v : silent (l_wr_range a i v). Proof. apply silent_tick; [exact I|constructor]. Qed.
Lemma si_memset {A} (a : list A) i v k : silent (l_memset a i v k). Proof. apply silent_tick; [exact I|constructor]. Qed.
Lemma si_rd_local a i k : silent (l_rd_local a i k). Proof. apply silent_tick; [exact I|constructor]. Qed.
Lemma si_wr_local a i v : silent (l_wr_local a i v). Proof. apply silent_tick; [exact I|constructor]. Qed.
Lemma si_load m a k : silent (l_load m a k). Proof. apply silent_tick; [exact I|constructor]. Qed.
Lemma si_rd_word le sz a o i : silent (l_rd_word le sz a o i). Proof. apply silent_tick; [exact I|constructor]. Qed.
Lemma si_wr_word le sz a o i v : silent (l_wr_word le sz a o i v). Proof. apply silent_tick; [exact I|constructor]. Qed.
Lemma si_shift w k : silent (l_shift_count w k). Proof. apply silent_tick; [exact I|constructor]. Qed.
Lemma si_int x : silent (l_int_val x). Proof. constructor. Qed.
Lemma si_defined x : silent (l_defined x). Proof. constructor. Qed.
#[global] Hint Resolve si_rd si_wr si_rd_range si_wr_range si_memset si_rd_local si_wr_local si_load si_rd_word si_wr_word si_shift si_int si_defined : si.
Ltac sil0 := first
  [ apply silent_ret | apply silent_ub | apply silent_quiet
  | solve [auto with si nocore]
  | match goal with
    | |- silent (lbind _ _) => apply silent_bind; [sil0 | intros; sil0]
    | |- silent (lif _ _ _) => apply silent_if; sil0
    | |- silent (l_for _ _ _ _) => apply silent_for; intros; sil0
    | |- silent (tick _ _) => apply silent_tick; [exact I|sil0]
    | |- silent (match ?x with _ => _ end) => destruct x; sil0
    | |- context [match ?x with _ => _ end] => is_var x; destruct x; sil0
    end ].
Ltac sil := cbv zeta; sil0.
Lemma si_ts_bytes_to_ull x0 x1 : silent (l_ts_bytes_to_ull x0 x1).
Proof. unfold l_ts_bytes_to_ull. sil. Qed.
#[global] Hint Resolve si_ts_bytes_to_ull : si.
Lemma si_ts_ull_to_bytes x0 x1 : silent (l_ts_ull_to_bytes x0 x1).
Proof. unfold l_ts_ull_to_bytes. sil. Qed.
#[global] Hint Resolve si_ts_ull_to_bytes : si.
Lemma si_RORc x0 x1 : silent (l_RORc x0 x1).
Proof. unfold l_RORc. sil. Qed.
#[global] Hint Resolve si_RORc : si.
Lemma si_Sigma0_32 x0 : silent (l_Sigma0_32 x0).
Proof. unfold l_Sigma0_32. sil. Qed.
#[global] Hint Resolve si_Sigma0_32 : si.
Lemma si_Sigma1_32 x0 : silent (l_Sigma1_32 x0).
Proof. unfold l_Sigma1_32. sil. Qed.
#[global] Hint Resolve si_Sigma1_32 : si.
Lemma si_Gamma0_32 x0 : silent (l_Gamma0_32 x0).
Proof. unfold l_Gamma0_32. sil. Qed.
#[global] Hint Resolve si_Gamma0_32 : si.
Lemma si_Gamma1_32 x0 : silent (l_Gamma1_32 x0).
Proof. unfold l_Gamma1_32. sil. Qed.
#[global] Hint Resolve si_Gamma1_32 : si.
Lemma si_sha256_load_W x0 x1 x2 : silent (l_sha256_load_W x0 x1 x2).
Proof. unfold l_sha256_load_W. sil. Qed.
#[global] Hint Resolve si_sha256_load_W : si.
Lemma si_sha256_round x0 x1 x2 : silent (l_sha256_round x0 x1 x2).
Proof. unfold l_sha256_round. sil. Qed.
#[global] Hint Resolve si_sha256_round : si.
Lemma si_compress x0 x1 x2 : silent (l_compress x0 x1 x2).
Proof. unfold l_compress. sil. Qed.
#[global] Hint Resolve si_compress : si.
Lemma si_sha256_update_loop le fuel : forall c p, silent (l_sha256_update_loop le fuel c p).
Proof. induction fuel as [|fuel IH]; intros c p; [apply silent_ub|]. cbn [l_sha256_update_loop]. sil. Qed.
#[global] Hint Resolve si_sha256_update_loop : si.
Lemma si_ts_SHA256_update x0 x1 x2 : silent (l_ts_SHA256_update x0 x1 x2).
Proof. unfold l_ts_SHA256_update. sil. Qed.
#[global] Hint Resolve si_ts_SHA256_update : si.
Lemma si_ts_SHA256_final_trunc x0 x1 x2 : silent (l_ts_SHA256_final_trunc x0 x1 x2).
Proof. unfold l_ts_SHA256_final_trunc. sil. Qed.
#[global] Hint Resolve si_ts_SHA256_final_trunc : si.
Lemma si_ts_SHA256_final x0 x1 : silent (l_ts_SHA256_final x0 x1).
Proof. unfold l_ts_SHA256_final. sil. Qed.
#[global] Hint Resolve si_ts_SHA256_final : si.
Lemma si_ts_SHA256_save_state x0 : silent (l_ts_SHA256_save_state x0).
Proof. unfold l_ts_SHA256_save_state. sil. Qed.
#[global] Hint Resolve si_ts_SHA256_save_state : si.
Lemma si_ts_SHA256_restore_state_after_64 x0 x1 : silent (l_ts_SHA256_restore_state_after_64 x0 x1).
Proof. unfold l_ts_SHA256_restore_state_after_64. sil. Qed.
#[global] Hint Resolve si_ts_SHA256_restore_state_after_64 : si.
Lemma si_ROR64c x0 x1 : silent (l_ROR64c x0 x1).
Proof. unfold l_ROR64c. sil. Qed.
#[global] Hint Resolve si_ROR64c : si.
Lemma si_Sigma0_64 x0 : silent (l_Sigma0_64 x0).
Proof. unfold l_Sigma0_64. sil. Qed.
#[global] Hint Resolve si_Sigma0_64 : si.
Lemma si_Sigma1_64 x0 : silent (l_Sigma1_64 x0).
Proof. unfold l_Sigma1_64. sil. Qed.
#[global] Hint Resolve si_Sigma1_64 : si.
Lemma si_Gamma0_64 x0 : silent (l_Gamma0_64 x0).
Proof. unfold l_Gamma0_64. sil. Qed.
#[global] Hint Resolve si_Gamma0_64 : si.
Lemma si_Gamma1_64 x0 : silent (l_Gamma1_64 x0).
Proof. unfold l_Gamma1_64. sil. Qed.
#[global] Hint Resolve si_Gamma1_64 : si.
Lemma si_sha512_load_W x0 x1 x2 : silent (l_sha512_load_W x0 x1 x2).
Proof. unfold l_sha512_load_W. sil. Qed.
#[global] Hint Resolve si_sha512_load_W : si.
Lemma si_sha512_round x0 x1 x2 : silent (l_sha512_round x0 x1 x2).
Proof. unfold l_sha512_round. sil. Qed.
#[global] Hint Resolve si_sha512_round : si.
Lemma si_sha512_compress x0 x1 x2 : silent (l_sha512_compress x0 x1 x2).
Proof. unfold l_sha512_compress. sil. Qed.
#[global] Hint Resolve si_sha512_compress : si.
Lemma si_sha512_update_loop le fuel : forall c p, silent (l_sha512_update_loop le fuel c p).
Proof. induction fuel as [|fuel IH]; intros c p; [apply silent_ub|]. cbn [l_sha512_update_loop]. sil. Qed.
#[global] Hint Resolve si_sha512_update_loop : si.
Lemma si_ts_SHA512_update x0 x1 x2 : silent (l_ts_SHA512_update x0 x1 x2).
Proof. unfold l_ts_SHA512_update. sil. Qed.
#[global] Hint Resolve si_ts_SHA512_update : si.
Lemma si_ts_SHA512_final_trunc x0 x1 x2 : silent (l_ts_SHA512_final_trunc x0 x1 x2).
Proof. unfold l_ts_SHA512_final_trunc. sil. Qed.
#[global] Hint Resolve si_ts_SHA512_final_trunc : si.
Lemma si_ts_SHA512_final x0 x1 : silent (l_ts_SHA512_final x0 x1).
Proof. unfold l_ts_SHA512_final. sil. Qed.
#[global] Hint Resolve si_ts_SHA512_final : si.
Lemma si_ts_SHA512_save_state x0 : silent (l_ts_SHA512_save_state x0).
Proof. unfold l_ts_SHA512_save_state. sil. Qed.
#[global] Hint Resolve si_ts_SHA512_save_state : si.
Lemma si_ts_SHA512_restore_state_after_128 x0 x1 : silent (l_ts_SHA512_restore_state_after_128 x0 x1).
Proof. unfold l_ts_SHA512_restore_state_after_128. sil. Qed.
#[global] Hint Resolve si_ts_SHA512_restore_state_after_128 : si.
Lemma si_ROL x0 x1 : silent (l_ROL x0 x1).
Proof. unfold l_ROL. sil. Qed.
#[global] Hint Resolve si_ROL : si.
Lemma si_keval r env e : silent (l_keval r env e).
Proof. induction e; cbn [l_keval]; sil. Qed.
#[global] Hint Resolve si_keval : si.
Lemma si_kexec x0 x1 x2 : silent (l_kexec x0 x1 x2).
Proof. unfold l_kexec. sil. Qed.
#[global] Hint Resolve si_kexec : si.
Lemma si_kexecs r l : forall env, silent (l_kexecs r env l).
Proof. induction l as [|s l IH]; intros env; cbn [l_kexecs]; sil. Qed.
#[global] Hint Resolve si_kexecs : si.
Lemma si_keccak_rounds_01 x0 : silent (l_keccak_rounds_01 x0).
Proof. unfold l_keccak_rounds_01. sil. Qed.
#[global] Hint Resolve si_keccak_rounds_01 : si.
Lemma si_KeccakF1600_opt0 x0 : silent (l_KeccakF1600_opt0 x0).
Proof. unfold l_KeccakF1600_opt0. sil. Qed.
#[global] Hint Resolve si_KeccakF1600_opt0 : si.
Lemma si_KeccakF1600_opt1 x0 : silent (l_KeccakF1600_opt1 x0).
Proof. unfold l_KeccakF1600_opt1. sil. Qed.
#[global] Hint Resolve si_KeccakF1600_opt1 : si.
Lemma si_rd_bc x0 x1 : silent (l_rd_bc x0 x1).
Proof. unfold l_rd_bc. sil. Qed.
#[global] Hint Resolve si_rd_bc : si.
Lemma si_opt2_theta x0 : silent (l_opt2_theta x0).
Proof. unfold l_opt2_theta. sil. Qed.
#[global] Hint Resolve si_opt2_theta : si.
Lemma si_opt2_rhopi x0 : silent (l_opt2_rhopi x0).
Proof. unfold l_opt2_rhopi. sil. Qed.
#[global] Hint Resolve si_opt2_rhopi : si.
Lemma si_opt2_chi x0 : silent (l_opt2_chi x0).
Proof. unfold l_opt2_chi. sil. Qed.
#[global] Hint Resolve si_opt2_chi : si.
Lemma si_opt2_round x0 x1 : silent (l_opt2_round x0 x1).
Proof. unfold l_opt2_round. sil. Qed.
#[global] Hint Resolve si_opt2_round : si.
Lemma si_KeccakF1600_opt2 x0 : silent (l_KeccakF1600_opt2 x0).
Proof. unfold l_KeccakF1600_opt2. sil. Qed.
#[global] Hint Resolve si_KeccakF1600_opt2 : si.
Lemma si_KeccakF1600_StatePermute x0 x1 : silent (l_KeccakF1600_StatePermute x0 x1).
Proof. unfold l_KeccakF1600_StatePermute. sil. Qed.
#[global] Hint Resolve si_KeccakF1600_StatePermute : si.
Lemma si_keccak_inc_init x0 : silent (l_keccak_inc_init x0).
Proof. unfold l_keccak_inc_init. sil. Qed.
#[global] Hint Resolve si_keccak_inc_init : si.
Lemma si_absorb_bytes x0 x1 x2 : silent (l_absorb_bytes x0 x1 x2).
Proof. unfold l_absorb_bytes. sil. Qed.
#[global] Hint Resolve si_absorb_bytes : si.
Lemma si_absorb_loop opt fuel r : forall s m, silent (l_absorb_loop opt fuel r s m).
Proof. induction fuel as [|fuel IH]; intros s m; [apply silent_ub|]. cbn [l_absorb_loop]. sil. Qed.
#[global] Hint Resolve si_absorb_loop : si.
Lemma si_keccak_inc_absorb x0 x1 x2 x3 : silent (l_keccak_inc_absorb x0 x1 x2 x3).
Proof. unfold l_keccak_inc_absorb. sil. Qed.
#[global] Hint Resolve si_keccak_inc_absorb : si.
Lemma si_keccak_inc_finalize x0 x1 x2 : silent (l_keccak_inc_finalize x0 x1 x2).
Proof. unfold l_keccak_inc_finalize. sil. Qed.
#[global] Hint Resolve si_keccak_inc_finalize : si.
Lemma si_state_byte x0 x1 : silent (l_state_byte x0 x1).
Proof. unfold l_state_byte. sil. Qed.
#[global] Hint Resolve si_state_byte : si.
Lemma si_squeeze_loop opt fuel r : forall s m, silent (l_squeeze_loop opt fuel r s m).
Proof. induction fuel as [|fuel IH]; intros s m; [apply silent_ub|]. cbn [l_squeeze_loop]. sil. Qed.
#[global] Hint Resolve si_squeeze_loop : si.
Lemma si_keccak_inc_squeeze x0 x1 x2 x3 : silent (l_keccak_inc_squeeze x0 x1 x2 x3).
Proof. unfold l_keccak_inc_squeeze. sil. Qed.
#[global] Hint Resolve si_keccak_inc_squeeze : si.
Lemma si_ts_shake256_inc_init x0 : silent (l_ts_shake256_inc_init x0).
Proof. unfold l_ts_shake256_inc_init. sil. Qed.
#[global] Hint Resolve si_ts_shake256_inc_init : si.
Lemma si_ts_shake256_inc_absorb x0 x1 x2 : silent (l_ts_shake256_inc_absorb x0 x1 x2).
Proof. unfold l_ts_shake256_inc_absorb. sil. Qed.
#[global] Hint Resolve si_ts_shake256_inc_absorb : si.
Lemma si_ts_shake256_inc_finalize x0 : silent (l_ts_shake256_inc_finalize x0).
Proof. unfold l_ts_shake256_inc_finalize. sil. Qed.
#[global] Hint Resolve si_ts_shake256_inc_finalize : si.
Lemma si_ts_shake256_inc_squeeze x0 x1 x2 : silent (l_ts_shake256_inc_squeeze x0 x1 x2).
Proof. unfold l_ts_shake256_inc_squeeze. sil. Qed.
#[global] Hint Resolve si_ts_shake256_inc_squeeze : si.
Lemma si_get_sha256 x0 x1 : silent (l_get_sha256 x0 x1).
Proof. unfold l_get_sha256. sil. Qed.
#[global] Hint Resolve si_get_sha256 : si.
Lemma si_put_sha256 x0 x1 x2 : silent (l_put_sha256 x0 x1 x2).
Proof. unfold l_put_sha256. sil. Qed.
#[global] Hint Resolve si_put_sha256 : si.
Lemma si_get_sha512 x0 x1 : silent (l_get_sha512 x0 x1).
Proof. unfold l_get_sha512. sil. Qed.
#[global] Hint Resolve si_get_sha512 : si.
Lemma si_put_sha512 x0 x1 x2 : silent (l_put_sha512 x0 x1 x2).
Proof. unfold l_put_sha512. sil. Qed.
#[global] Hint Resolve si_put_sha512 : si.
Lemma si_get_shake x0 x1 : silent (l_get_shake x0 x1).
Proof. unfold l_get_shake. sil. Qed.
#[global] Hint Resolve si_get_shake : si.
Lemma si_put_shake x0 x1 x2 : silent (l_put_shake x0 x1 x2).
Proof. unfold l_put_shake. sil. Qed.
#[global] Hint Resolve si_put_shake : si.
Lemma si_sub_rd x0 x1 x2 x3 x4 : silent (l_sub_rd x0 x1 x2 x3 x4).
Proof. unfold l_sub_rd. sil. Qed.
#[global] Hint Resolve si_sub_rd : si.
Lemma si_sub_wr x0 x1 x2 x3 x4 : silent (l_sub_wr x0 x1 x2 x3 x4).
Proof. unfold l_sub_wr. sil. Qed.
#[global] Hint Resolve si_sub_wr : si.
Lemma si_get_fors_node x0 x1 x2 : silent (l_get_fors_node x0 x1 x2).
Proof. unfold l_get_fors_node. sil. Qed.
#[global] Hint Resolve si_get_fors_node : si.
Lemma si_set_fors_node x0 x1 x2 x3 : silent (l_set_fors_node x0 x1 x2 x3).
Proof. unfold l_set_fors_node. sil. Qed.
#[global] Hint Resolve si_set_fors_node : si.
Lemma si_get_digit x0 : silent (l_get_digit x0).
Proof. unfold l_get_digit. sil. Qed.
#[global] Hint Resolve si_get_digit : si.
Lemma si_set_digit x0 x1 : silent (l_set_digit x0 x1).
Proof. unfold l_set_digit. sil. Qed.
#[global] Hint Resolve si_set_digit : si.
Lemma si_get_digits x0 x1 x2 : silent (l_get_digits x0 x1 x2).
Proof. unfold l_get_digits. sil. Qed.
#[global] Hint Resolve si_get_digits : si.
Lemma si_set_digits x0 x1 x2 x3 : silent (l_set_digits x0 x1 x2 x3).
Proof. unfold l_set_digits. sil. Qed.
#[global] Hint Resolve si_set_digits : si.
Lemma si_get_buf x0 x1 x2 x3 : silent (l_get_buf x0 x1 x2 x3).
Proof. unfold l_get_buf. sil. Qed.
#[global] Hint Resolve si_get_buf : si.
Lemma si_put_buf x0 x1 x2 x3 : silent (l_put_buf x0 x1 x2 x3).
Proof. unfold l_put_buf. sil. Qed.
#[global] Hint Resolve si_put_buf : si.
Lemma si_sha256_pad_zero x0 x1 x2 : silent (l_sha256_pad_zero x0 x1 x2).
Proof. unfold l_sha256_pad_zero. sil. Qed.
#[global] Hint Resolve si_sha256_pad_zero : si.
Lemma si_sha512_pad_zero x0 x1 x2 : silent (l_sha512_pad_zero x0 x1 x2).
Proof. unfold l_sha512_pad_zero. sil. Qed.
#[global] Hint Resolve si_sha512_pad_zero : si.
Lemma si_ts_sha256_init_ctx x0 x1 x2 x3 : silent (l_ts_sha256_init_ctx x0 x1 x2 x3).
Proof. unfold l_ts_sha256_init_ctx. sil. Qed.
#[global] Hint Resolve si_ts_sha256_init_ctx : si.
Lemma si_ts_sha512_init_ctx x0 x1 x2 x3 : silent (l_ts_sha512_init_ctx x0 x1 x2 x3).
Proof. unfold l_ts_sha512_init_ctx. sil. Qed.
#[global] Hint Resolve si_ts_sha512_init_ctx : si.
Lemma si_ts_sha2_prf x0 x1 x2 : silent (l_ts_sha2_prf x0 x1 x2).
Proof. unfold l_ts_sha2_prf. sil. Qed.
#[global] Hint Resolve si_ts_sha2_prf : si.
Lemma si_ts_sha2_f_simple x0 x1 x2 x3 : silent (l_ts_sha2_f_simple x0 x1 x2 x3).
Proof. unfold l_ts_sha2_f_simple. sil. Qed.
#[global] Hint Resolve si_ts_sha2_f_simple : si.
Lemma si_ts_sha2_L1_init_t_simple x0 x1 x2 x3 : silent (l_ts_sha2_L1_init_t_simple x0 x1 x2 x3).
Proof. unfold l_ts_sha2_L1_init_t_simple. sil. Qed.
#[global] Hint Resolve si_ts_sha2_L1_init_t_simple : si.
Lemma si_ts_sha2_L1_next_t_simple x0 x1 x2 x3 : silent (l_ts_sha2_L1_next_t_simple x0 x1 x2 x3).
Proof. unfold l_ts_sha2_L1_next_t_simple. sil. Qed.
#[global] Hint Resolve si_ts_sha2_L1_next_t_simple : si.
Lemma si_ts_sha2_L1_final_t_simple x0 x1 x2 : silent (l_ts_sha2_L1_final_t_simple x0 x1 x2).
Proof. unfold l_ts_sha2_L1_final_t_simple. sil. Qed.
#[global] Hint Resolve si_ts_sha2_L1_final_t_simple : si.
Lemma si_ts_sha2_L1_prehash x0 x1 x2 : silent (l_ts_sha2_L1_prehash x0 x1 x2).
Proof. unfold l_ts_sha2_L1_prehash. sil. Qed.
#[global] Hint Resolve si_ts_sha2_L1_prehash : si.
Lemma si_ts_sha2_L35_init_t_simple x0 x1 x2 x3 : silent (l_ts_sha2_L35_init_t_simple x0 x1 x2 x3).
Proof. unfold l_ts_sha2_L35_init_t_simple. sil. Qed.
#[global] Hint Resolve si_ts_sha2_L35_init_t_simple : si.
Lemma si_ts_sha2_L35_next_t_simple x0 x1 x2 x3 : silent (l_ts_sha2_L35_next_t_simple x0 x1 x2 x3).
Proof. unfold l_ts_sha2_L35_next_t_simple. sil. Qed.
#[global] Hint Resolve si_ts_sha2_L35_next_t_simple : si.
Lemma si_ts_sha2_L35_final_t_simple x0 x1 x2 : silent (l_ts_sha2_L35_final_t_simple x0 x1 x2).
Proof. unfold l_ts_sha2_L35_final_t_simple. sil. Qed.
#[global] Hint Resolve si_ts_sha2_L35_final_t_simple : si.
Lemma si_ts_sha2_L35_prehash x0 x1 x2 : silent (l_ts_sha2_L35_prehash x0 x1 x2).
Proof. unfold l_ts_sha2_L35_prehash. sil. Qed.
#[global] Hint Resolve si_ts_sha2_L35_prehash : si.
Lemma si_hmac_block x0 x1 x2 x3 x4 x5 : silent (l_hmac_block x0 x1 x2 x3 x4 x5).
Proof. unfold l_hmac_block. sil. Qed.
#[global] Hint Resolve si_hmac_block : si.
Lemma si_ts_sha2_L1_prf_msg x0 x1 x2 x3 x4 : silent (l_ts_sha2_L1_prf_msg x0 x1 x2 x3 x4).
Proof. unfold l_ts_sha2_L1_prf_msg. sil. Qed.
#[global] Hint Resolve si_ts_sha2_L1_prf_msg : si.
Lemma si_sha256_mgf_loop cfg fuel n : forall mh c i l, silent (l_sha256_mgf_loop cfg fuel n mh c i l).
Proof. induction fuel as [|fuel IH]; intros mh c i l; [apply silent_ub|]. cbn [l_sha256_mgf_loop]. sil. Qed.
#[global] Hint Resolve si_sha256_mgf_loop : si.
Lemma si_ts_sha2_L1_hash_msg x0 x1 x2 x3 x4 x5 : silent (l_ts_sha2_L1_hash_msg x0 x1 x2 x3 x4 x5).
Proof. unfold l_ts_sha2_L1_hash_msg. sil. Qed.
#[global] Hint Resolve si_ts_sha2_L1_hash_msg : si.
Lemma si_ts_sha2_L35_prf_msg x0 x1 x2 x3 x4 : silent (l_ts_sha2_L35_prf_msg x0 x1 x2 x3 x4).
Proof. unfold l_ts_sha2_L35_prf_msg. sil. Qed.
#[global] Hint Resolve si_ts_sha2_L35_prf_msg : si.
Lemma si_sha512_mgf_loop cfg fuel n : forall mh c i l, silent (l_sha512_mgf_loop cfg fuel n mh c i l).
Proof. induction fuel as [|fuel IH]; intros mh c i l; [apply silent_ub|]. cbn [l_sha512_mgf_loop]. sil. Qed.
#[global] Hint Resolve si_sha512_mgf_loop : si.
Lemma si_ts_sha2_L35_hash_msg x0 x1 x2 x3 x4 x5 : silent (l_ts_sha2_L35_hash_msg x0 x1 x2 x3 x4 x5).
Proof. unfold l_ts_sha2_L35_hash_msg. sil. Qed.
#[global] Hint Resolve si_ts_sha2_L35_hash_msg : si.
Lemma si_ts_shake256_prf_msg x0 x1 x2 x3 x4 : silent (l_ts_shake256_prf_msg x0 x1 x2 x3 x4).
Proof. unfold l_ts_shake256_prf_msg. sil. Qed.
#[global] Hint Resolve si_ts_shake256_prf_msg : si.
Lemma si_ts_shake256_hash_msg x0 x1 x2 x3 x4 x5 : silent (l_ts_shake256_hash_msg x0 x1 x2 x3 x4 x5).
Proof. unfold l_ts_shake256_hash_msg. sil. Qed.
#[global] Hint Resolve si_ts_shake256_hash_msg : si.
Lemma si_ts_shake256_prf x0 x1 x2 : silent (l_ts_shake256_prf x0 x1 x2).
Proof. unfold l_ts_shake256_prf. sil. Qed.
#[global] Hint Resolve si_ts_shake256_prf : si.
Lemma si_ts_shake256_init_t_simple x0 x1 x2 x3 : silent (l_ts_shake256_init_t_simple x0 x1 x2 x3).
Proof. unfold l_ts_shake256_init_t_simple. sil. Qed.
#[global] Hint Resolve si_ts_shake256_init_t_simple : si.
Lemma si_ts_shake256_next_t_simple x0 x1 x2 x3 : silent (l_ts_shake256_next_t_simple x0 x1 x2 x3).
Proof. unfold l_ts_shake256_next_t_simple. sil. Qed.
#[global] Hint Resolve si_ts_shake256_next_t_simple : si.
Lemma si_ts_shake256_final_t_simple x0 x1 x2 : silent (l_ts_shake256_final_t_simple x0 x1 x2).
Proof. unfold l_ts_shake256_final_t_simple. sil. Qed.
#[global] Hint Resolve si_ts_shake256_final_t_simple : si.
Lemma si_ts_shake256_f_simple x0 x1 x2 x3 : silent (l_ts_shake256_f_simple x0 x1 x2 x3).
Proof. unfold l_ts_shake256_f_simple. sil. Qed.
#[global] Hint Resolve si_ts_shake256_f_simple : si.
