(** * The watched program has the outcomes of the model: fips202.c, the hash glue,
    tiny_sphincs.c and key_gen.c *)
From Verif Require Import CSem CLeak ModelEndian ModelSha256 ModelSha512 ModelFips202 ModelParams ModelCtx ModelHash ModelSphincs ModelKeygen
  LeakSha2 LeakFips202 LeakHash LeakSphincs PfLeakErase.
Ltac Zify.zify_post_hook ::= idtac.

(** ** fips202.c *)
Lemma er_ROL a k : result (l_ROL a k) = ROL a k. Proof. unfold l_ROL, ROL. er. Qed.
#[global] Hint Resolve er_ROL : er.
Lemma er_keval r env e : result (l_keval r env e) = keval r env e.
Proof. induction e; cbn [l_keval keval]; er. Qed.
#[global] Hint Resolve er_keval : er.
Lemma er_kexec r env s : result (l_kexec r env s) = kexec r env s.
Proof. destruct s as [v e]. unfold l_kexec, kexec. er. Qed.
#[global] Hint Resolve er_kexec : er.
Lemma er_kexecs r l : forall env, result (l_kexecs r env l) = kexecs r env l.
Proof. induction l as [|s l IH]; intros env; [reflexivity|]. cbn [l_kexecs kexecs]. er. Qed.
#[global] Hint Resolve er_kexecs : er.
Lemma er_rounds01 env : result (l_keccak_rounds_01 env) = keccak_rounds_01 env.
Proof. unfold l_keccak_rounds_01, keccak_rounds_01. er. Qed.
#[global] Hint Resolve er_rounds01 : er.
Lemma er_opt0 s : result (l_KeccakF1600_opt0 s) = KeccakF1600_opt0 s.
Proof. unfold l_KeccakF1600_opt0, KeccakF1600_opt0. er. Qed.
#[global] Hint Resolve er_opt0 : er.
Lemma er_opt1 s : result (l_KeccakF1600_opt1 s) = KeccakF1600_opt1 s.
Proof. unfold l_KeccakF1600_opt1, KeccakF1600_opt1. er. Qed.
#[global] Hint Resolve er_opt1 : er.
Lemma er_rd_bc bc i : result (l_rd_bc bc i) = rd_bc bc i.
Proof. unfold l_rd_bc, rd_bc. er. Qed.
#[global] Hint Resolve er_rd_bc : er.
Lemma er_theta s : result (l_opt2_theta s) = opt2_theta s.
Proof. unfold l_opt2_theta, opt2_theta. er. Qed.
#[global] Hint Resolve er_theta : er.
Lemma er_rhopi s : result (l_opt2_rhopi s) = opt2_rhopi s.
Proof. unfold l_opt2_rhopi, opt2_rhopi. er. Qed.
#[global] Hint Resolve er_rhopi : er.
Lemma er_chi s : result (l_opt2_chi s) = opt2_chi s.
Proof. unfold l_opt2_chi, opt2_chi. er. Qed.
#[global] Hint Resolve er_chi : er.
Lemma er_round2 r s : result (l_opt2_round r s) = opt2_round r s.
Proof. unfold l_opt2_round, opt2_round. er. Qed.
#[global] Hint Resolve er_round2 : er.
Lemma er_opt2 s : result (l_KeccakF1600_opt2 s) = KeccakF1600_opt2 s.
Proof. unfold l_KeccakF1600_opt2, KeccakF1600_opt2. er. Qed.
#[global] Hint Resolve er_opt2 : er.
Lemma er_perm opt s : result (l_KeccakF1600_StatePermute opt s) = KeccakF1600_StatePermute opt s.
Proof. unfold l_KeccakF1600_StatePermute, KeccakF1600_StatePermute. er. Qed.
#[global] Hint Resolve er_perm : er.
Lemma er_inc_init s : result (l_keccak_inc_init s) = keccak_inc_init s.
Proof. unfold l_keccak_inc_init, keccak_inc_init. er. Qed.
#[global] Hint Resolve er_inc_init : er.
Lemma er_absorb_bytes s m k : result (l_absorb_bytes s m k) = absorb_bytes s m k.
Proof. unfold l_absorb_bytes, absorb_bytes. er. Qed.
#[global] Hint Resolve er_absorb_bytes : er.
Lemma er_absorb_loop opt fuel r : forall s m, result (l_absorb_loop opt fuel r s m) = absorb_loop opt fuel r s m.
Proof. induction fuel as [|fuel IH]; intros s m; [reflexivity|]. cbn [l_absorb_loop absorb_loop]. er. Qed.
#[global] Hint Resolve er_absorb_loop : er.
Lemma er_absorb opt s r m : result (l_keccak_inc_absorb opt s r m) = keccak_inc_absorb opt s r m.
Proof. unfold l_keccak_inc_absorb, keccak_inc_absorb. er. Qed.
#[global] Hint Resolve er_absorb : er.
Lemma er_finalize s r p : result (l_keccak_inc_finalize s r p) = keccak_inc_finalize s r p.
Proof. unfold l_keccak_inc_finalize, keccak_inc_finalize. er. Qed.
#[global] Hint Resolve er_finalize : er.
Lemma er_state_byte s p : result (l_state_byte s p) = state_byte s p.
Proof. unfold l_state_byte, state_byte. er. Qed.
#[global] Hint Resolve er_state_byte : er.
Lemma er_squeeze_loop opt fuel r : forall s k, result (l_squeeze_loop opt fuel r s k) = squeeze_loop opt fuel r s k.
Proof. induction fuel as [|fuel IH]; intros s k; [reflexivity|]. cbn [l_squeeze_loop squeeze_loop]. er. Qed.
#[global] Hint Resolve er_squeeze_loop : er.
Lemma er_squeeze opt k s r : result (l_keccak_inc_squeeze opt k s r) = keccak_inc_squeeze opt k s r.
Proof. unfold l_keccak_inc_squeeze, keccak_inc_squeeze. er. Qed.
#[global] Hint Resolve er_squeeze : er.
Lemma er_sh_init s : result (l_ts_shake256_inc_init s) = ts_shake256_inc_init s.
Proof. unfold l_ts_shake256_inc_init, ts_shake256_inc_init. er. Qed.
#[global] Hint Resolve er_sh_init : er.
Lemma er_sh_absorb opt s m : result (l_ts_shake256_inc_absorb opt s m) = ts_shake256_inc_absorb opt s m.
Proof. unfold l_ts_shake256_inc_absorb, ts_shake256_inc_absorb. er. Qed.
#[global] Hint Resolve er_sh_absorb : er.
Lemma er_sh_finalize s : result (l_ts_shake256_inc_finalize s) = ts_shake256_inc_finalize s.
Proof. unfold l_ts_shake256_inc_finalize, ts_shake256_inc_finalize. er. Qed.
#[global] Hint Resolve er_sh_finalize : er.
Lemma er_sh_squeeze opt k s : result (l_ts_shake256_inc_squeeze opt k s) = ts_shake256_inc_squeeze opt k s.
Proof. unfold l_ts_shake256_inc_squeeze, ts_shake256_inc_squeeze. er. Qed.
#[global] Hint Resolve er_sh_squeeze : er.

(** ** The hash glue *)
Lemma er_get256 le it : result (l_get_sha256 le it) = get_sha256 le it.
Proof. unfold l_get_sha256, get_sha256. er. Qed.
#[global] Hint Resolve er_get256 : er.
Lemma er_put256 le it c : result (l_put_sha256 le it c) = put_sha256 le it c.
Proof. unfold l_put_sha256, put_sha256. er. Qed.
#[global] Hint Resolve er_put256 : er.
Lemma er_get512 cfg it : result (l_get_sha512 cfg it) = get_sha512 cfg it.
Proof. unfold l_get_sha512, get_sha512. er. Qed.
#[global] Hint Resolve er_get512 : er.
Lemma er_put512 cfg it c : result (l_put_sha512 cfg it c) = put_sha512 cfg it c.
Proof. unfold l_put_sha512, put_sha512. er. Qed.
#[global] Hint Resolve er_put512 : er.
Lemma er_get_shake le it : result (l_get_shake le it) = get_shake le it.
Proof. unfold l_get_shake, get_shake. er. Qed.
#[global] Hint Resolve er_get_shake : er.
Lemma er_put_shake le it c : result (l_put_shake le it c) = put_shake le it c.
Proof. unfold l_put_shake, put_shake. er. Qed.
#[global] Hint Resolve er_put_shake : er.
Lemma er_sub_rd x b s o k : result (l_sub_rd x b s o k) = sub_rd x b s o k.
Proof. unfold l_sub_rd, sub_rd. er. Qed.
#[global] Hint Resolve er_sub_rd : er.
Lemma er_sub_wr x b s o v : result (l_sub_wr x b s o v) = sub_wr x b s o v.
Proof. unfold l_sub_wr, sub_wr. er. Qed.
#[global] Hint Resolve er_sub_wr : er.
Lemma er_get_fors cfg x k : result (l_get_fors_node cfg x k) = get_fors_node cfg x k.
Proof. unfold l_get_fors_node, get_fors_node. er. Qed.
#[global] Hint Resolve er_get_fors : er.
Lemma er_set_fors cfg x k v : result (l_set_fors_node cfg x k v) = set_fors_node cfg x k v.
Proof. unfold l_set_fors_node, set_fors_node. er. Qed.
#[global] Hint Resolve er_set_fors : er.
Lemma er_get_digit x : result (l_get_digit x) = get_digit x.
Proof. unfold l_get_digit, get_digit. er. Qed.
#[global] Hint Resolve er_get_digit : er.
Lemma er_set_digit x v : result (l_set_digit x v) = set_digit x v.
Proof. unfold l_set_digit, set_digit. er. Qed.
#[global] Hint Resolve er_set_digit : er.
Lemma er_get_digits cfg x i : result (l_get_digits cfg x i) = get_digits cfg x i.
Proof. unfold l_get_digits, get_digits. er. Qed.
#[global] Hint Resolve er_get_digits : er.
Lemma er_set_digits cfg x i v : result (l_set_digits cfg x i v) = set_digits cfg x i v.
Proof. unfold l_set_digits, set_digits. er. Qed.
#[global] Hint Resolve er_set_digits : er.
Lemma er_get_buf cfg c b n : result (l_get_buf cfg c b n) = get_buf cfg c b n.
Proof. unfold l_get_buf, get_buf. er. Qed.
#[global] Hint Resolve er_get_buf : er.
Lemma er_put_buf cfg c b v : result (l_put_buf cfg c b v) = put_buf cfg c b v.
Proof. unfold l_put_buf, put_buf. er. Qed.
#[global] Hint Resolve er_put_buf : er.
Lemma er_pad256 cfg c n : result (l_sha256_pad_zero cfg c n) = sha256_pad_zero cfg c n.
Proof. unfold l_sha256_pad_zero, sha256_pad_zero. er. Qed.
#[global] Hint Resolve er_pad256 : er.
Lemma er_pad512 cfg c n : result (l_sha512_pad_zero cfg c n) = sha512_pad_zero cfg c n.
Proof. unfold l_sha512_pad_zero, sha512_pad_zero. er. Qed.
#[global] Hint Resolve er_pad512 : er.
Lemma er_init_ctx256 cfg mem c sc : result (l_ts_sha256_init_ctx cfg mem c sc) = ts_sha256_init_ctx cfg mem c sc.
Proof. unfold l_ts_sha256_init_ctx, ts_sha256_init_ctx. er. Qed.
#[global] Hint Resolve er_init_ctx256 : er.
Lemma er_init_ctx512 cfg mem c sc : result (l_ts_sha512_init_ctx cfg mem c sc) = ts_sha512_init_ctx cfg mem c sc.
Proof. unfold l_ts_sha512_init_ctx, ts_sha512_init_ctx. er. Qed.
#[global] Hint Resolve er_init_ctx512 : er.
Lemma er_sha2_prf cfg mem sc : result (l_ts_sha2_prf cfg mem sc) = ts_sha2_prf cfg mem sc.
Proof. unfold l_ts_sha2_prf, ts_sha2_prf. er. Qed.
#[global] Hint Resolve er_sha2_prf : er.
Lemma er_sha2_f cfg mem b sc : result (l_ts_sha2_f_simple cfg mem b sc) = ts_sha2_f_simple cfg mem b sc.
Proof. unfold l_ts_sha2_f_simple, ts_sha2_f_simple. er. Qed.
#[global] Hint Resolve er_sha2_f : er.
Lemma er_L1_init_t cfg mem it sc : result (l_ts_sha2_L1_init_t_simple cfg mem it sc) = ts_sha2_L1_init_t_simple cfg mem it sc.
Proof. unfold l_ts_sha2_L1_init_t_simple, ts_sha2_L1_init_t_simple. er. Qed.
#[global] Hint Resolve er_L1_init_t : er.
Lemma er_L1_next_t cfg it b sc : result (l_ts_sha2_L1_next_t_simple cfg it b sc) = ts_sha2_L1_next_t_simple cfg it b sc.
Proof. unfold l_ts_sha2_L1_next_t_simple, ts_sha2_L1_next_t_simple. er. Qed.
#[global] Hint Resolve er_L1_next_t : er.
Lemma er_L1_final_t cfg it sc : result (l_ts_sha2_L1_final_t_simple cfg it sc) = ts_sha2_L1_final_t_simple cfg it sc.
Proof. unfold l_ts_sha2_L1_final_t_simple, ts_sha2_L1_final_t_simple. er. Qed.
#[global] Hint Resolve er_L1_final_t : er.
Lemma er_L1_prehash cfg mem sc : result (l_ts_sha2_L1_prehash cfg mem sc) = ts_sha2_L1_prehash cfg mem sc.
Proof. unfold l_ts_sha2_L1_prehash, ts_sha2_L1_prehash. er. Qed.
#[global] Hint Resolve er_L1_prehash : er.
Lemma er_L35_init_t cfg mem it sc : result (l_ts_sha2_L35_init_t_simple cfg mem it sc) = ts_sha2_L35_init_t_simple cfg mem it sc.
Proof. unfold l_ts_sha2_L35_init_t_simple, ts_sha2_L35_init_t_simple. er. Qed.
#[global] Hint Resolve er_L35_init_t : er.
Lemma er_L35_next_t cfg it b sc : result (l_ts_sha2_L35_next_t_simple cfg it b sc) = ts_sha2_L35_next_t_simple cfg it b sc.
Proof. unfold l_ts_sha2_L35_next_t_simple, ts_sha2_L35_next_t_simple. er. Qed.
#[global] Hint Resolve er_L35_next_t : er.
Lemma er_L35_final_t cfg it sc : result (l_ts_sha2_L35_final_t_simple cfg it sc) = ts_sha2_L35_final_t_simple cfg it sc.
Proof. unfold l_ts_sha2_L35_final_t_simple, ts_sha2_L35_final_t_simple. er. Qed.
#[global] Hint Resolve er_L35_final_t : er.
Lemma er_L35_prehash cfg mem sc : result (l_ts_sha2_L35_prehash cfg mem sc) = ts_sha2_L35_prehash cfg mem sc.
Proof. unfold l_ts_sha2_L35_prehash, ts_sha2_L35_prehash. er. Qed.
#[global] Hint Resolve er_L35_prehash : er.
Lemma er_hmac mem b s v pk n : result (l_hmac_block mem b s v pk n) = hmac_block mem b s v pk n.
Proof. unfold l_hmac_block, hmac_block. er. Qed.
#[global] Hint Resolve er_hmac : er.
Lemma er_L1_prf_msg cfg mem o m sc : result (l_ts_sha2_L1_prf_msg cfg mem o m sc) = ts_sha2_L1_prf_msg cfg mem o m sc.
Proof. unfold l_ts_sha2_L1_prf_msg, ts_sha2_L1_prf_msg. er. Qed.
#[global] Hint Resolve er_L1_prf_msg : er.
Lemma er_mgf256 cfg fuel n : forall mh c i k, result (l_sha256_mgf_loop cfg fuel n mh c i k) = sha256_mgf_loop cfg fuel n mh c i k.
Proof.
  induction fuel as [|fuel IH]; intros mh c i k; [reflexivity|]. cbn [l_sha256_mgf_loop sha256_mgf_loop]. cbv zeta.
  rewrite result_if. destruct (k =? 0); [reflexivity|]. eapply bind_pure; [apply er_ull|].
  rewrite result_bind. apply bind_ext2; [er|intros mh']. rewrite result_bind. apply bind_ext2; [er|intros m].
  rewrite result_bind. apply bind_ext2; [er|intros c']. rewrite result_bind. apply bind_ext2; [er|intros [buffer c'']].
  eapply (bind_pure _ (if 32 <=? k then 32 else k)); [rewrite result_if; destruct (_ <=? _); reflexivity|]. er.
Qed.
#[global] Hint Resolve er_mgf256 : er.
Lemma er_L1_hash_msg cfg mem k r m sc : result (l_ts_sha2_L1_hash_msg cfg mem k r m sc) = ts_sha2_L1_hash_msg cfg mem k r m sc.
Proof. unfold l_ts_sha2_L1_hash_msg, ts_sha2_L1_hash_msg. er. Qed.
#[global] Hint Resolve er_L1_hash_msg : er.
Lemma er_L35_prf_msg cfg mem o m sc : result (l_ts_sha2_L35_prf_msg cfg mem o m sc) = ts_sha2_L35_prf_msg cfg mem o m sc.
Proof. unfold l_ts_sha2_L35_prf_msg, ts_sha2_L35_prf_msg. er. Qed.
#[global] Hint Resolve er_L35_prf_msg : er.
Lemma er_mgf512 cfg fuel n : forall mh c i k, result (l_sha512_mgf_loop cfg fuel n mh c i k) = sha512_mgf_loop cfg fuel n mh c i k.
Proof.
  induction fuel as [|fuel IH]; intros mh c i k; [reflexivity|]. cbn [l_sha512_mgf_loop sha512_mgf_loop]. cbv zeta.
  rewrite result_if. destruct (k =? 0); [reflexivity|]. eapply bind_pure; [apply er_ull|].
  rewrite result_bind. apply bind_ext2; [er|intros mh']. rewrite result_bind. apply bind_ext2; [er|intros m].
  rewrite result_bind. apply bind_ext2; [er|intros c']. rewrite result_bind. apply bind_ext2; [er|intros [buffer c'']].
  eapply (bind_pure _ (if 64 <=? k then 64 else k)); [rewrite result_if; destruct (_ <=? _); reflexivity|]. er.
Qed.
#[global] Hint Resolve er_mgf512 : er.
Lemma er_L35_hash_msg cfg mem k r m sc : result (l_ts_sha2_L35_hash_msg cfg mem k r m sc) = ts_sha2_L35_hash_msg cfg mem k r m sc.
Proof. unfold l_ts_sha2_L35_hash_msg, ts_sha2_L35_hash_msg. er. Qed.
#[global] Hint Resolve er_L35_hash_msg : er.
Lemma er_sh_prf_msg cfg mem o m sc : result (l_ts_shake256_prf_msg cfg mem o m sc) = ts_shake256_prf_msg cfg mem o m sc.
Proof. unfold l_ts_shake256_prf_msg, ts_shake256_prf_msg. er. Qed.
#[global] Hint Resolve er_sh_prf_msg : er.
Lemma er_sh_hash_msg cfg mem k r m sc : result (l_ts_shake256_hash_msg cfg mem k r m sc) = ts_shake256_hash_msg cfg mem k r m sc.
Proof. unfold l_ts_shake256_hash_msg, ts_shake256_hash_msg. er. Qed.
#[global] Hint Resolve er_sh_hash_msg : er.
Lemma er_sh_prf cfg mem sc : result (l_ts_shake256_prf cfg mem sc) = ts_shake256_prf cfg mem sc.
Proof. unfold l_ts_shake256_prf, ts_shake256_prf. er. Qed.
#[global] Hint Resolve er_sh_prf : er.
Lemma er_sh_init_t cfg mem it sc : result (l_ts_shake256_init_t_simple cfg mem it sc) = ts_shake256_init_t_simple cfg mem it sc.
Proof. unfold l_ts_shake256_init_t_simple, ts_shake256_init_t_simple. er. Qed.
#[global] Hint Resolve er_sh_init_t : er.
Lemma er_sh_next_t cfg it b sc : result (l_ts_shake256_next_t_simple cfg it b sc) = ts_shake256_next_t_simple cfg it b sc.
Proof. unfold l_ts_shake256_next_t_simple, ts_shake256_next_t_simple. er. Qed.
#[global] Hint Resolve er_sh_next_t : er.
Lemma er_sh_final_t cfg it sc : result (l_ts_shake256_final_t_simple cfg it sc) = ts_shake256_final_t_simple cfg it sc.
Proof. unfold l_ts_shake256_final_t_simple, ts_shake256_final_t_simple. er. Qed.
#[global] Hint Resolve er_sh_final_t : er.
Lemma er_sh_f cfg mem b sc : result (l_ts_shake256_f_simple cfg mem b sc) = ts_shake256_f_simple cfg mem b sc.
Proof. unfold l_ts_shake256_f_simple, ts_shake256_f_simple. er. Qed.
#[global] Hint Resolve er_sh_f : er.
Lemma er_call_prf_msg cfg mem o m sc : result (l_call_prf_msg cfg mem o m sc) = call_prf_msg cfg mem o m sc.
Proof. unfold l_call_prf_msg, call_prf_msg. er. Qed.
#[global] Hint Resolve er_call_prf_msg : er.
Lemma er_call_hash_msg cfg mem k r m sc : result (l_call_hash_msg cfg mem k r m sc) = call_hash_msg cfg mem k r m sc.
Proof. unfold l_call_hash_msg, call_hash_msg. er. Qed.
#[global] Hint Resolve er_call_hash_msg : er.
Lemma er_call_prf cfg mem sc : result (l_call_prf cfg mem sc) = call_prf cfg mem sc.
Proof. unfold l_call_prf, call_prf. er. Qed.
#[global] Hint Resolve er_call_prf : er.
Lemma er_call_f cfg mem b sc : result (l_call_f cfg mem b sc) = call_f cfg mem b sc.
Proof. unfold l_call_f, call_f. er. Qed.
#[global] Hint Resolve er_call_f : er.
Lemma er_call_init_t cfg mem it sc : result (l_call_init_t cfg mem it sc) = call_init_t cfg mem it sc.
Proof. unfold l_call_init_t, call_init_t. er. Qed.
#[global] Hint Resolve er_call_init_t : er.
Lemma er_call_next_t cfg it b sc : result (l_call_next_t cfg it b sc) = call_next_t cfg it b sc.
Proof. unfold l_call_next_t, call_next_t. er. Qed.
#[global] Hint Resolve er_call_next_t : er.
Lemma er_call_final_t cfg it sc : result (l_call_final_t cfg it sc) = call_final_t cfg it sc.
Proof. unfold l_call_final_t, call_final_t. er. Qed.
#[global] Hint Resolve er_call_final_t : er.
Lemma er_call_prehash cfg mem sc : result (l_call_compute_prehash cfg mem sc) = call_compute_prehash cfg mem sc.
Proof. unfold l_call_compute_prehash, call_compute_prehash. er. Qed.
#[global] Hint Resolve er_call_prehash : er.
