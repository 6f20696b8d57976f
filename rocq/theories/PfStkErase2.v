(** * The program whose storage is measured has the outcomes of the model: fips202.c, the hash glue,
    tiny_sphincs.c and key_gen.c *)
From Verif Require Import CSem CStack ModelEndian ModelSha256 ModelSha512 ModelFips202 ModelParams ModelCtx ModelHash ModelSphincs ModelKeygen
  StkSha2 StkFips202 StkHash StkSphincs PfStkErase.
Ltac Zify.zify_post_hook ::= idtac.

(** ** fips202.c *)
Lemma ke_ROL a k : answer (k_ROL a k) = ROL a k. Proof. unfold k_ROL, ROL; rewrite ?answer_call. ke. Qed.
#[global] Hint Resolve ke_ROL : ke.
Lemma ke_keval r env e : answer (k_keval r env e) = keval r env e.
Proof. induction e; cbn [k_keval keval]; ke. Qed.
#[global] Hint Resolve ke_keval : ke.
Lemma ke_kexec r env s : answer (k_kexec r env s) = kexec r env s.
Proof. destruct s as [v e]. unfold k_kexec, kexec; rewrite ?answer_call. ke. Qed.
#[global] Hint Resolve ke_kexec : ke.
Lemma ke_kexecs r l : forall env, answer (k_kexecs r env l) = kexecs r env l.
Proof. induction l as [|s l IH]; intros env; [reflexivity|]. cbn [k_kexecs kexecs]. ke. Qed.
#[global] Hint Resolve ke_kexecs : ke.
Lemma ke_rounds01 env : answer (k_keccak_rounds_01 env) = keccak_rounds_01 env.
Proof. unfold k_keccak_rounds_01, keccak_rounds_01; rewrite ?answer_call. ke. Qed.
#[global] Hint Resolve ke_rounds01 : ke.
Lemma ke_opt0 (P : Z) s : answer (k_KeccakF1600_opt0 P s) = KeccakF1600_opt0 s.
Proof. unfold k_KeccakF1600_opt0, KeccakF1600_opt0; rewrite ?answer_call. ke. Qed.
#[global] Hint Resolve ke_opt0 : ke.
Lemma ke_opt1 (P : Z) s : answer (k_KeccakF1600_opt1 P s) = KeccakF1600_opt1 s.
Proof. unfold k_KeccakF1600_opt1, KeccakF1600_opt1; rewrite ?answer_call. ke. Qed.
#[global] Hint Resolve ke_opt1 : ke.
Lemma ke_rd_bc bc i : answer (k_rd_bc bc i) = rd_bc bc i.
Proof. unfold k_rd_bc, rd_bc; rewrite ?answer_call. ke. Qed.
#[global] Hint Resolve ke_rd_bc : ke.
Lemma ke_theta s : answer (k_opt2_theta s) = opt2_theta s.
Proof. unfold k_opt2_theta, opt2_theta; rewrite ?answer_call. ke. Qed.
#[global] Hint Resolve ke_theta : ke.
Lemma ke_rhopi s : answer (k_opt2_rhopi s) = opt2_rhopi s.
Proof. unfold k_opt2_rhopi, opt2_rhopi; rewrite ?answer_call. ke. Qed.
#[global] Hint Resolve ke_rhopi : ke.
Lemma ke_chi s : answer (k_opt2_chi s) = opt2_chi s.
Proof. unfold k_opt2_chi, opt2_chi; rewrite ?answer_call. ke. Qed.
#[global] Hint Resolve ke_chi : ke.
Lemma ke_round2 r s : answer (k_opt2_round r s) = opt2_round r s.
Proof. unfold k_opt2_round, opt2_round; rewrite ?answer_call. ke. Qed.
#[global] Hint Resolve ke_round2 : ke.
Lemma ke_opt2 (P : Z) s : answer (k_KeccakF1600_opt2 P s) = KeccakF1600_opt2 s.
Proof. unfold k_KeccakF1600_opt2, KeccakF1600_opt2; rewrite ?answer_call. ke. Qed.
#[global] Hint Resolve ke_opt2 : ke.
Lemma ke_perm (P : Z) opt s : answer (k_KeccakF1600_StatePermute P opt s) = KeccakF1600_StatePermute opt s.
Proof. unfold k_KeccakF1600_StatePermute, KeccakF1600_StatePermute; rewrite ?answer_call. ke. Qed.
#[global] Hint Resolve ke_perm : ke.
Lemma ke_inc_init (P : Z) s : answer (k_keccak_inc_init P s) = keccak_inc_init s.
Proof. unfold k_keccak_inc_init, keccak_inc_init; rewrite ?answer_call. ke. Qed.
#[global] Hint Resolve ke_inc_init : ke.
Lemma ke_absorb_bytes s m k : answer (k_absorb_bytes s m k) = absorb_bytes s m k.
Proof. unfold k_absorb_bytes, absorb_bytes; rewrite ?answer_call. ke. Qed.
#[global] Hint Resolve ke_absorb_bytes : ke.
Lemma ke_absorb_loop (P : Z) opt fuel r : forall s m, answer (k_absorb_loop P opt fuel r s m) = absorb_loop opt fuel r s m.
Proof. induction fuel as [|fuel IH]; intros s m; [reflexivity|]. cbn [k_absorb_loop absorb_loop]. ke. Qed.
#[global] Hint Resolve ke_absorb_loop : ke.
Lemma ke_absorb (P : Z) opt s r m : answer (k_keccak_inc_absorb P opt s r m) = keccak_inc_absorb opt s r m.
Proof. unfold k_keccak_inc_absorb, keccak_inc_absorb; rewrite ?answer_call. ke. Qed.
#[global] Hint Resolve ke_absorb : ke.
Lemma ke_finalize (P : Z) s r p : answer (k_keccak_inc_finalize P s r p) = keccak_inc_finalize s r p.
Proof. unfold k_keccak_inc_finalize, keccak_inc_finalize; rewrite ?answer_call. ke. Qed.
#[global] Hint Resolve ke_finalize : ke.
Lemma ke_state_byte s p : answer (k_state_byte s p) = state_byte s p.
Proof. unfold k_state_byte, state_byte; rewrite ?answer_call. ke. Qed.
#[global] Hint Resolve ke_state_byte : ke.
Lemma ke_squeeze_loop (P : Z) opt fuel r : forall s k, answer (k_squeeze_loop P opt fuel r s k) = squeeze_loop opt fuel r s k.
Proof. induction fuel as [|fuel IH]; intros s k; [reflexivity|]. cbn [k_squeeze_loop squeeze_loop]. ke. Qed.
#[global] Hint Resolve ke_squeeze_loop : ke.
Lemma ke_squeeze (P : Z) opt k s r : answer (k_keccak_inc_squeeze P opt k s r) = keccak_inc_squeeze opt k s r.
Proof. unfold k_keccak_inc_squeeze, keccak_inc_squeeze; rewrite ?answer_call. ke. Qed.
#[global] Hint Resolve ke_squeeze : ke.
Lemma ke_sh_init (P : Z) s : answer (k_ts_shake256_inc_init P s) = ts_shake256_inc_init s.
Proof. unfold k_ts_shake256_inc_init, ts_shake256_inc_init; rewrite ?answer_call. ke. Qed.
#[global] Hint Resolve ke_sh_init : ke.
Lemma ke_sh_absorb (P : Z) opt s m : answer (k_ts_shake256_inc_absorb P opt s m) = ts_shake256_inc_absorb opt s m.
Proof. unfold k_ts_shake256_inc_absorb, ts_shake256_inc_absorb; rewrite ?answer_call. ke. Qed.
#[global] Hint Resolve ke_sh_absorb : ke.
Lemma ke_sh_finalize (P : Z) s : answer (k_ts_shake256_inc_finalize P s) = ts_shake256_inc_finalize s.
Proof. unfold k_ts_shake256_inc_finalize, ts_shake256_inc_finalize; rewrite ?answer_call. ke. Qed.
#[global] Hint Resolve ke_sh_finalize : ke.
Lemma ke_sh_squeeze (P : Z) opt k s : answer (k_ts_shake256_inc_squeeze P opt k s) = ts_shake256_inc_squeeze opt k s.
Proof. unfold k_ts_shake256_inc_squeeze, ts_shake256_inc_squeeze; rewrite ?answer_call. ke. Qed.
#[global] Hint Resolve ke_sh_squeeze : ke.

(** ** The hash glue *)
Lemma ke_get256 le it : answer (k_get_sha256 le it) = get_sha256 le it.
Proof. unfold k_get_sha256, get_sha256; rewrite ?answer_call. ke. Qed.
#[global] Hint Resolve ke_get256 : ke.
Lemma ke_put256 le it c : answer (k_put_sha256 le it c) = put_sha256 le it c.
Proof. unfold k_put_sha256, put_sha256; rewrite ?answer_call. ke. Qed.
#[global] Hint Resolve ke_put256 : ke.
Lemma ke_get512 cfg it : answer (k_get_sha512 cfg it) = get_sha512 cfg it.
Proof. unfold k_get_sha512, get_sha512; rewrite ?answer_call. ke. Qed.
#[global] Hint Resolve ke_get512 : ke.
Lemma ke_put512 cfg it c : answer (k_put_sha512 cfg it c) = put_sha512 cfg it c.
Proof. unfold k_put_sha512, put_sha512; rewrite ?answer_call. ke. Qed.
#[global] Hint Resolve ke_put512 : ke.
Lemma ke_get_shake le it : answer (k_get_shake le it) = get_shake le it.
Proof. unfold k_get_shake, get_shake; rewrite ?answer_call. ke. Qed.
#[global] Hint Resolve ke_get_shake : ke.
Lemma ke_put_shake le it c : answer (k_put_shake le it c) = put_shake le it c.
Proof. unfold k_put_shake, put_shake; rewrite ?answer_call. ke. Qed.
#[global] Hint Resolve ke_put_shake : ke.
Lemma ke_sub_rd x b s o k : answer (k_sub_rd x b s o k) = sub_rd x b s o k.
Proof. unfold k_sub_rd, sub_rd; rewrite ?answer_call. ke. Qed.
#[global] Hint Resolve ke_sub_rd : ke.
Lemma ke_sub_wr x b s o v : answer (k_sub_wr x b s o v) = sub_wr x b s o v.
Proof. unfold k_sub_wr, sub_wr; rewrite ?answer_call. ke. Qed.
#[global] Hint Resolve ke_sub_wr : ke.
Lemma ke_get_fors cfg x k : answer (k_get_fors_node cfg x k) = get_fors_node cfg x k.
Proof. unfold k_get_fors_node, get_fors_node; rewrite ?answer_call. ke. Qed.
#[global] Hint Resolve ke_get_fors : ke.
Lemma ke_set_fors cfg x k v : answer (k_set_fors_node cfg x k v) = set_fors_node cfg x k v.
Proof. unfold k_set_fors_node, set_fors_node; rewrite ?answer_call. ke. Qed.
#[global] Hint Resolve ke_set_fors : ke.
Lemma ke_get_digit x : answer (k_get_digit x) = get_digit x.
Proof. unfold k_get_digit, get_digit; rewrite ?answer_call. ke. Qed.
#[global] Hint Resolve ke_get_digit : ke.
Lemma ke_set_digit x v : answer (k_set_digit x v) = set_digit x v.
Proof. unfold k_set_digit, set_digit; rewrite ?answer_call. ke. Qed.
#[global] Hint Resolve ke_set_digit : ke.
Lemma ke_get_digits cfg x i : answer (k_get_digits cfg x i) = get_digits cfg x i.
Proof. unfold k_get_digits, get_digits; rewrite ?answer_call. ke. Qed.
#[global] Hint Resolve ke_get_digits : ke.
Lemma ke_set_digits cfg x i v : answer (k_set_digits cfg x i v) = set_digits cfg x i v.
Proof. unfold k_set_digits, set_digits; rewrite ?answer_call. ke. Qed.
#[global] Hint Resolve ke_set_digits : ke.
Lemma ke_get_buf cfg c b n : answer (k_get_buf cfg c b n) = get_buf cfg c b n.
Proof. unfold k_get_buf, get_buf; rewrite ?answer_call. ke. Qed.
#[global] Hint Resolve ke_get_buf : ke.
Lemma ke_put_buf cfg c b v : answer (k_put_buf cfg c b v) = put_buf cfg c b v.
Proof. unfold k_put_buf, put_buf; rewrite ?answer_call. ke. Qed.
#[global] Hint Resolve ke_put_buf : ke.
Lemma ke_pad256 cfg c n : answer (k_sha256_pad_zero cfg c n) = sha256_pad_zero cfg c n.
Proof. unfold k_sha256_pad_zero, sha256_pad_zero; rewrite ?answer_call. ke. Qed.
#[global] Hint Resolve ke_pad256 : ke.
Lemma ke_pad512 cfg c n : answer (k_sha512_pad_zero cfg c n) = sha512_pad_zero cfg c n.
Proof. unfold k_sha512_pad_zero, sha512_pad_zero; rewrite ?answer_call. ke. Qed.
#[global] Hint Resolve ke_pad512 : ke.
Lemma ke_init_ctx256 cfg mem c sc : answer (k_ts_sha256_init_ctx cfg mem c sc) = ts_sha256_init_ctx cfg mem c sc.
Proof. unfold k_ts_sha256_init_ctx, ts_sha256_init_ctx; rewrite ?answer_call. ke. Qed.
#[global] Hint Resolve ke_init_ctx256 : ke.
Lemma ke_init_ctx512 cfg mem c sc : answer (k_ts_sha512_init_ctx cfg mem c sc) = ts_sha512_init_ctx cfg mem c sc.
Proof. unfold k_ts_sha512_init_ctx, ts_sha512_init_ctx; rewrite ?answer_call. ke. Qed.
#[global] Hint Resolve ke_init_ctx512 : ke.
Lemma ke_sha2_prf cfg mem sc : answer (k_ts_sha2_prf cfg mem sc) = ts_sha2_prf cfg mem sc.
Proof. unfold k_ts_sha2_prf, ts_sha2_prf; rewrite ?answer_call. ke. Qed.
#[global] Hint Resolve ke_sha2_prf : ke.
Lemma ke_sha2_f cfg mem b sc : answer (k_ts_sha2_f_simple cfg mem b sc) = ts_sha2_f_simple cfg mem b sc.
Proof. unfold k_ts_sha2_f_simple, ts_sha2_f_simple; rewrite ?answer_call. ke. Qed.
#[global] Hint Resolve ke_sha2_f : ke.
Lemma ke_L1_init_t cfg mem it sc : answer (k_ts_sha2_L1_init_t_simple cfg mem it sc) = ts_sha2_L1_init_t_simple cfg mem it sc.
Proof. unfold k_ts_sha2_L1_init_t_simple, ts_sha2_L1_init_t_simple; rewrite ?answer_call. ke. Qed.
#[global] Hint Resolve ke_L1_init_t : ke.
Lemma ke_L1_next_t cfg it b sc : answer (k_ts_sha2_L1_next_t_simple cfg it b sc) = ts_sha2_L1_next_t_simple cfg it b sc.
Proof. unfold k_ts_sha2_L1_next_t_simple, ts_sha2_L1_next_t_simple; rewrite ?answer_call. ke. Qed.
#[global] Hint Resolve ke_L1_next_t : ke.
Lemma ke_L1_final_t cfg it sc : answer (k_ts_sha2_L1_final_t_simple cfg it sc) = ts_sha2_L1_final_t_simple cfg it sc.
Proof. unfold k_ts_sha2_L1_final_t_simple, ts_sha2_L1_final_t_simple; rewrite ?answer_call. ke. Qed.
#[global] Hint Resolve ke_L1_final_t : ke.
Lemma ke_L1_prehash cfg mem sc : answer (k_ts_sha2_L1_prehash cfg mem sc) = ts_sha2_L1_prehash cfg mem sc.
Proof. unfold k_ts_sha2_L1_prehash, ts_sha2_L1_prehash; rewrite ?answer_call. ke. Qed.
#[global] Hint Resolve ke_L1_prehash : ke.
Lemma ke_L35_init_t cfg mem it sc : answer (k_ts_sha2_L35_init_t_simple cfg mem it sc) = ts_sha2_L35_init_t_simple cfg mem it sc.
Proof. unfold k_ts_sha2_L35_init_t_simple, ts_sha2_L35_init_t_simple; rewrite ?answer_call. ke. Qed.
#[global] Hint Resolve ke_L35_init_t : ke.
Lemma ke_L35_next_t cfg it b sc : answer (k_ts_sha2_L35_next_t_simple cfg it b sc) = ts_sha2_L35_next_t_simple cfg it b sc.
Proof. unfold k_ts_sha2_L35_next_t_simple, ts_sha2_L35_next_t_simple; rewrite ?answer_call. ke. Qed.
#[global] Hint Resolve ke_L35_next_t : ke.
Lemma ke_L35_final_t cfg it sc : answer (k_ts_sha2_L35_final_t_simple cfg it sc) = ts_sha2_L35_final_t_simple cfg it sc.
Proof. unfold k_ts_sha2_L35_final_t_simple, ts_sha2_L35_final_t_simple; rewrite ?answer_call. ke. Qed.
#[global] Hint Resolve ke_L35_final_t : ke.
Lemma ke_L35_prehash cfg mem sc : answer (k_ts_sha2_L35_prehash cfg mem sc) = ts_sha2_L35_prehash cfg mem sc.
Proof. unfold k_ts_sha2_L35_prehash, ts_sha2_L35_prehash; rewrite ?answer_call. ke. Qed.
#[global] Hint Resolve ke_L35_prehash : ke.
Lemma ke_hmac mem b s v pk n : answer (k_hmac_block mem b s v pk n) = hmac_block mem b s v pk n.
Proof. unfold k_hmac_block, hmac_block; rewrite ?answer_call. ke. Qed.
#[global] Hint Resolve ke_hmac : ke.
Lemma ke_L1_prf_msg cfg mem o m sc : answer (k_ts_sha2_L1_prf_msg cfg mem o m sc) = ts_sha2_L1_prf_msg cfg mem o m sc.
Proof. unfold k_ts_sha2_L1_prf_msg, ts_sha2_L1_prf_msg; rewrite ?answer_call. ke. Qed.
#[global] Hint Resolve ke_L1_prf_msg : ke.
Lemma ke_mgf256 cfg fuel n : forall mh c i k, answer (k_sha256_mgf_loop cfg fuel n mh c i k) = sha256_mgf_loop cfg fuel n mh c i k.
Proof.
  induction fuel as [|fuel IH]; intros mh c i k; [reflexivity|]. cbn [k_sha256_mgf_loop sha256_mgf_loop]. cbv zeta.
  rewrite answer_if. destruct (k =? 0); [reflexivity|]. eapply kbind_pure; [apply ke_ull|].
  rewrite answer_bind. apply bind_ext2; [ke|intros mh']. eapply kbind_pure; [reflexivity|]. rewrite answer_bind. apply bind_ext2; [ke|intros m].
  rewrite answer_bind. apply bind_ext2; [ke|intros c']. rewrite answer_bind. apply bind_ext2; [ke|intros [buffer c'']].
  eapply (kbind_pure _ (if 32 <=? k then 32 else k)); [rewrite answer_if; destruct (_ <=? _); reflexivity|]. ke.
Qed.
#[global] Hint Resolve ke_mgf256 : ke.
Lemma ke_L1_hash_msg cfg mem k r m sc : answer (k_ts_sha2_L1_hash_msg cfg mem k r m sc) = ts_sha2_L1_hash_msg cfg mem k r m sc.
Proof. unfold k_ts_sha2_L1_hash_msg, ts_sha2_L1_hash_msg; rewrite ?answer_call. ke. Qed.
#[global] Hint Resolve ke_L1_hash_msg : ke.
Lemma ke_L35_prf_msg cfg mem o m sc : answer (k_ts_sha2_L35_prf_msg cfg mem o m sc) = ts_sha2_L35_prf_msg cfg mem o m sc.
Proof. unfold k_ts_sha2_L35_prf_msg, ts_sha2_L35_prf_msg; rewrite ?answer_call. ke. Qed.
#[global] Hint Resolve ke_L35_prf_msg : ke.
Lemma ke_mgf512 cfg fuel n : forall mh c i k, answer (k_sha512_mgf_loop cfg fuel n mh c i k) = sha512_mgf_loop cfg fuel n mh c i k.
Proof.
  induction fuel as [|fuel IH]; intros mh c i k; [reflexivity|]. cbn [k_sha512_mgf_loop sha512_mgf_loop]. cbv zeta.
  rewrite answer_if. destruct (k =? 0); [reflexivity|]. eapply kbind_pure; [apply ke_ull|].
  rewrite answer_bind. apply bind_ext2; [ke|intros mh']. eapply kbind_pure; [reflexivity|]. rewrite answer_bind. apply bind_ext2; [ke|intros m].
  rewrite answer_bind. apply bind_ext2; [ke|intros c']. rewrite answer_bind. apply bind_ext2; [ke|intros [buffer c'']].
  eapply (kbind_pure _ (if 64 <=? k then 64 else k)); [rewrite answer_if; destruct (_ <=? _); reflexivity|]. ke.
Qed.
#[global] Hint Resolve ke_mgf512 : ke.
Lemma ke_L35_hash_msg cfg mem k r m sc : answer (k_ts_sha2_L35_hash_msg cfg mem k r m sc) = ts_sha2_L35_hash_msg cfg mem k r m sc.
Proof. unfold k_ts_sha2_L35_hash_msg, ts_sha2_L35_hash_msg; rewrite ?answer_call. ke. Qed.
#[global] Hint Resolve ke_L35_hash_msg : ke.
Lemma ke_sh_prf_msg cfg mem o m sc : answer (k_ts_shake256_prf_msg cfg mem o m sc) = ts_shake256_prf_msg cfg mem o m sc.
Proof. unfold k_ts_shake256_prf_msg, ts_shake256_prf_msg; rewrite ?answer_call. ke. Qed.
#[global] Hint Resolve ke_sh_prf_msg : ke.
Lemma ke_sh_hash_msg cfg mem k r m sc : answer (k_ts_shake256_hash_msg cfg mem k r m sc) = ts_shake256_hash_msg cfg mem k r m sc.
Proof. unfold k_ts_shake256_hash_msg, ts_shake256_hash_msg; rewrite ?answer_call. ke. Qed.
#[global] Hint Resolve ke_sh_hash_msg : ke.
Lemma ke_sh_prf cfg mem sc : answer (k_ts_shake256_prf cfg mem sc) = ts_shake256_prf cfg mem sc.
Proof. unfold k_ts_shake256_prf, ts_shake256_prf; rewrite ?answer_call. ke. Qed.
#[global] Hint Resolve ke_sh_prf : ke.
Lemma ke_sh_init_t cfg mem it sc : answer (k_ts_shake256_init_t_simple cfg mem it sc) = ts_shake256_init_t_simple cfg mem it sc.
Proof. unfold k_ts_shake256_init_t_simple, ts_shake256_init_t_simple; rewrite ?answer_call. ke. Qed.
#[global] Hint Resolve ke_sh_init_t : ke.
Lemma ke_sh_next_t cfg it b sc : answer (k_ts_shake256_next_t_simple cfg it b sc) = ts_shake256_next_t_simple cfg it b sc.
Proof. unfold k_ts_shake256_next_t_simple, ts_shake256_next_t_simple; rewrite ?answer_call. ke. Qed.
#[global] Hint Resolve ke_sh_next_t : ke.
Lemma ke_sh_final_t cfg it sc : answer (k_ts_shake256_final_t_simple cfg it sc) = ts_shake256_final_t_simple cfg it sc.
Proof. unfold k_ts_shake256_final_t_simple, ts_shake256_final_t_simple; rewrite ?answer_call. ke. Qed.
#[global] Hint Resolve ke_sh_final_t : ke.
Lemma ke_sh_f cfg mem b sc : answer (k_ts_shake256_f_simple cfg mem b sc) = ts_shake256_f_simple cfg mem b sc.
Proof. unfold k_ts_shake256_f_simple, ts_shake256_f_simple; rewrite ?answer_call. ke. Qed.
#[global] Hint Resolve ke_sh_f : ke.
Lemma ke_call_prf_msg cfg mem o m sc : answer (k_call_prf_msg cfg mem o m sc) = call_prf_msg cfg mem o m sc.
Proof. unfold k_call_prf_msg, call_prf_msg; rewrite ?answer_call. ke. Qed.
#[global] Hint Resolve ke_call_prf_msg : ke.
Lemma ke_call_hash_msg cfg mem k r m sc : answer (k_call_hash_msg cfg mem k r m sc) = call_hash_msg cfg mem k r m sc.
Proof. unfold k_call_hash_msg, call_hash_msg; rewrite ?answer_call. ke. Qed.
#[global] Hint Resolve ke_call_hash_msg : ke.
Lemma ke_call_prf cfg mem sc : answer (k_call_prf cfg mem sc) = call_prf cfg mem sc.
Proof. unfold k_call_prf, call_prf; rewrite ?answer_call. ke. Qed.
#[global] Hint Resolve ke_call_prf : ke.
Lemma ke_call_f cfg mem b sc : answer (k_call_f cfg mem b sc) = call_f cfg mem b sc.
Proof. unfold k_call_f, call_f; rewrite ?answer_call. ke. Qed.
#[global] Hint Resolve ke_call_f : ke.
Lemma ke_call_init_t cfg mem it sc : answer (k_call_init_t cfg mem it sc) = call_init_t cfg mem it sc.
Proof. unfold k_call_init_t, call_init_t; rewrite ?answer_call. ke. Qed.
#[global] Hint Resolve ke_call_init_t : ke.
Lemma ke_call_next_t cfg it b sc : answer (k_call_next_t cfg it b sc) = call_next_t cfg it b sc.
Proof. unfold k_call_next_t, call_next_t; rewrite ?answer_call. ke. Qed.
#[global] Hint Resolve ke_call_next_t : ke.
Lemma ke_call_final_t cfg it sc : answer (k_call_final_t cfg it sc) = call_final_t cfg it sc.
Proof. unfold k_call_final_t, call_final_t; rewrite ?answer_call. ke. Qed.
#[global] Hint Resolve ke_call_final_t : ke.
Lemma ke_call_prehash cfg mem sc : answer (k_call_compute_prehash cfg mem sc) = call_compute_prehash cfg mem sc.
Proof. unfold k_call_compute_prehash, call_compute_prehash; rewrite ?answer_call. ke. Qed.
#[global] Hint Resolve ke_call_prehash : ke.
