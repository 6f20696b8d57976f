(** * Bounds for the automatic storage: the operations, from bounds for the hash functions *)
From Verif Require Import CSem CStack ModelEndian ModelSha256 ModelSha512 ModelFips202 ModelParams ModelCtx ModelHash ModelSphincs ModelKeygen
  StkSha2 StkFips202 StkHash StkSphincs StkVerify PfStack.
Ltac Zify.zify_post_hook ::= idtac.

Section Ops.
Variable cfg : config.
Variable ps : parameter_set.
Local Notation P := (SIZEOF_PTR cfg).
Local Notation T := (TS_MAX_HASH cfg).
Let HP := ptr_size cfg.
Let HT := max_hash_pos cfg.
(** Bounds for the members of the parameter set: prf, f, the three functions of the tweaked
    hash, prf_msg, hash_msg, compute_prehash *)
Variables Bp Bf Bt Bm Bh Bq : Z.
Hypothesis Lp : 4 * P + 40 <= Bp.
Hypothesis Lf : 4 * P + 40 <= Bf.
Hypothesis Lt : 5 * P + 40 <= Bt.
Hypothesis Lm : 0 <= Bm.
Hypothesis Lh : 5 * P + 40 <= Bh.
Hypothesis Lq : 0 <= Bq.
Hypothesis Hp : forall mem c, c_ps c = ps -> fits Bp (keep2 ps) (k_call_prf cfg mem c).
Hypothesis Hf : forall mem b c, c_ps c = ps -> fits Bf (keep2 ps) (k_call_f cfg mem b c).
Hypothesis Hi : forall mem t c, c_ps c = ps -> fits Bt anything (k_call_init_t cfg mem t c).
Hypothesis Hn : forall t i c, c_ps c = ps -> fits Bt anything (k_call_next_t cfg t i c).
Hypothesis He : forall t c, c_ps c = ps -> fits Bt anything (k_call_final_t cfg t c).
Hypothesis Hm : forall mem o m c, c_ps c = ps -> fits Bm (keep2 ps) (k_call_prf_msg cfg mem o m c).
Hypothesis Hh : forall mem n r m c, c_ps c = ps -> fits Bh (keep2 ps) (k_call_hash_msg cfg mem n r m c).
Hypothesis Hq : forall mem c, c_ps c = ps -> fits Bq (keep ps) (k_call_compute_prehash cfg mem c).
Hint Resolve Hp Hf Hi Hn He Hm Hh Hq : ft.
Hint Resolve ft_bytes_to_ull ft_ull ft_get_node ft_set_node ft_get_digit ft_set_digit ft_get_digits ft_set_digits ft_get_buf ft_put_buf ft_sub_rd ft_sub_wr : ft.
Hint Extern 0 (4 <= SIZEOF_PTR _ <= 8) => apply ptr_size : ft.
Hint Extern 1 (c_ps _ = ps) => first [assumption | reflexivity] : ft.
Ltac go := ft_with ps.

Lemma ft_extract h o k : fits (2 * P + 16) anything (k_extract_int_from_hash cfg h o k).
Proof using HP. unfold k_extract_int_from_hash. go. Qed.
Hint Resolve ft_extract : ft.
Lemma ft_wr_adr o v c : c_ps c = ps -> fits 0 (keep ps) (k_wr_adr o v c). Proof. intros H. unfold k_wr_adr. go. Qed.
Hint Resolve ft_wr_adr : ft.
Lemma ft_layer v c : c_ps c = ps -> fits (2 * P + 20) (keep ps) (k_set_layer_adr cfg v c). Proof using HP. intros H. unfold k_set_layer_adr. go. Qed.
Lemma ft_tree v c : c_ps c = ps -> fits (2 * P + 24) (keep ps) (k_set_tree_adr cfg v c). Proof using HP. intros H. unfold k_set_tree_adr. go. Qed.
Lemma ft_type v c : c_ps c = ps -> fits (2 * P + 20) (keep ps) (k_set_type_adr cfg v c). Proof using HP. intros H. unfold k_set_type_adr. go. Qed.
Lemma ft_keypair v c : c_ps c = ps -> fits (2 * P + 20) (keep ps) (k_set_keypair_adr cfg v c). Proof using HP. intros H. unfold k_set_keypair_adr. go. Qed.
Lemma ft_height v c : c_ps c = ps -> fits (2 * P + 20) (keep ps) (k_set_tree_height_adr cfg v c). Proof using HP. intros H. unfold k_set_tree_height_adr. go. Qed.
Lemma ft_index v c : c_ps c = ps -> fits (2 * P + 20) (keep ps) (k_set_tree_index_adr cfg v c). Proof using HP. intros H. unfold k_set_tree_index_adr. go. Qed.
Lemma ft_chain_adr v c : c_ps c = ps -> fits (2 * P + 20) (keep ps) (k_set_chain_adr cfg v c). Proof using HP. exact (ft_height v c). Qed.
Lemma ft_hash_adr v c : c_ps c = ps -> fits (2 * P + 20) (keep ps) (k_set_hash_adr cfg v c). Proof using HP. exact (ft_index v c). Qed.
Lemma ft_fors_index c v : fits 0 anything (k_fors_index c v). Proof. unfold k_fors_index. go. Qed.
Hint Resolve ft_layer ft_tree ft_type ft_keypair ft_height ft_index ft_chain_adr ft_hash_adr ft_fors_index : ft.
Lemma ft_fors_prf_adr v c : c_ps c = ps -> fits (3 * P + 36) (keep ps) (k_set_fors_prf_adr cfg v c). Proof using HP. intros H. unfold k_set_fors_prf_adr. go. Qed.
Lemma ft_fors_leaf_adr v c : c_ps c = ps -> fits (3 * P + 36) (keep ps) (k_ts_set_fors_leaf_adr cfg v c). Proof using HP. intros H. unfold k_ts_set_fors_leaf_adr. go. Qed.
Lemma ft_wots_prf_adr t v c : c_ps c = ps -> fits (3 * P + 36) (keep ps) (k_set_wots_prf_adr cfg t v c). Proof using HP. intros H. unfold k_set_wots_prf_adr. go. Qed.
Lemma ft_wots_f_adr t v h c : c_ps c = ps -> fits (3 * P + 36) (keep ps) (k_ts_set_wots_f_adr cfg t v h c). Proof using HP. intros H. unfold k_ts_set_wots_f_adr. go. Qed.
Lemma ft_merkle_adr n l t c : c_ps c = ps -> fits (3 * P + 36) (keep ps) (k_ts_set_merkle_adr cfg n l t c). Proof using HP. intros H. unfold k_ts_set_merkle_adr. go. Qed.
Lemma ft_root_adr c : c_ps c = ps -> fits (3 * P + 36) (keep ps) (k_ts_set_fors_root_adr cfg c). Proof using HP. intros H. unfold k_ts_set_fors_root_adr. go. Qed.
Lemma ft_header_adr v c : c_ps c = ps -> fits (3 * P + 36) (keep ps) (k_ts_set_wots_header_adr cfg v c). Proof using HP. intros H. unfold k_ts_set_wots_header_adr. go. Qed.
Hint Resolve ft_fors_prf_adr ft_fors_leaf_adr ft_wots_prf_adr ft_wots_f_adr ft_merkle_adr ft_root_adr ft_header_adr : ft.

Section Mem.
Variable mem : memory.
Lemma ft_do_prf o c : c_ps c = ps -> fits Bp (keep ps) (k_do_prf cfg mem o c). Proof using HP Lp Hp. intros H. unfold k_do_prf. go. Qed.
Lemma ft_do_f o i c : c_ps c = ps -> fits Bf (keep ps) (k_do_f cfg mem o i c). Proof using HP Lf Hf. intros H. unfold k_do_f. go. Qed.
Lemma ft_small_init c : c_ps c = ps -> fits Bt (keep ps) (k_small_init_t cfg mem c). Proof using HP Lt Hi. intros H. unfold k_small_init_t. go. Qed.
Lemma ft_small_next i c : c_ps c = ps -> fits Bt (keep ps) (k_small_next_t cfg i c). Proof using HP Lt Hn. intros H. unfold k_small_next_t. go. Qed.
Lemma ft_small_final o c : c_ps c = ps -> fits Bt (keep ps) (k_small_final_t cfg o c). Proof using HP Lt He. intros H. unfold k_small_final_t. go. Qed.
Lemma ft_big_init c : c_ps c = ps -> fits Bt (keep ps) (k_big_init_t cfg mem c). Proof using HP Lt Hi. intros H. unfold k_big_init_t. go. Qed.
Lemma ft_big_next i c : c_ps c = ps -> fits Bt (keep ps) (k_big_next_t cfg i c). Proof using HP Lt Hn. intros H. unfold k_big_next_t. go. Qed.
Lemma ft_big_final o c : c_ps c = ps -> fits Bt (keep ps) (k_big_final_t cfg o c). Proof using HP Lt He. intros H. unfold k_big_final_t. go. Qed.
Hint Resolve ft_do_prf ft_do_f ft_small_init ft_small_next ft_small_final ft_big_init ft_big_next ft_big_final : ft.
Lemma ft_fors_prf o v c : c_ps c = ps -> fits (2 * P + 4 + Bp) (keep ps) (k_fors_prf cfg mem o v c).
Proof using HP Lp Hp. intros H. unfold k_fors_prf. go. Qed.
Lemma ft_wots_prf o t v c : c_ps c = ps -> fits (2 * P + 8 + Bp) (keep ps) (k_wots_prf cfg mem o t v c).
Proof using HP Lp Hp. intros H. unfold k_wots_prf. go. Qed.
Hint Resolve ft_fors_prf ft_wots_prf : ft.
Lemma ft_fors_leaf o v c : c_ps c = ps -> fits (2 * P + 4 + Z.max (2 * P + 4 + Bp) Bf) (keep ps) (k_fors_leaf cfg mem o v c).
Proof using HP Lp Hp Lf Hf. intros H. unfold k_fors_leaf. go. Qed.
Lemma ft_rd_stack s o n c : fits 0 anything (k_rd_stack s o n c). Proof. unfold k_rd_stack. go. Qed.
Lemma ft_wr_stack s o v c : c_ps c = ps -> fits 0 (keep ps) (k_wr_stack s o v c). Proof. intros H. unfold k_wr_stack. go. Qed.
Hint Resolve ft_fors_leaf ft_rd_stack ft_wr_stack : ft.
Lemma ft_combine fuel s ty : forall l n k c, c_ps c = ps -> fits Bt (keep2 ps) (k_combine_loop cfg mem fuel s ty l n k c).
Proof using HP Lt Hi Hn He. induction fuel as [|fuel IH]; intros l n k c H; cbn [k_combine_loop]; go. Qed.
Hint Resolve ft_combine : ft.
Lemma ft_merkle_path g ty s c B : (forall o v c, c_ps c = ps -> fits B (keep ps) (g o v c)) -> c_ps c = ps ->
  fits (5 * P + 32 + Z.max B Bt) (keep ps) (k_ts_merkle_path cfg mem g ty s c).
Proof using HP Lt Hi Hn He. intros G H. unfold k_ts_merkle_path. go. Qed.
Lemma ft_convert_bit st : fits 0 anything (k_convert_bit st). Proof. unfold k_convert_bit. go. Qed.
Hint Resolve ft_convert_bit : ft.
Lemma ft_convert h c : c_ps c = ps -> fits (5 * P + 40) (keep2 ps) (k_ts_convert_message_hash_to_hypertree_position cfg h c).
Proof using HP. intros H. unfold k_ts_convert_message_hash_to_hypertree_position. go. Qed.
Lemma ft_wots_digits x h n : fits (2 * P + 17) anything (k_compute_wots_digits cfg x h n).
Proof using HP. unfold k_compute_wots_digits. go. Qed.
Hint Resolve ft_convert ft_wots_digits : ft.
Lemma ft_set_up v c : c_ps c = ps -> fits (3 * P + 21) (keep ps) (k_ts_set_up_wots_signature cfg v c).
Proof using HP. intros H. unfold k_ts_set_up_wots_signature. go. Qed.
Lemma ft_chain b t d i j c : c_ps c = ps -> fits Bf (keep ps) (k_chain_loop cfg mem b t d i j c).
Proof using HP Lf Hf. intros H. unfold k_chain_loop. go. Qed.
Hint Resolve ft_set_up ft_chain : ft.
Lemma ft_next_hash c : c_ps c = ps -> fits (P + 8 + Z.max (2 * P + 8 + Bp) Bf) (keep ps) (k_generate_next_wots_hash cfg mem c).
Proof using HP Lp Hp Lf Hf. intros H. unfold k_generate_next_wots_hash. go. Qed.
Lemma ft_wots_leaf o v c : c_ps c = ps -> fits (3 * P + 12 + Z.max (2 * P + 8 + Bp) (Z.max Bf Bt)) (keep ps) (k_ts_wots_leaf cfg mem o v c).
Proof using HP Lp Hp Lf Hf Lt Hi Hn He. intros H. unfold k_ts_wots_leaf. go. Qed.
Hint Resolve ft_next_hash ft_wots_leaf : ft.
Hint Resolve ft_merkle_path : ft.
Local Notation leaf_space := (Z.max (2 * P + 8 + Bp) (Z.max Bf Bt)).
Lemma ft_path_fors ty s c : c_ps c = ps -> fits (8 * P + 44 + leaf_space) (keep ps) (k_ts_merkle_path cfg mem (k_fors_leaf cfg mem) ty s c).
Proof using HP Lp Hp Lf Hf Lt Hi Hn He. intros H. eapply fits_le; [apply ft_merkle_path; [exact ft_fors_leaf|exact H]|lia]. Qed.
Lemma ft_path_wots ty s c : c_ps c = ps -> fits (8 * P + 44 + leaf_space) (keep ps) (k_ts_merkle_path cfg mem (k_ts_wots_leaf cfg mem) ty s c).
Proof using HP Lp Hp Lf Hf Lt Hi Hn He. intros H. eapply fits_le; [apply ft_merkle_path; [exact ft_wots_leaf|exact H]|lia]. Qed.
Hint Resolve ft_path_fors ft_path_wots : ft.
Remove Hints ft_merkle_path : ft.
Lemma ft_sign_switch c : c_ps c = ps -> fits (8 * P + 44 + leaf_space) (keepo ps) (k_sign_switch cfg mem c).
Proof using HP Lp Hp Lf Hf Lt Hi Hn He. intros H. unfold k_sign_switch. go. Qed.
Hint Resolve ft_sign_switch : ft.
Lemma ft_sign_loop fuel : forall d p m c, c_ps c = ps -> fits (8 * P + 44 + leaf_space) (keep2 ps) (k_sign_loop cfg mem fuel d p m c).
Proof using HP Lp Hp Lf Hf Lt Hi Hn He.
  induction fuel as [|fuel IH]; intros d p m c H; cbn [k_sign_loop]; go.
Qed.
Hint Resolve ft_sign_loop : ft.
Lemma ft_sign d m c : c_ps c = ps -> fits (10 * P + 68 + leaf_space) (keep2 ps) (k_ts_sign cfg mem d m c).
Proof using HP Lp Hp Lf Hf Lt Hi Hn He. intros H. unfold k_ts_sign. go. Qed.
Lemma ft_init_sign_gen {R} c m l k (rng : random_generator R) r :
  fits (7 * P + 53 + T + Z.max (Z.max Bm Bh) (Z.max Bt Bq)) (keep1 ps) (k_ts_init_sign_gen cfg mem c m l ps k rng r).
Proof using HP HT Lt Hi Lm Hm Lh Hh Lq Hq.
  unfold k_ts_init_sign_gen, MAX_MESSAGE_HASH. assert (H : c_ps (set_ps ps c) = ps) by reflexivity. go.
Qed.
(** verify.c *)
Lemma ft_get_message x : fits 0 anything (k_get_verify_message cfg x). Proof. unfold k_get_verify_message. go. Qed.
Lemma ft_get_len x : fits 0 anything (k_get_verify_len cfg x). Proof. unfold k_get_verify_len. go. Qed.
Lemma ft_set_message x v : fits 0 anything (k_set_verify_message cfg x v). Proof. unfold k_set_verify_message. go. Qed.
Lemma ft_set_len x v : fits 0 anything (k_set_verify_len cfg x v). Proof. unfold k_set_verify_len. go. Qed.
Hint Resolve ft_get_message ft_get_len ft_set_message ft_set_len : ft.
Lemma ft_init_verify c m l k : fits (5 * P + Bq) (keep ps) (k_ts_init_verify cfg mem c m l ps k).
Proof using HP Lq Hq. unfold k_ts_init_verify. go. Qed.
Lemma ft_next_auth ty c : c_ps c = ps -> fits (2 * P + 12 + Bt) (keep ps) (k_next_auth_path cfg mem ty c).
Proof using HP Lt Hi Hn He. intros H. unfold k_next_auth_path. go. Qed.
Lemma ft_set_up_verify v c : c_ps c = ps -> fits (P + 4 + Bt) (keep ps) (k_set_up_wots_verify_signature cfg mem v c).
Proof using HP Lt Hi. intros H. unfold k_set_up_wots_verify_signature. go. Qed.
Lemma ft_memcmp a b n : forall i, fits 0 anything (k_my_memcmp a b n i).
Proof. induction n as [|n IH]; intros i; cbn [k_my_memcmp]; go. Qed.
Hint Resolve ft_next_auth ft_set_up_verify ft_memcmp : ft.
Lemma ft_verify_switch m c : c_ps c = ps -> fits (Z.max (Z.max Bh Bf) (2 * P + 12 + Bt)) (keeps ps) (k_verify_switch cfg mem m c).
Proof using HP Lf Hf Lt Hi Hn He Lh Hh. intros H. unfold k_verify_switch. go. Qed.
Hint Resolve ft_verify_switch : ft.
Lemma ft_verify_loop fuel : forall s p m c, c_ps c = ps -> fits (Z.max (Z.max Bh Bf) (2 * P + 12 + Bt)) (keep2 ps) (k_verify_loop cfg mem fuel s p m c).
Proof using HP Lf Hf Lt Hi Hn He Lh Hh. induction fuel as [|fuel IH]; intros s p m c H; cbn [k_verify_loop]; go. Qed.
Hint Resolve ft_verify_loop : ft.
Lemma ft_update_verify s m c : c_ps c = ps ->
  fits (2 * P + 32 + Z.max (Z.max Bh Bf) (2 * P + 12 + Bt)) (keep2 ps) (k_ts_update_verify cfg mem s m c).
Proof using HP Lf Hf Lt Hi Hn He Lh Hh. intros H. unfold k_ts_update_verify. go. Qed.
End Mem.
(** key_gen.c *)
Hint Resolve ft_wots_leaf ft_path_wots : ft.
Lemma ft_gen_root mem k : fits (Z.max Bq (8 * P + 44 + Z.max (2 * P + 8 + Bp) (Z.max Bf Bt))) anything (k_gen_root cfg mem k ps).
Proof using HP Lp Hp Lf Hf Lt Hi Hn He Lq Hq. unfold k_gen_root. go. Qed.
Hint Resolve ft_gen_root : ft.
Lemma ft_gen_key {R} k pub (rng : random_generator R) r :
  fits (5 * P + 8 + SIZEOF_TS_CONTEXT cfg + Z.max Bq (8 * P + 44 + Z.max (2 * P + 8 + Bp) (Z.max Bf Bt))) anything
    (k_ts_gen_key_gen cfg k pub (Some ps) rng r).
Proof using HP Lp Hp Lf Hf Lt Hi Hn He Lq Hq. unfold k_ts_gen_key_gen. go. Qed.
End Ops.
