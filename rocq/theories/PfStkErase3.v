(** * The program whose storage is measured has the outcomes of the model: tiny_sphincs.c and key_gen.c *)
From Verif Require Import CSem CStack ModelEndian ModelParams ModelCtx ModelHash ModelSphincs ModelKeygen
  StkSha2 StkHash StkSphincs PfStkErase PfStkErase2.
Ltac Zify.zify_post_hook ::= idtac.

Ltac era := first [eapply kbind_pure; [apply ke_ull|]; era | ke].
Lemma ke_extract (cfg : config) h o k : answer (k_extract_int_from_hash cfg h o k) = extract_int_from_hash h o k.
Proof. unfold k_extract_int_from_hash, extract_int_from_hash; rewrite ?answer_call. ke. Qed.
#[global] Hint Resolve ke_extract : ke.
Lemma ke_wr_adr o v c : answer (k_wr_adr o v c) = wr_adr o v c.
Proof. unfold k_wr_adr, wr_adr; rewrite ?answer_call. ke. Qed.
#[global] Hint Resolve ke_wr_adr : ke.
Lemma ke_set_layer_adr cfg v c : answer (k_set_layer_adr cfg v c) = set_layer_adr cfg v c.
Proof. unfold k_set_layer_adr, set_layer_adr; rewrite ?answer_call. rewrite answer_if. destruct (use_sha2_adr cfg c); era. Qed.
#[global] Hint Resolve ke_set_layer_adr : ke.
Lemma ke_set_tree_adr cfg v c : answer (k_set_tree_adr cfg v c) = set_tree_adr cfg v c.
Proof. unfold k_set_tree_adr, set_tree_adr; rewrite ?answer_call. rewrite answer_if. destruct (use_sha2_adr cfg c); era. Qed.
#[global] Hint Resolve ke_set_tree_adr : ke.
Lemma ke_set_type_adr cfg v c : answer (k_set_type_adr cfg v c) = set_type_adr cfg v c.
Proof. unfold k_set_type_adr, set_type_adr; rewrite ?answer_call. rewrite answer_if. destruct (use_sha2_adr cfg c); era. Qed.
#[global] Hint Resolve ke_set_type_adr : ke.
Lemma ke_set_keypair_adr cfg v c : answer (k_set_keypair_adr cfg v c) = set_keypair_adr cfg v c.
Proof. unfold k_set_keypair_adr, set_keypair_adr; rewrite ?answer_call. rewrite answer_if. destruct (use_sha2_adr cfg c); era. Qed.
#[global] Hint Resolve ke_set_keypair_adr : ke.
Lemma ke_set_tree_height_adr cfg v c : answer (k_set_tree_height_adr cfg v c) = set_tree_height_adr cfg v c.
Proof. unfold k_set_tree_height_adr, set_tree_height_adr; rewrite ?answer_call. rewrite answer_if. destruct (use_sha2_adr cfg c); era. Qed.
#[global] Hint Resolve ke_set_tree_height_adr : ke.
Lemma ke_set_tree_index_adr cfg v c : answer (k_set_tree_index_adr cfg v c) = set_tree_index_adr cfg v c.
Proof. unfold k_set_tree_index_adr, set_tree_index_adr; rewrite ?answer_call. rewrite answer_if. destruct (use_sha2_adr cfg c); era. Qed.
#[global] Hint Resolve ke_set_tree_index_adr : ke.
Lemma ke_set_chain_adr cfg v c : answer (k_set_chain_adr cfg v c) = set_chain_adr cfg v c.
Proof. unfold k_set_chain_adr, set_chain_adr; rewrite ?answer_call. ke. Qed.
#[global] Hint Resolve ke_set_chain_adr : ke.
Lemma ke_set_hash_adr cfg v c : answer (k_set_hash_adr cfg v c) = set_hash_adr cfg v c.
Proof. unfold k_set_hash_adr, set_hash_adr; rewrite ?answer_call. ke. Qed.
#[global] Hint Resolve ke_set_hash_adr : ke.
Lemma ke_fors_index c i : answer (k_fors_index c i) = fors_index c i.
Proof. unfold k_fors_index, fors_index; rewrite ?answer_call. ke. Qed.
#[global] Hint Resolve ke_fors_index : ke.
Lemma ke_fors_prf_adr cfg i c : answer (k_set_fors_prf_adr cfg i c) = set_fors_prf_adr cfg i c.
Proof. unfold k_set_fors_prf_adr, set_fors_prf_adr; rewrite ?answer_call. ke. Qed.
#[global] Hint Resolve ke_fors_prf_adr : ke.
Lemma ke_fors_leaf_adr cfg i c : answer (k_ts_set_fors_leaf_adr cfg i c) = ts_set_fors_leaf_adr cfg i c.
Proof. unfold k_ts_set_fors_leaf_adr, ts_set_fors_leaf_adr; rewrite ?answer_call. ke. Qed.
#[global] Hint Resolve ke_fors_leaf_adr : ke.
Lemma ke_wots_prf_adr cfg t i c : answer (k_set_wots_prf_adr cfg t i c) = set_wots_prf_adr cfg t i c.
Proof. unfold k_set_wots_prf_adr, set_wots_prf_adr; rewrite ?answer_call. ke. Qed.
#[global] Hint Resolve ke_wots_prf_adr : ke.
Lemma ke_wots_f_adr cfg t i h c : answer (k_ts_set_wots_f_adr cfg t i h c) = ts_set_wots_f_adr cfg t i h c.
Proof. unfold k_ts_set_wots_f_adr, ts_set_wots_f_adr; rewrite ?answer_call. ke. Qed.
#[global] Hint Resolve ke_wots_f_adr : ke.
Lemma ke_merkle_adr cfg n l t c : answer (k_ts_set_merkle_adr cfg n l t c) = ts_set_merkle_adr cfg n l t c.
Proof. unfold k_ts_set_merkle_adr, ts_set_merkle_adr; rewrite ?answer_call. ke. Qed.
#[global] Hint Resolve ke_merkle_adr : ke.
Lemma ke_fors_root_adr cfg c : answer (k_ts_set_fors_root_adr cfg c) = ts_set_fors_root_adr cfg c.
Proof. unfold k_ts_set_fors_root_adr, ts_set_fors_root_adr; rewrite ?answer_call. ke. Qed.
#[global] Hint Resolve ke_fors_root_adr : ke.
Lemma ke_wots_header_adr cfg l c : answer (k_ts_set_wots_header_adr cfg l c) = ts_set_wots_header_adr cfg l c.
Proof. unfold k_ts_set_wots_header_adr, ts_set_wots_header_adr; rewrite ?answer_call. ke. Qed.
#[global] Hint Resolve ke_wots_header_adr : ke.
Lemma ke_do_prf cfg mem b c : answer (k_do_prf cfg mem b c) = do_prf cfg mem b c.
Proof. unfold k_do_prf, do_prf; rewrite ?answer_call. ke. Qed.
#[global] Hint Resolve ke_do_prf : ke.
Lemma ke_do_f cfg mem b b2 c : answer (k_do_f cfg mem b b2 c) = do_f cfg mem b b2 c.
Proof. unfold k_do_f, do_f; rewrite ?answer_call. ke. Qed.
#[global] Hint Resolve ke_do_f : ke.
Lemma ke_small_init cfg mem c : answer (k_small_init_t cfg mem c) = small_init_t cfg mem c.
Proof. unfold k_small_init_t, small_init_t; rewrite ?answer_call. ke. Qed.
#[global] Hint Resolve ke_small_init : ke.
Lemma ke_small_next cfg i c : answer (k_small_next_t cfg i c) = small_next_t cfg i c.
Proof. unfold k_small_next_t, small_next_t; rewrite ?answer_call. ke. Qed.
#[global] Hint Resolve ke_small_next : ke.
Lemma ke_small_final cfg b c : answer (k_small_final_t cfg b c) = small_final_t cfg b c.
Proof. unfold k_small_final_t, small_final_t; rewrite ?answer_call. ke. Qed.
#[global] Hint Resolve ke_small_final : ke.
Lemma ke_big_init cfg mem c : answer (k_big_init_t cfg mem c) = big_init_t cfg mem c.
Proof. unfold k_big_init_t, big_init_t; rewrite ?answer_call. ke. Qed.
#[global] Hint Resolve ke_big_init : ke.
Lemma ke_big_next cfg i c : answer (k_big_next_t cfg i c) = big_next_t cfg i c.
Proof. unfold k_big_next_t, big_next_t; rewrite ?answer_call. ke. Qed.
#[global] Hint Resolve ke_big_next : ke.
Lemma ke_big_final cfg b c : answer (k_big_final_t cfg b c) = big_final_t cfg b c.
Proof. unfold k_big_final_t, big_final_t; rewrite ?answer_call. ke. Qed.
#[global] Hint Resolve ke_big_final : ke.
Lemma ke_fors_prf cfg mem b i c : answer (k_fors_prf cfg mem b i c) = fors_prf cfg mem b i c.
Proof. unfold k_fors_prf, fors_prf; rewrite ?answer_call. ke. Qed.
#[global] Hint Resolve ke_fors_prf : ke.
Lemma ke_wots_prf cfg mem b t i c : answer (k_wots_prf cfg mem b t i c) = wots_prf cfg mem b t i c.
Proof. unfold k_wots_prf, wots_prf; rewrite ?answer_call. ke. Qed.
#[global] Hint Resolve ke_wots_prf : ke.
Lemma ke_fors_leaf cfg mem b i c : answer (k_fors_leaf cfg mem b i c) = fors_leaf cfg mem b i c.
Proof. unfold k_fors_leaf, fors_leaf; rewrite ?answer_call. ke. Qed.
#[global] Hint Resolve ke_fors_leaf : ke.
Lemma ke_rd_stack s o n c : answer (k_rd_stack s o n c) = rd_stack s o n c.
Proof. unfold k_rd_stack, rd_stack; rewrite ?answer_call. ke. Qed.
#[global] Hint Resolve ke_rd_stack : ke.
Lemma ke_wr_stack s o v c : answer (k_wr_stack s o v c) = wr_stack s o v c.
Proof. unfold k_wr_stack, wr_stack; rewrite ?answer_call. ke. Qed.
#[global] Hint Resolve ke_wr_stack : ke.
Lemma ke_combine cfg mem fuel stk ty leaf : forall nod k c,
  answer (k_combine_loop cfg mem fuel stk ty leaf nod k c) = combine_loop cfg mem fuel stk ty leaf nod k c.
Proof. induction fuel as [|fuel IH]; intros nod k c; [reflexivity|]. cbn [k_combine_loop combine_loop]. ke. Qed.
#[global] Hint Resolve ke_combine : ke.
Lemma ke_merkle_path cfg mem g g' ty stk c : (forall b i c, answer (g b i c) = g' b i c) ->
  answer (k_ts_merkle_path cfg mem g ty stk c) = ts_merkle_path cfg mem g' ty stk c.
Proof. intros H. unfold k_ts_merkle_path, ts_merkle_path; rewrite ?answer_call. ke. Qed.
#[global] Hint Resolve ke_merkle_path : ke.
Lemma ke_convert_bit st : answer (k_convert_bit st) = convert_bit st.
Proof.
  destruct st as [[[mh o] b] i]. unfold k_convert_bit, convert_bit; rewrite ?answer_call.
  eapply (kbind_pure _ (if b =? 8 then (u32 (o + 1), 0) else (o, b))); [rewrite answer_if; destruct (b =? 8); reflexivity|].
  destruct (if b =? 8 then (u32 (o + 1), 0) else (o, b)) as [o' b']. ke.
Qed.
#[global] Hint Resolve ke_convert_bit : ke.
Lemma ke_convert cfg m c : answer (k_ts_convert_message_hash_to_hypertree_position cfg m c) = ts_convert_message_hash_to_hypertree_position cfg m c.
Proof. unfold k_ts_convert_message_hash_to_hypertree_position, ts_convert_message_hash_to_hypertree_position; rewrite ?answer_call. ke. Qed.
#[global] Hint Resolve ke_convert : ke.
Lemma ke_wots_digits cfg x h n : answer (k_compute_wots_digits cfg x h n) = compute_wots_digits cfg x h n.
Proof. unfold k_compute_wots_digits, compute_wots_digits; rewrite ?answer_call. ke. Qed.
#[global] Hint Resolve ke_wots_digits : ke.
Lemma ke_set_up cfg l c : answer (k_ts_set_up_wots_signature cfg l c) = ts_set_up_wots_signature cfg l c.
Proof. unfold k_ts_set_up_wots_signature, ts_set_up_wots_signature; rewrite ?answer_call. ke. Qed.
#[global] Hint Resolve ke_set_up : ke.
Lemma ke_chain cfg mem b t d f o c : answer (k_chain_loop cfg mem b t d f o c) = chain_loop cfg mem b t d f o c.
Proof. unfold k_chain_loop, chain_loop; rewrite ?answer_call. ke. Qed.
#[global] Hint Resolve ke_chain : ke.
Lemma ke_next_hash cfg mem c : answer (k_generate_next_wots_hash cfg mem c) = generate_next_wots_hash cfg mem c.
Proof. unfold k_generate_next_wots_hash, generate_next_wots_hash; rewrite ?answer_call. ke. Qed.
#[global] Hint Resolve ke_next_hash : ke.
Lemma ke_wots_leaf cfg mem b l c : answer (k_ts_wots_leaf cfg mem b l c) = ts_wots_leaf cfg mem b l c.
Proof. unfold k_ts_wots_leaf, ts_wots_leaf; rewrite ?answer_call. ke. Qed.
#[global] Hint Resolve ke_wots_leaf : ke.
Lemma ke_switch cfg mem c : answer (k_sign_switch cfg mem c) = sign_switch cfg mem c.
Proof. unfold k_sign_switch, sign_switch; rewrite ?answer_call. ke. Qed.
#[global] Hint Resolve ke_switch : ke.
Lemma ke_sign_loop cfg mem fuel : forall dest pos m c, answer (k_sign_loop cfg mem fuel dest pos m c) = sign_loop cfg mem fuel dest pos m c.
Proof.
  induction fuel as [|fuel IH]; intros dest pos m c; [reflexivity|]. cbn [k_sign_loop sign_loop]. cbv zeta.
  rewrite answer_if. destruct (m =? 0); [reflexivity|]. rewrite answer_if. destruct (0 <? _).
  - eapply (kbind_pure _ (if m <? u32 (ps_n (c_ps c) - c_buffer_offset c) then m else u32 (ps_n (c_ps c) - c_buffer_offset c))); [rewrite answer_if; destruct (_ <? _); reflexivity|].
    ke.
  - ke.
Qed.
#[global] Hint Resolve ke_sign_loop : ke.
Lemma ke_sign cfg mem dest m c : answer (k_ts_sign cfg mem dest m c) = ts_sign cfg mem dest m c.
Proof. unfold k_ts_sign, ts_sign; rewrite ?answer_call. ke. Qed.
#[global] Hint Resolve ke_sign : ke.
Lemma ke_init_sign_gen {R} cfg mem c m l ps k (g : random_generator R) r :
  answer (k_ts_init_sign_gen cfg mem c m l ps k g r) = ts_init_sign_gen cfg mem c m l ps k g r.
Proof. unfold k_ts_init_sign_gen, ts_init_sign_gen; rewrite ?answer_call. ke. Qed.
#[global] Hint Resolve ke_init_sign_gen : ke.
Lemma ke_init_sign cfg mem c m l ps k g : answer (k_ts_init_sign cfg mem c m l ps k g) = ts_init_sign cfg mem c m l ps k g.
Proof. unfold k_ts_init_sign, ts_init_sign; rewrite ?answer_call. ke. Qed.
#[global] Hint Resolve ke_init_sign : ke.
Lemma ke_gen_root cfg mem k ps : answer (k_gen_root cfg mem k ps) = gen_root cfg mem k ps.
Proof. unfold k_gen_root, gen_root; rewrite ?answer_call. ke. Qed.
#[global] Hint Resolve ke_gen_root : ke.
Lemma ke_gen_key_gen {R} cfg k pk ps (g : random_generator R) r :
  answer (k_ts_gen_key_gen cfg k pk ps g r) = ts_gen_key_gen cfg k pk ps g r.
Proof. unfold k_ts_gen_key_gen, ts_gen_key_gen; rewrite ?answer_call. ke. Qed.
#[global] Hint Resolve ke_gen_key_gen : ke.
Lemma ke_gen_key cfg k pk ps g : answer (k_ts_gen_key cfg k pk ps g) = ts_gen_key cfg k pk ps g.
Proof. unfold k_ts_gen_key, ts_gen_key; rewrite ?answer_call. ke. Qed.
#[global] Hint Resolve ke_gen_key : ke.
