(** * The watched program has the outcomes of the model: tiny_sphincs.c and key_gen.c *)
From Verif Require Import CSem CLeak ModelEndian ModelParams ModelCtx ModelHash ModelSphincs ModelKeygen
  LeakSha2 LeakHash LeakSphincs PfLeakErase PfLeakErase2.
Ltac Zify.zify_post_hook ::= idtac.

Ltac era := first [eapply bind_pure; [apply er_ull|]; era | er].
Lemma er_extract h o k : result (l_extract_int_from_hash h o k) = extract_int_from_hash h o k.
Proof. unfold l_extract_int_from_hash, extract_int_from_hash. er. Qed.
#[global] Hint Resolve er_extract : er.
Lemma er_wr_adr o v c : result (l_wr_adr o v c) = wr_adr o v c.
Proof. unfold l_wr_adr, wr_adr. er. Qed.
#[global] Hint Resolve er_wr_adr : er.
Lemma er_set_layer_adr cfg v c : result (l_set_layer_adr cfg v c) = set_layer_adr cfg v c.
Proof. unfold l_set_layer_adr, set_layer_adr. rewrite result_if. destruct (use_sha2_adr cfg c); era. Qed.
#[global] Hint Resolve er_set_layer_adr : er.
Lemma er_set_tree_adr cfg v c : result (l_set_tree_adr cfg v c) = set_tree_adr cfg v c.
Proof. unfold l_set_tree_adr, set_tree_adr. rewrite result_if. destruct (use_sha2_adr cfg c); era. Qed.
#[global] Hint Resolve er_set_tree_adr : er.
Lemma er_set_type_adr cfg v c : result (l_set_type_adr cfg v c) = set_type_adr cfg v c.
Proof. unfold l_set_type_adr, set_type_adr. rewrite result_if. destruct (use_sha2_adr cfg c); era. Qed.
#[global] Hint Resolve er_set_type_adr : er.
Lemma er_set_keypair_adr cfg v c : result (l_set_keypair_adr cfg v c) = set_keypair_adr cfg v c.
Proof. unfold l_set_keypair_adr, set_keypair_adr. rewrite result_if. destruct (use_sha2_adr cfg c); era. Qed.
#[global] Hint Resolve er_set_keypair_adr : er.
Lemma er_set_tree_height_adr cfg v c : result (l_set_tree_height_adr cfg v c) = set_tree_height_adr cfg v c.
Proof. unfold l_set_tree_height_adr, set_tree_height_adr. rewrite result_if. destruct (use_sha2_adr cfg c); era. Qed.
#[global] Hint Resolve er_set_tree_height_adr : er.
Lemma er_set_tree_index_adr cfg v c : result (l_set_tree_index_adr cfg v c) = set_tree_index_adr cfg v c.
Proof. unfold l_set_tree_index_adr, set_tree_index_adr. rewrite result_if. destruct (use_sha2_adr cfg c); era. Qed.
#[global] Hint Resolve er_set_tree_index_adr : er.
Lemma er_set_chain_adr cfg v c : result (l_set_chain_adr cfg v c) = set_chain_adr cfg v c.
Proof. unfold l_set_chain_adr, set_chain_adr. er. Qed.
#[global] Hint Resolve er_set_chain_adr : er.
Lemma er_set_hash_adr cfg v c : result (l_set_hash_adr cfg v c) = set_hash_adr cfg v c.
Proof. unfold l_set_hash_adr, set_hash_adr. er. Qed.
#[global] Hint Resolve er_set_hash_adr : er.
Lemma er_fors_index c i : result (l_fors_index c i) = fors_index c i.
Proof. unfold l_fors_index, fors_index. er. Qed.
#[global] Hint Resolve er_fors_index : er.
Lemma er_fors_prf_adr cfg i c : result (l_set_fors_prf_adr cfg i c) = set_fors_prf_adr cfg i c.
Proof. unfold l_set_fors_prf_adr, set_fors_prf_adr. er. Qed.
#[global] Hint Resolve er_fors_prf_adr : er.
Lemma er_fors_leaf_adr cfg i c : result (l_ts_set_fors_leaf_adr cfg i c) = ts_set_fors_leaf_adr cfg i c.
Proof. unfold l_ts_set_fors_leaf_adr, ts_set_fors_leaf_adr. er. Qed.
#[global] Hint Resolve er_fors_leaf_adr : er.
Lemma er_wots_prf_adr cfg t i c : result (l_set_wots_prf_adr cfg t i c) = set_wots_prf_adr cfg t i c.
Proof. unfold l_set_wots_prf_adr, set_wots_prf_adr. er. Qed.
#[global] Hint Resolve er_wots_prf_adr : er.
Lemma er_wots_f_adr cfg t i h c : result (l_ts_set_wots_f_adr cfg t i h c) = ts_set_wots_f_adr cfg t i h c.
Proof. unfold l_ts_set_wots_f_adr, ts_set_wots_f_adr. er. Qed.
#[global] Hint Resolve er_wots_f_adr : er.
Lemma er_merkle_adr cfg n l t c : result (l_ts_set_merkle_adr cfg n l t c) = ts_set_merkle_adr cfg n l t c.
Proof. unfold l_ts_set_merkle_adr, ts_set_merkle_adr. er. Qed.
#[global] Hint Resolve er_merkle_adr : er.
Lemma er_fors_root_adr cfg c : result (l_ts_set_fors_root_adr cfg c) = ts_set_fors_root_adr cfg c.
Proof. unfold l_ts_set_fors_root_adr, ts_set_fors_root_adr. er. Qed.
#[global] Hint Resolve er_fors_root_adr : er.
Lemma er_wots_header_adr cfg l c : result (l_ts_set_wots_header_adr cfg l c) = ts_set_wots_header_adr cfg l c.
Proof. unfold l_ts_set_wots_header_adr, ts_set_wots_header_adr. er. Qed.
#[global] Hint Resolve er_wots_header_adr : er.
Lemma er_do_prf cfg mem b c : result (l_do_prf cfg mem b c) = do_prf cfg mem b c.
Proof. unfold l_do_prf, do_prf. er. Qed.
#[global] Hint Resolve er_do_prf : er.
Lemma er_do_f cfg mem b b2 c : result (l_do_f cfg mem b b2 c) = do_f cfg mem b b2 c.
Proof. unfold l_do_f, do_f. er. Qed.
#[global] Hint Resolve er_do_f : er.
Lemma er_small_init cfg mem c : result (l_small_init_t cfg mem c) = small_init_t cfg mem c.
Proof. unfold l_small_init_t, small_init_t. er. Qed.
#[global] Hint Resolve er_small_init : er.
Lemma er_small_next cfg i c : result (l_small_next_t cfg i c) = small_next_t cfg i c.
Proof. unfold l_small_next_t, small_next_t. er. Qed.
#[global] Hint Resolve er_small_next : er.
Lemma er_small_final cfg b c : result (l_small_final_t cfg b c) = small_final_t cfg b c.
Proof. unfold l_small_final_t, small_final_t. er. Qed.
#[global] Hint Resolve er_small_final : er.
Lemma er_big_init cfg mem c : result (l_big_init_t cfg mem c) = big_init_t cfg mem c.
Proof. unfold l_big_init_t, big_init_t. er. Qed.
#[global] Hint Resolve er_big_init : er.
Lemma er_big_next cfg i c : result (l_big_next_t cfg i c) = big_next_t cfg i c.
Proof. unfold l_big_next_t, big_next_t. er. Qed.
#[global] Hint Resolve er_big_next : er.
Lemma er_big_final cfg b c : result (l_big_final_t cfg b c) = big_final_t cfg b c.
Proof. unfold l_big_final_t, big_final_t. er. Qed.
#[global] Hint Resolve er_big_final : er.
Lemma er_fors_prf cfg mem b i c : result (l_fors_prf cfg mem b i c) = fors_prf cfg mem b i c.
Proof. unfold l_fors_prf, fors_prf. er. Qed.
#[global] Hint Resolve er_fors_prf : er.
Lemma er_wots_prf cfg mem b t i c : result (l_wots_prf cfg mem b t i c) = wots_prf cfg mem b t i c.
Proof. unfold l_wots_prf, wots_prf. er. Qed.
#[global] Hint Resolve er_wots_prf : er.
Lemma er_fors_leaf cfg mem b i c : result (l_fors_leaf cfg mem b i c) = fors_leaf cfg mem b i c.
Proof. unfold l_fors_leaf, fors_leaf. er. Qed.
#[global] Hint Resolve er_fors_leaf : er.
Lemma er_rd_stack s o n c : result (l_rd_stack s o n c) = rd_stack s o n c.
Proof. unfold l_rd_stack, rd_stack. er. Qed.
#[global] Hint Resolve er_rd_stack : er.
Lemma er_wr_stack s o v c : result (l_wr_stack s o v c) = wr_stack s o v c.
Proof. unfold l_wr_stack, wr_stack. er. Qed.
#[global] Hint Resolve er_wr_stack : er.
Lemma er_combine cfg mem fuel stk ty leaf : forall nod k c,
  result (l_combine_loop cfg mem fuel stk ty leaf nod k c) = combine_loop cfg mem fuel stk ty leaf nod k c.
Proof. induction fuel as [|fuel IH]; intros nod k c; [reflexivity|]. cbn [l_combine_loop combine_loop]. er. Qed.
#[global] Hint Resolve er_combine : er.
Lemma er_merkle_path cfg mem g g' ty stk c : (forall b i c, result (g b i c) = g' b i c) ->
  result (l_ts_merkle_path cfg mem g ty stk c) = ts_merkle_path cfg mem g' ty stk c.
Proof. intros H. unfold l_ts_merkle_path, ts_merkle_path. er. Qed.
#[global] Hint Resolve er_merkle_path : er.
Lemma er_convert_bit st : result (l_convert_bit st) = convert_bit st.
Proof.
  destruct st as [[[mh o] b] i]. unfold l_convert_bit, convert_bit.
  eapply (bind_pure _ (if b =? 8 then (u32 (o + 1), 0) else (o, b))); [rewrite result_if; destruct (b =? 8); reflexivity|].
  destruct (if b =? 8 then (u32 (o + 1), 0) else (o, b)) as [o' b']. er.
Qed.
#[global] Hint Resolve er_convert_bit : er.
Lemma er_convert cfg m c : result (l_ts_convert_message_hash_to_hypertree_position cfg m c) = ts_convert_message_hash_to_hypertree_position cfg m c.
Proof. unfold l_ts_convert_message_hash_to_hypertree_position, ts_convert_message_hash_to_hypertree_position. er. Qed.
#[global] Hint Resolve er_convert : er.
Lemma er_wots_digits cfg x h n : result (l_compute_wots_digits cfg x h n) = compute_wots_digits cfg x h n.
Proof. unfold l_compute_wots_digits, compute_wots_digits. er. Qed.
#[global] Hint Resolve er_wots_digits : er.
Lemma er_set_up cfg l c : result (l_ts_set_up_wots_signature cfg l c) = ts_set_up_wots_signature cfg l c.
Proof. unfold l_ts_set_up_wots_signature, ts_set_up_wots_signature. er. Qed.
#[global] Hint Resolve er_set_up : er.
Lemma er_chain cfg mem b t d f o c : result (l_chain_loop cfg mem b t d f o c) = chain_loop cfg mem b t d f o c.
Proof. unfold l_chain_loop, chain_loop. er. Qed.
#[global] Hint Resolve er_chain : er.
Lemma er_next_hash cfg mem c : result (l_generate_next_wots_hash cfg mem c) = generate_next_wots_hash cfg mem c.
Proof. unfold l_generate_next_wots_hash, generate_next_wots_hash. er. Qed.
#[global] Hint Resolve er_next_hash : er.
Lemma er_wots_leaf cfg mem b l c : result (l_ts_wots_leaf cfg mem b l c) = ts_wots_leaf cfg mem b l c.
Proof. unfold l_ts_wots_leaf, ts_wots_leaf. er. Qed.
#[global] Hint Resolve er_wots_leaf : er.
Lemma er_switch cfg mem c : result (l_sign_switch cfg mem c) = sign_switch cfg mem c.
Proof. unfold l_sign_switch, sign_switch. er. Qed.
#[global] Hint Resolve er_switch : er.
Lemma er_sign_loop cfg mem fuel : forall dest pos m c, result (l_sign_loop cfg mem fuel dest pos m c) = sign_loop cfg mem fuel dest pos m c.
Proof.
  induction fuel as [|fuel IH]; intros dest pos m c; [reflexivity|]. cbn [l_sign_loop sign_loop]. cbv zeta.
  rewrite result_if. destruct (m =? 0); [reflexivity|]. rewrite result_if. destruct (0 <? _).
  - eapply (bind_pure _ (if m <? u32 (ps_n (c_ps c) - c_buffer_offset c) then m else u32 (ps_n (c_ps c) - c_buffer_offset c))); [rewrite result_if; destruct (_ <? _); reflexivity|].
    er.
  - er.
Qed.
#[global] Hint Resolve er_sign_loop : er.
Lemma er_sign cfg mem dest m c : result (l_ts_sign cfg mem dest m c) = ts_sign cfg mem dest m c.
Proof. unfold l_ts_sign, ts_sign. er. Qed.
#[global] Hint Resolve er_sign : er.
Lemma er_init_sign_gen {R} cfg mem c m l ps k (g : random_generator R) r :
  result (l_ts_init_sign_gen cfg mem c m l ps k g r) = ts_init_sign_gen cfg mem c m l ps k g r.
Proof. unfold l_ts_init_sign_gen, ts_init_sign_gen. er. Qed.
#[global] Hint Resolve er_init_sign_gen : er.
Lemma er_init_sign cfg mem c m l ps k g : result (l_ts_init_sign cfg mem c m l ps k g) = ts_init_sign cfg mem c m l ps k g.
Proof. unfold l_ts_init_sign, ts_init_sign. er. Qed.
#[global] Hint Resolve er_init_sign : er.
Lemma er_gen_root cfg mem k ps : result (l_gen_root cfg mem k ps) = gen_root cfg mem k ps.
Proof. unfold l_gen_root, gen_root. er. Qed.
#[global] Hint Resolve er_gen_root : er.
Lemma er_gen_key_gen {R} cfg k pk ps (g : random_generator R) r :
  result (l_ts_gen_key_gen cfg k pk ps g r) = ts_gen_key_gen cfg k pk ps g r.
Proof. unfold l_ts_gen_key_gen, ts_gen_key_gen. er. Qed.
#[global] Hint Resolve er_gen_key_gen : er.
Lemma er_gen_key cfg k pk ps g : result (l_ts_gen_key cfg k pk ps g) = ts_gen_key cfg k pk ps g.
Proof. unfold l_ts_gen_key, ts_gen_key. er. Qed.
#[global] Hint Resolve er_gen_key : er.
