(** * What the tree hashing of the library shows to an observer *)
From Verif Require Import CSem Arr CLeak ModelParams ModelCtx ModelHash ModelSphincs LeakSha2 LeakHash LeakSphincs
  PfLeakErase3 PfLeakSha PfLeakShake PfLeakHash.
Ltac Zify.zify_post_hook ::= idtac.

Section Run.
Variable cfg : config.
Variables mem mem' : memory.
(** How the union x the node number and the height in the tree of the two runs are related *)
Variable RX : list Z -> list Z -> Prop.
Variable RN : Z -> Z -> Prop.
Variable RM : Z -> Z -> Prop.
Variable ps : parameter_set.
Hypothesis Hcons : consistent ps.
Hypothesis Hn : 0 <= ps_n ps < 2 ^ 63.

(** Two contexts that look the same *)
Record crel (c d : ts_context) : Prop := mkCrel {
  cr_ps1 : c_ps c = ps;
  cr_ps2 : c_ps d = ps;
  cr_pk : c_public_key c = c_public_key d;
  cr_state : c_state c = c_state d;
  cr_boff : c_buffer_offset c = c_buffer_offset d;
  cr_hl : c_hypertree_level c = c_hypertree_level d;
  cr_ft : c_fors_tree c = c_fors_tree d;
  cr_ml : RM (c_merkle_level c) (c_merkle_level d);
  cr_apn : RN (c_auth_path_node c) (c_auth_path_node d);
  cr_x : RX (c_x c) (c_x d) }.
(** ... and so do their iterators *)
Definition small (c d : ts_context) : Prop := crel c d /\ irel cfg ps (c_small_iter c) (c_small_iter d).
Definition big (c d : ts_context) : Prop := crel c d /\ irel cfg ps (c_big_iter c) (c_big_iter d).
Ltac cr := match goal with H : crel _ _ |- _ => destruct H as [? ? ? ? ? ? ? ? ? ?] end; apply mkCrel; assumption.
Lemma cr_ps c d : crel c d -> c_ps c = c_ps d. Proof. intros [-> -> _ _ _ _ _ _ _ _]. reflexivity. Qed.
Lemma cr_h c d : crel c d -> hrel c d. Proof. intros H. split; [apply cr_ps, H|apply H]. Qed.
Lemma cr_cons c d : crel c d -> consistent (c_ps c). Proof. intros [-> _ _ _ _ _ _ _ _ _]. exact Hcons. Qed.
Lemma cr_n c d : crel c d -> 0 <= ps_n (c_ps c) < 2 ^ 63. Proof. intros [-> _ _ _ _ _ _ _ _ _]. exact Hn. Qed.

Lemma crel_adr a b c d : crel c d -> crel (set_adr a c) (set_adr b d). Proof. intros. cr. Qed.
Lemma crel_buffer a b c d : crel c d -> crel (set_buffer a c) (set_buffer b d). Proof. intros. cr. Qed.
Lemma crel_auth a b c d : crel c d -> crel (set_auth_path_buffer a c) (set_auth_path_buffer b d). Proof. intros. cr. Qed.
Lemma crel_small a b c d : crel c d -> crel (set_small_iter a c) (set_small_iter b d). Proof. intros. cr. Qed.
Lemma crel_big a b c d : crel c d -> crel (set_big_iter a c) (set_big_iter b d). Proof. intros. cr. Qed.
Lemma crel_x a b c d : RX a b -> crel c d -> crel (set_x a c) (set_x b d). Proof. intros. cr. Qed.
Lemma crel_apn a b c d : RN a b -> crel c d -> crel (set_auth_path_node a c) (set_auth_path_node b d). Proof. intros. cr. Qed.
Lemma crel_boff a b c d : a = b -> crel c d -> crel (set_buffer_offset a c) (set_buffer_offset b d). Proof. intros. cr. Qed.
Lemma crel_state a b c d : a = b -> crel c d -> crel (set_state a c) (set_state b d). Proof. intros. cr. Qed.
Lemma crel_hl a b c d : a = b -> crel c d -> crel (set_hypertree_level a c) (set_hypertree_level b d). Proof. intros. cr. Qed.
Lemma crel_ft a b c d : a = b -> crel c d -> crel (set_fors_tree a c) (set_fors_tree b d). Proof. intros. cr. Qed.
Lemma crel_ml a b c d : RM a b -> crel c d -> crel (set_merkle_level a c) (set_merkle_level b d). Proof. intros. cr. Qed.
Lemma crel_tree a b c d : crel c d -> crel (set_tree_address a c) (set_tree_address b d). Proof. intros. cr. Qed.
Lemma crel_keypair a b c d : crel c d -> crel (set_fors_keypair_addr a c) (set_fors_keypair_addr b d). Proof. intros. cr. Qed.

(** ** Addresses: their contents are data.  An address change leaves everything else alone. *)
Definition adrs (c d e f : ts_context) : Prop := (exists a, e = set_adr a c) /\ (exists b, f = set_adr b d).
Lemma sim_wr_adr o v w c d : samelen v w -> sim (adrs c d) (l_wr_adr o v c) (l_wr_adr o w d).
Proof. intros H. unfold l_wr_adr. eapply sim_bind; [apply sim_wr_range, H|]. intros a b _ _ _. sr. split; eexists; reflexivity. Qed.
Lemma use_same c d : c_ps c = c_ps d -> use_sha2_adr cfg c = use_sha2_adr cfg d.
Proof. intros H. unfold use_sha2_adr. rewrite H. reflexivity. Qed.
Ltac sa := match goal with |- sim _ (lif _ _ _) _ => apply sim_if; [apply use_same; assumption|intros _; sa|intros _; sa]
  | |- sim _ (lbind _ _) _ => eapply sim_bind; [apply sim_ull|intros ? ? _ _ ?; sa]
  | |- _ => apply sim_wr_adr; first [assumption|reflexivity] end.
Lemma sim_set_layer v w c d : c_ps c = c_ps d -> sim (adrs c d) (l_set_layer_adr cfg v c) (l_set_layer_adr cfg w d). Proof. intros. unfold l_set_layer_adr. sa. Qed.
Lemma sim_set_tree v w c d : c_ps c = c_ps d -> sim (adrs c d) (l_set_tree_adr cfg v c) (l_set_tree_adr cfg w d). Proof. intros. unfold l_set_tree_adr. sa. Qed.
Lemma sim_set_type v w c d : c_ps c = c_ps d -> sim (adrs c d) (l_set_type_adr cfg v c) (l_set_type_adr cfg w d). Proof. intros. unfold l_set_type_adr. sa. Qed.
Lemma sim_set_keypair v w c d : c_ps c = c_ps d -> sim (adrs c d) (l_set_keypair_adr cfg v c) (l_set_keypair_adr cfg w d). Proof. intros. unfold l_set_keypair_adr. sa. Qed.
Lemma sim_set_height v w c d : c_ps c = c_ps d -> sim (adrs c d) (l_set_tree_height_adr cfg v c) (l_set_tree_height_adr cfg w d). Proof. intros. unfold l_set_tree_height_adr. sa. Qed.
Lemma sim_set_index v w c d : c_ps c = c_ps d -> sim (adrs c d) (l_set_tree_index_adr cfg v c) (l_set_tree_index_adr cfg w d). Proof. intros. unfold l_set_tree_index_adr. sa. Qed.
Lemma sim_fors_index c d i j : c_ps c = c_ps d -> sim any (l_fors_index c i) (l_fors_index d j).
Proof.
  intros H. unfold l_fors_index. rewrite H. eapply (sim_bind eq); [apply sim_shift_count|]. intros sh ? _ _ <-.
  eapply sim_bind; [apply sim_int_val|]. intros a b _ _ _. apply sim_int_val.
Qed.
(** one step of a sequence of address changes *)
Lemma adrs_ps c d e f : adrs c d e f -> c_ps c = c_ps d -> c_ps e = c_ps f.
Proof. intros [(u & ->) (v & ->)] H. exact H. Qed.
Lemma adrs_trans c d e f g h : adrs c d e f -> adrs e f g h -> adrs c d g h.
Proof. intros [(u & ->) (v & ->)] [(u' & ->) (v' & ->)]. split; eexists; reflexivity. Qed.
Lemma adrs_refl c d : adrs c d c d.
Proof. split; eexists; [instantiate (1 := c_adr c); destruct c; reflexivity|instantiate (1 := c_adr d); destruct d; reflexivity]. Qed.
Lemma adr_step {A B} (R : A -> B -> Prop) c0 d0 c d x y k k' : adrs c0 d0 c d -> c_ps c = c_ps d ->
  (c_ps c = c_ps d -> sim (adrs c d) x y) -> (forall e f, adrs c0 d0 e f -> c_ps e = c_ps f -> sim R (k e) (k' f)) -> sim R (lbind x k) (lbind y k').
Proof.
  intros H0 Hp H K. eapply sim_bind; [exact (H Hp)|]. intros e f _ _ A1.
  apply K; [eapply adrs_trans; eassumption|eapply adrs_ps; eassumption].
Qed.
Lemma adr_last c0 d0 c d x y : adrs c0 d0 c d -> sim (adrs c d) x y -> sim (adrs c0 d0) x y.
Proof. intros H K. eapply sim_weaken; [exact K|]. intros e f _ _ A1. eapply adrs_trans; eassumption. Qed.
Ltac hd := lazymatch goal with
  | |- _ -> sim _ (l_set_layer_adr _ _ _) _ => apply sim_set_layer
  | |- _ -> sim _ (l_set_tree_adr _ _ _) _ => apply sim_set_tree
  | |- _ -> sim _ (l_set_type_adr _ _ _) _ => apply sim_set_type
  | |- _ -> sim _ (l_set_keypair_adr _ _ _) _ => apply sim_set_keypair
  | |- _ -> sim _ (l_set_tree_height_adr _ _ _) _ => apply sim_set_height
  | |- _ -> sim _ (l_set_tree_index_adr _ _ _) _ => apply sim_set_index end.
Ltac st := lazymatch goal with A : adrs _ _ ?c ?d, P : c_ps ?c = c_ps ?d |- _ =>
  apply (adr_step _ _ _ _ _ _ _ _ _ A P); [hd|]; clear A P;
  let e := fresh "e" in let f := fresh "f" in let A' := fresh "A" in let P' := fresh "P" in intros e f A' P'; cbv beta end.
Ltac fn := lazymatch goal with A : adrs _ _ ?c ?d, P : c_ps ?c = c_ps ?d |- _ => apply (adr_last _ _ _ _ _ _ A); revert P; hd end.
Ltac bg := let A := fresh "A" in let H := fresh "H" in intros H; match type of H with c_ps ?c = c_ps ?d => pose proof (adrs_refl c d) as A end.
Lemma sim_fors_prf_adr i j c d : c_ps c = c_ps d -> sim (adrs c d) (l_set_fors_prf_adr cfg i c) (l_set_fors_prf_adr cfg j d).
Proof. bg. unfold l_set_fors_prf_adr. do 5 st. eapply sim_bind; [apply sim_fors_index; assumption|]. intros p q _ _ _. fn. Qed.
Lemma sim_wots_prf_adr t t' i j c d : c_ps c = c_ps d -> sim (adrs c d) (l_set_wots_prf_adr cfg t i c) (l_set_wots_prf_adr cfg t' j d).
Proof. bg. unfold l_set_wots_prf_adr, l_set_chain_adr, l_set_hash_adr. do 5 st. fn. Qed.
Lemma sim_wots_f_adr t t' i j h h' c d : c_ps c = c_ps d -> sim (adrs c d) (l_ts_set_wots_f_adr cfg t i h c) (l_ts_set_wots_f_adr cfg t' j h' d).
Proof. bg. unfold l_ts_set_wots_f_adr, l_set_chain_adr, l_set_hash_adr. do 5 st. fn. Qed.
Lemma sim_merkle_adr a b k ty ty' c d : c_ps c = c_ps d -> sim (adrs c d) (l_ts_set_merkle_adr cfg a k ty c) (l_ts_set_merkle_adr cfg b k ty' d).
Proof.
  bg. unfold l_ts_set_merkle_adr. do 5 st. match goal with P : c_ps _ = c_ps _ |- _ => rewrite <- P end.
  eapply (sim_bind eq); [apply sim_shift_count|]. intros sh ? _ _ <-. eapply sim_bind; [apply sim_int_val|]. intros p q _ _ _.
  eapply (sim_bind eq); [apply sim_shift_count|]. intros sh' ? _ _ <-. fn.
Qed.
Lemma sim_fors_root_adr c d : c_ps c = c_ps d -> sim (adrs c d) (l_ts_set_fors_root_adr cfg c) (l_ts_set_fors_root_adr cfg d).
Proof. bg. unfold l_ts_set_fors_root_adr. do 5 st. fn. Qed.
Lemma sim_wots_header_adr a b c d : c_ps c = c_ps d -> sim (adrs c d) (l_ts_set_wots_header_adr cfg a c) (l_ts_set_wots_header_adr cfg b d).
Proof. bg. unfold l_ts_set_wots_header_adr. do 5 st. fn. Qed.

(** ** Hash calls on the buffers of the context *)
(** Nothing is known about x, or x is not written *)
Definition wild (b : bufid) : Prop := match b with BufMerkle => forall x y, RX x y | _ => True end.
Lemma sim_sub_wr x y ba sz o v w : samelen v w -> sim any (l_sub_wr x ba sz o v) (l_sub_wr y ba sz o w).
Proof.
  intros H. unfold l_sub_wr. rewrite (samelen_zlen _ _ H). destruct (_ && _); [apply sim_wr_range, H|apply sim_ub_l].
Qed.
Lemma sim_sub_rd x y ba sz o k : sim samelen (l_sub_rd x ba sz o k) (l_sub_rd y ba sz o k).
Proof. unfold l_sub_rd. destruct (_ && _); [apply sim_rd_range|apply sim_ub_l]. Qed.
Definition iters (c d e f : ts_context) : Prop := c_small_iter e = c_small_iter c /\ c_small_iter f = c_small_iter d /\ c_big_iter e = c_big_iter c /\ c_big_iter f = c_big_iter d.
Lemma sim_put_buf b v w c d : wild b -> samelen v w -> crel c d -> sim (fun e f => crel e f /\ iters c d e f) (l_put_buf cfg c b v) (l_put_buf cfg d b w).
Proof.
  intros Hb Hv H. destruct b; cbn [l_put_buf].
  - eapply sim_bind; [apply sim_wr_range, Hv|]. intros p q _ _ _. sr. split; [apply crel_buffer, H|]. split; [reflexivity|split; [reflexivity|split; reflexivity]].
  - eapply sim_bind; [apply sim_wr_range, Hv|]. intros p q _ _ _. sr. split; [apply crel_auth, H|]. split; [reflexivity|split; [reflexivity|split; reflexivity]].
  - eapply sim_bind; [apply sim_sub_wr, Hv|]. intros p q _ _ _. sr. split; [apply crel_x; [apply Hb|exact H]|]. split; [reflexivity|split; [reflexivity|split; reflexivity]].
Qed.
Lemma sim_get_buf b k c d : sim samelen (l_get_buf cfg c b k) (l_get_buf cfg d b k).
Proof. destruct b; cbn [l_get_buf]; [apply sim_rd_range|apply sim_rd_range|apply sim_sub_rd]. Qed.
(** The big iterator is untouched *)
Definition keepbig (c d e f : ts_context) : Prop := crel e f /\ c_big_iter e = c_big_iter c /\ c_big_iter f = c_big_iter d.
Lemma scall_prf c d : crel c d -> sim (hout c d) (l_call_prf cfg mem c) (l_call_prf cfg mem' d).
Proof. intros H. apply sim_call_prf; [apply cr_h, H|eapply cr_n, H]. Qed.
Lemma scall_f b b' c d : crel c d -> sim (hout c d) (l_call_f cfg mem b c) (l_call_f cfg mem' b' d).
Proof. intros H. apply sim_call_f; [apply cr_h, H|eapply cr_n, H]. Qed.
Lemma scall_init it it' c d : crel c d -> sim (irel cfg ps) (l_call_init_t cfg mem it c) (l_call_init_t cfg mem' it' d).
Proof. intros H. rewrite <- (cr_ps1 _ _ H). apply sim_call_init; [apply cr_h, H|eapply cr_n, H]. Qed.
Lemma scall_next it it' b b' c d : crel c d -> irel cfg ps it it' -> sim (irel cfg ps) (l_call_next_t cfg it b c) (l_call_next_t cfg it' b' d).
Proof. intros H. rewrite <- (cr_ps1 _ _ H). apply sim_call_next; [apply cr_h, H|eapply cr_cons, H|eapply cr_n, H]. Qed.
Lemma scall_final it it' c d : crel c d -> irel cfg ps it it' -> sim tout (l_call_final_t cfg it c) (l_call_final_t cfg it' d).
Proof. intros H. rewrite <- (cr_ps1 _ _ H). apply sim_call_final; [apply cr_h, H|eapply cr_cons, H|eapply cr_n, H]. Qed.
Lemma sim_do_prf b c d : wild b -> crel c d -> sim (keepbig c d) (l_do_prf cfg mem b c) (l_do_prf cfg mem' b d).
Proof.
  intros Hb H. unfold l_do_prf. eapply sim_bind; [apply scall_prf, H|].
  intros [o e] [o' f] _ _ [Ho [(it & Ee) (it' & Ef)]]. cbn [fst snd] in *. subst e f.
  eapply sim_weaken; [apply sim_put_buf; [exact Hb|exact Ho|apply crel_small, H]|]. intros e f _ _ [K (_ & _ & K1 & K2)]. split; [exact K|split; assumption].
Qed.
Lemma sim_do_f b c d : wild b -> crel c d -> sim (keepbig c d) (l_do_f cfg mem b b c) (l_do_f cfg mem' b b d).
Proof.
  intros Hb H. unfold l_do_f. rewrite <- (cr_ps _ _ H). eapply sim_bind; [apply sim_get_buf|]. intros i j _ _ _.
  eapply sim_bind; [apply scall_f, H|].
  intros [o e] [o' f] _ _ [Ho [(it & Ee) (it' & Ef)]]. cbn [fst snd] in *. subst e f.
  eapply sim_weaken; [apply sim_put_buf; [exact Hb|exact Ho|apply crel_small, H]|]. intros e f _ _ [K (_ & _ & K1 & K2)]. split; [exact K|split; assumption].
Qed.
Definition smallkeep (c d e f : ts_context) : Prop := small e f /\ c_big_iter e = c_big_iter c /\ c_big_iter f = c_big_iter d.
Lemma sim_small_init c d : crel c d -> sim (smallkeep c d) (l_small_init_t cfg mem c) (l_small_init_t cfg mem' d).
Proof.
  intros H. unfold l_small_init_t. eapply sim_bind; [apply scall_init, H|]. intros it it' _ _ Hi. sr.
  split; [split; [apply crel_small, H|exact Hi]|split; reflexivity].
Qed.
Lemma sim_small_next i j c d : small c d -> sim (smallkeep c d) (l_small_next_t cfg i c) (l_small_next_t cfg j d).
Proof.
  intros [H Hi]. unfold l_small_next_t. eapply sim_bind; [apply scall_next; [exact H|exact Hi]|]. intros it it' _ _ Hi'. sr.
  split; [split; [apply crel_small, H|exact Hi']|split; reflexivity].
Qed.
Lemma sim_small_final b c d : wild b -> small c d -> sim (keepbig c d) (l_small_final_t cfg b c) (l_small_final_t cfg b d).
Proof.
  intros Hb [H Hi]. unfold l_small_final_t. eapply sim_bind; [apply scall_final; [exact H|exact Hi]|].
  intros [o it] [o' it'] _ _ Ho. unfold tout in Ho. cbn [fst] in Ho.
  eapply sim_weaken; [apply sim_put_buf; [exact Hb|exact Ho|apply crel_small, H]|]. intros e f _ _ [K (_ & _ & K1 & K2)]. split; [exact K|split; assumption].
Qed.
Lemma sim_big_init c d : crel c d -> sim big (l_big_init_t cfg mem c) (l_big_init_t cfg mem' d).
Proof.
  intros H. unfold l_big_init_t. eapply sim_bind; [apply scall_init, H|]. intros it it' _ _ Hi. sr. split; [apply crel_big, H|exact Hi].
Qed.
Lemma sim_big_next i j c d : big c d -> sim big (l_big_next_t cfg i c) (l_big_next_t cfg j d).
Proof.
  intros [H Hi]. unfold l_big_next_t. eapply sim_bind; [apply scall_next; [exact H|exact Hi]|]. intros it it' _ _ Hi'. sr.
  split; [apply crel_big, H|exact Hi'].
Qed.
Lemma sim_big_final b c d : wild b -> big c d -> sim crel (l_big_final_t cfg b c) (l_big_final_t cfg b d).
Proof.
  intros Hb [H Hi]. unfold l_big_final_t. eapply sim_bind; [apply scall_final; [exact H|exact Hi]|].
  intros [o it] [o' it'] _ _ Ho. unfold tout in Ho. cbn [fst] in Ho.
  eapply sim_weaken; [apply sim_put_buf; [exact Hb|exact Ho|apply crel_big, H]|]. intros e f _ _ [K _]. exact K.
Qed.
(** keepbig composes *)
Lemma kb_trans c d e f g h : keepbig c d e f -> keepbig e f g h -> keepbig c d g h.
Proof. intros (_ & A & B) (C & D & F). split; [exact C|split; congruence]. Qed.
Lemma kb_adr c d e f : crel c d -> adrs c d e f -> keepbig c d e f.
Proof. intros H [(a & ->) (b & ->)]. split; [apply crel_adr, H|split; reflexivity]. Qed.
Lemma kb_refl c d : crel c d -> keepbig c d c d. Proof. intros H. split; [exact H|split; reflexivity]. Qed.
(** a step that keeps the big iterator *)
Lemma sim_step {A B} (R : A -> B -> Prop) c d x y k k' :
  sim (keepbig c d) x y -> (forall e f, keepbig c d e f -> crel e f -> sim R (k e) (k' f)) -> sim R (lbind x k) (lbind y k').
Proof. intros H K. eapply sim_bind; [exact H|]. intros e f _ _ Q. apply K; [exact Q|apply Q]. Qed.
Lemma sim_adr_step {A B} (R : A -> B -> Prop) c d x y k k' : crel c d ->
  sim (adrs c d) x y -> (forall e f, keepbig c d e f -> crel e f -> sim R (k e) (k' f)) -> sim R (lbind x k) (lbind y k').
Proof. intros Hc H K. eapply sim_bind; [exact H|]. intros e f _ _ Q. apply kb_adr in Q; [|exact Hc]. apply K; [exact Q|apply Q]. Qed.
Lemma sim_kb c d e f x y : keepbig c d e f -> sim (keepbig e f) x y -> sim (keepbig c d) x y.
Proof. intros K H. eapply sim_weaken; [exact H|]. intros a b _ _ Q. eapply kb_trans; eassumption. Qed.

Lemma sim_fors_prf b i j c d : wild b -> crel c d -> sim (keepbig c d) (l_fors_prf cfg mem b i c) (l_fors_prf cfg mem' b j d).
Proof.
  intros Hb H. unfold l_fors_prf. eapply sim_adr_step; [exact H|apply sim_fors_prf_adr, cr_ps, H|]. intros e f K He.
  eapply sim_kb; [exact K|]. apply sim_do_prf; assumption.
Qed.
Lemma sim_wots_prf b t t' i j c d : wild b -> crel c d -> sim (keepbig c d) (l_wots_prf cfg mem b t i c) (l_wots_prf cfg mem' b t' j d).
Proof.
  intros Hb H. unfold l_wots_prf. eapply sim_adr_step; [exact H|apply sim_wots_prf_adr, cr_ps, H|]. intros e f K He.
  eapply sim_kb; [exact K|]. apply sim_do_prf; assumption.
Qed.
Lemma sim_fors_leaf b i j c d : wild b -> crel c d -> sim (keepbig c d) (l_fors_leaf cfg mem b i c) (l_fors_leaf cfg mem' b j d).
Proof.
  intros Hb H. unfold l_fors_leaf. eapply sim_adr_step; [exact H|apply sim_fors_prf_adr, cr_ps, H|]. intros e f K He.
  eapply sim_step; [apply sim_do_prf; [exact Hb|exact He]|]. intros e1 f1 K1 He1.
  eapply sim_adr_step; [exact He1|apply sim_set_type, cr_ps, He1|]. intros e2 f2 K2 He2.
  eapply sim_kb; [|apply sim_do_f; [exact Hb|exact He2]]. eapply kb_trans; [exact K|]. eapply kb_trans; eassumption.
Qed.
Lemma sim_chain b t t' i j lo hi c d : wild b -> crel c d -> sim (keepbig c d) (l_chain_loop cfg mem b t i lo hi c) (l_chain_loop cfg mem' b t' j lo hi d).
Proof.
  intros Hb H. unfold l_chain_loop. apply sim_for; [|apply kb_refl, H]. intros q e f _ K.
  assert (He : crel e f) by apply K. eapply sim_adr_step; [exact He|apply sim_wots_f_adr, cr_ps, He|]. intros e1 f1 K1 He1.
  eapply sim_kb; [|apply sim_do_f; [exact Hb|exact He1]]. eapply kb_trans; eassumption.
Qed.


(** ** Leaves and subtrees.  From here on nothing is known about x. *)
Section Wild.
Hypothesis W : forall x y, RX x y.
Lemma wildW b : wild b. Proof. destruct b; try exact I. exact W. Qed.

Lemma sim_wots_leaf b i j c d : crel c d -> sim crel (l_ts_wots_leaf cfg mem b i c) (l_ts_wots_leaf cfg mem' b j d).
Proof.
  intros H. unfold l_ts_wots_leaf. eapply sim_adr_step; [exact H|apply sim_wots_header_adr, cr_ps, H|]. intros e f _ He.
  eapply sim_bind; [apply sim_big_init, He|]. intros e1 f1 _ _ H1.
  eapply (sim_bind big).
  - rewrite <- (cr_ps _ _ (proj1 H1)). apply sim_for; [|exact H1]. intros q e2 f2 _ [H2 I2].
    eapply sim_step; [apply sim_wots_prf; [apply wildW|exact H2]|]. intros e3 f3 K3 H3.
    eapply sim_step; [apply sim_chain; [apply wildW|exact H3]|]. intros e4 f4 K4 H4.
    rewrite <- (cr_ps _ _ H4). eapply sim_bind; [apply sim_get_buf|]. intros p r _ _ _.
    apply sim_big_next. split; [exact H4|]. destruct K3 as (_ & E3 & F3). destruct K4 as (_ & E4 & F4). rewrite E4, F4, E3, F3. exact I2.
  - intros e2 f2 _ _ H2. apply sim_big_final; [apply wildW|exact H2].
Qed.
Lemma sim_rd_stack stk o k c d : sim samelen (l_rd_stack stk o k c) (l_rd_stack stk o k d).
Proof. apply sim_sub_rd. Qed.
Lemma sim_wr_stack stk o v w c d : samelen v w -> crel c d -> sim (keepbig c d) (l_wr_stack stk o v c) (l_wr_stack stk o w d).
Proof.
  intros Hv H. unfold l_wr_stack. eapply sim_bind; [apply sim_sub_wr, Hv|]. intros p q _ _ _. sr.
  split; [apply crel_x; [apply W|exact H]|split; reflexivity].
Qed.
Definition kpair (c d : ts_context) (a b : Z * ts_context) : Prop := fst a = fst b /\ keepbig c d (snd a) (snd b).
Lemma sk_kb c d e f : smallkeep c d e f -> keepbig c d e f.
Proof. intros [[A _] B]. split; assumption. Qed.
(** two blocks hashed into a third one *)
Lemma sim_combine fuel : forall stk ty leaf leaf' nod k c d, crel c d ->
  sim (kpair c d) (l_combine_loop cfg mem fuel stk ty leaf nod k c) (l_combine_loop cfg mem' fuel stk ty leaf' nod k d).
Proof.
  induction fuel as [|fuel IH]; intros stk ty leaf leaf' nod k c d H; cbn [l_combine_loop]; [apply sim_ub_l|].
  apply sim_if; [reflexivity|intros _; sr; split; [reflexivity|apply kb_refl, H]|intros _].
  cbv zeta. rewrite <- (cr_ps _ _ H).
  eapply sim_adr_step; [exact H|apply sim_merkle_adr, cr_ps, H|]. intros e f K He.
  eapply sim_bind; [apply sim_small_init, He|]. intros e1 f1 _ _ K1.
  eapply sim_bind; [apply sim_rd_stack|]. intros p q _ _ _.
  eapply sim_bind; [apply sim_small_next, K1|]. intros e2 f2 _ _ K2.
  eapply sim_bind; [apply sim_small_next, K2|]. intros e3 f3 _ _ K3.
  eapply sim_step; [apply sim_small_final; [exact I|apply K3]|]. intros e4 f4 K4 H4.
  eapply sim_weaken; [apply IH, H4|]. intros [k1 g] [k2 h] _ _ [Hk Kb]. cbn [fst snd] in Hk, Kb. split; cbn [fst snd]; [exact Hk|].
  eapply kb_trans; [exact K|]. eapply kb_trans; [apply sk_kb, K1|]. eapply kb_trans; [apply sk_kb, K2|].
  eapply kb_trans; [apply sk_kb, K3|]. eapply kb_trans; eassumption.
Qed.
(** A property of the pair of contexts kept by everything but the leaves *)
Lemma sim_merkle_path (P : ts_context -> ts_context -> Prop) gen gen' ty stk c d : (forall a b, RM a b <-> a = b) ->
  (forall e f, P e f -> crel e f) -> (forall e f g h, P e f -> keepbig e f g h -> P g h) ->
  (forall e f i j, P e f -> sim P (gen BufBuffer i e) (gen' BufBuffer j f)) ->
  (forall a b, RN a b -> (Z.land a (Z.shiftl 1 (c_merkle_level c)) =? 0) = (Z.land b (Z.shiftl 1 (c_merkle_level c)) =? 0)) ->
  P c d -> sim P (l_ts_merkle_path cfg mem gen ty stk c) (l_ts_merkle_path cfg mem' gen' ty stk d).
Proof.
  intros ME P1 P2 Hg Hbit Hp. unfold l_ts_merkle_path. cbv zeta.
  pose proof (P1 _ _ Hp) as H. rewrite <- (proj1 (ME _ _) (cr_ml _ _ H)), <- (cr_ps _ _ H).
  eapply (sim_bind eq); [eapply sim_weaken; [apply sim_shift_count|]; intros x y _ _ Q; exact Q|]. intros sh sh2 Esh _ <-.
  set (c1 := set_merkle_level _ c). set (d1 := set_merkle_level _ d).
  assert (Hp1 : P c1 d1). { eapply P2; [exact Hp|]. split; [apply crel_ml; [apply ME; reflexivity|exact H]|split; reflexivity]. }
  eapply (sim_bind P).
  - apply sim_for; [|exact Hp1]. intros i e f _ Hef.
    eapply sim_bind; [apply Hg, Hef|]. intros e1 f1 _ _ H1.
    eapply sim_bind; [apply sim_combine, P1, H1|]. intros [k e2] [k2 f2] _ _ [Hk K2]. cbn [fst snd] in Hk, K2. subst k2. cbv beta iota.
    assert (H2 : P e2 f2) by (eapply P2; eassumption).
    apply sim_if; [reflexivity| |intros _; sr; exact H2]. intros _.
    eapply sim_bind; [apply sim_rd_range|]. intros p q _ _ Hpq.
    eapply sim_weaken; [apply sim_wr_stack; [exact Hpq|apply P1, H2]|]. intros g h _ _ Kb. eapply P2; eassumption.
  - intros e f _ _ Hef. set (e1 := set_buffer_offset 0 e). set (f1 := set_buffer_offset 0 f).
    assert (H1 : crel e1 f1) by (apply crel_boff; [reflexivity|apply P1, Hef]).
    assert (K0 : keepbig e f e1 f1) by (split; [exact H1|split; reflexivity]).
    eapply sim_adr_step; [exact H1|apply sim_merkle_adr, cr_ps, H1|]. intros e2 f2 K1 H2.
    eapply sim_bind; [apply sim_small_init, H2|]. intros e3 f3 _ _ K2.
    eapply (sim_bind (smallkeep e3 f3)).
    + assert (sh = c_merkle_level c) as ->.
      { revert Esh. unfold l_shift_count. rewrite result_tick. unfold result, quiet, shift_count. cbn [snd]. destruct (_ && _); [|discriminate].
        intros Q. apply ok_inj in Q. auto. }
      apply sim_if; [f_equal; apply Hbit, (cr_apn _ _ (proj1 (proj1 K2)))| |]; intros _.
      * eapply sim_bind; [apply sim_small_next, K2|]. intros e4 f4 _ _ K3. eapply sim_weaken; [apply sim_small_next, K3|].
        intros g h _ _ K4. destruct K3 as (_ & E3 & F3). destruct K4 as (A4 & E4 & F4). split; [exact A4|split; congruence].
      * eapply sim_bind; [apply sim_small_next, K2|]. intros e4 f4 _ _ K3. eapply sim_weaken; [apply sim_small_next, K3|].
        intros g h _ _ K4. destruct K3 as (_ & E3 & F3). destruct K4 as (A4 & E4 & F4). split; [exact A4|split; congruence].
    + intros e4 f4 _ _ K3. eapply sim_weaken; [apply sim_small_final; [exact I|apply K3]|]. intros g h _ _ K4.
      eapply P2; [exact Hef|]. eapply kb_trans; [exact K0|]. eapply kb_trans; [exact K1|]. eapply kb_trans; [apply sk_kb, K2|].
      eapply kb_trans; [apply sk_kb, K3|]. exact K4.
Qed.
Definition bits (k : Z) : Prop := forall a b, RN a b -> (Z.land a (Z.shiftl 1 k) =? 0) = (Z.land b (Z.shiftl 1 k) =? 0).
Lemma sim_fors_path ty stk c d : (forall a b, RM a b <-> a = b) -> bits (c_merkle_level c) -> crel c d ->
  sim (keepbig c d) (l_ts_merkle_path cfg mem (l_fors_leaf cfg mem) ty stk c) (l_ts_merkle_path cfg mem' (l_fors_leaf cfg mem') ty stk d).
Proof.
  intros ME Hb H. apply sim_merkle_path; [exact ME|intros e f K; apply K|intros e f g h A B; eapply kb_trans; eassumption| |exact Hb|apply kb_refl, H].
  intros e f i j K. eapply sim_kb; [exact K|]. apply sim_fors_leaf; [exact I|apply K].
Qed.
Lemma sim_xmss_path ty stk c d : (forall a b, RM a b <-> a = b) -> bits (c_merkle_level c) -> crel c d ->
  sim crel (l_ts_merkle_path cfg mem (l_ts_wots_leaf cfg mem) ty stk c) (l_ts_merkle_path cfg mem' (l_ts_wots_leaf cfg mem') ty stk d).
Proof.
  intros ME Hb H. apply sim_merkle_path; [exact ME|intros e f K; exact K|intros e f g h A B; apply B| |exact Hb|exact H].
  intros e f i j K. apply sim_wots_leaf, K.
Qed.

(** ** Preparing a one-time signature *)
Lemma sim_set_digits o x y v w : sim any (l_set_digits cfg x o v) (l_set_digits cfg y o w).
Proof. unfold l_set_digits. destruct (_ && _); [apply sim_wr|apply sim_ub_l]. Qed.
Lemma sim_wots_digits x y h h' k : sim any (l_compute_wots_digits cfg x h k) (l_compute_wots_digits cfg y h' k).
Proof.
  unfold l_compute_wots_digits. eapply sim_bind; [apply sim_int_val|]. intros s0 s0' _ _ _.
  eapply (sim_bind any).
  - apply sim_for; [|exact I]. intros i [x1 s1] [y1 s2] _ _. eapply sim_bind; [apply sim_rd|]. intros b1 b2 _ _ _. cbv zeta.
    eapply sim_bind; [apply sim_set_digits|]. intros x2 y2 _ _ _. eapply sim_bind; [apply sim_set_digits|]. intros x3 y3 _ _ _. sr. exact I.
  - intros [x1 s1] [y1 s2] _ _ _. eapply sim_bind; [apply sim_set_digits|]. intros x2 y2 _ _ _.
    eapply sim_bind; [apply sim_set_digits|]. intros x3 y3 _ _ _. apply sim_set_digits.
Qed.
Lemma sim_set_up i j c d : (forall a b, RN a b) -> crel c d -> sim crel (l_ts_set_up_wots_signature cfg i c) (l_ts_set_up_wots_signature cfg j d).
Proof.
  intros N H. unfold l_ts_set_up_wots_signature. cbv zeta. change (c_ps (set_state ts_wots c)) with (c_ps c). change (c_ps (set_state ts_wots d)) with (c_ps d).
  rewrite <- (cr_ps _ _ H). eapply sim_bind; [apply sim_wr|]. intros x y _ _ _. eapply sim_bind; [apply sim_wots_digits|]. intros x1 y1 _ _ _. sr.
  apply crel_keypair, crel_apn; [apply N|]. apply crel_x; [apply W|]. apply crel_state; [reflexivity|exact H].
Qed.
End Wild.
Lemma sim_get_fors_node x y k : sim any (l_get_fors_node cfg x k) (l_get_fors_node cfg y k).
Proof. unfold l_get_fors_node. destruct (_ && _); [apply sim_rd_word|apply sim_ub_l]. Qed.
End Run.
Lemma crel_weaken (RX RX' : list Z -> list Z -> Prop) (RN RN' RM RM' : Z -> Z -> Prop) ps c d :
  RX' (c_x c) (c_x d) -> RN' (c_auth_path_node c) (c_auth_path_node d) ->
  RM' (c_merkle_level c) (c_merkle_level d) -> crel RX RN RM ps c d -> crel RX' RN' RM' ps c d.
Proof. intros A B C [? ? ? ? ? ? ? ? ? ?]. apply mkCrel; assumption. Qed.

Lemma wr_shape {A} (a b : list A) i v : wr a i v = Ok b -> exists p q r, a = p ++ r :: q /\ b = p ++ v :: q /\ length p = Z.to_nat i /\ 0 <= i.
Proof.
  unfold wr. destruct ((0 <=? i) && (i <? zlen a)) eqn:E; [|discriminate]. intros Q. apply ok_inj in Q. subst b.
  apply andb_prop in E. destruct E as [E1 E2]. apply Z.leb_le in E1. apply Z.ltb_lt in E2. unfold zlen in E2.
  assert (L : (Z.to_nat i < length a)%nat) by lia. destruct (nth_split a v L) as (p & q & Ea & Hp).
  exists p, q, (nth (Z.to_nat i) a v). split; [exact Ea|]. split; [|split; [exact Hp|exact E1]].
  rewrite Ea at 1 2. rewrite <- Hp, firstn_app, Nat.sub_diag, firstn_all, skipn_app. cbn [firstn].
  rewrite skipn_all2 by lia. replace (S (length p) - length p)%nat with 1%nat by lia. cbn [skipn]. rewrite app_nil_r. reflexivity.
Qed.
Lemma rd_wr_eq {A} (a b : list A) i v : wr a i v = Ok b -> rd b i = Ok v.
Proof.
  intros E. apply wr_shape in E. destruct E as (p & q & r & _ & -> & L & Hi). unfold rd.
  apply Z.leb_le in Hi. rewrite Hi. rewrite nth_error_app2 by lia. rewrite L, Nat.sub_diag. reflexivity.
Qed.
Lemma rd_wr_other {A} (a b : list A) i j v : wr a i v = Ok b -> i <> j -> rd b j = rd a j.
Proof.
  intros E Hj. apply wr_shape in E. destruct E as (p & q & r & -> & -> & L & Hi). unfold rd.
  destruct (0 <=? j) eqn:Q; [|reflexivity]. apply Z.leb_le in Q.
  destruct (Nat.lt_ge_cases (Z.to_nat j) (length p)) as [K|K].
  - rewrite !nth_error_app1 by exact K. reflexivity.
  - rewrite !nth_error_app2 by exact K. destruct (Z.to_nat j - length p)%nat eqn:M; [lia|reflexivity].
Qed.
(** ** The states of ts_sign *)
Section Switch.
Variable cfg : config.
Variables mem mem' : memory.
Variable ps : parameter_set.
Hypothesis Hcons : consistent ps.
Hypothesis Hn : 0 <= ps_n ps < 2 ^ 63.
Local Notation free := (crel any any any ps).
Local Notation level := (crel any any eq ps).
Local Notation sw := (l_sign_switch cfg mem).
Local Notation sw' := (l_sign_switch cfg mem').
Lemma sim_any {A B} (R : A -> B -> Prop) x y : sim R x y -> sim any x y.
Proof. intros H. eapply sim_weaken; [exact H|]. intros; exact I. Qed.
Ltac eqs := match goal with Hs : c_state ?c = c_state ?d |- (c_state ?c =? _) = _ => rewrite Hs; reflexivity end.
Ltac skip := apply sim_if; [eqs|intros Q; apply Z.eqb_eq in Q; exfalso; match goal with Hs : c_state _ = _ |- _ => rewrite Hs in Q; discriminate Q end|intros _].
Ltac take := apply sim_if; [eqs|intros _|intros Q; apply Z.eqb_neq in Q; exfalso; congruence].
Lemma sim_fl c d : free c d -> c_state c = ts_fors_leaf -> sim any (sw c) (sw' d).
Proof.
  intros H S. pose proof (cr_state _ _ _ _ _ _ H) as S'. unfold l_sign_switch. take. rewrite <- (cr_ft _ _ _ _ _ _ H).
  eapply sim_bind; [apply sim_get_fors_node|]. intros a b _ _ _. cbv zeta.
  assert (H1 : free (set_auth_path_node (u16 a) c) (set_auth_path_node (u16 b) d)) by (apply crel_apn; [exact I|exact H]).
  eapply sim_bind; [apply sim_fors_prf with (RX := any) (RN := any) (RM := any) (ps := ps); [exact Hn|exact I|exact H1]|]. intros e f _ _ (K & _ & _).
  assert (K2 : free (set_state ts_fors (set_merkle_level 0 (set_buffer_offset 0 e))) (set_state ts_fors (set_merkle_level 0 (set_buffer_offset 0 f))))
    by (apply crel_state, crel_ml, crel_boff, K; reflexivity).
  eapply sim_bind; [apply sim_fors_leaf with (RX := any) (RN := any) (RM := any) (ps := ps); [exact Hn|exact I|exact K2]|]. intros g h _ _ _. sr. exact I.
Qed.
(** the tested bit of the node number *)
Definition samebit (k a b : Z) : Prop := (Z.land a (Z.shiftl 1 k) =? 0) = (Z.land b (Z.shiftl 1 k) =? 0).
Lemma sim_fa c d : level c d -> c_state c = ts_fors -> irel cfg ps (c_big_iter c) (c_big_iter d) ->
  samebit (c_merkle_level c) (c_auth_path_node c) (c_auth_path_node d) -> sim any (sw c) (sw' d).
Proof.
  intros H S I0 B. pose proof (cr_state _ _ _ _ _ _ H) as S'. unfold l_sign_switch. skip. take.
  eapply sim_bind.
  { apply sim_fors_path with (RX := any) (RN := samebit (c_merkle_level c)) (RM := eq) (ps := ps); [exact Hcons|exact Hn|intros; exact I|intros; reflexivity|intros x y Q; exact Q|].
    eapply crel_weaken; [exact I|exact B|apply (cr_ml _ _ _ _ _ _ H)|exact H]. }
  intros e f _ _ (K & E1 & F1). pose proof (cr_ml _ _ _ _ _ _ K) as Eml. pose proof (cr_ps _ _ _ _ _ _ K) as Eps.
  assert (K0 : free e f) by (eapply crel_weaken; [exact I|exact I|exact I|exact K]).
  apply sim_if; [rewrite Eml, Eps; reflexivity| |intros _; sr; exact I]. intros _.
  eapply sim_bind; [apply sim_big_next with (RX := any) (RN := any) (RM := any) (ps := ps); [exact Hcons|exact Hn|split; [exact K0|rewrite E1, F1; exact I0]]|].
  intros e1 f1 _ _ [K1 I1]. cbv zeta.
  set (e2 := set_fors_tree _ _). set (f2 := set_fors_tree (u8 (c_fors_tree (set_state ts_fors_leaf f1) + 1)) _).
  assert (K2 : free e2 f2). { apply crel_ft; [cbn [c_fors_tree set_state]; rewrite (cr_ft _ _ _ _ _ _ K1); reflexivity|]. apply crel_state; [reflexivity|exact K1]. }
  apply sim_if; [rewrite (cr_ft _ _ _ _ _ _ K2), (cr_ps _ _ _ _ _ _ K2); reflexivity| |intros _; sr; exact I]. intros _.
  eapply sim_bind; [apply sim_big_final with (RX := any) (RN := any) (RM := any) (ps := ps); [exact Hcons|exact Hn|exact I|split; [exact K2|exact I1]]|].
  intros e3 f3 _ _ K3. eapply sim_bind; [|intros e4 f4 _ _ _; sr; exact I].
  apply sim_set_up with (RX := any) (RN := any) (RM := any) (ps := ps); [intros; exact I|intros; exact I|]. apply crel_ft; [reflexivity|exact K3].
Qed.
Lemma sim_wt c d g : free c d -> c_state c = ts_wots -> rd (c_x c) 0 = Ok g -> rd (c_x d) 0 = Ok g -> 0 <= g -> rd (c_x c) (1 + g) = rd (c_x d) (1 + g) ->
  sim any (sw c) (sw' d).
Proof.
  intros H S G G' Hg D. pose proof (cr_state _ _ _ _ _ _ H) as S'. unfold l_sign_switch. skip. skip. take.
  assert (GN : sim (fun e f => free e f /\ exists x y, rd x 0 = rd y 0 /\ c_x e = x /\ c_x f = y) (l_generate_next_wots_hash cfg mem c) (l_generate_next_wots_hash cfg mem' d)).
  { unfold l_generate_next_wots_hash, l_get_digit.
    eapply sim_bind; [apply sim_rd|]. intros a b E F _.
    assert (a = g) as ->. { apply ok_inj. rewrite <- G. symmetry. exact E. }
    assert (b = g) as ->. { apply ok_inj. rewrite <- G'. symmetry. exact F. }
    unfold l_set_digit. eapply sim_bind; [apply sim_wr|]. intros x y Ex Ey _.
    change (wr (c_x c) 0 (u8 (g + 1)) = Ok x) in Ex. change (wr (c_x d) 0 (u8 (g + 1)) = Ok y) in Ey. cbv zeta.
    set (RX := fun p q : list Z => p = x /\ q = y).
    assert (H1 : crel RX any any ps (set_x x c) (set_x y d)).
    { eapply crel_weaken; [split; reflexivity|exact I|exact I|]. apply crel_x with (RX := any); [exact I|exact H]. }
    eapply sim_bind; [apply sim_wots_prf with (RX := RX) (RN := any) (RM := any) (ps := ps); [exact Hn|exact I|exact H1]|]. intros e f _ _ (K & _ & _).
    destruct (cr_x _ _ _ _ _ _ K) as [Xe Xf]. rewrite Xe, Xf.
    eapply (sim_bind eq).
    { unfold l_get_digits. destruct (_ && _); [|apply sim_ub_l]. apply sim_tick; [reflexivity|]. apply sim_quiet. intros u v U V.
      apply ok_inj. rewrite <- U, <- V. rewrite (rd_wr_other _ _ _ _ _ Ex), (rd_wr_other _ _ _ _ _ Ey) by lia. exact D. }
    intros lim ? _ _ <-.
    eapply sim_bind; [apply sim_chain with (RX := RX) (RN := any) (RM := any) (ps := ps); [exact Hn|exact I|exact K]|]. intros e1 f1 _ _ (K1 & _ & _). sr.
    split.
    - eapply crel_weaken; [exact I|exact I|exact I|]. apply crel_boff; [reflexivity|exact K1].
    - exists x, y. destruct (cr_x _ _ _ _ _ _ K1) as [X1 Y1]. split; [|split; assumption].
      rewrite (rd_wr_eq _ _ _ _ Ex), (rd_wr_eq _ _ _ _ Ey). reflexivity. }
  eapply sim_bind; [exact GN|]. intros e f _ _ (K & x & y & R & X & Y). unfold l_get_digit. rewrite X, Y.
  eapply (sim_bind eq).
  { apply sim_tick; [reflexivity|]. apply sim_quiet. intros u v U V. apply ok_inj. rewrite <- U, <- V. exact R. }
  intros g1 ? _ _ <-. apply sim_if; [rewrite (cr_ps _ _ _ _ _ _ K); reflexivity| |intros _; sr; exact I]. intros _. cbv zeta.
  eapply sim_bind; [|intros e1 f1 _ _ _; sr; exact I].
  apply sim_wots_leaf with (RX := any) (RN := any) (RM := any) (ps := ps); [exact Hcons|exact Hn|intros; exact I|].
  apply crel_ml, crel_state, K; reflexivity.
Qed.
Lemma sim_mk c d : level c d -> c_state c = ts_merkle -> samebit (c_merkle_level c) (c_auth_path_node c) (c_auth_path_node d) -> sim any (sw c) (sw' d).
Proof.
  intros H S B. pose proof (cr_state _ _ _ _ _ _ H) as S'. unfold l_sign_switch. skip. skip. skip. take.
  eapply sim_bind.
  { apply sim_xmss_path with (RX := any) (RN := samebit (c_merkle_level c)) (RM := eq) (ps := ps); [exact Hcons|exact Hn|intros; exact I|intros; reflexivity|intros x y Q; exact Q|].
    eapply crel_weaken; [exact I|exact B|apply (cr_ml _ _ _ _ _ _ H)|exact H]. }
  intros e f _ _ K. pose proof (cr_ml _ _ _ _ _ _ K) as Eml. pose proof (cr_ps _ _ _ _ _ _ K) as Eps.
  assert (K0 : free e f) by (eapply crel_weaken; [exact I|exact I|exact I|exact K]).
  apply sim_if; [rewrite Eml, Eps; reflexivity| |intros _; sr; exact I]. intros _. cbv zeta.
  set (e2 := set_hypertree_level _ e). set (f2 := set_hypertree_level _ f).
  assert (K2 : free e2 f2). { apply crel_hl; [rewrite (cr_hl _ _ _ _ _ _ K); reflexivity|exact K0]. }
  apply sim_if; [rewrite (cr_hl _ _ _ _ _ _ K2), (cr_ps _ _ _ _ _ _ K2); reflexivity|intros _; sr; exact I|]. intros _.
  rewrite <- (cr_ps _ _ _ _ _ _ K2). eapply (sim_bind eq); [apply sim_shift_count|]. intros sh ? _ _ <-.
  eapply sim_bind; [|intros e4 f4 _ _ _; sr; exact I].
  apply sim_set_up with (RX := any) (RN := any) (RM := any) (ps := ps); [intros; exact I|intros; exact I|].
  apply crel_tree, crel_apn; [exact I|exact K2].
Qed.
Lemma sim_done c d : c_state c = c_state d -> c_state c = ts_done -> sim any (sw c) (sw' d).
Proof. intros S' S. unfold l_sign_switch. skip. skip. skip. skip. sr. exact I. Qed.
End Switch.
