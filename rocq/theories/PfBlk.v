(** * Runs of the compression functions: tiny_sphincs.c and key_gen.c *)
From Verif Require Import CSem CLeak ModelParams ModelCtx ModelHash ModelSphincs SpecReuse
  LeakSha2 LeakHash LeakSphincs LeakVerify SpecSLH SpecMap SpecForge SpecLeak SpecWork SpecBlocks PfWorkSilent PfWork PfBlkSha PfBlkHash.
Ltac Zify.zify_post_hook ::= idtac.
Ltac dlia := Z.to_euclidean_division_equations; lia.

(** ** Accesses *)
Lemma sq_sub_rd x0 x1 x2 x3 x4 : still (l_sub_rd x0 x1 x2 x3 x4). Proof. unfold l_sub_rd. stl. Qed.
#[global] Hint Resolve sq_sub_rd : sq.
Lemma sq_sub_wr x0 x1 x2 x3 x4 : still (l_sub_wr x0 x1 x2 x3 x4). Proof. unfold l_sub_wr. stl. Qed.
#[global] Hint Resolve sq_sub_wr : sq.
Lemma sq_get_fors_node x0 x1 x2 : still (l_get_fors_node x0 x1 x2). Proof. unfold l_get_fors_node. stl. Qed.
#[global] Hint Resolve sq_get_fors_node : sq.
Lemma sq_set_fors_node x0 x1 x2 x3 : still (l_set_fors_node x0 x1 x2 x3). Proof. unfold l_set_fors_node. stl. Qed.
#[global] Hint Resolve sq_set_fors_node : sq.
Lemma sq_get_digit x0 : still (l_get_digit x0). Proof. unfold l_get_digit. stl. Qed.
#[global] Hint Resolve sq_get_digit : sq.
Lemma sq_set_digit x0 x1 : still (l_set_digit x0 x1). Proof. unfold l_set_digit. stl. Qed.
#[global] Hint Resolve sq_set_digit : sq.
Lemma sq_get_digits x0 x1 x2 : still (l_get_digits x0 x1 x2). Proof. unfold l_get_digits. stl. Qed.
#[global] Hint Resolve sq_get_digits : sq.
Lemma sq_set_digits x0 x1 x2 x3 : still (l_set_digits x0 x1 x2 x3). Proof. unfold l_set_digits. stl. Qed.
#[global] Hint Resolve sq_set_digits : sq.
Lemma sq_get_buf x0 x1 x2 x3 : still (l_get_buf x0 x1 x2 x3). Proof. unfold l_get_buf. stl. Qed.
#[global] Hint Resolve sq_get_buf : sq.

Section Set_.
Variables (cfg : config) (p : ps_name).
Hypothesis on : ps_enabled cfg p = true.
Variable q : primitive.
Local Notation n := (p_n (slh_of p)).
Local Notation le := (cfg_le cfg).
Local Notation ps := (the_ps cfg p).
Lemma b_n : 0 < n <= 32. Proof. destruct p; cbn; lia. Qed.
Lemma b_ps_n : ps_n ps = n. Proof. destruct p; reflexivity. Qed.
Lemma kinds :
  (wide p = keccak_permutation /\ narrow p = keccak_permutation /\ is_sha2 p = false /\ ADR_SIZE cfg = 32 /\
   ps_prf ps = shake256_prf /\ ps_f ps = shake256_f_simple /\ ps_init_t ps = shake256_init_t_simple /\ ps_next_t ps = shake256_next_t_simple /\
   ps_final_t ps = shake256_final_t_simple /\ ps_prf_msg ps = shake256_prf_msg /\ ps_hash_msg ps = shake256_hash_msg /\ ps_compute_prehash ps = None) \/
  (wide p = sha256_compression /\ narrow p = sha256_compression /\ is_sha2 p = true /\
   ps_prf ps = sha2_prf /\ ps_f ps = sha2_f_simple /\ ps_init_t ps = sha2_L1_init_t_simple /\ ps_next_t ps = sha2_L1_next_t_simple /\
   ps_final_t ps = sha2_L1_final_t_simple /\ ps_prf_msg ps = sha2_L1_prf_msg /\ ps_hash_msg ps = sha2_L1_hash_msg /\ (cfg_sha2_opt cfg = true -> ps_compute_prehash ps = Some sha2_L1_prehash)) \/
  (wide p = sha512_compression /\ narrow p = sha256_compression /\ is_sha2 p = true /\
   ps_prf ps = sha2_prf /\ ps_f ps = sha2_f_simple /\ ps_init_t ps = sha2_L35_init_t_simple /\ ps_next_t ps = sha2_L35_next_t_simple /\
   ps_final_t ps = sha2_L35_final_t_simple /\ ps_prf_msg ps = sha2_L35_prf_msg /\ ps_hash_msg ps = sha2_L35_hash_msg /\ (cfg_sha2_opt cfg = true -> ps_compute_prehash ps = Some sha2_L35_prehash)).
Proof.
  assert (A : is_sha2 p = false -> ADR_SIZE cfg = 32).
  { unfold ADR_SIZE. destruct (cfg_shake cfg) eqn:S; [reflexivity|]. generalize on. destruct p; cbn; rewrite ?S; cbn; discriminate. }
  destruct p; cbn in A |- *; first
    [ left; specialize (A eq_refl); repeat (split; [first [reflexivity|exact A]|]); reflexivity
    | right; left; repeat (split; [reflexivity|]); intros ->; reflexivity
    | right; right; repeat (split; [reflexivity|]); intros ->; reflexivity ].
Qed.

(** ** The iterator: the seed, the address and [j] strings have gone in *)
Definition at_ (it : list Z) (t : Z) : Prop :=
  match wide p with sha256_compression => at256 le t it | sha512_compression => at512 le t it | keccak_permutation => atk le t it end.
Definition lvl (j : Z) (it : list Z) : Prop := at_ it (header (wide p) p + j * n).

Variable mem : memory.
Lemma sv_saved : is_sha2 p = true -> saved cfg p = sv cfg.
Proof. unfold saved, sv. intros ->. rewrite andb_true_r. reflexivity. Qed.
Lemma tk_jump {A} j k (Q : A -> Prop) x : takes q k Q x -> takes q k Q (tick (Jump j) x).
Proof. apply tk_tick. exact I. Qed.
Ltac ofe := apply (f_equal (fun z => of_ _ z q)).
Lemma tk_prf c : c_ps c = ps -> takes q (PRF_runs cfg p q) (only_small c) (l_call_prf cfg mem c).
Proof.
  intros Hp. pose proof b_n as Hn. assert (En : ps_n (c_ps c) = n) by (rewrite Hp; apply b_ps_n). unfold l_call_prf, PRF_runs.
  destruct kinds as [(_ & Nw & S & Ha & K & _) | [(_ & Nw & S & K & _) | (_ & Nw & S & K & _)]]; rewrite Hp, K, Nw; apply tk_jump.
  - eapply tk_eq; [apply (tk_sh_prf q cfg mem n); [lia|lia|exact Ha|exact En]|]. ofe. unfold FK, saved, hashed, padding, header, rate. rewrite S, andb_false_r. rewrite Z.add_simpl_r. lia.
  - eapply tk_eq; [apply (tk_sha2_prf q cfg mem n); [lia|exact En]|]. ofe. unfold F256. rewrite (sv_saved S). unfold hashed, padding, header, rate. replace (64 + 22 + n + 9 - 1) with (64 + 22 + n + 8) by lia. reflexivity.
  - eapply tk_eq; [apply (tk_sha2_prf q cfg mem n); [lia|exact En]|]. ofe. unfold F256. rewrite (sv_saved S). unfold hashed, padding, header, rate. replace (64 + 22 + n + 9 - 1) with (64 + 22 + n + 8) by lia. reflexivity.
Qed.

Lemma tk_f b c : c_ps c = ps -> takes q (F_runs cfg p q) (only_small c) (l_call_f cfg mem b c).
Proof.
  intros Hp. pose proof b_n as Hn. assert (En : ps_n (c_ps c) = n) by (rewrite Hp; apply b_ps_n). unfold l_call_f, F_runs, PRF_runs.
  destruct kinds as [(_ & Nw & S & Ha & _ & K & _) | [(_ & Nw & S & _ & K & _) | (_ & Nw & S & _ & K & _)]]; rewrite Hp, K, Nw; apply tk_jump.
  - eapply tk_eq; [apply (tk_sh_f q cfg mem n); [lia|lia|exact Ha|exact En]|]. ofe. unfold FK, saved, hashed, padding, header, rate. rewrite S, andb_false_r. rewrite Z.add_simpl_r. lia.
  - eapply tk_eq; [apply (tk_sha2_f q cfg mem n); [lia|exact En]|]. ofe. unfold F256. rewrite (sv_saved S). unfold hashed, padding, header, rate. replace (64 + 22 + n + 9 - 1) with (64 + 22 + n + 8) by lia. reflexivity.
  - eapply tk_eq; [apply (tk_sha2_f q cfg mem n); [lia|exact En]|]. ofe. unfold F256. rewrite (sv_saved S). unfold hashed, padding, header, rate. replace (64 + 22 + n + 9 - 1) with (64 + 22 + n + 8) by lia. reflexivity.
Qed.
Lemma tk_init it c : c_ps c = ps -> takes q (begun_runs cfg p 0 q) (lvl 0) (l_call_init_t cfg mem it c).
Proof.
  intros Hp. pose proof b_n as Hn. assert (En : ps_n (c_ps c) = n) by (rewrite Hp; apply b_ps_n). unfold l_call_init_t, begun_runs, lvl, at_, absorbed.
  destruct kinds as [(W & _ & S & Ha & _ & _ & K & _) | [(W & _ & S & _ & _ & K & _) | (W & _ & S & _ & _ & K & _)]]; rewrite Hp, K, W; apply tk_jump; rewrite Z.mul_0_l, Z.add_0_r; unfold header, rate.
  - eapply tk_eq; [apply (tk_sh_init q cfg mem n); [lia|exact Ha|exact En]|]. ofe. unfold saved. rewrite S, andb_false_r. lia.
  - eapply tk_eq; [apply (tk_L1_init q cfg mem n); [lia|exact En]|]. rewrite (sv_saved S). reflexivity.
  - eapply tk_eq; [apply (tk_L35_init q cfg mem n); [lia|exact En]|]. rewrite (sv_saved S). reflexivity.
Qed.
Lemma tk_next j it b c : c_ps c = ps -> lvl j it -> takes q (begun_runs cfg p (j + 1) q - begun_runs cfg p j q) (lvl (j + 1)) (l_call_next_t cfg it b c).
Proof.
  intros Hp. pose proof b_n as Hn. assert (En : ps_n (c_ps c) = n) by (rewrite Hp; apply b_ps_n). unfold l_call_next_t, begun_runs, lvl, at_, absorbed. rewrite of_sub.
  replace (header (wide p) p + (j + 1) * n) with (header (wide p) p + j * n + n) by ring.
  destruct kinds as [(W & _ & S & Ha & _ & _ & _ & K & _) | [(W & _ & S & _ & _ & _ & K & _) | (W & _ & S & _ & _ & _ & K & _)]]; rewrite Hp, K, W; intros H; apply tk_jump; unfold rate.
  - eapply tk_eq; [apply (tk_sh_next q cfg n); [lia|exact En|exact H]|]. ofe. lia.
  - eapply tk_eq; [apply (tk_L1_next q cfg n); [lia|exact En|exact H]|]. ofe. lia.
  - eapply tk_eq; [apply (tk_L35_next q cfg n); [lia|exact En|exact H]|]. ofe. lia.
Qed.
Lemma tk_final j it c : c_ps c = ps -> lvl j it -> takes q (T_runs cfg p j q - begun_runs cfg p j q) (fun _ => True) (l_call_final_t cfg it c).
Proof.
  intros Hp. pose proof b_n as Hn. assert (En : ps_n (c_ps c) = n) by (rewrite Hp; apply b_ps_n). unfold l_call_final_t, begun_runs, T_runs, lvl, at_, absorbed, hashed. rewrite of_sub.
  destruct kinds as [(W & _ & S & Ha & _ & _ & _ & _ & K & _) | [(W & _ & S & _ & _ & _ & _ & K & _) | (W & _ & S & _ & _ & _ & _ & K & _)]]; rewrite Hp, K, W; intros H; apply tk_jump; unfold rate, padding.
  - eapply tk_eq; [eapply (tk_sh_final q cfg n); [lia|lia|exact En|exact H]|]. ofe. rewrite Z.add_simpl_r. lia.
  - eapply tk_eq; [apply (tk_L1_final q cfg); exact H|]. ofe. rewrite <- (Z.add_sub_assoc _ 9 1). change (9 - 1) with 8. lia.
  - eapply tk_eq; [apply (tk_L35_final q cfg); exact H|]. ofe. rewrite <- (Z.add_sub_assoc _ 17 1). change (17 - 1) with 16. lia.
Qed.
Lemma tk_prf_msg o m c : c_ps c = ps -> zlen m < 2 ^ 62 -> takes q (PRF_msg_runs p (zlen m) q) (only_small c) (l_call_prf_msg cfg mem o m c).
Proof.
  intros Hp Hm. pose proof b_n as Hn. assert (H0 : 0 <= zlen m) by (unfold zlen; lia). assert (En : ps_n (c_ps c) = n) by (rewrite Hp; apply b_ps_n). unfold l_call_prf_msg, PRF_msg_runs.
  destruct kinds as [(W & _ & S & Ha & _ & _ & _ & _ & _ & K & _) | [(W & _ & S & _ & _ & _ & _ & _ & K & _) | (W & _ & S & _ & _ & _ & _ & _ & K & _)]]; rewrite Hp, K, W; apply tk_jump; unfold hashed, rate, padding.
  - eapply tk_eq; [apply (tk_sh_prf_msg q cfg mem n) with (L := zlen m); first [lia|exact En|reflexivity]|]. ofe. rewrite Z.add_simpl_r. reflexivity.
  - eapply tk_eq; [apply (tk_L1_prf_msg q cfg mem n) with (L := zlen m); first [lia|exact En|reflexivity]|]. ofe. rewrite <- !(Z.add_sub_assoc _ 9 1). reflexivity.
  - eapply tk_eq; [apply (tk_L35_prf_msg q cfg mem n) with (L := zlen m); first [lia|exact En|reflexivity]|]. ofe. rewrite <- !(Z.add_sub_assoc _ 17 1). reflexivity.
Qed.
Lemma tk_hash_msg l r m c : c_ps c = ps -> zlen m < 2 ^ 62 -> l = 49 -> takes q (H_msg_runs p (zlen m) q) (only_small c) (l_call_hash_msg cfg mem l r m c).
Proof.
  intros Hp Hm ->. pose proof b_n as Hn. assert (H0 : 0 <= zlen m) by (unfold zlen; lia). assert (En : ps_n (c_ps c) = n) by (rewrite Hp; apply b_ps_n).
  unfold l_call_hash_msg, H_msg_runs, digest_bytes.
  destruct kinds as [(W & _ & S & Ha & _ & _ & _ & _ & _ & _ & K & _) | [(W & _ & S & _ & _ & _ & _ & _ & _ & K & _) | (W & _ & S & _ & _ & _ & _ & _ & _ & K & _)]]; rewrite Hp, K, W; apply tk_jump; unfold hashed, rate, padding.
  - eapply tk_eq; [apply (tk_sh_hash_msg q cfg mem n) with (L := zlen m); first [lia|exact En|reflexivity]|]. ofe. rewrite Z.add_simpl_r. change ((49 - 1) / 136) with 0. change ((49 + 135) / 136) with 1. lia.
  - eapply tk_eq; [apply (tk_L1_hash_msg q cfg mem n) with (L := zlen m); first [lia|exact En|reflexivity]|]. ofe. rewrite <- !(Z.add_sub_assoc _ 9 1). change (9 - 1) with 8. change (64 / 2) with 32.
    replace (2 * n + 36 + 8) with (2 * n + 32 + 4 + 8) by lia. reflexivity.
  - eapply tk_eq; [apply (tk_L35_hash_msg q cfg mem n) with (L := zlen m); first [lia|exact En|reflexivity]|]. ofe. rewrite <- !(Z.add_sub_assoc _ 17 1). change (17 - 1) with 16. change (128 / 2) with 64.
    replace (2 * n + 68 + 16) with (2 * n + 64 + 4 + 16) by lia. reflexivity.
Qed.

(** ** What the functions leave alone: [x] the union x as well, [y] the big iterator as well *)
Record fb (x y : bool) (c c' : ts_context) : Prop := mkFb { b_fr : fr x c c'; b_big : y = true -> c_big_iter c' = c_big_iter c }.
Lemma fb_refl x y c : fb x y c c. Proof. split; [apply fr_refl|auto]. Qed.
Lemma fb_trans x y c d e : fb x y c d -> fb x y d e -> fb x y c e.
Proof. intros [A B] [A' B']. split; [exact (fr_trans _ _ _ _ A A')|]. intros H. rewrite B', B by exact H. reflexivity. Qed.
Lemma fb_weak x y x' y' c d : fb x y c d -> implb x' x = true -> implb y' y = true -> fb x' y' c d.
Proof.
  intros [[A B C D E F] G] X Y. split; [apply mkFr; try assumption|].
  - intros ->. apply F. exact X.
  - intros ->. apply G. exact Y.
Qed.
Lemma fb_adr x y a c : fb x y c (set_adr a c). Proof. split; [apply fr_adr|reflexivity]. Qed.
Lemma fb_small x y a c : fb x y c (set_small_iter a c). Proof. split; [apply fr_small|reflexivity]. Qed.
Lemma fb_big x a c : fb x false c (set_big_iter a c). Proof. split; [apply fr_big|discriminate]. Qed.
Lemma fb_buffer x y a c : fb x y c (set_buffer a c). Proof. split; [apply fr_buffer|reflexivity]. Qed.
Lemma fb_auth x y a c : fb x y c (set_auth_path_buffer a c). Proof. split; [apply fr_auth|reflexivity]. Qed.
Lemma fb_node x y a c : fb x y c (set_auth_path_node a c). Proof. split; [apply fr_node|reflexivity]. Qed.
Lemma fb_offset x y a c : fb x y c (set_buffer_offset a c). Proof. split; [apply fr_offset|reflexivity]. Qed.
Lemma fb_xx y a c : fb false y c (set_x a c). Proof. split; [apply fr_xx|reflexivity]. Qed.
Lemma fb_ps x y c d : fb x y c d -> c_ps d = c_ps c. Proof. intros [[A B C D E F] G]. exact A. Qed.
Lemma tk_seq x y k1 k2 c e g : takes q k1 (fb x y c) e -> (forall c1, fb x y c c1 -> takes q k2 (fb x y c1) (g c1)) ->
  takes q (k1 + k2) (fb x y c) (lbind e g).
Proof.
  intros H K. eapply tk_bind; [exact H|]. intros c1 _ F1. eapply tk_weak; [apply K, F1|]. intros c2 _ F2. exact (fb_trans _ _ _ _ _ F1 F2).
Qed.
Lemma tk_seq0 x y k c e g : takes q 0 (fb x y c) e -> (forall c1, fb x y c c1 -> takes q k (fb x y c1) (g c1)) ->
  takes q k (fb x y c) (lbind e g).
Proof. intros H K. apply (tk_seq x y 0 k c e g H K). Qed.
Lemma tk_fb x y x' y' k c e : takes q k (fb x y c) e -> implb x' x = true -> implb y' y = true -> takes q k (fb x' y' c) e.
Proof. intros H X Y. eapply tk_weak; [exact H|]. intros c1 _ F. exact (fb_weak _ _ _ _ _ _ F X Y). Qed.

Create HintDb tk.
Ltac tk0 := first
  [ solve [auto with tk nocore]
  | lazymatch goal with
    | |- takes _ 0 _ (lret _) => apply tk_ret; first [apply fb_refl|apply fb_adr|apply fb_small|apply fb_big|apply fb_buffer|apply fb_auth|apply fb_node|apply fb_offset|apply fb_xx]
    | |- takes _ _ (fb ?x ?y ?c) (lbind ?e _) => first
        [ apply tk_bind0; [solve [auto with sq nocore] | intros; tk0 ]
        | apply (tk_seq0 x y); [tk0 | intros; tk0 ] ]
    | |- takes _ _ _ (lif _ _ _) => apply tk_if; intros _; tk0
    end ].
Ltac tk := cbv zeta; tk0.
Ltac impl := first [reflexivity|apply implb_same|destruct_all; reflexivity].
(** the frame of a run from the frames of its parts *)
Ltac frt := lazymatch goal with
  | |- fb _ _ ?c ?c => apply fb_refl
  | H : fb _ _ ?c ?d |- fb _ _ ?c _ => eapply fb_trans; [apply (fb_weak _ _ _ _ _ _ H); impl|]; clear H; frt
  end.

(** ** Addresses *)
Lemma tk_wr_adr o v c x y : takes q 0 (fb x y c) (l_wr_adr o v c).
Proof. unfold l_wr_adr. tk. Qed.
#[local] Hint Resolve tk_wr_adr : tk.
Lemma tk_layer x y v c : takes q 0 (fb x y c) (l_set_layer_adr cfg v c). Proof. unfold l_set_layer_adr. tk. Qed.
Lemma tk_tree x y v c : takes q 0 (fb x y c) (l_set_tree_adr cfg v c). Proof. unfold l_set_tree_adr. tk. Qed.
Lemma tk_type x y v c : takes q 0 (fb x y c) (l_set_type_adr cfg v c). Proof. unfold l_set_type_adr. tk. Qed.
Lemma tk_keypair x y v c : takes q 0 (fb x y c) (l_set_keypair_adr cfg v c). Proof. unfold l_set_keypair_adr. tk. Qed.
Lemma tk_height x y v c : takes q 0 (fb x y c) (l_set_tree_height_adr cfg v c). Proof. unfold l_set_tree_height_adr. tk. Qed.
Lemma tk_index x y v c : takes q 0 (fb x y c) (l_set_tree_index_adr cfg v c). Proof. unfold l_set_tree_index_adr. tk. Qed.
Lemma tk_chain x y v c : takes q 0 (fb x y c) (l_set_chain_adr cfg v c). Proof. unfold l_set_chain_adr. apply tk_height. Qed.
Lemma tk_hash x y v c : takes q 0 (fb x y c) (l_set_hash_adr cfg v c). Proof. unfold l_set_hash_adr. apply tk_index. Qed.
Lemma sq_fors_index c i : still (l_fors_index c i). Proof. unfold l_fors_index. stl. Qed.
Hint Resolve tk_layer tk_tree tk_type tk_keypair tk_height tk_index tk_chain tk_hash : tk.
Hint Resolve sq_fors_index : sq.
Lemma tk_fors_prf_adr x y i c : takes q 0 (fb x y c) (l_set_fors_prf_adr cfg i c). Proof. unfold l_set_fors_prf_adr. tk. Qed.
Lemma tk_fors_leaf_adr x y i c : takes q 0 (fb x y c) (l_ts_set_fors_leaf_adr cfg i c). Proof. unfold l_ts_set_fors_leaf_adr. tk. Qed.
Lemma tk_wots_prf_adr x y t i c : takes q 0 (fb x y c) (l_set_wots_prf_adr cfg t i c). Proof. unfold l_set_wots_prf_adr. tk. Qed.
Lemma tk_wots_f_adr x y t i h c : takes q 0 (fb x y c) (l_ts_set_wots_f_adr cfg t i h c). Proof. unfold l_ts_set_wots_f_adr. tk. Qed.
Lemma tk_merkle_adr x y k l t c : takes q 0 (fb x y c) (l_ts_set_merkle_adr cfg k l t c). Proof. unfold l_ts_set_merkle_adr. tk. Qed.
Lemma tk_fors_root_adr x y c : takes q 0 (fb x y c) (l_ts_set_fors_root_adr cfg c). Proof. unfold l_ts_set_fors_root_adr. tk. Qed.
Lemma tk_wots_header_adr x y l c : takes q 0 (fb x y c) (l_ts_set_wots_header_adr cfg l c). Proof. unfold l_ts_set_wots_header_adr. tk. Qed.
Hint Resolve tk_fors_prf_adr tk_fors_leaf_adr tk_wots_prf_adr tk_wots_f_adr tk_merkle_adr tk_fors_root_adr tk_wots_header_adr : tk.

(** ** On the buffers and iterators of the context *)
Lemma tk_put_buf c b v : takes q 0 (fb (keeps_x b) true c) (l_put_buf cfg c b v).
Proof. destruct b; cbn [l_put_buf keeps_x]; tk. Qed.
Lemma tk_do_prf b c : c_ps c = ps -> takes q (PRF_runs cfg p q) (fb (keeps_x b) true c) (l_do_prf cfg mem b c).
Proof.
  intros Hp. unfold l_do_prf. eapply tk_eq; [eapply tk_bind; [apply tk_prf, Hp|]|apply Z.add_0_r]. intros [out c1] _ [it Hit]. cbn [snd] in Hit. subst c1.
  eapply tk_weak; [apply tk_put_buf|]. intros d _ F. exact (fb_trans _ _ _ _ _ (fb_small _ _ it c) F).
Qed.
Lemma tk_do_f b b2 c : c_ps c = ps -> takes q (F_runs cfg p q) (fb (keeps_x b) true c) (l_do_f cfg mem b b2 c).
Proof.
  intros Hp. unfold l_do_f. apply tk_bind0; [auto with sq nocore|]. intros i _.
  eapply tk_eq; [eapply tk_bind; [apply tk_f, Hp|]|apply Z.add_0_r]. intros [out c1] _ [it Hit]. cbn [snd] in Hit. subst c1.
  eapply tk_weak; [apply tk_put_buf|]. intros d _ F. exact (fb_trans _ _ _ _ _ (fb_small _ _ it c) F).
Qed.
(** the small iterator *)
Definition sml (j : Z) (x : bool) (c d : ts_context) : Prop := fb x true c d /\ lvl j (c_small_iter d).
Lemma tk_small_init x c : c_ps c = ps -> takes q (begun_runs cfg p 0 q) (sml 0 x c) (l_small_init_t cfg mem c).
Proof. intros Hp. unfold l_small_init_t. eapply tk_eq; [eapply tk_bind; [apply tk_init, Hp|]|apply Z.add_0_r]. intros it _ L. apply tk_ret. split; [apply fb_small|exact L]. Qed.
Lemma tk_small_next x j i c : c_ps c = ps -> lvl j (c_small_iter c) -> takes q (begun_runs cfg p (j + 1) q - begun_runs cfg p j q) (sml (j + 1) x c) (l_small_next_t cfg i c).
Proof. intros Hp H. unfold l_small_next_t. eapply tk_eq; [eapply tk_bind; [apply (tk_next j), H; exact Hp|]|apply Z.add_0_r]. intros it _ L. apply tk_ret. split; [apply fb_small|exact L]. Qed.
Lemma tk_small_final j b c : c_ps c = ps -> lvl j (c_small_iter c) -> takes q (T_runs cfg p j q - begun_runs cfg p j q) (fb (keeps_x b) true c) (l_small_final_t cfg b c).
Proof.
  intros Hp H. unfold l_small_final_t. eapply tk_eq; [eapply tk_bind; [apply (tk_final j), H; exact Hp|]|apply Z.add_0_r]. intros [out it] _ _.
  eapply tk_weak; [apply tk_put_buf|]. intros d _ F. exact (fb_trans _ _ _ _ _ (fb_small _ _ it c) F).
Qed.
(** the big iterator *)
Definition bg (j : Z) (x : bool) (c d : ts_context) : Prop := fb x false c d /\ lvl j (c_big_iter d).
Lemma tk_big_init x c : c_ps c = ps -> takes q (begun_runs cfg p 0 q) (bg 0 x c) (l_big_init_t cfg mem c).
Proof. intros Hp. unfold l_big_init_t. eapply tk_eq; [eapply tk_bind; [apply tk_init, Hp|]|apply Z.add_0_r]. intros it _ L. apply tk_ret. split; [apply fb_big|exact L]. Qed.
Lemma tk_big_next x j i c : c_ps c = ps -> lvl j (c_big_iter c) -> takes q (begun_runs cfg p (j + 1) q - begun_runs cfg p j q) (bg (j + 1) x c) (l_big_next_t cfg i c).
Proof. intros Hp H. unfold l_big_next_t. eapply tk_eq; [eapply tk_bind; [apply (tk_next j), H; exact Hp|]|apply Z.add_0_r]. intros it _ L. apply tk_ret. split; [apply fb_big|exact L]. Qed.
Lemma tk_big_final j b c : c_ps c = ps -> lvl j (c_big_iter c) -> takes q (T_runs cfg p j q - begun_runs cfg p j q) (fb (keeps_x b) false c) (l_big_final_t cfg b c).
Proof.
  intros Hp H. unfold l_big_final_t. eapply tk_eq; [eapply tk_bind; [apply (tk_final j), H; exact Hp|]|apply Z.add_0_r]. intros [out it] _ _.
  eapply tk_weak; [apply tk_put_buf|]. intros d _ F. eapply fb_trans; [apply (fb_big _ it c)|]. apply (fb_weak _ _ _ _ _ _ F); [apply implb_same|reflexivity].
Qed.
Lemma tk_fors_prf b i c : c_ps c = ps -> takes q (PRF_runs cfg p q) (fb (keeps_x b) true c) (l_fors_prf cfg mem b i c).
Proof. intros Hp. unfold l_fors_prf. apply tk_seq0; [apply tk_fors_prf_adr|]. intros c1 F. apply tk_do_prf. rewrite (fb_ps _ _ _ _ F). exact Hp. Qed.
Lemma tk_wots_prf b t i c : c_ps c = ps -> takes q (PRF_runs cfg p q) (fb (keeps_x b) true c) (l_wots_prf cfg mem b t i c).
Proof. intros Hp. unfold l_wots_prf. apply tk_seq0; [apply tk_wots_prf_adr|]. intros c1 F. apply tk_do_prf. rewrite (fb_ps _ _ _ _ F). exact Hp. Qed.
Lemma tk_fors_leaf b i c : c_ps c = ps -> takes q (fors_leaf_runs cfg p q) (fb (keeps_x b) true c) (l_fors_leaf cfg mem b i c).
Proof.
  intros Hp. unfold l_fors_leaf. apply tk_seq0; [apply tk_fors_prf_adr|]. intros c1 F1. rewrite <- (fb_ps _ _ _ _ F1) in Hp. unfold fors_leaf_runs.
  apply tk_seq; [apply tk_do_prf, Hp|]. intros c2 F2. rewrite <- (fb_ps _ _ _ _ F2) in Hp. apply tk_seq0; [apply tk_type|]. intros c3 F3. rewrite <- (fb_ps _ _ _ _ F3) in Hp. apply tk_do_f, Hp.
Qed.
Lemma sq_rd_stack s o k c : still (l_rd_stack s o k c). Proof. unfold l_rd_stack. auto with sq nocore. Qed.
Lemma tk_wr_stack s o v c : takes q 0 (fb false true c) (l_wr_stack s o v c).
Proof. unfold l_wr_stack. tk. Qed.

(** ** Trees *)
Lemma tk_combine fuel stk ty leaf : forall nod k c, 0 <= nod -> c_ps c = ps ->
  takes q ((vf fuel (nod + 1) - vf fuel nod) * H_runs cfg p q) (fun y => fb true true c (snd y)) (l_combine_loop cfg mem fuel stk ty leaf nod k c).
Proof.
  induction fuel as [|fuel IH]; intros nod k c Hn Hp; [apply tk_ub|]. cbn [l_combine_loop]. cbv zeta.
  change 1 with (Z.ones 1) at 2. rewrite Z.land_ones by lia. change (2 ^ 1) with 2. apply tk_if; intros E; [apply Z.eqb_eq in E|apply Z.eqb_neq in E].
  - eapply tk_eq; [apply tk_ret; cbn [snd]; apply fb_refl|]. cbn [vf]. replace ((nod + 1) / 2) with (nod / 2) by dlia. ring.
  - eapply tk_eq.
    + eapply tk_bind; [apply (tk_merkle_adr true true)|]. intros c1 _ F1. rewrite <- (fb_ps _ _ _ _ F1) in Hp. eapply tk_bind; [apply (tk_small_init true), Hp|]. intros c2 _ [F2 L2]. rewrite <- (fb_ps _ _ _ _ F2) in Hp.
      apply tk_bind0; [apply sq_rd_stack|]. intros l _. eapply tk_bind; [apply (tk_small_next true 0), L2; exact Hp|]. intros c3 _ [F3 L3]. rewrite <- (fb_ps _ _ _ _ F3) in Hp.
      eapply tk_bind; [apply (tk_small_next true (0 + 1)), L3; exact Hp|]. intros c4 _ [F4 L4]. rewrite <- (fb_ps _ _ _ _ F4) in Hp. eapply tk_bind; [apply (tk_small_final (0 + 1 + 1) BufBuffer), L4; exact Hp|]. intros c5 _ F5. rewrite <- (fb_ps _ _ _ _ F5) in Hp.
      eapply tk_weak; [apply IH; [apply Z.shiftr_nonneg; lia|exact Hp]|]. intros [k' c6] _ F6. cbn [snd] in *. frt.
    + cbn [vf]. change 2 with (2 ^ 1) at 1. rewrite Z.shiftr_div_pow2 by lia. change (2 ^ 1) with 2. replace ((nod + 1) / 2) with (nod / 2 + 1) by dlia. unfold H_runs. change (0 + 1 + 1) with 2. change (0 + 1) with 1. ring.
Qed.
(** ts_merkle_path at level [h], for leaves that take [kl] runs each *)
Lemma tk_path gen kl ty stk c h y : 0 <= h <= 31 -> c_merkle_level c = h -> c_ps c = ps ->
  (forall i d, c_ps d = ps -> takes q kl (fb false y d) (gen BufBuffer i d)) ->
  takes q (2 ^ h * kl + 2 ^ h * H_runs cfg p q) (fb false y (set_merkle_level (u8 (h + 1)) c)) (l_ts_merkle_path cfg mem gen ty stk c).
Proof.
  intros Hh Eh Eps Hg. unfold l_ts_merkle_path. cbv zeta. rewrite Eh. apply tk_bind0; [auto with sq nocore|]. intros sh Esh.
  assert (sh = h) as -> by (unfold l_shift_count in Esh; rewrite result_tick in Esh; cbn [quiet result snd] in Esh; unfold shift_count in Esh; destruct (_ && _); [injection Esh as <-; reflexivity|discriminate]).
  assert (Es : Z.shiftl 1 h = 2 ^ h) by (rewrite Z.shiftl_mul_pow2 by lia; lia). rewrite !Es.
  assert (Pp : 0 < 2 ^ h) by (apply Z.pow_pos_nonneg; lia).
  set (c0 := set_merkle_level (u8 (h + 1)) c). assert (Eps0 : c_ps c0 = ps) by exact Eps. clearbody c0.
  set (node := Z.land _ _). clearbody node. set (n' := ps_n (c_ps c)). clearbody n'.
  eapply tk_eq.
  - eapply tk_bind.
    + apply (tk_for q (fun i => i * kl + vf 33 i * H_runs cfg p q) (fun _ => fb false y c0)); [apply fb_refl|]. intros j c1 Hj F1.
      eapply tk_eq.
      * eapply tk_bind; [apply Hg; rewrite (fb_ps _ _ _ _ F1); exact Eps0|]. intros c2 _ F2.
        eapply tk_bind; [apply tk_combine; [lia|rewrite (fb_ps _ _ _ _ F2), (fb_ps _ _ _ _ F1); exact Eps0]|]. intros [k c3] _ F3. cbn [snd] in F3.
        assert (F : fb false y c0 c3) by (eapply fb_trans; [exact F1|]; eapply fb_trans; [exact F2|apply (fb_weak _ _ _ _ _ _ F3); [reflexivity|destruct y; reflexivity]]).
        apply tk_if; intros _; [|apply tk_ret; exact F]. apply tk_bind0; [auto with sq nocore|]. intros b _.
        eapply tk_weak; [apply tk_wr_stack|]. intros c4 _ F4. eapply fb_trans; [exact F|]. apply (fb_weak _ _ _ _ _ _ F4); [reflexivity|destruct y; reflexivity].
      * cbv beta. ring.
    + intros c1 _ F1. assert (Hp1 : c_ps (set_buffer_offset 0 c1) = ps) by (change (c_ps c1 = ps); rewrite (fb_ps _ _ _ _ F1); exact Eps0).
      eapply tk_bind; [apply (tk_merkle_adr false true)|]. intros c2 _ F2. rewrite <- (fb_ps _ _ _ _ F2) in Hp1.
      eapply tk_bind; [apply (tk_small_init false), Hp1|]. intros c3 _ [F3 L3]. rewrite <- (fb_ps _ _ _ _ F3) in Hp1.
      eapply (tk_bind q (begun_runs cfg p 1 q - begun_runs cfg p 0 q + (begun_runs cfg p 2 q - begun_runs cfg p 1 q)) _ (sml 2 false c3)).
      { apply tk_if; intros _; (eapply tk_bind; [apply (tk_small_next false 0), L3; exact Hp1|]; intros c4 _ [F4 L4]; rewrite <- (fb_ps _ _ _ _ F4) in Hp1;
          eapply tk_weak; [apply (tk_small_next false (0 + 1)), L4; exact Hp1|]; intros c5 _ [F5 L5]; split; [exact (fb_trans _ _ _ _ _ F4 F5)|exact L5]). }
      intros c4 _ [F4 L4]. rewrite <- (fb_ps _ _ _ _ F4) in Hp1. eapply tk_weak; [apply (tk_small_final 2 BufAuth), L4; exact Hp1|]. intros c5 _ F5.
      eapply fb_trans; [exact F1|]. eapply fb_trans; [apply (fb_offset _ _ 0)|].
      eapply fb_trans; [apply (fb_weak _ _ _ _ _ _ F2); destruct y; reflexivity|]. eapply fb_trans; [apply (fb_weak _ _ _ _ _ _ F3); destruct y; reflexivity|].
      eapply fb_trans; [apply (fb_weak _ _ _ _ _ _ F4); destruct y; reflexivity|]. apply (fb_weak _ _ _ _ _ _ F5); destruct y; reflexivity.
  - cbv beta. rewrite Z2Nat.id by lia. rewrite Z.add_0_l, vf_0. rewrite <- (Z2Nat.id h) at 2 by lia. rewrite vf_pow by lia. rewrite Z2Nat.id by lia.
    unfold H_runs. ring.
Qed.

(** ** WOTS+ *)
Lemma tk_chain_loop b t d from to c : from <= to -> c_ps c = ps -> takes q ((to - from) * F_runs cfg p q) (fb (keeps_x b) true c) (l_chain_loop cfg mem b t d from to c).
Proof.
  intros H Hp. unfold l_chain_loop. eapply tk_eq; [apply (tk_for_eq q (F_runs cfg p q)); [apply fb_refl|]|rewrite Z2Nat.id by lia; reflexivity].
  intros j c1 F1. rewrite <- (fb_ps _ _ _ _ F1) in Hp. eapply tk_weak; [apply tk_seq0; [apply tk_wots_f_adr|]; intros c2 F2; apply tk_do_f; rewrite (fb_ps _ _ _ _ F2); exact Hp|]. intros c2 _ F2. exact (fb_trans _ _ _ _ _ F1 F2).
Qed.
Lemma b_wlen : wlen (slh_of p) = 2 * n + 3. Proof. destruct p; reflexivity. Qed.
Lemma tk_wots_leaf b i c : c_ps c = ps -> takes q (ots_key_runs cfg p q) (fb false false c) (l_ts_wots_leaf cfg mem b i c).
Proof.
  intros Hp. pose proof b_n as Hn. unfold l_ts_wots_leaf. eapply tk_eq.
  - eapply tk_bind; [apply (tk_wots_header_adr false false)|]. intros c1 _ F1. pose proof Hp as Hp1. rewrite <- (fb_ps _ _ _ _ F1) in Hp1. eapply tk_bind; [apply (tk_big_init false), Hp1|]. intros c2 _ [F2 L2].
    pose proof Hp1 as Hp2. rewrite <- (fb_ps _ _ _ _ F2) in Hp2. replace (ps_n (c_ps c2)) with n by (rewrite Hp2; symmetry; apply b_ps_n).
    eapply tk_bind.
    + apply (tk_for q (fun j => j * (PRF_runs cfg p q + 15 * F_runs cfg p q) + begun_runs cfg p j q) (fun j => bg j false c2)); [split; [apply fb_refl|exact L2]|].
      intros j c3 Hj [F3 L3]. pose proof Hp2 as Hp3. rewrite <- (fb_ps _ _ _ _ F3) in Hp3.
      eapply tk_eq.
      * eapply tk_bind; [apply (tk_wots_prf BufMerkle), Hp3|]. intros c4 _ F4. pose proof Hp3 as Hp4. rewrite <- (fb_ps _ _ _ _ F4) in Hp4.
        eapply tk_bind; [apply (tk_chain_loop BufMerkle); [lia|exact Hp4]|]. intros c5 _ F5. pose proof Hp4 as Hp5. rewrite <- (fb_ps _ _ _ _ F5) in Hp5.
        apply tk_bind0; [auto with sq nocore|]. intros x _. eapply tk_weak; [apply (tk_big_next false j)|].
        -- exact Hp5.
        -- rewrite (b_big _ _ _ _ F5 eq_refl), (b_big _ _ _ _ F4 eq_refl). exact L3.
        -- intros c6 _ [F6 L6]. split; [|exact L6]. eapply fb_trans; [exact F3|]. eapply fb_trans; [apply (fb_weak _ _ _ _ _ _ F4); reflexivity|].
           eapply fb_trans; [apply (fb_weak _ _ _ _ _ _ F5); reflexivity|]. exact F6.
      * cbv beta. ring.
    + intros c3 _ [F3 L3]. pose proof Hp2 as Hp3. rewrite <- (fb_ps _ _ _ _ F3) in Hp3. eapply tk_weak; [apply tk_big_final; [exact Hp3|exact L3]|]. intros c4 _ F4.
      eapply fb_trans; [exact F1|]. eapply fb_trans; [exact F2|]. eapply fb_trans; [exact F3|]. apply (fb_weak _ _ _ _ _ _ F4); destruct (keeps_x b); reflexivity.
  - cbv beta. rewrite Z2Nat.id by lia. unfold ots_key_runs. rewrite b_wlen. rewrite !Z.add_0_l. ring.
Qed.
Lemma sq_wots_digits x h k : still (l_compute_wots_digits cfg x h k).
Proof. unfold l_compute_wots_digits. stl. Qed.
Lemma sq_set_up l c : still (l_ts_set_up_wots_signature cfg l c).
Proof. unfold l_ts_set_up_wots_signature. cbv zeta. apply still_bind; [auto with sq nocore|]. intros x. apply still_bind; [apply sq_wots_digits|]. intros y. apply still_ret. Qed.
Lemma tk_next_hash d x' k c : c_ps c = ps -> get_digit (c_x c) = Ok d -> set_digit (c_x c) (d + 1) = Ok x' -> get_digits cfg x' d = Ok k -> 0 <= k ->
  takes q (PRF_runs cfg p q + k * F_runs cfg p q) (fb true true (set_x x' c)) (l_generate_next_wots_hash cfg mem c).
Proof.
  intros Hp Ed Ex Eq Hq. unfold l_generate_next_wots_hash. cbv zeta.
  apply tk_bind0; [auto with sq nocore|]. intros d' Ed'. unfold l_get_digit, get_digit in Ed, Ed'. unfold l_rd in Ed'. rewrite result_tick in Ed'.
  cbn [quiet result snd] in Ed'. rewrite Ed in Ed'. injection Ed' as <-.
  apply tk_bind0; [auto with sq nocore|]. intros x1 Ex1. unfold l_set_digit, l_wr in Ex1. rewrite result_tick in Ex1. cbn [quiet result snd] in Ex1.
  unfold set_digit in Ex. rewrite Ex in Ex1. injection Ex1 as <-.
  eapply tk_bind; [apply (tk_wots_prf BufBuffer), Hp|]. intros c1 _ F1. pose proof (fb_ps _ _ _ _ F1) as Hp1. change (c_ps (set_x x' c)) with (c_ps c) in Hp1. rewrite Hp in Hp1.
  apply tk_bind0; [auto with sq nocore|]. intros q' Eq'. unfold l_get_digits in Eq'. rewrite (f_x _ _ _ (b_fr _ _ _ _ F1) eq_refl) in Eq'. change (c_x (set_x x' c)) with x' in Eq'.
  assert (q' = k) as ->.
  { unfold get_digits in Eq. destruct (_ && _); [|discriminate]. unfold l_rd in Eq'. rewrite result_tick in Eq'. cbn [quiet result snd] in Eq'. congruence. }
  eapply tk_eq; [eapply tk_bind; [apply (tk_chain_loop BufBuffer); [exact Hq|exact Hp1]|]|rewrite Z.add_0_r, Z.sub_0_r; reflexivity].
  intros c2 _ F2. apply tk_ret. eapply fb_trans; [exact F1|]. eapply fb_trans; [exact F2|]. apply fb_offset.
Qed.
End Set_.
