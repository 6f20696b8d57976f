(** * Counting calls: tiny_sphincs.c and key_gen.c *)
From Verif Require Import CSem CLeak ModelParams ModelCtx ModelHash ModelSphincs
  LeakSha2 LeakHash LeakSphincs LeakVerify SpecSLH SpecWork PfWorkSilent.
Ltac Zify.zify_post_hook ::= idtac.
Ltac dlia := Z.to_euclidean_division_equations; lia.

(** ** A run of [x] that has an outcome makes [k] calls of function [m], and the outcome is in [Q] *)
Definition costs {A} (m : member) (k : Z) (Q : A -> Prop) (x : leaky A) : Prop :=
  forall a, result x = Ok a -> times_called m (trace x) = k /\ Q a.
Lemma called_app m t u : times_called m (t ++ u) = times_called m t + times_called m u.
Proof. unfold times_called. rewrite filter_app, app_length. lia. Qed.
Lemma called_silent m t : Forall quiet_event t -> times_called m t = 0.
Proof. unfold times_called. induction 1 as [|e t He _ IH]; [reflexivity|]. destruct e; cbn [filter is_call]; try exact IH. contradiction. Qed.
Lemma called_quiet m e t : quiet_event e -> times_called m (e :: t) = times_called m t.
Proof. intros He. unfold times_called. destruct e; try reflexivity. contradiction. Qed.
Lemma called_jump m g j t : j / 10 = member_number g -> times_called m (Jump j :: t) = one g m + times_called m t.
Proof.
  intros Hj. unfold times_called, one. cbn [filter is_call]. rewrite Hj. destruct (member_number g =? member_number m); cbn [length]; lia.
Qed.

Section Costs.
Variable m : member.
Lemma costs_ret {A} (Q : A -> Prop) a : Q a -> costs m 0 Q (lret a).
Proof. intros H b E. injection E as <-. split; [reflexivity|exact H]. Qed.
Lemma costs_ub {A} k (Q : A -> Prop) r : costs m k Q (lub r).
Proof. intros b E. discriminate. Qed.
Lemma costs_eq {A} k k' (Q : A -> Prop) x : costs m k Q x -> k = k' -> costs m k' Q x.
Proof. intros H <-. exact H. Qed.
Lemma costs_weak {A} k (Q R : A -> Prop) x : costs m k Q x -> (forall a, result x = Ok a -> Q a -> R a) -> costs m k R x.
Proof. intros H K a E. destruct (H a E) as [T HQ]. split; [exact T|apply K; assumption]. Qed.
Lemma costs_silent {A} (Q : A -> Prop) x : silent x -> (forall a, result x = Ok a -> Q a) -> costs m 0 Q x.
Proof. intros S H a E. split; [apply called_silent, S|apply H, E]. Qed.
Lemma costs_bind {A B} k1 k2 (Q : A -> Prop) (R : B -> Prop) x g : costs m k1 Q x ->
  (forall a, result x = Ok a -> Q a -> costs m k2 R (g a)) -> costs m (k1 + k2) R (lbind x g).
Proof.
  intros H K b E. rewrite result_bind in E. destruct (result x) as [a|] eqn:Ex; [|discriminate]. cbn [bind] in E.
  destruct (H a Ex) as [T HQ]. destruct (K a eq_refl HQ b E) as [T' HR]. split; [|exact HR].
  unfold result, trace, lbind in *. rewrite Ex. cbn [fst]. rewrite called_app. congruence.
Qed.
(** a first step without calls *)
Lemma costs_bind0 {A B} k (R : B -> Prop) (x : leaky A) g : silent x ->
  (forall a, result x = Ok a -> costs m k R (g a)) -> costs m k R (lbind x g).
Proof. intros H K. apply (costs_bind 0 k (fun _ => True)); [apply costs_silent; auto|]. intros a E _. apply K, E. Qed.
Lemma costs_tick {A} e k (Q : A -> Prop) x : quiet_event e -> costs m k Q x -> costs m k Q (tick e x).
Proof. intros He H a E. destruct (H a E) as [T HQ]. split; [|exact HQ]. unfold trace, tick. cbn [fst]. rewrite called_quiet by exact He. exact T. Qed.
Lemma costs_jump {A} g j (Q : A -> Prop) x : j / 10 = member_number g -> silent x -> (forall a, result x = Ok a -> Q a) -> costs m (one g m) Q (tick (Jump j) x).
Proof.
  intros Hj S H a E. split; [|apply H, E]. unfold trace, tick. cbn [fst]. rewrite (called_jump m g) by exact Hj. unfold silent, trace in S.
  rewrite called_silent by exact S. lia.
Qed.
Lemma costs_if {A} k (Q : A -> Prop) b x y : (b = true -> costs m k Q x) -> (b = false -> costs m k Q y) -> costs m k Q (lif b x y).
Proof. intros H K. apply costs_tick; [exact I|]. destruct b; [apply H|apply K]; reflexivity. Qed.
(** a loop: pass [j] makes K (j + 1) - K j calls *)
Lemma costs_for {S} (K : Z -> Z) (Q : S -> Prop) n : forall i (b : Z -> S -> leaky S) s, Q s ->
  (forall j s, i <= j < i + Z.of_nat n -> Q s -> costs m (K (j + 1) - K j) Q (b j s)) ->
  costs m (K (i + Z.of_nat n) - K i) Q (l_for n i b s).
Proof.
  induction n as [|n IH]; intros i b s Hs H; cbn [l_for].
  - apply costs_tick; [exact I|]. eapply costs_eq; [apply costs_ret, Hs|]. rewrite Z.add_0_r. lia.
  - apply costs_tick; [exact I|]. eapply costs_eq.
    + eapply costs_bind; [apply H; [lia|exact Hs]|]. intros a _ Ha. apply IH; [exact Ha|]. intros j s' Hj. apply H. lia.
    + replace (i + 1 + Z.of_nat n) with (i + Z.of_nat (Datatypes.S n)) by lia. lia.
Qed.
(** the same, with an invariant that tells the pass *)
Lemma costs_for_lvl {S} (K : Z -> Z) (Q : Z -> S -> Prop) n : forall i (b : Z -> S -> leaky S) s, Q i s ->
  (forall j s, i <= j < i + Z.of_nat n -> Q j s -> costs m (K (j + 1) - K j) (Q (j + 1)) (b j s)) ->
  costs m (K (i + Z.of_nat n) - K i) (Q (i + Z.of_nat n)) (l_for n i b s).
Proof.
  induction n as [|n IH]; intros i b s Hs H; cbn [l_for].
  - apply costs_tick; [exact I|]. rewrite Z.add_0_r. eapply costs_eq; [apply costs_ret, Hs|]. lia.
  - apply costs_tick; [exact I|]. replace (i + Z.of_nat (Datatypes.S n)) with (i + 1 + Z.of_nat n) by lia. eapply costs_eq.
    + eapply costs_bind; [apply H; [lia|exact Hs]|]. intros a _ Ha. apply IH; [exact Ha|]. intros j s' Hj. apply H. lia.
    + lia.
Qed.
(** a loop of equal passes *)
Lemma costs_for_eq {S} k (Q : S -> Prop) n i (b : Z -> S -> leaky S) s : Q s ->
  (forall j s, Q s -> costs m k Q (b j s)) -> costs m (Z.of_nat n * k) Q (l_for n i b s).
Proof.
  intros Hs H. eapply costs_eq; [apply (costs_for (fun j => j * k) Q); [exact Hs|]|cbv beta; ring].
  intros j s' _ Hs'. eapply costs_eq; [apply H, Hs'|]. cbv beta. ring.
Qed.

(** ** What the functions leave alone *)
(** [x]: the union x as well *)
Record fr (x : bool) (c c' : ts_context) : Prop := mkFr {
  f_ps : c_ps c' = c_ps c; f_st : c_state c' = c_state c; f_ml : c_merkle_level c' = c_merkle_level c;
  f_ft : c_fors_tree c' = c_fors_tree c; f_hl : c_hypertree_level c' = c_hypertree_level c;
  f_x : x = true -> c_x c' = c_x c }.
Lemma fr_refl x c : fr x c c. Proof. apply mkFr; auto. Qed.
Lemma fr_trans x c d e : fr x c d -> fr x d e -> fr x c e.
Proof. intros [A B C D E F] [A' B' C' D' E' F']. apply mkFr; try congruence. intros Hx. rewrite F', F by exact Hx. reflexivity. Qed.
Lemma fr_false x c d : fr x c d -> fr false c d.
Proof. intros [A B C D E F]. apply mkFr; congruence. Qed.
Lemma fr_adr x a c : fr x c (set_adr a c). Proof. apply mkFr; reflexivity. Qed.
Lemma fr_small x a c : fr x c (set_small_iter a c). Proof. apply mkFr; reflexivity. Qed.
Lemma fr_big x a c : fr x c (set_big_iter a c). Proof. apply mkFr; reflexivity. Qed.
Lemma fr_buffer x a c : fr x c (set_buffer a c). Proof. apply mkFr; reflexivity. Qed.
Lemma fr_auth x a c : fr x c (set_auth_path_buffer a c). Proof. apply mkFr; reflexivity. Qed.
Lemma fr_node x a c : fr x c (set_auth_path_node a c). Proof. apply mkFr; reflexivity. Qed.
Lemma fr_offset x a c : fr x c (set_buffer_offset a c). Proof. apply mkFr; reflexivity. Qed.
Lemma fr_xx a c : fr false c (set_x a c). Proof. apply mkFr; try reflexivity. discriminate. Qed.

Lemma costs_seq x k1 k2 c e g : costs m k1 (fr x c) e -> (forall c1, fr x c c1 -> costs m k2 (fr x c1) (g c1)) ->
  costs m (k1 + k2) (fr x c) (lbind e g).
Proof.
  intros H K. eapply costs_bind; [exact H|]. intros c1 _ F1. eapply costs_weak; [apply K, F1|]. intros c2 _ F2. exact (fr_trans _ _ _ _ F1 F2).
Qed.
Lemma costs_seq0 x k c e g : costs m 0 (fr x c) e -> (forall c1, fr x c c1 -> costs m k (fr x c1) (g c1)) ->
  costs m k (fr x c) (lbind e g).
Proof. intros H K. apply (costs_seq x 0 k c e g H K). Qed.
Lemma costs_false x k c e : costs m k (fr x c) e -> costs m k (fr false c) e.
Proof. intros H. eapply costs_weak; [exact H|]. intros c1 _. apply fr_false. Qed.

Create HintDb co.
Ltac co0 := first
  [ solve [auto with co nocore]
  | lazymatch goal with
    | |- costs _ 0 _ (lret _) => apply costs_ret; first [apply fr_refl|apply fr_adr|apply fr_small|apply fr_big|apply fr_buffer|apply fr_auth|apply fr_node|apply fr_offset|apply fr_xx]
    | |- costs _ _ (fr ?x ?c) (lbind ?e _) => first
        [ apply costs_bind0; [solve [auto with si nocore] | intros; co0 ]
        | apply (costs_seq0 x); [co0 | intros; co0 ] ]
    | |- costs _ _ _ (lif _ _ _) => apply costs_if; intros _; co0
    end ].
Ltac co := cbv zeta; co0.

(** ** Addresses *)
Lemma co_wr_adr x o v c : costs m 0 (fr x c) (l_wr_adr o v c).
Proof. unfold l_wr_adr. co. Qed.
#[local] Hint Resolve co_wr_adr : co.
Section Adr.
Variable cfg : config.
Lemma co_layer x v c : costs m 0 (fr x c) (l_set_layer_adr cfg v c). Proof. unfold l_set_layer_adr. co. Qed.
Lemma co_tree x v c : costs m 0 (fr x c) (l_set_tree_adr cfg v c). Proof. unfold l_set_tree_adr. co. Qed.
Lemma co_type x v c : costs m 0 (fr x c) (l_set_type_adr cfg v c). Proof. unfold l_set_type_adr. co. Qed.
Lemma co_keypair x v c : costs m 0 (fr x c) (l_set_keypair_adr cfg v c). Proof. unfold l_set_keypair_adr. co. Qed.
Lemma co_height x v c : costs m 0 (fr x c) (l_set_tree_height_adr cfg v c). Proof. unfold l_set_tree_height_adr. co. Qed.
Lemma co_index x v c : costs m 0 (fr x c) (l_set_tree_index_adr cfg v c). Proof. unfold l_set_tree_index_adr. co. Qed.
Lemma co_chain x v c : costs m 0 (fr x c) (l_set_chain_adr cfg v c). Proof. unfold l_set_chain_adr. apply co_height. Qed.
Lemma co_hash x v c : costs m 0 (fr x c) (l_set_hash_adr cfg v c). Proof. unfold l_set_hash_adr. apply co_index. Qed.
Lemma si_fors_index c i : silent (l_fors_index c i). Proof. unfold l_fors_index. sil. Qed.
End Adr.
#[local] Hint Resolve co_layer co_tree co_type co_keypair co_height co_index co_chain co_hash : co.
#[local] Hint Resolve si_fors_index : si.
Section Adr2.
Variable cfg : config.
Lemma co_fors_prf_adr x i c : costs m 0 (fr x c) (l_set_fors_prf_adr cfg i c). Proof. unfold l_set_fors_prf_adr. co. Qed.
Lemma co_fors_leaf_adr x i c : costs m 0 (fr x c) (l_ts_set_fors_leaf_adr cfg i c). Proof. unfold l_ts_set_fors_leaf_adr. co. Qed.
Lemma co_wots_prf_adr x t i c : costs m 0 (fr x c) (l_set_wots_prf_adr cfg t i c). Proof. unfold l_set_wots_prf_adr. co. Qed.
Lemma co_wots_f_adr x t i h c : costs m 0 (fr x c) (l_ts_set_wots_f_adr cfg t i h c). Proof. unfold l_ts_set_wots_f_adr. co. Qed.
Lemma co_merkle_adr x n l t c : costs m 0 (fr x c) (l_ts_set_merkle_adr cfg n l t c). Proof. unfold l_ts_set_merkle_adr. co. Qed.
Lemma co_fors_root_adr x c : costs m 0 (fr x c) (l_ts_set_fors_root_adr cfg c). Proof. unfold l_ts_set_fors_root_adr. co. Qed.
Lemma co_wots_header_adr x l c : costs m 0 (fr x c) (l_ts_set_wots_header_adr cfg l c). Proof. unfold l_ts_set_wots_header_adr. co. Qed.
End Adr2.
#[local] Hint Resolve co_fors_prf_adr co_fors_leaf_adr co_wots_prf_adr co_wots_f_adr co_merkle_adr co_fors_root_adr co_wots_header_adr : co.

(** ** Calls through the table *)
Definition post {A} (Q : A -> Prop) (x : leaky A) : Prop := forall a, result x = Ok a -> Q a.
Lemma post_bind {A B} (Q : B -> Prop) (x : leaky A) g : (forall a, post Q (g a)) -> post Q (lbind x g).
Proof. intros H b E. rewrite result_bind in E. destruct (result x) as [a|]; [|discriminate]. exact (H a b E). Qed.
Lemma post_ret {A} (Q : A -> Prop) a : Q a -> post Q (lret a).
Proof. intros H b E. injection E as <-. exact H. Qed.
Definition only_small (c : ts_context) (x : list Z * ts_context) : Prop := exists it, snd x = set_small_iter it c.
Ltac po := cbv zeta; repeat (apply post_bind; let y := fresh "y" in intros y; try (destruct y as [? ?])); apply post_ret; eexists; reflexivity.
Section Calls.
Variable cfg : config.
Variable mem : memory.
Lemma co_prf c : costs m (one prf m) (only_small c) (l_call_prf cfg mem c).
Proof.
  unfold l_call_prf. destruct (ps_prf (c_ps c)); (apply costs_jump; [reflexivity|auto with si nocore|]).
  - unfold l_ts_shake256_prf. po.
  - unfold l_ts_sha2_prf. po.
Qed.
Lemma co_f i c : costs m (one f m) (only_small c) (l_call_f cfg mem i c).
Proof.
  unfold l_call_f. destruct (ps_f (c_ps c)); (apply costs_jump; [reflexivity|auto with si nocore|]).
  - unfold l_ts_shake256_f_simple. po.
  - unfold l_ts_sha2_f_simple. po.
Qed.
Lemma co_init it c : costs m (one init_t m) (fun _ => True) (l_call_init_t cfg mem it c).
Proof. unfold l_call_init_t. destruct (ps_init_t (c_ps c)); (apply costs_jump; [reflexivity|auto with si nocore|auto]). Qed.
Lemma co_next it i c : costs m (one next_t m) (fun _ => True) (l_call_next_t cfg it i c).
Proof. unfold l_call_next_t. destruct (ps_next_t (c_ps c)); (apply costs_jump; [reflexivity|auto with si nocore|auto]). Qed.
Lemma co_final it c : costs m (one final_t m) (fun _ => True) (l_call_final_t cfg it c).
Proof. unfold l_call_final_t. destruct (ps_final_t (c_ps c)); (apply costs_jump; [reflexivity|auto with si nocore|auto]). Qed.
Lemma co_prf_msg o msg c : costs m (one prf_msg m) (fun _ => True) (l_call_prf_msg cfg mem o msg c).
Proof. unfold l_call_prf_msg. destruct (ps_prf_msg (c_ps c)); (apply costs_jump; [reflexivity|auto with si nocore|auto]). Qed.
Lemma co_hash_msg l r msg c : costs m (one hash_msg m) (fun _ => True) (l_call_hash_msg cfg mem l r msg c).
Proof. unfold l_call_hash_msg. destruct (ps_hash_msg (c_ps c)); (apply costs_jump; [reflexivity|auto with si nocore|auto]). Qed.

(** ** On the buffers and iterators of the context *)
Definition keeps_x (b : bufid) : bool := match b with BufMerkle => false | _ => true end.
Lemma co_put_buf c b v : costs m 0 (fr (keeps_x b) c) (l_put_buf cfg c b v).
Proof. destruct b; cbn [l_put_buf keeps_x]; co. Qed.
Lemma fr_x x c d : fr true c d -> fr x c d.
Proof. intros [A B C D E F]. apply mkFr; auto. Qed.
Lemma co_do_prf b c : costs m (one prf m) (fr (keeps_x b) c) (l_do_prf cfg mem b c).
Proof.
  unfold l_do_prf. eapply costs_eq; [eapply costs_bind; [apply co_prf|]|apply Z.add_0_r]. intros [out c1] _ [it Hit]. cbn [snd] in Hit. subst c1.
  eapply costs_weak; [apply co_put_buf|]. intros d _ F. exact (fr_trans _ _ _ _ (fr_small _ it c) F).
Qed.
Lemma co_do_f b b2 c : costs m (one f m) (fr (keeps_x b) c) (l_do_f cfg mem b b2 c).
Proof.
  unfold l_do_f. apply costs_bind0; [auto with si nocore|]. intros i _.
  eapply costs_eq; [eapply costs_bind; [apply co_f|]|apply Z.add_0_r]. intros [out c1] _ [it Hit]. cbn [snd] in Hit. subst c1.
  eapply costs_weak; [apply co_put_buf|]. intros d _ F. exact (fr_trans _ _ _ _ (fr_small _ it c) F).
Qed.
Lemma co_small_init x c : costs m (one init_t m) (fr x c) (l_small_init_t cfg mem c).
Proof. unfold l_small_init_t. eapply costs_eq; [eapply costs_bind; [apply co_init|]|apply Z.add_0_r]. intros it _ _. apply costs_ret, fr_small. Qed.
Lemma co_small_next x i c : costs m (one next_t m) (fr x c) (l_small_next_t cfg i c).
Proof. unfold l_small_next_t. eapply costs_eq; [eapply costs_bind; [apply co_next|]|apply Z.add_0_r]. intros it _ _. apply costs_ret, fr_small. Qed.
Lemma co_small_final b c : costs m (one final_t m) (fr (keeps_x b) c) (l_small_final_t cfg b c).
Proof.
  unfold l_small_final_t. eapply costs_eq; [eapply costs_bind; [apply co_final|]|apply Z.add_0_r]. intros [out it] _ _.
  eapply costs_weak; [apply co_put_buf|]. intros d _ F. exact (fr_trans _ _ _ _ (fr_small _ it c) F).
Qed.
Lemma co_big_init x c : costs m (one init_t m) (fr x c) (l_big_init_t cfg mem c).
Proof. unfold l_big_init_t. eapply costs_eq; [eapply costs_bind; [apply co_init|]|apply Z.add_0_r]. intros it _ _. apply costs_ret, fr_big. Qed.
Lemma co_big_next x i c : costs m (one next_t m) (fr x c) (l_big_next_t cfg i c).
Proof. unfold l_big_next_t. eapply costs_eq; [eapply costs_bind; [apply co_next|]|apply Z.add_0_r]. intros it _ _. apply costs_ret, fr_big. Qed.
Lemma co_big_final b c : costs m (one final_t m) (fr (keeps_x b) c) (l_big_final_t cfg b c).
Proof.
  unfold l_big_final_t. eapply costs_eq; [eapply costs_bind; [apply co_final|]|apply Z.add_0_r]. intros [out it] _ _.
  eapply costs_weak; [apply co_put_buf|]. intros d _ F. exact (fr_trans _ _ _ _ (fr_big _ it c) F).
Qed.
Lemma co_fors_prf b i c : costs m (one prf m) (fr (keeps_x b) c) (l_fors_prf cfg mem b i c).
Proof. unfold l_fors_prf. apply costs_seq0; [apply co_fors_prf_adr|]. intros. apply co_do_prf. Qed.
Lemma co_wots_prf b t i c : costs m (one prf m) (fr (keeps_x b) c) (l_wots_prf cfg mem b t i c).
Proof. unfold l_wots_prf. apply costs_seq0; [apply co_wots_prf_adr|]. intros. apply co_do_prf. Qed.
Lemma co_fors_leaf b i c : costs m (fors_leaf_bill m) (fr (keeps_x b) c) (l_fors_leaf cfg mem b i c).
Proof.
  unfold l_fors_leaf. apply costs_seq0; [apply co_fors_prf_adr|]. intros c1 _. unfold fors_leaf_bill, plus.
  apply costs_seq; [apply co_do_prf|]. intros c2 _. apply costs_seq0; [apply co_type|]. intros. apply co_do_f.
Qed.
Lemma si_rd_stack s o n c : silent (l_rd_stack s o n c). Proof. unfold l_rd_stack. auto with si nocore. Qed.
Lemma co_wr_stack s o v c : costs m 0 (fr false c) (l_wr_stack s o v c).
Proof. unfold l_wr_stack. co. Qed.
(** init_t, two next_t, final_t *)
Lemma co_H x b i j c : keeps_x b = x -> costs m (H_bill m) (fr x c)
  (lbind (l_small_init_t cfg mem c) (fun c => lbind (l_small_next_t cfg (i c) c) (fun c => lbind (l_small_next_t cfg (j c) c) (fun c => l_small_final_t cfg b c)))).
Proof.
  intros <-. eapply costs_eq.
  - apply costs_seq; [apply co_small_init|]. intros c1 _. apply costs_seq; [apply co_small_next|]. intros c2 _. apply costs_seq; [apply co_small_next|]. intros c3 _. apply co_small_final.
  - unfold H_bill, plus, times. ring.
Qed.

(** ** Trees: leaf number [i] completes as many subtrees as there are ones at the end of
    [i] in binary.  [vf] counts the nodes above the leaves that are complete after [i]
    leaves. *)
Fixpoint vf (fuel : nat) (i : Z) : Z :=
  match fuel with O => 0 | S fu => i / 2 + vf fu (i / 2) end.
Lemma vf_0 fu : vf fu 0 = 0.
Proof. induction fu as [|fu IH]; [reflexivity|]. cbn [vf]. change (0 / 2) with 0. rewrite IH. reflexivity. Qed.
Lemma vf_pow fu : forall h : nat, (h <= fu)%nat -> vf fu (2 ^ Z.of_nat h) = 2 ^ Z.of_nat h - 1.
Proof.
  induction fu as [|fu IH]; intros h Hh; [assert (h = O) by lia; subst h; reflexivity|]. cbn [vf]. destruct h as [|h].
  - change (2 ^ Z.of_nat 0 / 2) with 0. rewrite vf_0. reflexivity.
  - replace (2 ^ Z.of_nat (S h)) with (2 ^ Z.of_nat h * 2) by (rewrite Nat2Z.inj_succ, Z.pow_succ_r by lia; lia).
    rewrite Z.div_mul by lia. rewrite IH by lia. lia.
Qed.
Lemma co_combine fuel stk ty leaf : forall nod k c, 0 <= nod ->
  costs m ((vf fuel (nod + 1) - vf fuel nod) * H_bill m) (fun y => fr true c (snd y)) (l_combine_loop cfg mem fuel stk ty leaf nod k c).
Proof.
  induction fuel as [|fuel IH]; intros nod k c Hn; [apply costs_ub|]. cbn [l_combine_loop]. cbv zeta.
  change 1 with (Z.ones 1) at 2. rewrite Z.land_ones by lia. change (2 ^ 1) with 2. apply costs_if; intros E; [apply Z.eqb_eq in E|apply Z.eqb_neq in E].
  - eapply costs_eq; [apply costs_ret; cbn [snd]; apply fr_refl|]. cbn [vf]. replace ((nod + 1) / 2) with (nod / 2) by dlia. ring.
  - eapply costs_eq.
    + eapply costs_bind; [apply (co_merkle_adr _ true)|]. intros c1 _ F1. eapply costs_bind; [apply (co_small_init true)|]. intros c2 _ F2.
      apply costs_bind0; [apply si_rd_stack|]. intros l _. eapply costs_bind; [apply (co_small_next true)|]. intros c3 _ F3.
      eapply costs_bind; [apply (co_small_next true)|]. intros c4 _ F4. eapply costs_bind; [apply (co_small_final BufBuffer)|]. intros c5 _ F5.
      eapply costs_weak; [apply IH; apply Z.shiftr_nonneg; lia|]. intros [k' c6] _ F6. cbn [snd] in *.
      repeat (eapply fr_trans; [eassumption|]). apply fr_refl.
    + cbn [vf]. change 2 with (2 ^ 1) at 1. rewrite Z.shiftr_div_pow2 by lia. change (2 ^ 1) with 2. replace ((nod + 1) / 2) with (nod / 2 + 1) by dlia. unfold H_bill, plus, times. ring.
Qed.

(** ts_merkle_path at level [h], for leaves that make [kl] calls each *)
Lemma co_path gen kl ty stk c h ps : 0 <= h <= 31 -> c_merkle_level c = h -> c_ps c = ps ->
  (forall i d, c_ps d = ps -> costs m kl (fr false d) (gen BufBuffer i d)) ->
  costs m (2 ^ h * kl + 2 ^ h * H_bill m) (fr false (set_merkle_level (u8 (h + 1)) c)) (l_ts_merkle_path cfg mem gen ty stk c).
Proof.
  intros Hh Eh Eps Hg. unfold l_ts_merkle_path. cbv zeta. rewrite Eh. apply costs_bind0; [auto with si nocore|]. intros sh Esh.
  assert (sh = h) as -> by (unfold l_shift_count in Esh; rewrite result_tick in Esh; cbn [quiet result snd] in Esh; unfold shift_count in Esh; destruct (_ && _); [injection Esh as <-; reflexivity|discriminate]).
  assert (Es : Z.shiftl 1 h = 2 ^ h) by (rewrite Z.shiftl_mul_pow2 by lia; lia). rewrite !Es.
  assert (Pp : 0 < 2 ^ h) by (apply Z.pow_pos_nonneg; lia).
  set (c0 := set_merkle_level (u8 (h + 1)) c). assert (Eps0 : c_ps c0 = ps) by exact Eps. clearbody c0.
  set (node := Z.land _ _). clearbody node. set (n := ps_n (c_ps c)). clearbody n.
  eapply costs_eq.
  - eapply costs_bind.
    + apply (costs_for (fun i => i * kl + vf 33 i * H_bill m) (fr false c0)); [apply fr_refl|]. intros j c1 Hj F1.
      eapply costs_eq.
      * eapply costs_bind; [apply Hg; rewrite (f_ps _ _ _ F1); exact Eps0|]. intros c2 _ F2.
        eapply costs_bind; [apply co_combine; lia|]. intros [k c3] _ F3. cbn [snd] in F3.
        assert (F : fr false c0 c3) by (eapply fr_trans; [exact F1|]; eapply fr_trans; [exact F2|exact (fr_false _ _ _ F3)]).
        apply costs_if; intros _; [|apply costs_ret; exact F]. apply costs_bind0; [auto with si nocore|]. intros b _.
        eapply costs_weak; [apply co_wr_stack|]. intros c4 _ F4. exact (fr_trans _ _ _ _ F F4).
      * cbv beta. ring.
    + intros c1 _ F1. eapply costs_bind; [apply (co_merkle_adr _ false)|]. intros c2 _ F2.
      eapply costs_bind; [apply (co_small_init false)|]. intros c3 _ F3.
      eapply (costs_bind (one next_t m + one next_t m) _ (fr false c3)).
      { apply costs_if; intros _; (apply costs_seq; [apply co_small_next|]; intros c4 _; apply co_small_next). }
      intros c4 _ F4. eapply costs_weak; [apply (costs_false true); apply (co_small_final BufAuth)|]. intros c5 _ F5.
      eapply fr_trans; [exact F1|]. eapply fr_trans; [apply (fr_offset _ 0)|]. eapply fr_trans; [exact F2|]. eapply fr_trans; [exact F3|]. exact (fr_trans _ _ _ _ F4 F5).
  - cbv beta. rewrite Z2Nat.id by lia. rewrite Z.add_0_l, vf_0. rewrite <- (Z2Nat.id h) at 2 by lia. rewrite vf_pow by lia. rewrite Z2Nat.id by lia.
    unfold H_bill, plus, times. ring.
Qed.

(** ** WOTS+ *)
Lemma co_chain_loop b t d from to c : from <= to -> costs m ((to - from) * one f m) (fr (keeps_x b) c) (l_chain_loop cfg mem b t d from to c).
Proof.
  intros H. unfold l_chain_loop. eapply costs_eq; [apply (costs_for_eq (one f m)); [apply fr_refl|]|rewrite Z2Nat.id by lia; reflexivity].
  intros j c1 F1. eapply costs_weak; [apply costs_seq0; [apply co_wots_f_adr|]; intros; apply co_do_f|]. intros c2 _ F2. exact (fr_trans _ _ _ _ F1 F2).
Qed.
Lemma co_wots_leaf b i c ps : c_ps c = ps -> 0 <= ps_n ps ->
  costs m (one init_t m + (2 * ps_n ps + 3) * (one prf m + 15 * one f m + one next_t m) + one final_t m) (fr false c) (l_ts_wots_leaf cfg mem b i c).
Proof.
  intros Eps Hn. unfold l_ts_wots_leaf. eapply costs_eq.
  - eapply costs_bind; [apply (co_wots_header_adr _ false)|]. intros c1 _ F1. eapply costs_bind; [apply (co_big_init false)|]. intros c2 _ F2.
    replace (c_ps c2) with ps by (rewrite (f_ps _ _ _ F2), (f_ps _ _ _ F1); symmetry; exact Eps).
    eapply costs_bind.
    + eapply (costs_for_eq (one prf m + 15 * one f m + one next_t m)); [apply (fr_refl false)|]. intros j c3 F3.
      eapply costs_eq.
      * eapply costs_bind; [apply (co_wots_prf BufMerkle)|]. intros c4 _ F4. eapply costs_bind; [apply (co_chain_loop BufMerkle); lia|]. intros c5 _ F5.
        apply costs_bind0; [auto with si nocore|]. intros x _. eapply costs_weak; [apply (co_big_next false)|]. intros c6 _ F6.
        eapply fr_trans; [exact F3|]. eapply fr_trans; [exact F4|]. exact (fr_trans _ _ _ _ F5 F6).
      * ring.
    + intros c3 _ F3. eapply costs_weak; [apply costs_false with (x := keeps_x b); apply co_big_final|]. intros c4 _ F4.
      eapply fr_trans; [exact F1|]. eapply fr_trans; [exact F2|]. exact (fr_trans _ _ _ _ F3 F4).
  - rewrite Z2Nat.id by lia. ring.
Qed.
Lemma si_wots_digits x h n : silent (l_compute_wots_digits cfg x h n).
Proof. unfold l_compute_wots_digits. sil. Qed.
Lemma si_set_up l c : silent (l_ts_set_up_wots_signature cfg l c).
Proof. unfold l_ts_set_up_wots_signature. cbv zeta. apply silent_bind; [auto with si nocore|]. intros x. apply silent_bind; [apply si_wots_digits|]. intros y. apply silent_ret. Qed.
Lemma co_next_hash d x' q c : get_digit (c_x c) = Ok d -> set_digit (c_x c) (d + 1) = Ok x' -> get_digits cfg x' d = Ok q -> 0 <= q ->
  costs m (one prf m + q * one f m) (fr true (set_x x' c)) (l_generate_next_wots_hash cfg mem c).
Proof.
  intros Ed Ex Eq Hq. unfold l_generate_next_wots_hash. cbv zeta.
  apply costs_bind0; [auto with si nocore|]. intros d' Ed'. unfold l_get_digit, get_digit in Ed, Ed'. unfold l_rd in Ed'. rewrite result_tick in Ed'.
  cbn [quiet result snd] in Ed'. rewrite Ed in Ed'. injection Ed' as <-.
  apply costs_bind0; [auto with si nocore|]. intros x1 Ex1. unfold l_set_digit, l_wr in Ex1. rewrite result_tick in Ex1. cbn [quiet result snd] in Ex1.
  unfold set_digit in Ex. rewrite Ex in Ex1. injection Ex1 as <-.
  eapply costs_bind; [apply (co_wots_prf BufBuffer)|]. intros c1 _ F1.
  apply costs_bind0; [auto with si nocore|]. intros q' Eq'. unfold l_get_digits in Eq'. rewrite (f_x _ _ _ F1 eq_refl) in Eq'. change (c_x (set_x x' c)) with x' in Eq'.
  assert (q' = q) as ->.
  { unfold get_digits in Eq. destruct (_ && _); [|discriminate]. unfold l_rd in Eq'. rewrite result_tick in Eq'. cbn [quiet result snd] in Eq'. congruence. }
  eapply costs_eq; [eapply costs_bind; [apply (co_chain_loop BufBuffer); exact Hq|]|rewrite Z.add_0_r, Z.sub_0_r; reflexivity].
  intros c2 _ F2. apply costs_ret. eapply fr_trans; [exact F1|]. eapply fr_trans; [exact F2|]. apply fr_offset.
Qed.
End Calls.
End Costs.
