(** * Counting calls: whole signatures, and key generation with its arguments *)
From Verif Require Import Arr CLeak SpecSLH SpecApi ModelParams ModelCtx ModelHash ModelSphincs ModelKeygen SpecMap SpecSessions PfEnv PfTree PfSpec PfApi PfKeygen PfGlueSha PfWots PfComplete SpecReuse SpecForge SpecLeak PfReuse.
From Verif Require Import LeakSphincs PfLeakErase3 PfLeakShake PfLeakView SpecWork PfWorkSilent PfWork PfWorkSign PfWorkSession PropApi.
Ltac Zify.zify_post_hook ::= idtac.

(** ** Sums *)
Lemma sum_cons x l : sum (x :: l) = x + sum l. Proof. reflexivity. Qed.
Lemma sum_map_app {A} (g : A -> Z) l1 l2 : sum (map g (l1 ++ l2)) = sum (map g l1) + sum (map g l2).
Proof. rewrite map_app, sum_app. reflexivity. Qed.
Lemma sum_flat {A B} (g : B -> Z) (h : A -> list B) l : sum (map g (flat_map h l)) = sum (map (fun x => sum (map g (h x))) l).
Proof. induction l as [|x l IH]; [reflexivity|]. cbn [flat_map]. rewrite sum_map_app, IH. cbn [map]. rewrite sum_cons. reflexivity. Qed.
Lemma sum_ext {A} (g h : A -> Z) l : (forall x, In x l -> g x = h x) -> sum (map g l) = sum (map h l).
Proof. intros H. f_equal. apply map_ext_in, H. Qed.
Lemma sum_plus {A} (g h : A -> Z) l : sum (map (fun x => g x + h x) l) = sum (map g l) + sum (map h l).
Proof. induction l as [|x l IH]; [reflexivity|]. cbn [map]. rewrite !sum_cons, IH. lia. Qed.
Lemma sum_scale {A} (g : A -> Z) a l : sum (map (fun x => a * g x) l) = a * sum (map g l).
Proof. induction l as [|x l IH]; [cbn [map]; change (sum []) with 0; lia|]. cbn [map]. rewrite !sum_cons, IH. lia. Qed.
Lemma sum_scale_r {A} (g : A -> Z) a l : sum (map (fun x => g x * a) l) = sum (map g l) * a.
Proof. rewrite Z.mul_comm, <- sum_scale. apply sum_ext. intros. lia. Qed.
Lemma zr_snoc k : 0 <= k -> zrange 0 (k + 1) = zrange 0 k ++ [k].
Proof. intros H. rewrite (zrange_split 0 k (k + 1)) by lia. rewrite (zrange_cons k) by lia. rewrite (zrange_nil (k + 1)) by lia. reflexivity. Qed.
Lemma sum_const c k : 0 <= k -> sum (map (fun _ : Z => c) (zrange 0 k)) = k * c.
Proof.
  intros H. revert k H. apply natlike_ind; [reflexivity|]. intros k H IH. unfold Z.succ. rewrite zr_snoc by exact H. rewrite sum_map_app, IH. cbn [map]. rewrite sum_cons. change (sum []) with 0. lia.
Qed.
Lemma sum_pow k : 0 <= k -> sum (map (fun j => 2 ^ j) (zrange 0 k)) = 2 ^ k - 1.
Proof.
  revert k. apply natlike_ind; [reflexivity|]. intros k H IH. unfold Z.succ. rewrite zr_snoc by exact H. rewrite sum_map_app, IH. cbn [map]. rewrite sum_cons, Z.pow_add_r by lia. change (sum []) with 0. lia.
Qed.
Lemma sum_last k c : 0 < k -> sum (map (fun j => if j =? k - 1 then c else 0) (zrange 0 k)) = c.
Proof.
  intros H. replace (zrange 0 k) with (zrange 0 (k - 1 + 1)) by (f_equal; lia). rewrite zr_snoc by lia. rewrite sum_map_app.
  rewrite (sum_ext _ (fun _ => 0)).
  - rewrite sum_const by lia. cbn [map]. rewrite Z.eqb_refl, sum_cons. change (sum []) with 0. lia.
  - intros x Hx. apply in_map_iff in Hx. destruct Hx as (y & <- & Hy). apply in_seq in Hy. destruct (Z.eqb_spec (0 + Z.of_nat y) (k - 1)); [lia|reflexivity].
Qed.

Lemma map_nth_seq (xs : list Z) : map (fun i => nth i xs 0) (seq 0 (length xs)) = xs.
Proof.
  induction xs as [|x xs IH]; [reflexivity|]. cbn [length seq map nth]. f_equal. rewrite <- seq_shift, map_map. exact IH.
Qed.
Lemma begun_all n xs u : 0 < n -> n * Z.of_nat (length xs) <= u -> begun n xs u = sum xs.
Proof.
  intros Hn Hu. unfold begun. f_equal. transitivity (map (fun i => nth i xs 0) (seq 0 (length xs))); [|apply map_nth_seq].
  apply map_ext_in. intros i Hi. apply in_seq in Hi. destruct (Z.ltb_spec (n * Z.of_nat i) u); [reflexivity|]. nia.
Qed.
Lemma complete_all n xs u : 0 < n -> n * Z.of_nat (length xs) <= u -> complete n xs u = sum xs.
Proof.
  intros Hn Hu. unfold complete. f_equal. transitivity (map (fun i => nth i xs 0) (seq 0 (length xs))); [|apply map_nth_seq].
  apply map_ext_in. intros i Hi. apply in_seq in Hi. destruct (Z.leb_spec (n * (Z.of_nat i + 1)) u); [reflexivity|]. nia.
Qed.

Section Totals.
Variable p : ps_name.
Local Notation P := (slh_of p).
Variables (PK M SIG : list Z) (m : member).
Lemma sum_sign_bill : sum (map (fun x => sign_bill P PK M SIG x m) (blocks_of P)) = signature_bill P (chain_steps P PK M SIG) m.
Proof.
  assert (B : 0 < p_k P /\ 0 < p_a P /\ 0 < wlen P /\ 0 < p_h' P /\ 0 < p_d P) by (destruct p; cbn; lia).
  unfold blocks_of. cbn [map]. rewrite sum_cons, sum_map_app, !sum_flat.
  assert (U : forall k, upto k = zrange 0 k) by (intros; apply upto_zrange). 
  set (leaf := fors_leaf_bill m). set (key := ots_key_bill P m).
  rewrite (sum_ext (fun x => sum (map _ (FewTimeSecret x :: _))) (fun i => (one prf m + 2 ^ p_a P * leaf + (2 ^ p_a P - 1) * H_bill m + one next_t m) + (if i =? p_k P - 1 then one final_t m else 0))).
  2:{ intros i _. cbn [map]. rewrite sum_cons, map_map.
      rewrite (sum_ext _ (fun j => 2 ^ j * (leaf + H_bill m) + (if j =? p_a P - 1 then one next_t m + (if i =? p_k P - 1 then one final_t m else 0) else 0))).
      - rewrite sum_plus, sum_scale_r, U, sum_pow, sum_last by lia. cbn [sign_bill]. unfold SpecWork.plus. fold leaf. ring.
      - intros j _. cbn [sign_bill]. unfold subtree_bill, SpecWork.plus, times. fold leaf. destruct (j =? p_a P - 1); cbn [if_last]; unfold SpecWork.plus, nothing; [|ring].
        destruct (i =? p_k P - 1); cbn [if_last]; unfold nothing; ring. }
  rewrite sum_plus, U, sum_const, sum_last by lia.
  rewrite (sum_ext (fun x => sum (map _ (map (Chain x) _ ++ _))) (fun l => (wlen P * one prf m + 2 ^ p_h' P * key + (2 ^ p_h' P - 1) * H_bill m) + sum (map (position P (layer_message P M SIG PK l)) (upto (wlen P))) * one f m)).
  2:{ intros l _. rewrite sum_map_app, !map_map.
      rewrite (sum_ext (fun x => sign_bill P PK M SIG (Chain l x) m) (fun q => one prf m + position P (layer_message P M SIG PK l) q * one f m + (if q =? wlen P - 1 then key else 0))).
      2:{ intros q _. cbn [sign_bill]. unfold SpecWork.plus, times. destruct (q =? wlen P - 1); cbn [if_last]; unfold nothing, key; ring. }
      rewrite sum_plus, sum_plus, sum_scale_r, !U, sum_const, sum_last by lia.
      rewrite (sum_ext (fun x => sign_bill P PK M SIG (TreePath l x) m) (fun j => 2 ^ j * (key + H_bill m))).
      2:{ intros j _. cbn [sign_bill]. unfold subtree_bill, SpecWork.plus, times. fold key. ring. }
      rewrite sum_scale_r, sum_pow by lia. ring. }
  rewrite sum_plus, !U, sum_const by lia. rewrite sum_scale_r.
  unfold signature_bill, keygen_bill, subtree_bill, chain_steps, SpecWork.plus, times. fold leaf key. rewrite !U. cbn [sign_bill]. unfold nothing.
  replace (sum (flat_map _ _)) with (sum (map (fun x => sum (map (position P (layer_message P M SIG PK x)) (zrange 0 (wlen P)))) (zrange 0 (p_d P)))).
  - ring.
  - rewrite <- (map_id (flat_map _ _)), sum_flat. apply sum_ext. intros l _. rewrite map_id. reflexivity.
Qed.
Lemma sum_verify_bill : sum (map (fun x => verify_bill P PK M SIG x m) (blocks_of P)) = check_bill P (chain_steps P PK M SIG) m.
Proof.
  assert (B : 0 < p_k P /\ 0 < p_a P /\ 0 < wlen P /\ 0 < p_h' P /\ 0 < p_d P) by (destruct p; cbn; lia).
  unfold blocks_of. cbn [map]. rewrite sum_cons, sum_map_app, !sum_flat.
  assert (U : forall k, upto k = zrange 0 k) by (intros; apply upto_zrange). 
  rewrite (sum_ext (fun x => sum (map _ (FewTimeSecret x :: _))) (fun i => (one f m + p_a P * H_bill m + one next_t m) + (if i =? p_k P - 1 then one final_t m + one init_t m else 0))).
  2:{ intros i _. cbn [map]. rewrite sum_cons, map_map.
      rewrite (sum_ext _ (fun j => H_bill m + (if j =? p_a P - 1 then one next_t m + (if i =? p_k P - 1 then one final_t m + one init_t m else 0) else 0))).
      - rewrite sum_plus, U, sum_const, sum_last by lia. cbn [verify_bill]. ring.
      - intros j _. cbn [verify_bill]. unfold SpecWork.plus at 1. destruct (j =? p_a P - 1); cbn [if_last]; unfold SpecWork.plus, nothing; [|ring].
        destruct (i =? p_k P - 1); cbn [if_last]; unfold nothing; ring. }
  rewrite sum_plus, U, sum_const, sum_last by lia.
  rewrite (sum_ext (fun x => sum (map _ (map (Chain x) _ ++ _))) (fun l => (wlen P * (15 * one f m) + wlen P * one next_t m + one final_t m + p_h' P * H_bill m + one init_t m) - (if l =? p_d P - 1 then one init_t m else 0)
     + sum (map (position P (layer_message P M SIG PK l)) (upto (wlen P))) * (- one f m))).
  2:{ intros l Hl. rewrite sum_map_app, !map_map.
      rewrite (sum_ext (fun x => verify_bill P PK M SIG (Chain l x) m) (fun q => 15 * one f m + one next_t m + position P (layer_message P M SIG PK l) q * (- one f m) + (if q =? wlen P - 1 then one final_t m else 0))).
      2:{ intros q _. cbn [verify_bill]. unfold SpecWork.plus, times. destruct (q =? wlen P - 1); cbn [if_last]; unfold nothing; ring. }
      rewrite sum_plus, sum_plus, sum_scale_r, !U, sum_const, sum_last by lia.
      rewrite (sum_ext (fun x => verify_bill P PK M SIG (TreePath l x) m) (fun j => H_bill m + (if j =? p_h' P - 1 then (if l =? p_d P - 1 then 0 else one init_t m) else 0))).
      2:{ intros j _. cbn [verify_bill]. unfold SpecWork.plus. unfold upto in Hl. apply in_map_iff in Hl. destruct Hl as (i & <- & Hi). apply in_seq in Hi.
          destruct (j =? p_h' P - 1); cbn [andb]; [|reflexivity].
          destruct (Z.eqb_spec (Z.of_nat i) (p_d P - 1)), (Z.ltb_spec (Z.of_nat i) (p_d P - 1)); try lia; reflexivity. }
      rewrite sum_plus, sum_const, sum_last by lia. destruct (l =? p_d P - 1); ring. }
  rewrite sum_plus. rewrite (sum_ext (fun l => _ - _) (fun l => (wlen P * (15 * one f m) + wlen P * one next_t m + one final_t m + p_h' P * H_bill m + one init_t m) + (if l =? p_d P - 1 then - one init_t m else 0))) by (intros l _; destruct (l =? p_d P - 1); ring).
  rewrite sum_plus, !U, sum_const, sum_last, sum_scale_r by lia.
  unfold check_bill, chain_steps, SpecWork.plus, times. rewrite !U. cbn [verify_bill]. unfold SpecWork.plus.
  replace (sum (flat_map _ _)) with (sum (map (fun x => sum (map (position P (layer_message P M SIG PK x)) (zrange 0 (wlen P)))) (zrange 0 (p_d P)))).
  - ring.
  - rewrite <- (map_id (flat_map _ _)), sum_flat. apply sum_ext. intros l _. rewrite map_id. reflexivity.
Qed.
Lemma chain_steps_range : 0 <= chain_steps P PK M SIG <= 15 * (p_d P * wlen P).
Proof.
  assert (B : 0 < wlen P /\ 0 < p_d P) by (destruct p; cbn; lia).
  assert (G : forall (A : Type) (g : A -> Z) b l, (forall x, In x l -> 0 <= g x <= b) -> 0 <= sum (map g l) <= b * Z.of_nat (length l)).
  { intros A g b l. induction l as [|x l IH]; intros H; [cbn [map length]; change (sum []) with 0; lia|]. cbn [map length]. rewrite sum_cons.
    pose proof (H x (or_introl eq_refl)). specialize (IH (fun y Hy => H y (or_intror Hy))). lia. }
  unfold chain_steps. rewrite <- (map_id (flat_map _ _)), sum_flat.
  assert (L1 : Z.of_nat (length (upto (p_d P))) = p_d P) by (unfold upto; rewrite map_length, seq_length; lia).
  assert (L2 : Z.of_nat (length (upto (wlen P))) = wlen P) by (unfold upto; rewrite map_length, seq_length; lia).
  pose proof (G Z (fun x => sum (map (fun y => y) (map (position P (layer_message P M SIG PK x)) (upto (wlen P))))) (15 * wlen P) (upto (p_d P))) as X.
  rewrite L1 in X. replace (15 * (p_d P * wlen P)) with (15 * wlen P * p_d P) by ring. apply X. intros l _. rewrite map_id.
  pose proof (G Z (position P (layer_message P M SIG PK l)) 15 (upto (wlen P))) as Y. rewrite L2 in Y. apply Y. intros q _. unfold position.
  destruct (an_env p (repeat 0 (Z.to_nat (4 * p_n P)))) as (E & HE & _); [apply zeros_bytes'|unfold len; rewrite repeat_length; destruct p; reflexivity|].
  destruct (KE_facts _ _ _ _ _ HE) as (_ & EP & _). pose proof (wots_msg_range E (layer_message P M SIG PK l) (Z.to_nat q)) as H. rewrite EP in H. exact H.
Qed.
End Totals.

(** ** Key generation *)
Lemma co_gen_key m cfg p addr priv pub (g : Z -> Z * list Z) :
  costs m (if fst (g (3 * p_n (slh_of p))) =? 0 then 0 else prehash_bill cfg p m + keygen_bill (slh_of p) m) (fun _ => True)
    (l_ts_gen_key cfg (Some (addr, priv)) pub (Some (the_ps cfg p)) (Some g)).
Proof.
  assert (N : ps_n (the_ps cfg p) = p_n (slh_of p) /\ ps_merkle_h (the_ps cfg p) = p_h' (slh_of p) /\ 0 <= p_h' (slh_of p) <= 31 /\ 0 <= p_n (slh_of p) /\ wlen (slh_of p) = 2 * p_n (slh_of p) + 3)
    by (destruct p; cbn; lia).
  unfold l_ts_gen_key. eapply costs_eq; [eapply (costs_bind m _ 0 (fun _ => True))|apply Z.add_0_r].
  2:{ intros [x u] _ _. apply costs_ret. exact I. }
  unfold l_ts_gen_key_gen. cbn [option_map]. apply costs_tick; [exact I|]. cbv zeta. rewrite (proj1 N). destruct (g (3 * p_n (slh_of p))) as [ret data]. cbn [fst].
  apply costs_bind0; [apply silent_quiet|]. intros pr _. apply costs_if; intros E; rewrite E; [apply costs_ret; exact I|].
  eapply costs_eq; [eapply (costs_bind m _ 0 (fun _ => True)); [apply (co_gen_root m cfg); apply N|]|apply Z.add_0_r].
  intros root _ _. apply costs_bind0; [auto with si nocore|]. intros pr2 _. destruct pub as [b|].
  - apply costs_tick; [exact I|]. apply costs_bind0; [auto with si nocore|]. intros q _. apply costs_bind0; [auto with si nocore|]. intros b2 _. apply costs_ret. exact I.
  - apply costs_tick; [exact I|]. apply costs_ret. exact I.
Qed.
