(** * Runs of the compression functions: whole signatures, and key generation with its arguments *)
From Verif Require Import Arr CLeak SpecSLH SpecApi ModelParams ModelCtx ModelHash ModelSphincs ModelKeygen SpecMap SpecSessions PfEnv PfTree PfSpec PfApi PfKeygen PfGlueSha PfWots PfComplete SpecReuse SpecForge SpecLeak PfReuse.
From Verif Require Import LeakSphincs PfLeakErase3 PfLeakShake PfLeakView SpecWork PfWorkSilent PfWork PfWorkSign PfWorkSession PropApi PfWorkTotals.
From Verif Require Import SpecBlocks PfBlkSha PfBlkHash PfBlk PfBlkSign PfBlkSession.
Ltac Zify.zify_post_hook ::= idtac.

Lemma sum_tele (g : Z -> Z) t k : 0 < k -> sum (map (fun i => (if i =? k - 1 then t else g (i + 1)) - g i) (zrange 0 k)) = t - g 0.
Proof.
  intros H. replace (zrange 0 k) with (zrange 0 (k - 1 + 1)) by (f_equal; lia). rewrite zr_snoc by lia. rewrite sum_map_app.
  rewrite (sum_ext _ (fun i => g (i + 1) - g i)).
  - cbn [map]. rewrite Z.eqb_refl, sum_cons. change (sum []) with 0. assert (X : forall j, 0 <= j -> sum (map (fun i => g (i + 1) - g i) (zrange 0 j)) = g j - g 0).
    { apply natlike_ind; [cbn; lia|]. intros j Hj IH. unfold Z.succ. rewrite zr_snoc by exact Hj. rewrite sum_map_app, IH. cbn [map]. rewrite sum_cons. change (sum []) with 0. lia. }
    rewrite X by lia. lia.
  - intros x Hx. apply in_map_iff in Hx. destruct Hx as (y & <- & Hy). apply in_seq in Hy. destruct (Z.eqb_spec (0 + Z.of_nat y) (k - 1)); [lia|reflexivity].
Qed.

Section Totals.
Variable cfg : config.
Variable p : ps_name.
Local Notation P := (slh_of p).
Variables (PK M SIG : list Z) (q : primitive).
Local Notation PRF := (PRF_runs cfg p q).
Local Notation F := (F_runs cfg p q).
Local Notation H := (H_runs cfg p q).
Local Notation bg j := (begun_runs cfg p j q).
Lemma tele t k : 0 < k -> sum (map (fun i => (if i =? k - 1 then t else bg (i + 1)) - bg i) (zrange 0 k)) = t - bg 0.
Proof. exact (sum_tele (fun j => bg j) t k). Qed.
Lemma sum_sign_runs : sum (map (sign_runs cfg p PK M SIG q) (blocks_of P)) = signature_runs cfg p (chain_steps P PK M SIG) q.
Proof.
  assert (B : 0 < p_k P /\ 0 < p_a P /\ 0 < wlen P /\ 0 < p_h' P /\ 0 < p_d P) by (destruct p; cbn; lia).
  unfold blocks_of. cbn [map]. rewrite sum_cons, sum_map_app, !sum_flat.
  assert (U : forall k, upto k = zrange 0 k) by (intros; apply upto_zrange). 
  set (leaf := fors_leaf_runs cfg p q). set (key := ots_key_runs cfg p q).
  rewrite (sum_ext (fun x => sum (map _ (FewTimeSecret x :: _))) (fun i => (PRF + 2 ^ p_a P * leaf + (2 ^ p_a P - 1) * H) + ((if i =? p_k P - 1 then T_runs cfg p (p_k P) q else bg (i + 1)) - bg i))).
  2:{ intros i _. cbn [map]. rewrite sum_cons, map_map.
      rewrite (sum_ext _ (fun j => 2 ^ j * (leaf + H) + (if j =? p_a P - 1 then (if i =? p_k P - 1 then T_runs cfg p (p_k P) q else bg (i + 1)) - bg i else 0))).
      - rewrite sum_plus, sum_scale_r, U, sum_pow, sum_last by lia. cbn [sign_runs]. fold leaf. ring.
      - intros j _. cbn [sign_runs]. unfold subtree_runs. fold leaf. ring. }
  rewrite sum_plus, U, sum_const, tele by lia.
  rewrite (sum_ext (fun x => sum (map _ (map (Chain x) _ ++ _))) (fun l => (wlen P * PRF + 2 ^ p_h' P * key + (2 ^ p_h' P - 1) * H) + sum (map (position P (layer_message P M SIG PK l)) (upto (wlen P))) * F)).
  2:{ intros l _. rewrite sum_map_app, !map_map.
      rewrite (sum_ext (fun x => sign_runs cfg p PK M SIG q (Chain l x)) (fun i => PRF + position P (layer_message P M SIG PK l) i * F + (if i =? wlen P - 1 then key else 0))) by (intros i _; reflexivity).
      rewrite sum_plus, sum_plus, sum_scale_r, !U, sum_const, sum_last by lia.
      rewrite (sum_ext (fun x => sign_runs cfg p PK M SIG q (TreePath l x)) (fun j => 2 ^ j * (key + H))).
      2:{ intros j _. cbn [sign_runs]. unfold subtree_runs. fold key. ring. }
      rewrite sum_scale_r, sum_pow by lia. ring. }
  rewrite sum_plus, !U, sum_const by lia. rewrite sum_scale_r.
  unfold signature_runs, keygen_runs, subtree_runs, chain_steps. fold leaf key. rewrite !U. cbn [sign_runs].
  replace (sum (flat_map _ _)) with (sum (map (fun x => sum (map (position P (layer_message P M SIG PK x)) (zrange 0 (wlen P)))) (zrange 0 (p_d P)))).
  - ring.
  - rewrite <- (map_id (flat_map _ _)), sum_flat. apply sum_ext. intros l _. rewrite map_id. reflexivity.
Qed.
Lemma sum_verify_runs : sum (map (verify_runs cfg p PK M SIG q) (blocks_of P)) = check_runs cfg p (Z.of_nat (length M)) (chain_steps P PK M SIG) q.
Proof.
  assert (B : 0 < p_k P /\ 0 < p_a P /\ 0 < wlen P /\ 0 < p_h' P /\ 0 < p_d P) by (destruct p; cbn; lia).
  unfold blocks_of. cbn [map]. rewrite sum_cons, sum_map_app, !sum_flat.
  assert (U : forall k, upto k = zrange 0 k) by (intros; apply upto_zrange). 
  rewrite (sum_ext (fun x => sum (map _ (FewTimeSecret x :: _))) (fun i => (F + p_a P * H) + ((if i =? p_k P - 1 then T_runs cfg p (p_k P) q + bg 0 else bg (i + 1)) - bg i))).
  2:{ intros i _. cbn [map]. rewrite sum_cons, map_map.
      rewrite (sum_ext _ (fun j => H + (if j =? p_a P - 1 then (if i =? p_k P - 1 then T_runs cfg p (p_k P) q + bg 0 else bg (i + 1)) - bg i else 0))) by (intros j _; reflexivity).
      rewrite sum_plus, U, sum_const, sum_last by lia. cbn [verify_runs]. ring. }
  rewrite sum_plus, U, sum_const, tele by lia.
  rewrite (sum_ext (fun x => sum (map _ (map (Chain x) _ ++ _))) (fun l => (wlen P * (15 * F) + T_runs cfg p (wlen P) q + p_h' P * H) - (if l =? p_d P - 1 then bg 0 else 0)
     + sum (map (position P (layer_message P M SIG PK l)) (upto (wlen P))) * (- F))).
  2:{ intros l Hl. rewrite sum_map_app, !map_map.
      rewrite (sum_ext (fun x => verify_runs cfg p PK M SIG q (Chain l x)) (fun i => 15 * F + position P (layer_message P M SIG PK l) i * (- F) + ((if i =? wlen P - 1 then T_runs cfg p (wlen P) q else bg (i + 1)) - bg i))).
      2:{ intros i _. cbn [verify_runs]. ring. }
      rewrite sum_plus, sum_plus, !U, sum_const, (sum_scale_r (position P (layer_message P M SIG PK l))), tele by lia.
      rewrite (sum_ext (fun x => verify_runs cfg p PK M SIG q (TreePath l x)) (fun j => H + (if j =? p_h' P - 1 then (if l =? p_d P - 1 then 0 else bg 0) else 0))).
      2:{ intros j _. cbn [verify_runs]. unfold upto in Hl. apply in_map_iff in Hl. destruct Hl as (i & <- & Hi). apply in_seq in Hi.
          destruct (j =? p_h' P - 1); cbn [andb]; [|reflexivity].
          destruct (Z.eqb_spec (Z.of_nat i) (p_d P - 1)), (Z.ltb_spec (Z.of_nat i) (p_d P - 1)); try lia; reflexivity. }
      rewrite sum_plus, sum_const, sum_last by lia. destruct (l =? p_d P - 1); ring. }
  rewrite sum_plus. rewrite (sum_ext (fun l => _ - _) (fun l => (wlen P * (15 * F) + T_runs cfg p (wlen P) q + p_h' P * H) + (if l =? p_d P - 1 then - bg 0 else 0))) by (intros l _; destruct (l =? p_d P - 1); ring).
  rewrite sum_plus, !U, sum_const, sum_last, sum_scale_r by lia.
  unfold check_runs, chain_steps. rewrite !U. cbn [verify_runs].
  replace (sum (flat_map _ _)) with (sum (map (fun x => sum (map (position P (layer_message P M SIG PK x)) (zrange 0 (wlen P)))) (zrange 0 (p_d P)))).
  - ring.
  - rewrite <- (map_id (flat_map _ _)), sum_flat. apply sum_ext. intros l _. rewrite map_id. reflexivity.
Qed.
End Totals.

(** ** Key generation *)
Lemma tk_gen_key q cfg p addr priv pub (g : Z -> Z * list Z) : ps_enabled cfg p = true ->
  takes q (if fst (g (3 * p_n (slh_of p))) =? 0 then 0 else prehash_runs cfg p q + keygen_runs cfg p q) (fun _ => True)
    (l_ts_gen_key cfg (Some (addr, priv)) pub (Some (the_ps cfg p)) (Some g)).
Proof.
  intros on. assert (N : ps_n (the_ps cfg p) = p_n (slh_of p) /\ ps_merkle_h (the_ps cfg p) = p_h' (slh_of p) /\ 0 <= p_h' (slh_of p) <= 31)
    by (destruct p; cbn; lia).
  unfold l_ts_gen_key. eapply tk_eq; [eapply (tk_bind q _ 0 (fun _ => True))|apply Z.add_0_r].
  2:{ intros [x u] _ _. apply tk_ret. exact I. }
  unfold l_ts_gen_key_gen. cbn [option_map]. apply tk_tick; [exact I|]. cbv zeta. rewrite (proj1 N). destruct (g (3 * p_n (slh_of p))) as [ret data]. cbn [fst].
  apply tk_bind0; [apply still_quiet|]. intros pr _. apply tk_if; intros E; rewrite E; [apply tk_ret; exact I|].
  eapply tk_eq; [eapply (tk_bind q _ 0 (fun _ => True)); [apply (tk_gen_root q cfg _ p on); apply N|]|apply Z.add_0_r].
  intros root _ _. apply tk_bind0; [auto with sq nocore|]. intros pr2 _. destruct pub as [b|].
  - apply tk_tick; [exact I|]. apply tk_bind0; [auto with sq nocore|]. intros k _. apply tk_bind0; [auto with sq nocore|]. intros b2 _. apply tk_ret. exact I.
  - apply tk_tick; [exact I|]. apply tk_ret. exact I.
Qed.
