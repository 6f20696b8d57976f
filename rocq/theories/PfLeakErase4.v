(** * The watched program has the outcomes of the model: verify.c *)
From Verif Require Import CSem CLeak ModelEndian ModelParams ModelCtx ModelHash ModelSphincs ModelVerify
  LeakSha2 LeakHash LeakSphincs LeakVerify PfLeakErase PfLeakErase2 PfLeakErase3.
Ltac Zify.zify_post_hook ::= idtac.

Lemma er_memcmp a b n : forall i, result (l_my_memcmp a b n i) = my_memcmp a b n i.
Proof. induction n as [|n IH]; intros i; [reflexivity|]. cbn [l_my_memcmp my_memcmp]. er. Qed.
#[global] Hint Resolve er_memcmp : er.
Lemma er_init_verify cfg mem c m l ps k : result (l_ts_init_verify cfg mem c m l ps k) = ts_init_verify cfg mem c m l ps k.
Proof. unfold l_ts_init_verify, ts_init_verify. er. Qed.
#[global] Hint Resolve er_init_verify : er.
Lemma er_next_auth cfg mem ty c : result (l_next_auth_path cfg mem ty c) = next_auth_path cfg mem ty c.
Proof. unfold l_next_auth_path, next_auth_path. er. Qed.
#[global] Hint Resolve er_next_auth : er.
Lemma er_set_up_verify cfg mem l c : result (l_set_up_wots_verify_signature cfg mem l c) = set_up_wots_verify_signature cfg mem l c.
Proof. unfold l_set_up_wots_verify_signature, set_up_wots_verify_signature. er. Qed.
#[global] Hint Resolve er_set_up_verify : er.
Lemma er_verify_switch cfg mem m c : result (l_verify_switch cfg mem m c) = verify_switch cfg mem m c.
Proof. unfold l_verify_switch, verify_switch. er. Qed.
#[global] Hint Resolve er_verify_switch : er.
Lemma er_verify_loop cfg mem fuel : forall sig pos m c, result (l_verify_loop cfg mem fuel sig pos m c) = verify_loop cfg mem fuel sig pos m c.
Proof.
  induction fuel as [|fuel IH]; intros sig pos m c; [reflexivity|]. cbn [l_verify_loop verify_loop]. cbv zeta.
  eapply (bind_pure _ (if m <? u32 (ps_n (c_ps c) - c_buffer_offset c) then m else u32 (ps_n (c_ps c) - c_buffer_offset c))); [rewrite result_if; destruct (_ <? _); reflexivity|].
  er.
Qed.
#[global] Hint Resolve er_verify_loop : er.
Lemma er_update_verify cfg mem sig m c : result (l_ts_update_verify cfg mem sig m c) = ts_update_verify cfg mem sig m c.
Proof. unfold l_ts_update_verify, ts_update_verify. er. Qed.
#[global] Hint Resolve er_update_verify : er.
