(** * The program whose storage is measured has the outcomes of the model: verify.c *)
From Verif Require Import CSem CStack ModelEndian ModelParams ModelCtx ModelHash ModelSphincs ModelVerify
  StkSha2 StkHash StkSphincs StkVerify PfStkErase PfStkErase2 PfStkErase3.
Ltac Zify.zify_post_hook ::= idtac.

Lemma ke_memcmp a b n : forall i, answer (k_my_memcmp a b n i) = my_memcmp a b n i.
Proof. induction n as [|n IH]; intros i; [reflexivity|]. cbn [k_my_memcmp my_memcmp]. ke. Qed.
#[global] Hint Resolve ke_memcmp : ke.
Lemma ke_init_verify cfg mem c m l ps k : answer (k_ts_init_verify cfg mem c m l ps k) = ts_init_verify cfg mem c m l ps k.
Proof. unfold k_ts_init_verify, ts_init_verify; rewrite ?answer_call. ke. Qed.
#[global] Hint Resolve ke_init_verify : ke.
Lemma ke_next_auth cfg mem ty c : answer (k_next_auth_path cfg mem ty c) = next_auth_path cfg mem ty c.
Proof. unfold k_next_auth_path, next_auth_path; rewrite ?answer_call. ke. Qed.
#[global] Hint Resolve ke_next_auth : ke.
Lemma ke_set_up_verify cfg mem l c : answer (k_set_up_wots_verify_signature cfg mem l c) = set_up_wots_verify_signature cfg mem l c.
Proof. unfold k_set_up_wots_verify_signature, set_up_wots_verify_signature; rewrite ?answer_call. ke. Qed.
#[global] Hint Resolve ke_set_up_verify : ke.
Lemma ke_verify_switch cfg mem m c : answer (k_verify_switch cfg mem m c) = verify_switch cfg mem m c.
Proof. unfold k_verify_switch, verify_switch; rewrite ?answer_call. ke. Qed.
#[global] Hint Resolve ke_verify_switch : ke.
Lemma ke_verify_loop cfg mem fuel : forall sig pos m c, answer (k_verify_loop cfg mem fuel sig pos m c) = verify_loop cfg mem fuel sig pos m c.
Proof.
  induction fuel as [|fuel IH]; intros sig pos m c; [reflexivity|]. cbn [k_verify_loop verify_loop]. cbv zeta.
  eapply (kbind_pure _ (if m <? u32 (ps_n (c_ps c) - c_buffer_offset c) then m else u32 (ps_n (c_ps c) - c_buffer_offset c))); [rewrite answer_if; destruct (_ <? _); reflexivity|].
  ke.
Qed.
#[global] Hint Resolve ke_verify_loop : ke.
Lemma ke_update_verify cfg mem sig m c : answer (k_ts_update_verify cfg mem sig m c) = ts_update_verify cfg mem sig m c.
Proof. unfold k_ts_update_verify, ts_update_verify; rewrite ?answer_call. ke. Qed.
#[global] Hint Resolve ke_update_verify : ke.
