(** * Call histories of the model, with the storage each call takes

    ModelApi once more with the operations of CStack (see StkSha2).  Between two calls
    nothing of the library's is on the stack. *)
From Verif Require Import SpecApi CSem CStack ModelParams ModelCtx ModelVerify StkSphincs StkVerify.
Open Scope stack_scope.

Section Driver.
Variable cfg : config.

(** verify.c:243-251 *)
Definition k_ts_verify (c : ts_context) : stacked Z :=
  call (SIZEOF_PTR cfg)   (* ctx *)
  (kret (ts_verify c)).

(** One API call: tiny_sphincs.h:209-267 *)
Definition k_api_call (m : memory) (act : action) (c : ts_context) : stacked (obs * ts_context) :=
  match act with
  | InitSign msg l p sk f =>
    c <- k_ts_init_sign cfg m c msg l (the_ps cfg p) sk f ;; kret (Started, c)
  | Sign dest sz =>
    '(r, dest, c) <- k_ts_sign cfg m dest sz c ;; kret (Signed r dest, c)
  | InitVerify msg l p pk =>
    c <- k_ts_init_verify cfg m c msg l (the_ps cfg p) pk ;; kret (Started, c)
  | UpdateVerify chunk =>
    '(r, c) <- k_ts_update_verify cfg m chunk (zlen chunk) c ;; kret (Updated r, c)
  | Verify => v <- k_ts_verify c ;; kret (Verdict v, c)
  end.

(** tiny_sphincs.h:209-267 *)
Fixpoint k_calls (h : list (memory * action)) (c : ts_context) : stacked (list obs * ts_context) :=
  match h with
  | [] => kret ([], c)
  | (m, act) :: h => '(o, c) <- k_api_call m act c ;; '(os, c) <- k_calls h c ;; kret (o :: os, c)
  end.
End Driver.
