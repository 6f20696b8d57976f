(** * Call histories of the model

    Not a part of the library: the (test) driver that calls the modelled functions.
    The context is the only state that survives between calls: the library has no
    mutable objects with static storage duration (all file scope objects in /repo's
    library sources are const tables). *)
From Verif Require Import SpecApi CSem ModelParams ModelCtx ModelSphincs ModelVerify.

Section Driver.
Variable cfg : config.

(** One API call: tiny_sphincs.h:209-267 *)
Definition call (m : memory) (act : action) (c : ts_context) : outcome (obs * ts_context) :=
  match act with
  | InitSign msg l p sk f =>
    c <- ts_init_sign cfg m c msg l (the_ps cfg p) sk f ;; Ok (Started, c)
  | Sign dest sz =>
    '(r, dest, c) <- ts_sign cfg m dest sz c ;; Ok (Signed r dest, c)
  | InitVerify msg l p pk =>
    c <- ts_init_verify cfg m c msg l (the_ps cfg p) pk ;; Ok (Started, c)
  | UpdateVerify chunk =>
    '(r, c) <- ts_update_verify cfg m chunk (zlen chunk) c ;; Ok (Updated r, c)
  | Verify => Ok (Verdict (ts_verify c), c)
  end.

(** tiny_sphincs.h:209-267 *)
Fixpoint calls (h : list (memory * action)) (c : ts_context) : outcome (list obs * ts_context) :=
  match h with
  | [] => Ok ([], c)
  | (m, act) :: h => '(o, c) <- call m act c ;; '(os, c) <- calls h c ;; Ok (o :: os, c)
  end.

(** Calls on many contexts *)
(** one call of the API after another, tiny_sphincs.h:187-275, each on the context of its number *)
Fixpoint wcalls (h : list (nat * memory * action)) (w : world ts_context) : outcome (list obs * world ts_context) :=
  match h with
  | [] => Ok ([], w)
  | (i, m, act) :: h =>
    '(o, c) <- call m act (w i) ;; '(os, w) <- wcalls h (set i c w) ;; Ok (o :: os, w)
  end.
End Driver.
