(** * A key that changes while it is in use (C56)

    The contract says that the key stays as it is until the signature is complete.  This
    is about programs that break that rule: the bytes at the address of the key are
    readable at every call, but they may be others every time. *)
From Verif Require Import SpecSLH SpecMap SpecApi SpecSessions CSem ModelParams.

(** [l] readable bytes at address [a], whatever they are *)
Definition some_bytes (m : memory) (a l : Z) : Prop := exists B, len B = l /\ holds m a B.

(** The answers that are proper in any case, when [left] bytes of the signature are still
    to come: every request is given as many bytes as it asks for and are left, they are
    written to the start of the destination, and the rest of it is not touched. *)
Fixpoint well_answered (left : Z) (rqs : list request) (os : list obs) : Prop :=
  match rqs, os with
  | [], [] => True
  | r :: rqs, o :: os =>
    let k := Z.min (rq_size r) left in
    (exists bs, len bs = k /\ is_bytes bs /\ o = Signed k (bs ++ skipn (Z.to_nat k) (rq_dest r))) /\
    well_answered (left - k) rqs os
  | _, _ => False
  end.

(** ** Verification: a public key and a message that change (C57) *)

(** What is left of the contract of the chunks, when [fed] bytes came before: there are
    some bytes at the address of the key, and at the call that completes the first n bytes
    there are some at the address of the message. *)
Fixpoint feeds_any (p : ps_name) (pk msg l fed : Z) (fs : list feed) : Prop :=
  match fs with
  | [] => True
  | f :: fs =>
    let n := p_n (slh_of p) in
    let fed' := fed + len (fd_chunk f) in
    some_bytes (fd_mem f) pk (2 * n) /\ is_bytes (fd_chunk f) /\ len (fd_chunk f) < 2 ^ 32 /\
    (fed < n <= fed' -> some_bytes (fd_mem f) msg l) /\
    feeds_any p pk msg l fed' fs
  end.

(** The answers [os] of the updates and the verdict [v] that are proper in any case for
    signatures of [L] bytes, when [fed] bytes came before and [ok] says that every update
    returned 1.  An update returns 1 or 0; after a 0, 0; as long as the bytes are fewer
    than those of a signature, 1; if they pass its length, 0; after a complete signature
    that was accepted, 1 as long as fewer than n bytes follow.  The verdict is 1 if every
    update returned 1 and the number of bytes is that of a signature, and 0 otherwise. *)
Fixpoint well_judged (L n fed : Z) (ok : bool) (fs : list feed) (os : list obs) (v : Z) : Prop :=
  match fs, os with
  | [], [] => v = b2z (ok && (fed =? L))
  | f :: fs, o :: os =>
    let fed' := fed + len (fd_chunk f) in
    exists r, o = Updated (b2z r) /\
      (ok = false -> r = false) /\
      (ok = true -> fed' < L -> r = true) /\
      (fed < L < fed' -> r = false) /\
      (ok = true -> L <= fed -> r = (fed' <? L + n)) /\
      well_judged L n fed' r fs os v
  | _, _ => False
  end.
