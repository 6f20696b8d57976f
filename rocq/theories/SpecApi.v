(** * What a user of the API can rely on: an abstract machine for call histories

    A history is a sequence of API calls on any number of contexts, each with the
    contents of the caller's memory at that call.  The machine below says what each
    call returns and writes, in terms of the bytes of the published algorithms
    (SpecSLH); a rule applies only if the caller keeps to the contract (keys and
    messages readable where they are needed, destination large enough).

    There is nothing about the implementation here: [ps_name] are the names of the
    twelve parameter sets, and the things taken from the configuration are which of them
    are compiled in and how large addresses can be. *)
From Verif Require Import SpecSLH SpecMap CSem ModelParams.

(** The bytes [l] are at address [a] of memory [m]. *)
Definition holds (m : memory) (a : Z) (l : list Z) : Prop :=
  is_bytes l /\ forall i, (i < length l)%nat -> m (a + Z.of_nat i) = Some (nth i l 0).

(** A random function: given the number of bytes wanted, its result code (nonzero:
    success) and the bytes it left at the start of the buffer; NULL is [None]. *)
Definition random_fn := option (Z -> Z * list Z).
(** Its contract: at most as many bytes as asked for, and on success exactly as many. *)
Definition random_ok (f : random_fn) (m : Z) : Prop :=
  match f with
  | None => True
  | Some f => let '(ret, data) := f m in is_bytes data /\ len data <= m /\ (ret <> 0 -> len data = m)
  end.
(** The bytes used to randomise a signature: those delivered on success, else [dflt]. *)
Definition randomness (f : random_fn) (m : Z) (dflt : list Z) : list Z :=
  match f with
  | None => dflt
  | Some f => let '(ret, data) := f m in if ret =? 0 then dflt else data
  end.

(** ** Calls and what they return *)
Inductive action :=
| InitSign (msg len_msg : Z) (p : ps_name) (private_key : Z) (f : random_fn)
| Sign (dest : list Z) (m : Z)
| InitVerify (msg len_msg : Z) (p : ps_name) (public_key : Z)
| UpdateVerify (chunk : list Z)
| Verify.
Inductive obs :=
| Started                                  (* an init function: no result *)
| Signed (ret : Z) (dest : list Z)         (* result, and the whole destination array afterwards *)
| Updated (ret : Z)
| Verdict (ret : Z).

(** ** The state of a context as far as the user is concerned *)
Inductive astate :=
| Fresh                                    (* never initialised: any contents *)
| Signing (p : ps_name) (private_key : Z) (SK : list Z) (remaining : list Z)
| Verifying (p : ps_name) (public_key : Z) (PK : list Z) (msg len_msg : Z)
    (M : list Z)      (* the message, once it has been read *)
    (fed : list Z)    (* all signature bytes so far *)
    (ok : bool).      (* no failure so far *)

(** The result of a call to update that extends [fed] to [fed']: nothing is decided
    before the full length is reached; then the signature must be valid and end here;
    a further full block is a failure. *)
Definition update_result (P : params) (M PK fed fed' : list Z) : bool :=
  if len fed' <? slh_sig_length P then true
  else if len fed <? slh_sig_length P then slh_verify_internal P M fed' PK
  else len fed' <? slh_sig_length P + p_n P.

Definition b2z (b : bool) : Z := if b then 1 else 0.

(** The message is read by the call that completes the first n bytes. *)
Definition message_read (P : params) (m : memory) (msg len_msg : Z) (fed fed' M M' : list Z) : Prop :=
  if (len fed <? p_n P) && (p_n P <=? len fed')
  then holds m msg M' /\ len M' = len_msg
  else M' = M.

(** The signature is computed in blocks of n bytes, the first one by ts_init_sign, each
    other one when its first byte is requested.  When [rem] is still to be delivered,
    this many bytes of it have been computed already: *)
Definition computed (P : params) (rem : list Z) : Z :=
  if len rem =? slh_sig_length P then p_n P else len rem mod p_n P.
(** Verification consumes the signature in such blocks, when they are complete. *)
Definition completes_block (P : params) (fed fed' : list Z) : Prop :=
  len fed < slh_sig_length P /\ len fed / p_n P < len fed' / p_n P.

(** What the platform offers: the parameter sets compiled in, and the number of addresses
    (2^32 or 2^64). *)
Record platform := mkPlatform { enabled : ps_name -> Prop; addresses : Z }.
Definition platform_of (cfg : config) : platform :=
  mkPlatform (fun p => ps_enabled cfg p = true) (2 ^ (8 * SIZEOF_PTR cfg)).

Section Machine.
Variable pf : platform.

Inductive step : astate -> memory -> action -> obs -> astate -> Prop :=
| s_init_sign a m msg l p sk f SK M :
    enabled pf p ->
    holds m sk SK -> len SK = 4 * p_n (slh_of p) ->
    holds m msg M -> len M = l -> l < 2 ^ 60 ->
    random_ok f (p_n (slh_of p)) ->
    step a m (InitSign msg l p sk f) Started
      (Signing p sk SK (slh_sign_internal (slh_of p) M SK
         (randomness f (p_n (slh_of p)) (slice SK (2 * p_n (slh_of p)) (p_n (slh_of p))))))
| s_sign m p sk SK rem dest sz :
    (computed (slh_of p) rem < Z.min sz (len rem) -> holds m sk SK) -> 0 <= sz < 2 ^ 32 -> sz <= len dest ->
    let k := Z.min sz (len rem) in
    step (Signing p sk SK rem) m (Sign dest sz)
      (Signed k (firstn (Z.to_nat k) rem ++ skipn (Z.to_nat k) dest))
      (Signing p sk SK (skipn (Z.to_nat k) rem))
| s_init_verify a m msg l p pk PK :
    enabled pf p ->
    holds m pk PK -> len PK = 2 * p_n (slh_of p) ->
    0 <= msg < addresses pf -> 0 <= l < addresses pf -> l < 2 ^ 60 ->
    step a m (InitVerify msg l p pk) Started (Verifying p pk PK msg l [] [] true)
| s_update m p pk PK msg l M M' fed chunk :
    (completes_block (slh_of p) fed (fed ++ chunk) -> holds m pk PK) -> is_bytes chunk -> len chunk < 2 ^ 32 ->
    message_read (slh_of p) m msg l fed (fed ++ chunk) M M' ->
    let r := update_result (slh_of p) M' PK fed (fed ++ chunk) in
    step (Verifying p pk PK msg l M fed true) m (UpdateVerify chunk)
      (Updated (b2z r)) (Verifying p pk PK msg l M' (fed ++ chunk) r)
| s_update_failed m p pk PK msg l M fed chunk :
    step (Verifying p pk PK msg l M fed false) m (UpdateVerify chunk)
      (Updated 0) (Verifying p pk PK msg l M fed false)
| s_verify m p pk PK msg l M fed ok :
    step (Verifying p pk PK msg l M fed ok) m Verify
      (Verdict (b2z (ok && (len fed =? slh_sig_length (slh_of p))))) (Verifying p pk PK msg l M fed ok)
(* calls of the wrong kind *)
| s_sign_verifying m p pk PK msg l M fed ok dest sz :
    step (Verifying p pk PK msg l M fed ok) m (Sign dest sz) (Signed 0 dest) (Verifying p pk PK msg l M fed ok)
| s_update_signing m p sk SK rem chunk :
    step (Signing p sk SK rem) m (UpdateVerify chunk) (Updated 0) (Signing p sk SK rem)
| s_verify_signing m p sk SK rem :
    step (Signing p sk SK rem) m Verify (Verdict 0) (Signing p sk SK rem).

(** The contract alone: when a call is allowed in a state *)
Definition allowed (a : astate) (m : memory) (act : action) : Prop :=
  match act with
  | InitSign msg l p sk f =>
      enabled pf p /\ (exists SK, holds m sk SK /\ len SK = 4 * p_n (slh_of p)) /\
      (exists M, holds m msg M /\ len M = l) /\ l < 2 ^ 60 /\ random_ok f (p_n (slh_of p))
  | InitVerify msg l p pk =>
      enabled pf p /\ (exists PK, holds m pk PK /\ len PK = 2 * p_n (slh_of p)) /\ 0 <= msg < addresses pf /\ 0 <= l < addresses pf /\ l < 2 ^ 60
  | Sign dest sz =>
      match a with
      | Fresh => False                        (* never initialised *)
      | Signing p sk SK rem => (computed (slh_of p) rem < Z.min sz (len rem) -> holds m sk SK) /\ 0 <= sz < 2 ^ 32 /\ sz <= len dest
      | Verifying _ _ _ _ _ _ _ _ => True
      end
  | UpdateVerify chunk =>
      match a with
      | Fresh => False
      | Signing _ _ _ _ => True
      | Verifying _ _ _ _ _ _ _ false => True
      | Verifying p pk PK msg l _ fed true =>
          (completes_block (slh_of p) fed (fed ++ chunk) -> holds m pk PK) /\ is_bytes chunk /\ len chunk < 2 ^ 32 /\
          (len fed < p_n (slh_of p) <= len (fed ++ chunk) -> exists M, holds m msg M /\ len M = l)
      end
  | Verify => a <> Fresh
  end.

(** Histories on one context *)
Inductive steps : astate -> list (memory * action) -> list obs -> astate -> Prop :=
| steps_nil a : steps a [] [] a
| steps_cons a m act o a1 h os a2 :
    step a m act o a1 -> steps a1 h os a2 -> steps a ((m, act) :: h) (o :: os) a2.

(** Histories on many contexts (a number names a context) *)
Definition world (A : Type) := nat -> A.
Definition set {A} (i : nat) (v : A) (w : world A) : world A := fun j => if Nat.eqb j i then v else w j.
Inductive wsteps : world astate -> list (nat * memory * action) -> list obs -> world astate -> Prop :=
| wsteps_nil w : wsteps w [] [] w
| wsteps_cons w i m act o a h os w2 :
    step (w i) m act o a -> wsteps (set i a w) h os w2 -> wsteps w ((i, m, act) :: h) (o :: os) w2.
End Machine.
