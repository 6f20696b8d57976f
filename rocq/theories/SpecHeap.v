(** * Programs that use the library, with all their buffers in one address space (C54)

    The machine of SpecApi.v says what a call does to its context, given the contents of
    the memory.  Here the memory is a part of the state: keys, messages, signatures are at
    addresses, calls read and write them there, and buffers may overlap as far as the
    contract below allows. *)
From Verif Require Import SpecSLH SpecMap SpecApi CSem ModelParams.

(** The memory after the bytes [l] have been written at address [a] *)
Definition written (m : memory) (a : Z) (l : list Z) : memory :=
  fun x => if (a <=? x) && (x <? a + len l) then Some (nth (Z.to_nat (x - a)) l 0) else m x.
(** The [k] bytes at [a] are there (and may be written) *)
Definition mapped (m : memory) (a k : Z) : Prop := forall x, a <= x < a + k -> m x <> None.
(** The [k] bytes at [a] and the [l] bytes at [b] have none in common *)
Definition apart (a k b l : Z) : Prop := forall x, a <= x < a + k -> b <= x < b + l -> False.

(** What a program can call; a number names a context, [None] is NULL. *)
Inductive op :=
| OpGenKey (private_key public_key : option Z) (p : option ps_name) (f : random_fn)
| OpInitSign (ctx : nat) (msg len_msg : Z) (p : ps_name) (private_key : Z) (f : random_fn)
| OpSign (ctx : nat) (dest m : Z)
| OpInitVerify (ctx : nat) (msg len_msg : Z) (p : ps_name) (public_key : Z)
| OpUpdateVerify (ctx : nat) (sig len_sig : Z)
| OpVerify (ctx : nat).

Section Machine.
Variable pf : platform.

(** [hstep (m, w) c ret (m', w')]: in memory [m], with the contexts in the states [w], the
    call [c] is within the contract; it returns [ret] (0 if it returns nothing) and leaves
    memory [m'] and states [w']. *)
Inductive hstep : memory -> world astate -> op -> Z -> memory -> world astate -> Prop :=
(* Key generation: a place for 4n bytes, and, if wanted, one for 2n bytes apart from it *)
| h_gen_key m w sk pk p f SK PK :
    let n := p_n (slh_of p) in
    let d := snd (f (3 * n)) in
    slh_keygen_internal (slh_of p) (slice d 0 n) (slice d n n) (slice d (2 * n) n) = (SK, PK) ->
    enabled pf p -> random_ok (Some f) (3 * n) -> fst (f (3 * n)) <> 0 ->
    mapped m sk (4 * n) ->
    match pk with None => True | Some pk => mapped m pk (2 * n) /\ apart pk (2 * n) sk (4 * n) end ->
    hstep m w (OpGenKey (Some sk) pk (Some p) (Some f)) 1
      (match pk with None => written m sk SK | Some pk => written (written m sk SK) pk PK end) w
| h_gen_key_no_random m w sk pk p f :
    let n := p_n (slh_of p) in
    random_ok (Some f) (3 * n) -> fst (f (3 * n)) = 0 -> mapped m sk (4 * n) ->
    hstep m w (OpGenKey (Some sk) pk (Some p) (Some f)) 0 (written m sk (snd (f (3 * n)))) w
| h_gen_key_null m w sk pk p f :
    sk = None \/ p = None \/ f = None ->
    hstep m w (OpGenKey sk pk p f) 0 m w
(* Signing *)
| h_init_sign m w i msg l p sk f a :
    step pf (w i) m (InitSign msg l p sk f) Started a ->
    hstep m w (OpInitSign i msg l p sk f) 0 m (set i a w)
| h_sign m w i p sk SK rem dest sz :
    w i = Signing p sk SK rem ->
    let k := Z.min sz (len rem) in
    0 <= sz < 2 ^ 32 ->
    mapped m dest k ->
    (* if a further block has to be computed: the private key is there, and what is
       written does not touch it *)
    (computed (slh_of p) rem < k -> holds m sk SK /\ apart dest k sk (len SK)) ->
    hstep m w (OpSign i dest sz) k
      (written m dest (firstn (Z.to_nat k) rem)) (set i (Signing p sk SK (skipn (Z.to_nat k) rem)) w)
| h_sign_verifying m w i p pk PK msg l M fed ok dest sz :
    w i = Verifying p pk PK msg l M fed ok ->
    hstep m w (OpSign i dest sz) 0 m w
(* Verification *)
| h_init_verify m w i msg l p pk a :
    step pf (w i) m (InitVerify msg l p pk) Started a ->
    hstep m w (OpInitVerify i msg l p pk) 0 m (set i a w)
| h_update_verify m w i sig chunk r a :
    holds m sig chunk ->
    step pf (w i) m (UpdateVerify chunk) (Updated r) a ->
    hstep m w (OpUpdateVerify i sig (len chunk)) r m (set i a w)
| h_verify m w i r a :
    step pf (w i) m Verify (Verdict r) a ->
    hstep m w (OpVerify i) r m (set i a w).

Inductive hsteps : memory -> world astate -> list op -> list Z -> memory -> world astate -> Prop :=
| hsteps_nil m w : hsteps m w [] [] m w
| hsteps_cons m w c r m1 w1 h rs m2 w2 :
    hstep m w c r m1 w1 -> hsteps m1 w1 h rs m2 w2 -> hsteps m w (c :: h) (r :: rs) m2 w2.
End Machine.

(** The addresses that a call may write *)
Definition may_write (c : op) (x : Z) : Prop :=
  match c with
  | OpGenKey sk pk (Some p) _ =>
      let n := p_n (slh_of p) in
      (exists a, sk = Some a /\ a <= x < a + 4 * n) \/ (exists a, pk = Some a /\ a <= x < a + 2 * n)
  | OpSign _ dest m => dest <= x < dest + m
  | _ => False
  end.
(** Its sizes are sizes, and the random function (the caller's own code) keeps to the
    buffer it is given *)
Definition sane (c : op) : Prop :=
  match c with
  | OpGenKey _ _ (Some p) (Some f) => len (snd (f (3 * p_n (slh_of p)))) <= 3 * p_n (slh_of p)
  | OpSign _ _ m => 0 <= m
  | _ => True
  end.
