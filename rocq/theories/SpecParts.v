(** * Vocabulary for the statements about single functions of the library

    A context is [ready] for a parameter set and a public key if it is such as the
    initialisation functions leave it: it points to them, and the members that hold the
    SHA-2 midstates (if there are any) hold what the library's own precomputation
    stores.  Nothing is assumed about its other members. *)
From Verif Require Import SpecSLH SpecMap CSem ModelParams ModelCtx ModelHash ModelSphincs SpecApi PropParams.

Definition nbytes (n : Z) (X : list Z) : Prop := zlen X = n /\ is_bytes X.

(** [X], of [n] bytes, lies at address [a] *)
Definition lies_at (mem : memory) (a n : Z) (X : list Z) : Prop := holds mem a X /\ nbytes n X.

Definition ready (cfg : config) (mem : memory) (p : ps_name) (pk : Z) (c : ts_context) : Prop :=
  wf_ctx cfg c /\ c_ps c = the_ps cfg p /\ c_public_key c = pk /\
  exists c0 c1, wf_ctx cfg c0 /\ c_ps c0 = the_ps cfg p /\ c_public_key c0 = pk /\
    call_compute_prehash cfg mem c0 = Ok c1 /\
    c_prehash_sha256 c = c_prehash_sha256 c1 /\ c_prehash_sha512 c = c_prehash_sha512 c1.

(** The bytes of an address as the hash functions of the parameter set take them:
    compressed to 22 bytes for SHA-2, 32 bytes for SHAKE *)
Definition address_bytes (p : ps_name) (A : ADRS) : list Z :=
  if is_sha2 p then adrs_compressed A else adrs_bytes A.
(** The context's address block starts with them *)
Definition address_is (p : ps_name) (c : ts_context) (A : ADRS) : Prop :=
  firstn (length (address_bytes p A)) (c_adr c) = address_bytes p A.

(** The [n] bytes at the start of the context's output buffer, and of the buffer with
    the node on the way up *)
Definition output (p : ps_name) (c : ts_context) : list Z := firstn (Z.to_nat (p_n (slh_of p))) (c_buffer c).
Definition running (p : ps_name) (c : ts_context) : list Z := firstn (Z.to_nat (p_n (slh_of p))) (c_auth_path_buffer c).

(** A whole session of the tweakable hash on an iterator that holds anything: init, any
    number of blocks (each at the start of some buffer), final *)
Fixpoint t_feed (cfg : config) (it : list Z) (blocks : list (list Z)) (c : ts_context) : outcome (list Z) :=
  match blocks with
  | [] => Ok it
  | b :: blocks' => it <- call_next_t cfg it b c ;; t_feed cfg it blocks' c
  end.
Definition t_session (cfg : config) (mem : memory) (it : list Z) (blocks : list (list Z)) (c : ts_context)
  : outcome (list Z * list Z) :=
  it <- call_init_t cfg mem it c ;;
  it <- t_feed cfg it blocks c ;;
  call_final_t cfg it c.

(** [k] successive steps of an authentication path; the contents of the output buffer
    after each *)
Fixpoint path_steps (cfg : config) (mem : memory) (p : ps_name)
    (leaf : bufid -> Z -> ts_context -> outcome ts_context) (typecode : Z) (stk : Z * Z) (k : nat) (c : ts_context)
  : outcome (list (list Z) * ts_context) :=
  match k with
  | O => Ok ([], c)
  | S k' =>
    c <- ts_merkle_path cfg mem leaf typecode stk c ;;
    '(l, c') <- path_steps cfg mem p leaf typecode stk k' c ;;
    Ok (output p c :: l, c')
  end.
