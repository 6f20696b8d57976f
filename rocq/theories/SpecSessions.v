(** * Signing and verification sessions, as histories of calls

    Plain definitions used in the statements of PropSign.v and PropVerify.v: what a
    caller does, what the contract asks of him, what he should see. *)
From Verif Require Import SpecSLH SpecMap SpecApi CSem ModelParams.

(** ** Signing: one init call, then requests; every call has its own memory contents *)
Record request := Req { rq_mem : memory; rq_dest : list Z; rq_size : Z }.
Definition sign_history (m0 : memory) (msg l : Z) (p : ps_name) (sk : Z) (f : random_fn) (rqs : list request)
  : list (memory * action) :=
  (m0, InitSign msg l p sk f) :: map (fun r => (rq_mem r, Sign (rq_dest r) (rq_size r))) rqs.

(** Contract of the init call: the message [M] and the private key [SK] are readable. *)
Definition sign_init_ok (m0 : memory) (msg : Z) (M : list Z) (p : ps_name) (sk : Z) (SK : list Z) (f : random_fn) : Prop :=
  holds m0 sk SK /\ len SK = 4 * p_n (slh_of p) /\ holds m0 msg M /\ len M < 2 ^ 60 /\ random_ok f (p_n (slh_of p)).
(** Contract of a request: the private key is (still) readable, the destination is large enough. *)
Definition request_ok (sk : Z) (SK : list Z) (r : request) : Prop :=
  holds (rq_mem r) sk SK /\ 0 <= rq_size r < 2 ^ 32 /\ rq_size r <= len (rq_dest r).

(** A weaker contract: the private key has to be readable only if the request goes on to
    a further block of n bytes.  ts_init_sign computes the first one, each request those
    in which its bytes are, as far as no earlier one did.  [done] bytes came before. *)
Fixpoint requests_need (p : ps_name) (sk : Z) (SK : list Z) (done : Z) (rqs : list request) : Prop :=
  match rqs with
  | [] => True
  | r :: rqs =>
    let n := p_n (slh_of p) in
    let upto := Z.min (done + rq_size r) (slh_sig_length (slh_of p)) in
    let have := n * Z.max 1 ((done + n - 1) / n) in
    (have < upto -> holds (rq_mem r) sk SK) /\ 0 <= rq_size r < 2 ^ 32 /\ rq_size r <= len (rq_dest r) /\
    requests_need p sk SK upto rqs
  end.

(** The signature that has to come out *)
Definition signature (p : ps_name) (M SK : list Z) (f : random_fn) : list Z :=
  let n := p_n (slh_of p) in
  slh_sign_internal (slh_of p) M SK (randomness f n (slice SK (2 * n) n)).

(** The answers to the requests when the bytes [S] are still to come *)
Fixpoint sign_answers (S : list Z) (rqs : list request) : list obs :=
  match rqs with
  | [] => []
  | r :: rqs =>
    let k := Z.to_nat (Z.min (rq_size r) (len S)) in
    Signed (Z.of_nat k) (firstn k S ++ skipn k (rq_dest r)) :: sign_answers (skipn k S) rqs
  end.
(** What the caller collects: the first [ret] bytes of the destination of each call *)
Definition taken (o : obs) : list Z := match o with Signed r d => firstn (Z.to_nat r) d | _ => [] end.
Definition asked (rqs : list request) : Z := fold_right (fun r t => rq_size r + t) 0 rqs.

(** ** Verification: one init call, then chunks of the signature, then ts_verify *)
Record feed := Feed { fd_mem : memory; fd_chunk : list Z }.
Definition feed_calls (fs : list feed) : list (memory * action) :=
  map (fun f => (fd_mem f, UpdateVerify (fd_chunk f))) fs.
Definition verify_history (m0 : memory) (msg l : Z) (p : ps_name) (pk : Z) (fs : list feed) : list (memory * action) :=
  (m0, InitVerify msg l p pk) :: feed_calls fs.
Definition all_fed (fs : list feed) : list Z := concat (map fd_chunk fs).

(** Contract of the init call: the public key is readable, address and length of the
    message (not read yet) are an address and a length. *)
Definition verify_init_ok (cfg : config) (m0 : memory) (msg : Z) (M : list Z) (p : ps_name) (pk : Z) (PK : list Z) : Prop :=
  holds m0 pk PK /\ len PK = 2 * p_n (slh_of p) /\ 0 <= msg < addresses (platform_of cfg) /\
  is_bytes M /\ len M < addresses (platform_of cfg) /\ len M < 2 ^ 60.
(** Contract of the chunks, when [fed] came before: the public key is readable; the
    message has to be readable only at the call that completes the first n bytes. *)
Fixpoint feeds_ok (p : ps_name) (pk : Z) (PK : list Z) (msg : Z) (M : list Z) (fed : list Z) (fs : list feed) : Prop :=
  match fs with
  | [] => True
  | f :: fs =>
    holds (fd_mem f) pk PK /\ is_bytes (fd_chunk f) /\ len (fd_chunk f) < 2 ^ 32 /\
    (len fed < p_n (slh_of p) <= len (fed ++ fd_chunk f) -> holds (fd_mem f) msg M) /\
    feeds_ok p pk PK msg M (fed ++ fd_chunk f) fs
  end.

(** The weaker contract: the public key has to be readable only if the chunk completes a
    block of n bytes (counted from the start) within the length of a signature. *)
Fixpoint feeds_need (p : ps_name) (pk : Z) (PK : list Z) (msg : Z) (M : list Z) (fed : list Z) (fs : list feed) : Prop :=
  match fs with
  | [] => True
  | f :: fs =>
    let n := p_n (slh_of p) in
    let fed' := fed ++ fd_chunk f in
    (len fed < slh_sig_length (slh_of p) -> len fed / n < len fed' / n -> holds (fd_mem f) pk PK) /\
    is_bytes (fd_chunk f) /\ len (fd_chunk f) < 2 ^ 32 /\
    (len fed < n <= len fed' -> holds (fd_mem f) msg M) /\
    feeds_need p pk PK msg M fed' fs
  end.

(** The answers to the chunks: 1 as long as nothing is known; at the call that reaches
    or passes the full length, whether what has been fed is a valid signature; after a
    valid signature, 1 as long as fewer than n further bytes have come; after a 0, 0. *)
Fixpoint verify_answers (P : params) (M PK : list Z) (fed : list Z) (ok : bool) (fs : list feed) : list obs :=
  match fs with
  | [] => []
  | f :: fs =>
    let fed' := fed ++ fd_chunk f in
    let r := ok && (if len fed' <? slh_sig_length P then true
                    else if len fed <? slh_sig_length P then slh_verify_internal P M fed' PK
                    else len fed' <? slh_sig_length P + p_n P) in
    Updated (b2z r) :: verify_answers P M PK fed' r fs
  end.
