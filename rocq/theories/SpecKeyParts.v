(** * Which parts of the keys a call needs (C58)

    FIPS 205 lays a private key out as SK.seed, SK.prf, PK.seed, PK.root and a public key
    as PK.seed, PK.root, n bytes each.  The contracts of SpecSessions.v ask for the whole
    key; the ones here only for the parts that a call has a use for.  The rest need not be
    readable and, if it is, need not be what it should be. *)
From Verif Require Import SpecSLH SpecMap SpecApi SpecSessions CSem ModelParams.

(** Byte [i] to byte [i + l] of [X] are in their place, if [X] belongs at address [a] *)
Definition part (m : memory) (a : Z) (X : list Z) (i l : Z) : Prop := holds m (a + i) (slice X i l).

(** With TS_SHA2_OPTIMIZATION the context of a SHA-2 parameter set keeps what hashing
    PK.seed gave, so PK.seed is not looked at again. *)
Definition seed_kept (cfg : config) (p : ps_name) : bool :=
  match p with
  | SHAKE_128f | SHAKE_128s | SHAKE_192f | SHAKE_192s | SHAKE_256f | SHAKE_256s => false
  | _ => cfg_sha2_opt cfg
  end.

(** ts_init_sign: everything but SK.seed *)
Definition sign_init_parts (m0 : memory) (msg : Z) (M : list Z) (p : ps_name) (sk : Z) (SK : list Z) (f : random_fn) : Prop :=
  let n := p_n (slh_of p) in
  is_bytes SK /\ len SK = 4 * n /\ part m0 sk SK n (3 * n) /\ holds m0 msg M /\ len M < 2 ^ 60 /\ random_ok f n.

(** ts_sign: SK.seed and, if it was not kept, PK.seed, in a request that goes on to a
    further block of n bytes *)
Fixpoint requests_parts (cfg : config) (p : ps_name) (sk : Z) (SK : list Z) (done : Z) (rqs : list request) : Prop :=
  match rqs with
  | [] => True
  | r :: rqs =>
    let n := p_n (slh_of p) in
    let upto := Z.min (done + rq_size r) (slh_sig_length (slh_of p)) in
    let have := n * Z.max 1 ((done + n - 1) / n) in
    (have < upto -> part (rq_mem r) sk SK 0 n /\ (seed_kept cfg p = false -> part (rq_mem r) sk SK (2 * n) n)) /\
    0 <= rq_size r < 2 ^ 32 /\ rq_size r <= len (rq_dest r) /\
    requests_parts cfg p sk SK upto rqs
  end.

(** ts_init_verify: PK.seed, and only where it is kept *)
Definition verify_init_parts (cfg : config) (m0 : memory) (msg : Z) (M : list Z) (p : ps_name) (pk : Z) (PK : list Z) : Prop :=
  let n := p_n (slh_of p) in
  is_bytes PK /\ len PK = 2 * n /\ (seed_kept cfg p = true -> part m0 pk PK 0 n) /\
  0 <= msg < addresses (platform_of cfg) /\ is_bytes M /\ len M < addresses (platform_of cfg) /\ len M < 2 ^ 60.

(** ts_update_verify: both parts and the message for the first block of n bytes; PK.root
    when the end of the signature is reached; PK.seed, if it was not kept, for every block *)
Fixpoint feeds_parts (cfg : config) (p : ps_name) (pk : Z) (PK : list Z) (msg : Z) (M : list Z) (fed : Z) (fs : list feed) : Prop :=
  match fs with
  | [] => True
  | f :: fs =>
    let n := p_n (slh_of p) in
    let L := slh_sig_length (slh_of p) in
    let fed' := fed + len (fd_chunk f) in
    (fed < n <= fed' -> part (fd_mem f) pk PK 0 n /\ part (fd_mem f) pk PK n n /\ holds (fd_mem f) msg M) /\
    (fed < L <= fed' -> part (fd_mem f) pk PK n n) /\
    (fed < L -> fed / n < fed' / n -> seed_kept cfg p = false -> part (fd_mem f) pk PK 0 n) /\
    is_bytes (fd_chunk f) /\ len (fd_chunk f) < 2 ^ 32 /\
    feeds_parts cfg p pk PK msg M fed' fs
  end.
