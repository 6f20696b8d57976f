(** * How long one call can take (C55)

    Signatures are made and checked in pieces.  SpecBlocks.v says how often the hash
    primitives run for each n-byte block; this file says what that amounts to at most for
    one call, however the pieces are cut. *)
From Verif Require Import SpecSLH SpecMap SpecWork SpecBlocks ModelParams.

(** [s] bytes are so many pieces of [n] bytes, the last one perhaps shorter *)
Definition pieces (n s : Z) : Z := (s + n - 1) / n.

(** The time for [x] runs, if a run of the primitive [q] takes the time [w q] *)
Definition time (w : primitive -> Z) (x : primitive -> Z) : Z :=
  w sha256_compression * x sha256_compression
  + w sha512_compression * x sha512_compression
  + w keccak_permutation * x keccak_permutation.
(** Of the machine only this is assumed: times are not negative, and one SHA-512
    compression takes no longer than 16 SHA-256 compressions. *)
Definition plausible (w : primitive -> Z) : Prop :=
  (forall q, 0 <= w q) /\ w sha512_compression <= 16 * w sha256_compression.

Section Set_.
Variables (cfg : config) (p : ps_name).
(** Signing: no block takes more than half the time of a key pair, rounded up: half the
    tree (the other root of two), and one hash of two nodes.  This is twice that. *)
Definition twice_sign_latency (q : primitive) : Z := keygen_runs cfg p q + H_runs cfg p q.
(** Checking: no block but the first takes more than one whole chain and three hashes of
    two nodes. *)
Definition check_latency (q : primitive) : Z := 15 * F_runs cfg p q + 3 * H_runs cfg p q.
(** ... the first one takes this more at most: the message digest *)
Definition first_check_latency (len : Z) (q : primitive) : Z := H_msg_runs p len q + begun_runs cfg p 0 q.
End Set_.
