(** * How often the compression functions run

    SpecWork counts calls of the functions of a parameter set.  Time is spent below them:
    in the compression functions of SHA-256 and SHA-512 and in the permutation of
    SHAKE256.  This file says how many times each of them is to run: for a key pair, for
    each block of a signature that is made, for each block of a signature that is checked,
    with and without TS_SHA2_OPTIMIZATION. *)
From Verif Require Import SpecSLH SpecMap SpecReuse SpecForge SpecLeak SpecWork CLeak ModelParams.

(** ** The primitives, by the number of bytes that they take at once *)
Inductive primitive := sha256_compression | sha512_compression | keccak_permutation.
Definition rate (q : primitive) : Z :=
  match q with sha256_compression => 64 | sha512_compression => 128 | keccak_permutation => 136 end.
Definition is_run (q : primitive) (e : event) : bool :=
  match e with Block size => size =? rate q | _ => false end.
Definition times_run (q : primitive) (tr : list event) : Z := Z.of_nat (length (filter (is_run q) tr)).

(** [k] runs of [q] *)
Definition runs := primitive -> Z.
Definition of_ (q : primitive) (k : Z) : runs := fun q' => if rate q =? rate q' then k else 0.

(** ** Hashing [len] bytes.
    As soon as a block is full it is processed; at the end, padding (at least one byte, and
    for SHA-2 the length in 8 or 16 bytes) fills one or two more. *)
Definition absorbed (q : primitive) (len : Z) : Z := len / rate q.
Definition padding (q : primitive) : Z :=
  match q with sha256_compression => 9 | sha512_compression => 17 | keccak_permutation => 1 end.
Definition hashed (q : primitive) (len : Z) : Z := (len + padding q - 1) / rate q + 1.

(** ** The hash functions of a parameter set *)
(** What F and PRF run on, and what H and T_l run on *)
Definition narrow (p : ps_name) : primitive := if is_sha2 p then sha256_compression else keccak_permutation.
Definition wide (p : ps_name) : primitive :=
  if is_sha2 p then if p_n (slh_of p) =? 16 then sha256_compression else sha512_compression
  else keccak_permutation.
(** The public seed comes first.  For SHA-2 zeros follow, up to a whole block (FIPS 205,
    section 11.2), and the address is compressed to 22 bytes. *)
Definition header (q : primitive) (p : ps_name) : Z :=
  match q with keccak_permutation => p_n (slh_of p) + 32 | _ => rate q + 22 end.
(** The block of the seed has been hashed beforehand *)
Definition saved (cfg : config) (p : ps_name) : Z := if cfg_sha2_opt cfg && is_sha2 p then 1 else 0.

Section Set_.
Variables (cfg : config) (p : ps_name).
Local Notation n := (p_n (slh_of p)).
(** PRF, F *)
Definition PRF_runs : runs := of_ (narrow p) (hashed (narrow p) (header (narrow p) p + n) - saved cfg p).
Definition F_runs : runs := PRF_runs.
(** H and T_l: begun and given [j] strings; complete with [j] strings *)
Definition begun_runs (j : Z) : runs := of_ (wide p) (absorbed (wide p) (header (wide p) p + j * n) - saved cfg p).
Definition T_runs (j : Z) : runs := of_ (wide p) (hashed (wide p) (header (wide p) p + j * n) - saved cfg p).
Definition H_runs : runs := T_runs 2.

(** ** Parts *)
Definition ots_key_runs (q : primitive) : Z := wlen (slh_of p) * (PRF_runs q + 15 * F_runs q) + T_runs (wlen (slh_of p)) q.
Definition fors_leaf_runs (q : primitive) : Z := PRF_runs q + F_runs q.
(** the root of a tree of height [h] *)
Definition subtree_runs (leaf : Z) (h : Z) (q : primitive) : Z := 2 ^ h * leaf + (2 ^ h - 1) * H_runs q.

(** ** The states that are saved: one block of each function that is used *)
Definition prehash_runs (q : primitive) : Z :=
  if cfg_sha2_opt cfg && is_sha2 p then if (rate q =? rate (narrow p)) || (rate q =? rate (wide p)) then 1 else 0 else 0.
Definition keygen_runs (q : primitive) : Z := subtree_runs (ots_key_runs q) (p_h' (slh_of p)) q.

(** ** The message: PRF_msg and H_msg *)
Definition PRF_msg_runs (len : Z) : runs :=
  of_ (wide p)
    match wide p with
    | keccak_permutation => hashed (wide p) (2 * n + len)
    | q => hashed q (rate q + n + len) + hashed q (rate q + rate q / 2)        (* HMAC *)
    end.
(** H_msg is always asked for 49 bytes, the most that a parameter set needs (those of
    SHA2-256f), also where FIPS 205 needs only 30 of them (SHA2-128s) *)
Definition digest_bytes : Z := 49.
Definition H_msg_runs (len : Z) : runs :=
  of_ (wide p)
    match wide p with
    | keccak_permutation => hashed (wide p) (3 * n + len) + (digest_bytes - 1) / 136
    | q => hashed q (3 * n + len)
           + ((digest_bytes - 1) / (rate q / 2) + 1) * hashed q (2 * n + rate q / 2 + 4)   (* MGF1 *)
    end.
Definition init_sign_runs (len : Z) (q : primitive) : Z := PRF_msg_runs len q + H_msg_runs len q + begun_runs 0 q.

(** ** Signing *)
Definition sign_runs (PK M SIG : list Z) (q : primitive) (b : block) : Z :=
  match b with
  | TheRandomiser => 0
  | FewTimeSecret i => PRF_runs q + fors_leaf_runs q
  | FewTimePath i j =>
      subtree_runs (fors_leaf_runs q) j q + H_runs q
      + (if j =? p_a (slh_of p) - 1 then
           (if i =? p_k (slh_of p) - 1 then T_runs (p_k (slh_of p)) q else begun_runs (i + 1) q) - begun_runs i q
         else 0)
  | Chain l x =>
      PRF_runs q + position (slh_of p) (layer_message (slh_of p) M SIG PK l) x * F_runs q
      + (if x =? wlen (slh_of p) - 1 then ots_key_runs q else 0)
  | TreePath l j => subtree_runs (ots_key_runs q) j q + H_runs q
  end.
(** all calls of ts_sign together *)
Definition signature_runs (steps : Z) (q : primitive) : Z :=
  p_k (slh_of p) * (PRF_runs q + subtree_runs (fors_leaf_runs q) (p_a (slh_of p)) q)
  + (T_runs (p_k (slh_of p)) q - begun_runs 0 q)
  + p_d (slh_of p) * (keygen_runs q + wlen (slh_of p) * PRF_runs q) + steps * F_runs q.

(** ** Verification *)
Definition verify_runs (PK M SIG : list Z) (q : primitive) (b : block) : Z :=
  match b with
  | TheRandomiser => H_msg_runs (Z.of_nat (length M)) q + begun_runs 0 q
  | FewTimeSecret i => F_runs q
  | FewTimePath i j =>
      H_runs q
      + (if j =? p_a (slh_of p) - 1 then
           (if i =? p_k (slh_of p) - 1 then T_runs (p_k (slh_of p)) q + begun_runs 0 q else begun_runs (i + 1) q) - begun_runs i q
         else 0)
  | Chain l x =>
      (15 - position (slh_of p) (layer_message (slh_of p) M SIG PK l) x) * F_runs q
      + (if x =? wlen (slh_of p) - 1 then T_runs (wlen (slh_of p)) q else begun_runs (x + 1) q) - begun_runs x q
  | TreePath l j => H_runs q + (if (j =? p_h' (slh_of p) - 1) && (l <? p_d (slh_of p) - 1) then begun_runs 0 q else 0)
  end.
Definition check_runs (len steps : Z) (q : primitive) : Z :=
  H_msg_runs len q
  + p_k (slh_of p) * (F_runs q + p_a (slh_of p) * H_runs q) + T_runs (p_k (slh_of p)) q
  + p_d (slh_of p) * (T_runs (wlen (slh_of p)) q + p_h' (slh_of p) * H_runs q)
  + (15 * (p_d (slh_of p) * wlen (slh_of p)) - steps) * F_runs q.
End Set_.

(** ** Time is about proportional to the bytes that go through the SHA-2 functions *)
Definition sha2_runs (x : primitive -> Z) : Z := x sha256_compression + x sha512_compression.
