(** * FIPS 180-4: SHA-256 and SHA-512; FIPS 198-1: HMAC; RFC 8017: MGF1

    Written from the standards; the model is not used here. *)
From Verif Require Import SpecBytes.

(** ** Constants: "the first w bits of the fractional parts of the cube (square) roots
    of the first ... prime numbers" (4.2.2, 4.2.3, 5.3.3, 5.3.5) *)
Definition is_prime_nat (p : nat) : bool :=
  (2 <=? p)%nat && forallb (fun q => negb (Nat.eqb (Nat.modulo p q) 0)) (seq 2 (p - 2)).
Definition primes_below (b : nat) : list Z := map Z.of_nat (filter is_prime_nat (seq 0 b)).
(** There are 80 primes below 410, 64 below 312, 8 below 20. *)

(** The largest x < 2^bits with x^k <= v. *)
Fixpoint root_bits (bits : nat) (k v acc : Z) : Z :=
  match bits with
  | O => acc
  | S b =>
    let acc' := acc + 2 ^ Z.of_nat b in
    root_bits b k v (if acc' ^ k <=? v then acc' else acc)
  end.
(** floor( frac( p^(1/k) ) * 2^w ), for p < 2^(5k) *)
Definition frac_root (k w p : Z) : Z :=
  root_bits (Z.to_nat (w + 5)) k (p * 2 ^ (k * w)) 0 mod 2 ^ w.

(** ** The two variants *)
Record variant := mkVariant {
  v_w : Z;                  (* word size in bits *)
  v_Sigma0 : Z * Z * Z;     (* three rotations *)
  v_Sigma1 : Z * Z * Z;
  v_sigma0 : Z * Z * Z;     (* two rotations, one shift *)
  v_sigma1 : Z * Z * Z;
  v_K : list Z;             (* one constant per round *)
  v_H0 : list Z             (* initial hash value *)
}.

(** 4.1.2, 4.2.2, 5.3.3 *)
Definition SHA256 : variant :=
  mkVariant 32 (2, 13, 22) (6, 11, 25) (7, 18, 3) (17, 19, 10)
    (map (frac_root 3 32) (primes_below 312)) (map (frac_root 2 32) (primes_below 20)).
(** 4.1.3, 4.2.3, 5.3.5 *)
Definition SHA512 : variant :=
  mkVariant 64 (28, 34, 39) (14, 18, 41) (1, 8, 7) (19, 61, 6)
    (map (frac_root 3 64) (primes_below 410)) (map (frac_root 2 64) (primes_below 20)).

(** ** 3.2, 4.1: operations on w-bit words *)
Definition ROTR (w n x : Z) : Z := Z.lor (Z.shiftr x n) (Z.shiftl x (w - n) mod 2 ^ w).
Definition SHR (n x : Z) : Z := Z.shiftr x n.
Definition bnot (w x : Z) : Z := Z.lxor x (Z.ones w).
Definition Ch (w x y z : Z) : Z := Z.lxor (Z.land x y) (Z.land (bnot w x) z).
Definition Maj (x y z : Z) : Z :=
  Z.lxor (Z.lxor (Z.land x y) (Z.land x z)) (Z.land y z).
Definition big_sigma (w : Z) (r : Z * Z * Z) (x : Z) : Z :=
  let '(a, b, c) := r in Z.lxor (Z.lxor (ROTR w a x) (ROTR w b x)) (ROTR w c x).
Definition small_sigma (w : Z) (r : Z * Z * Z) (x : Z) : Z :=
  let '(a, b, c) := r in Z.lxor (Z.lxor (ROTR w a x) (ROTR w b x)) (SHR c x).

Section Hash.
Variable v : variant.
Let w := v_w v.
Let word_bytes : nat := Z.to_nat (w / 8).
Let block_bytes : nat := (16 * word_bytes)%nat.

(** 5.1: padding: the bit 1, zeros, and the length in bits as a 2w-bit integer *)
Definition pad (m : list Z) : list Z :=
  let zeros := (Z.of_nat block_bytes - 1 - 2 * Z.of_nat word_bytes - len m)
                 mod Z.of_nat block_bytes in
  m ++ [128] ++ repeat 0 (Z.to_nat zeros) ++ toByte (8 * len m) (2 * word_bytes).

(** 6.2.2 step 1: the message schedule W_0 .. W_{rounds-1} *)
Definition next_W (W : list Z) : Z :=
  let t := length W in
  let at_ i := nth (t - i) W 0 in
  (small_sigma w (v_sigma1 v) (at_ 2%nat) + at_ 7%nat
   + small_sigma w (v_sigma0 v) (at_ 15%nat) + at_ 16%nat) mod 2 ^ w.
Fixpoint extend (k : nat) (W : list Z) : list Z :=
  match k with
  | O => W
  | S k' => extend k' (W ++ [next_W W])
  end.
Definition schedule (block : list Z) : list Z :=
  extend (length (v_K v) - 16) (map toInt (blocks word_bytes block)).

(** 6.2.2 step 3: one round *)
Definition vars : Type := Z * Z * Z * Z * Z * Z * Z * Z.
Definition round (s : vars) (kw : Z * Z) : vars :=
  let '(a, b, c, d, e, f, g, h) := s in
  let '(K_t, W_t) := kw in
  let T1 := (h + big_sigma w (v_Sigma1 v) e + Ch w e f g + K_t + W_t) mod 2 ^ w in
  let T2 := (big_sigma w (v_Sigma0 v) a + Maj a b c) mod 2 ^ w in
  ((T1 + T2) mod 2 ^ w, a, b, c, (d + T1) mod 2 ^ w, e, f, g).

(** 6.2.2 steps 2-4 *)
Definition hash_block (H : list Z) (block : list Z) : list Z :=
  let at_ i := nth i H 0 in
  let '(a, b, c, d, e, f, g, h) :=
    fold_left round (combine (v_K v) (schedule block))
      (at_ 0, at_ 1, at_ 2, at_ 3, at_ 4, at_ 5, at_ 6, at_ 7)%nat in
  [(a + at_ 0%nat) mod 2 ^ w; (b + at_ 1%nat) mod 2 ^ w; (c + at_ 2%nat) mod 2 ^ w;
   (d + at_ 3%nat) mod 2 ^ w; (e + at_ 4%nat) mod 2 ^ w; (f + at_ 5%nat) mod 2 ^ w;
   (g + at_ 6%nat) mod 2 ^ w; (h + at_ 7%nat) mod 2 ^ w].

(** 6.2, 6.4: the digest of a byte string *)
Definition sha2 (m : list Z) : list Z :=
  flat_map (fun x => toByte x word_bytes)
    (fold_left hash_block (blocks block_bytes (pad m)) (v_H0 v)).

(** FIPS 198-1: HMAC for a key not longer than a block *)
Definition HMAC (key text : list Z) : list Z :=
  let k0 := key ++ repeat 0 (block_bytes - length key) in
  sha2 (map (Z.lxor 0x5c) k0 ++ sha2 (map (Z.lxor 0x36) k0 ++ text)).

(** RFC 8017 B.2.1: MGF1 *)
Definition MGF1 (seed : list Z) (maskLen : Z) : list Z :=
  let hLen := 8 * Z.of_nat word_bytes in
  firstn (Z.to_nat maskLen)
    (flat_map (fun counter => sha2 (seed ++ toByte (Z.of_nat counter) 4))
       (seq 0 (Z.to_nat ((maskLen + hLen - 1) / hLen)))).
End Hash.
