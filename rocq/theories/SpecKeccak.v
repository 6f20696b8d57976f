(** * FIPS 202: KECCAK-p[1600,24], the sponge construction, SHAKE256

    Written from the standard, on bit strings; the model is not used here. *)
From Verif Require Import SpecBytes.

(** ** 3.1 State: bits A[x,y,z], 0 <= x,y < 5, 0 <= z < w, w = 64 *)
Definition sarray := Z -> Z -> Z -> bool.

(** 3.1.2 Converting strings to state arrays: A[x,y,z] = S[w(5y+x)+z] *)
Definition array_of_string (S : list bool) : sarray :=
  fun x y z => nth (Z.to_nat (64 * (5 * y + x) + z)) S false.
(** 3.1.3 Converting state arrays to strings *)
Definition string_of_array (A : sarray) : list bool :=
  map (fun i => A (i / 64 mod 5) (i / 320) (i mod 64)) (map Z.of_nat (seq 0 1600)).

(** A state given as 25 words of 64 bits: lane (x,y) is word 5y+x, and bit z of the
    lane is bit z of the word. *)
Definition string_of_lanes (L : list Z) : list bool :=
  flat_map (fun w => map (fun i => Z.testbit w (Z.of_nat i)) (seq 0 64)) L.

(** ** 3.2 Step mappings *)
(** Algorithm 1 *)
Definition theta (A : sarray) : sarray :=
  let C x z := xorb (A x 0 z) (xorb (A x 1 z) (xorb (A x 2 z) (xorb (A x 3 z) (A x 4 z)))) in
  let D x z := xorb (C ((x - 1) mod 5) z) (C ((x + 1) mod 5) ((z - 1) mod 64)) in
  fun x y z => xorb (A x y z) (D x z).

(** Algorithm 2: (x,y) starts at (1,0); for t = 0 .. 23 the lane (x,y) is rotated by
    (t+1)(t+2)/2 and (x,y) becomes (y, (2x+3y) mod 5). *)
Fixpoint rho_from (steps : nat) (t x y : Z) (A A' : sarray) : sarray :=
  match steps with
  | O => A'
  | S k =>
    rho_from k (t + 1) y ((2 * x + 3 * y) mod 5) A
      (fun x' y' z => if (x' =? x) && (y' =? y)
                      then A x y ((z - (t + 1) * (t + 2) / 2) mod 64)
                      else A' x' y' z)
  end.
Definition rho (A : sarray) : sarray := rho_from 24 0 1 0 A (fun x y z => A 0 0 z).

(** Algorithm 3 *)
Definition pi (A : sarray) : sarray := fun x y z => A ((x + 3 * y) mod 5) x z.

(** Algorithm 4 *)
Definition chi (A : sarray) : sarray :=
  fun x y z => xorb (A x y z)
                 (andb (xorb (A ((x + 1) mod 5) y z) true) (A ((x + 2) mod 5) y z)).

(** Algorithm 5: rc(t) *)
Definition lfsr_step (R : list bool) : list bool :=
  let R := false :: R in
  let at_ i := nth i R false in
  let flip i := xorb (at_ i) (at_ 8%nat) in
  [flip 0%nat; at_ 1%nat; at_ 2%nat; at_ 3%nat; flip 4%nat; flip 5%nat; flip 6%nat; at_ 7%nat].
Definition rc (t : Z) : bool :=
  nth 0 (Nat.iter (Z.to_nat (t mod 255)) lfsr_step
           [true; false; false; false; false; false; false; false]) false.

(** Algorithm 6: RC[2^j - 1] = rc(j + 7 ir) for j = 0 .. 6; all other bits are 0 *)
Definition RC (ir z : Z) : bool :=
  existsb (fun j => (z =? 2 ^ j - 1) && rc (j + 7 * ir)) [0; 1; 2; 3; 4; 5; 6].
Definition iota (ir : Z) (A : sarray) : sarray :=
  fun x y z => if (x =? 0) && (y =? 0) then xorb (A x y z) (RC ir z) else A x y z.

(** 3.3 Rnd and Algorithm 7 (n_r = 24, so ir = 0 .. 23) *)
Definition Rnd (A : sarray) (ir : Z) : sarray := iota ir (chi (pi (rho (theta A)))).
Definition keccak_p (S : list bool) : list bool :=
  fold_left (fun S ir => string_of_array (Rnd (array_of_string S) ir))
    (map Z.of_nat (seq 0 24)) S.

(** ** 4 Sponge construction with f = KECCAK-p[1600,24], b = 1600 *)
Definition zeros (n : nat) : list bool := repeat false n.
Fixpoint xors (a b : list bool) : list bool :=
  match a, b with
  | x :: a', y :: b' => xorb x y :: xors a' b'
  | _, _ => []
  end.

(** 5.1 pad10*1 *)
Definition pad101 (x m : Z) : list bool :=
  true :: zeros (Z.to_nat ((- m - 2) mod x)) ++ [true].

(** Algorithm 8; the squeezing phase with [k] more blocks *)
Fixpoint squeeze_blocks (r k : nat) (S : list bool) : list bool :=
  match k with
  | O => []
  | Datatypes.S k' => firstn r S ++ squeeze_blocks r k' (keccak_p S)
  end.
Definition sponge (r : nat) (N : list bool) (d : nat) : list bool :=
  let P := N ++ pad101 (Z.of_nat r) (Z.of_nat (length N)) in
  let S := fold_left (fun S Pi => keccak_p (xors S (Pi ++ zeros (1600 - r))))
             (blocks r P) (zeros 1600) in
  firstn d (squeeze_blocks r (d / r + 1) S).

(** 5.2, 6.2: SHAKE256(M, d) = KECCAK[512](M || 1111, d) *)
Definition SHAKE256_bits (M : list bool) (d : nat) : list bool :=
  sponge (1600 - 512) (M ++ [true; true; true; true]) d.

(** ** B.1 Conversion between byte strings and bit strings: each byte gives its bits
    from the least significant to the most significant *)
Definition bits_of_byte (b : Z) : list bool :=
  map (fun i => Z.testbit b (Z.of_nat i)) (seq 0 8).
Definition bits_of_bytes (m : list Z) : list bool := flat_map bits_of_byte m.
Definition byte_of_bits (l : list bool) : Z :=
  fold_right (fun (b : bool) acc => (if b then 1 else 0) + 2 * acc) 0 l.
Definition bytes_of_bits (l : list bool) : list Z := map byte_of_bits (blocks 8 l).

(** SHAKE256 on byte strings: [n] bytes of output. *)
Definition shake256 (m : list Z) (n : Z) : list Z :=
  bytes_of_bits (SHAKE256_bits (bits_of_bytes m) (8 * Z.to_nat n)).
