(** * How often the hash functions are called

    A parameter set of the library is a table of functions.  This file says how many
    times each of them is to be called: for a key pair, for each block of a signature that
    is made, and for each block of a signature that is checked. *)
From Verif Require Import SpecSLH SpecMap SpecReuse SpecForge SpecLeak CLeak ModelParams.

(** ** The functions of a parameter set, and what a trace (CLeak) shows of them.  The
    target of a jump has two digits; the first says which function of the table it is. *)
Inductive member := prf_msg | hash_msg | prf | f | init_t | next_t | final_t | prehash.
Definition member_number (m : member) : Z :=
  match m with
  | prf_msg => 1 | hash_msg => 2 | prf => 3 | f => 4 | init_t => 5 | next_t => 6 | final_t => 7 | prehash => 8
  end.
Definition is_call (m : member) (e : event) : bool :=
  match e with Jump target => target / 10 =? member_number m | _ => false end.
Definition times_called (m : member) (tr : list event) : Z := Z.of_nat (length (filter (is_call m) tr)).

(** ** Bills: how many calls of each function *)
Definition bill := member -> Z.
Definition nothing : bill := fun _ => 0.
Definition one (m : member) : bill := fun m' => if member_number m =? member_number m' then 1 else 0.
Definition plus (x y : bill) : bill := fun m => x m + y m.
Definition times (k : Z) (x : bill) : bill := fun m => k * x m.
Infix "[+]" := plus (at level 50, left associativity).
Infix "[*]" := times (at level 40).
Definition if_last (b : bool) (x : bill) : bill := if b then x else nothing.

(** ** Parts.  T_l and H are computed by one init_t, one next_t for each n-byte string,
    and one final_t. *)
(** the parent of two nodes *)
Definition H_bill : bill := one init_t [+] 2 [*] one next_t [+] one final_t.
(** a FORS leaf from the secret seed *)
Definition fors_leaf_bill : bill := one prf [+] one f.
(** a one-time public key from the secret seed: all chains, from start to end *)
Definition ots_key_bill (P : params) : bill :=
  one init_t [+] wlen P [*] (one prf [+] 15 [*] one f [+] one next_t) [+] one final_t.
(** the root of a tree of height [j], from the secret seed *)
Definition subtree_bill (leaf : bill) (j : Z) : bill := 2 ^ j [*] leaf [+] (2 ^ j - 1) [*] H_bill.

(** ** Key generation: one tree of the top layer, nothing else *)
Definition is_sha2 (p : ps_name) : bool :=
  match p with
  | SHA2_128f | SHA2_128s | SHA2_192f | SHA2_192s | SHA2_256f | SHA2_256s => true
  | _ => false
  end.
(** With the SHA-2 optimisation, the states after the first blocks are computed beforehand *)
Definition prehash_bill (cfg : config) (p : ps_name) : bill :=
  if cfg_sha2_opt cfg && is_sha2 p then one prehash else nothing.
Definition keygen_bill (P : params) : bill := subtree_bill (ots_key_bill P) (p_h' P).

(** ** Signing *)
(** ts_init_sign: the randomiser, the message digest; the hash of the FORS roots is begun *)
Definition init_sign_bill : bill := one prf_msg [+] one hash_msg [+] one init_t.
(** A block of the signature:
    - a FORS secret, and its leaf;
    - node [j] of a FORS authentication path: the root of a subtree of height [j]; and its
      parent.  After the last one of a tree, the root goes into the FORS public key, and
      after the last tree that is complete;
    - a chain, up to the position that the digit tells.  After the last one, the public
      key of this one-time key;
    - node [j] of the authentication path of the one-time key, and its parent. *)
Definition sign_bill (P : params) (PK M SIG : list Z) (b : block) : bill :=
  match b with
  | TheRandomiser => nothing
  | FewTimeSecret i => one prf [+] fors_leaf_bill
  | FewTimePath i j =>
      subtree_bill fors_leaf_bill j [+] H_bill
      [+] if_last (j =? p_a P - 1) (one next_t [+] if_last (i =? p_k P - 1) (one final_t))
  | Chain l q =>
      one prf [+] position P (layer_message P M SIG PK l) q [*] one f
      [+] if_last (q =? wlen P - 1) (ots_key_bill P)
  | TreePath l j => subtree_bill (ots_key_bill P) j [+] H_bill
  end.

(** ** Verification
    - the randomiser: the message digest; the hash of the FORS roots is begun;
    - a FORS secret: its leaf;
    - a node of a FORS authentication path: the parent (and as above; then the first
      one-time public key is begun);
    - a chain: the rest of it, and its end goes into the one-time public key;
    - a node of the other authentication paths: the parent; after the last one of a layer
      the next one-time public key is begun. *)
Definition verify_bill (P : params) (PK M SIG : list Z) (b : block) : bill :=
  match b with
  | TheRandomiser => one hash_msg [+] one init_t
  | FewTimeSecret i => one f
  | FewTimePath i j =>
      H_bill [+] if_last (j =? p_a P - 1) (one next_t [+] if_last (i =? p_k P - 1) (one final_t [+] one init_t))
  | Chain l q =>
      (15 - position P (layer_message P M SIG PK l) q) [*] one f [+] one next_t
      [+] if_last (q =? wlen P - 1) (one final_t)
  | TreePath l j => H_bill [+] if_last ((j =? p_h' P - 1) && (l <? p_d P - 1)) (one init_t)
  end.

(** ** Sums over the blocks of a signature.  [xs] has one number for each block of [n] bytes. *)
Definition sum (xs : list Z) : Z := fold_right Z.add 0 xs.
(** those that begin before byte [u] *)
Definition begun (n : Z) (xs : list Z) (u : Z) : Z :=
  sum (map (fun i => if n * Z.of_nat i <? u then nth i xs 0 else 0) (seq 0 (length xs))).
(** those that are complete with [u] bytes *)
Definition complete (n : Z) (xs : list Z) (u : Z) : Z :=
  sum (map (fun i => if n * (Z.of_nat i + 1) <=? u then nth i xs 0 else 0) (seq 0 (length xs))).

(** ** Whole signatures *)
(** The steps from the starts of all chains to the values that the signature shows *)
Definition chain_steps (P : params) (PK M SIG : list Z) : Z :=
  sum (flat_map (fun l => map (position P (layer_message P M SIG PK l)) (upto (wlen P))) (upto (p_d P))).
(** All calls of ts_sign together: the secrets and the trees of FORS; and for each layer a
    whole tree, as for key generation, the starts of the chains, and the steps *)
Definition signature_bill (P : params) (steps : Z) : bill :=
  p_k P [*] (one prf [+] subtree_bill fors_leaf_bill (p_a P) [+] one next_t) [+] one final_t
  [+] p_d P [*] (keygen_bill P [+] wlen P [*] one prf) [+] steps [*] one f.
(** All calls of ts_update_verify together *)
Definition check_bill (P : params) (steps : Z) : bill :=
  one hash_msg
  [+] (one init_t [+] p_k P [*] (one f [+] p_a P [*] H_bill [+] one next_t) [+] one final_t)
  [+] p_d P [*] (one init_t [+] wlen P [*] one next_t [+] one final_t [+] p_h' P [*] H_bill)
  [+] (15 * (p_d P * wlen P) - steps) [*] one f.
