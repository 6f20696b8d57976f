(** * How much automatic storage the library needs: the figures (C52)

    In bytes: the parameters and automatic variables of all functions that are active at
    the same time, at the worst moment of a call.  They depend on the compile time options,
    on the size of a pointer and on the parameter set; they depend on no length, no key and
    no message.  Nothing in this file refers to the model of the code, apart from the record
    of compile time options and the names of the parameter sets; the calls are those of
    SpecApi. *)
From Coq Require Import ZArith List.
From Verif Require Import SpecApi ModelParams.
Import ListNotations.
Open Scope Z_scope.

Inductive family : Set := Shake | Sha2_category1 | Sha2_categories35.
Definition family_of (p : ps_name) : family :=
  match p with
  | SHAKE_128f | SHAKE_128s | SHAKE_192f | SHAKE_192s | SHAKE_256f | SHAKE_256s => Shake
  | SHA2_128f | SHA2_128s => Sha2_category1
  | SHA2_192f | SHA2_192s | SHA2_256f | SHA2_256s => Sha2_categories35
  end.

Section Figures.
Variable cfg : config.
(** The size of a pointer *)
Definition w : Z := if cfg_ptr64 cfg then 8 else 4.
(** The longest hash of the supported categories *)
Definition largest : Z := if cfg_L5 cfg then 32 else if cfg_L3 cfg then 24 else 16.
(** The variables of the Keccak permutation, with a call of its rotation *)
Definition keccak : Z := if cfg_shake_opt cfg =? 2 then 72 else if cfg_shake_opt cfg =? 1 then 296 else 496.

Definition init_sign_storage (p : ps_name) : Z :=
  match family_of p with
  | Shake => 26 * w + 61 + largest + keccak
  | Sha2_category1 => 27 * w + 225 + 3 * largest
  | Sha2_categories35 => 7 * w + 53 + largest + Z.max (19 * w + 340) (20 * w + 280 + 2 * largest)
  end.
Definition sign_storage (p : ps_name) : Z :=
  match family_of p with
  | Shake => 27 * w + 76 + keccak
  | Sha2_category1 => 25 * w + 172
  | Sha2_categories35 => 23 * w + 208
  end.
Definition init_verify_storage (p : ps_name) : Z :=
  match family_of p, cfg_sha2_opt cfg with
  | Sha2_category1, true => 15 * w + 84
  | Sha2_categories35, true => 15 * w + 120
  | _, _ => 5 * w
  end.
Definition update_verify_storage (p : ps_name) : Z :=
  match family_of p with
  | Shake => 21 * w + 40 + keccak
  | Sha2_category1 => 22 * w + 204 + 2 * largest
  | Sha2_categories35 => 22 * w + 312 + 2 * largest
  end.
(** Key generation, beside the context that it keeps in an automatic variable *)
Definition keygen_storage (p : ps_name) : Z :=
  match family_of p with
  | Shake => 30 * w + 60 + keccak
  | Sha2_category1 => 28 * w + 156
  | Sha2_categories35 => 26 * w + 192
  end.
(** A whole signature, a whole verification (ts_verify itself has one parameter) *)
Definition signing_storage (p : ps_name) : Z := Z.max (init_sign_storage p) (sign_storage p).
Definition verification_storage (p : ps_name) : Z := Z.max (init_verify_storage p) (update_verify_storage p).
End Figures.

(** ** Call histories on one context *)
(** The parameter set of the context after a call *)
Definition next_set (p : ps_name) (act : action) : ps_name :=
  match act with InitSign _ _ q _ _ => q | InitVerify _ _ q _ => q | _ => p end.
Definition is_init (act : action) : Prop :=
  match act with InitSign _ _ _ _ _ => True | InitVerify _ _ _ _ => True | _ => False end.
(** What a call takes, on a context with parameter set [p] *)
Definition action_storage (cfg : config) (p : ps_name) (act : action) : Z :=
  match act with
  | InitSign _ _ q _ _ => init_sign_storage cfg q
  | Sign _ _ => sign_storage cfg p
  | InitVerify _ _ q _ => init_verify_storage cfg q
  | UpdateVerify _ => update_verify_storage cfg p
  | Verify => w cfg
  end.
Fixpoint history_storage {M} (cfg : config) (p : ps_name) (h : list (M * action)) : Z :=
  match h with
  | [] => 0
  | (_, act) :: h => Z.max (action_storage cfg p act) (history_storage cfg (next_set p act) h)
  end.
