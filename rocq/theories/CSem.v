(** * C semantics used by the model

    A small vocabulary for transcribing the C sources: outcomes with undefined
    behaviour as a distinct result, fixed width integers, bounds checked arrays,
    flat caller memory, words stored in host byte order, loops.

    Nothing in this file models a particular function of /repo. *)
From Coq Require Export List ZArith Lia Bool.
Export ListNotations.
Open Scope Z_scope.

(** ** Outcomes *)

(** Why a run has no defined meaning in C.  [NonTermination] is reported by a loop
    whose fuel is exhausted (a theorem that excludes it proves termination). *)
Inductive ub_reason : Set :=
| OutOfBounds      (* access outside an array *)
| BadPointer       (* access to caller memory that is not mapped *)
| Overlap          (* memcpy between overlapping objects *)
| BadShift         (* shift count out of range *)
| SignedOverflow   (* result of int arithmetic not representable *)
| Uninitialised    (* read of a local variable that was never assigned *)
| NonTermination.  (* loop exceeded its fuel *)

Inductive outcome (A : Type) : Type :=
| Ok (a : A)
| UB (r : ub_reason).
Arguments Ok {A} a.
Arguments UB {A} r.

Definition bind {A B} (x : outcome A) (f : A -> outcome B) : outcome B :=
  match x with
  | Ok a => f a
  | UB r => UB r
  end.

Notation "x <- e ;; k" := (bind e (fun x => k))
  (at level 61, e at next level, right associativity).
Notation "' p <- e ;; k" := (bind e (fun p => k))
  (at level 61, p pattern, e at next level, right associativity).

(** ** Fixed width unsigned integers: conversion to the C type *)
Definition u8  (x : Z) : Z := x mod 2 ^ 8.
Definition u16 (x : Z) : Z := x mod 2 ^ 16.
Definition u32 (x : Z) : Z := x mod 2 ^ 32.
Definition u64 (x : Z) : Z := x mod 2 ^ 64.

(** Result of signed [int] arithmetic (32 bits): undefined if not representable. *)
Definition int_val (x : Z) : outcome Z :=
  if (- 2 ^ 31 <=? x) && (x <? 2 ^ 31) then Ok x else UB SignedOverflow.

(** Shift counts must be smaller than the width of the (promoted) left operand. *)
Definition shift_count (width k : Z) : outcome Z :=
  if (0 <=? k) && (k <? width) then Ok k else UB BadShift.

(** ** Arrays: lists with bounds checked access *)
Definition zlen {A} (l : list A) : Z := Z.of_nat (length l).

(** [a[i]] *)
Definition rd {A} (a : list A) (i : Z) : outcome A :=
  if (0 <=? i) then
    match nth_error a (Z.to_nat i) with
    | Some v => Ok v
    | None => UB OutOfBounds
    end
  else UB OutOfBounds.

(** [a[i] = v] *)
Definition wr {A} (a : list A) (i : Z) (v : A) : outcome (list A) :=
  if (0 <=? i) && (i <? zlen a) then
    Ok (firstn (Z.to_nat i) a ++ v :: skipn (S (Z.to_nat i)) a)
  else UB OutOfBounds.

(** Read [len] elements from [&a[off]] (source of a memcpy). *)
Definition rd_range {A} (a : list A) (off len : Z) : outcome (list A) :=
  if (0 <=? off) && (0 <=? len) && (off + len <=? zlen a) then
    Ok (firstn (Z.to_nat len) (skipn (Z.to_nat off) a))
  else UB OutOfBounds.

(** memcpy( &a[off], src, length src ) *)
Definition wr_range {A} (a : list A) (off : Z) (src : list A) : outcome (list A) :=
  if (0 <=? off) && (off + zlen src <=? zlen a) then
    Ok (firstn (Z.to_nat off) a ++ src ++ skipn (Z.to_nat off + length src) a)
  else UB OutOfBounds.

(** memset( &a[off], v, len ) *)
Definition memset {A} (a : list A) (off : Z) (v : A) (len : Z) : outcome (list A) :=
  if (0 <=? off) && (0 <=? len) && (off + len <=? zlen a) then
    Ok (firstn (Z.to_nat off) a ++ repeat v (Z.to_nat len)
        ++ skipn (Z.to_nat off + Z.to_nat len) a)
  else UB OutOfBounds.

(** ** Automatic arrays without initialiser: [None] is a byte that was never assigned;
    reading one is reported as [Uninitialised]. *)
Definition uninit (n : Z) : list (option Z) := repeat None (Z.to_nat n).
Fixpoint defined (l : list (option Z)) : outcome (list Z) :=
  match l with
  | [] => Ok []
  | Some v :: r => r <- defined r ;; Ok (v :: r)
  | None :: _ => UB Uninitialised
  end.
(** Read [len] bytes from [&a[off]]; store bytes at [&a[off]]. *)
Definition rd_local (a : list (option Z)) (off len : Z) : outcome (list Z) :=
  s <- rd_range a off len ;; defined s.
Definition wr_local (a : list (option Z)) (off : Z) (src : list Z) : outcome (list (option Z)) :=
  wr_range a off (map Some src).

(** ** Caller memory: a byte at each mapped address.
    Keys and messages live here; an API call sees the memory as it is at that call. *)
Definition memory := Z -> option Z.

(** Read [n] bytes from address [a]. *)
Fixpoint load_n (m : memory) (a : Z) (n : nat) : outcome (list Z) :=
  match n with
  | O => Ok []
  | S n' =>
    match m a with
    | None => UB BadPointer
    | Some b => l <- load_n m (a + 1) n' ;; Ok (b :: l)
    end
  end.

Definition load (m : memory) (a len : Z) : outcome (list Z) :=
  if 0 <=? len then load_n m a (Z.to_nat len) else UB BadPointer.

(** The memory in which exactly the bytes [l] are mapped, starting at [a]. *)
Definition mem_of (a : Z) (l : list Z) : memory :=
  fun x => if (a <=? x) && (x <? a + zlen l) then nth_error l (Z.to_nat (x - a)) else None.

(** ** Words in host byte order ([le = true]: little-endian host) *)
Fixpoint enc_le (sz : nat) (v : Z) : list Z :=
  match sz with
  | O => []
  | S k => (v mod 256) :: enc_le k (v / 256)
  end.

Fixpoint dec_le (l : list Z) : Z :=
  match l with
  | [] => 0
  | b :: r => b + 256 * dec_le r
  end.

Definition enc_word (le : bool) (sz : nat) (v : Z) : list Z :=
  if le then enc_le sz v else rev (enc_le sz v).
Definition dec_word (le : bool) (l : list Z) : Z :=
  if le then dec_le l else dec_le (rev l).

(** [((uintN_t * )a)[i]] and [((uintN_t * )a)[i] = v] for a byte array [a] that
    holds an array of [sz]-byte words starting at byte [off]. *)
Definition rd_word (le : bool) (sz : nat) (a : list Z) (off i : Z) : outcome Z :=
  l <- rd_range a (off + Z.of_nat sz * i) (Z.of_nat sz) ;; Ok (dec_word le l).
Definition wr_word (le : bool) (sz : nat) (a : list Z) (off i v : Z) : outcome (list Z) :=
  wr_range a (off + Z.of_nat sz * i) (enc_word le sz v).

(** Arrays of words as byte strings. *)
Definition enc_words (le : bool) (sz : nat) (ws : list Z) : list Z :=
  flat_map (enc_word le sz) ws.

(** ** Loops *)

(** [for (i = i0; i < i0 + n; i++) body] *)
Fixpoint for_loop {S : Type} (n : nat) (i : Z) (body : Z -> S -> outcome S) (s : S)
  : outcome S :=
  match n with
  | O => Ok s
  | Datatypes.S n' => s' <- body i s ;; for_loop n' (i + 1) body s'
  end.
