(** * C semantics with a stack gauge

    The same vocabulary as CSem, for a program whose automatic storage is measured: beside
    its outcome a run has the largest number of bytes that the parameters and automatic
    variables of the functions entered and not yet left took together at any moment of the
    run.  What is counted at a call is written at the call ([call]); everything else in
    this file only takes maxima.

    Nothing in this file models a particular function of /repo. *)
From Verif Require Import CSem.

(** The greatest amount of automatic storage in use during a run, and its outcome *)
Definition stacked (A : Type) : Type := (Z * outcome A)%type.
Definition space {A} (x : stacked A) : Z := fst x.
Definition answer {A} (x : stacked A) : outcome A := snd x.

Definition kret {A} (a : A) : stacked A := (0, Ok a).
Definition kub {A} (r : ub_reason) : stacked A := (0, UB r).
(** A computation that calls no function *)
Definition calm {A} (o : outcome A) : stacked A := (0, o).
(** The call of a function whose parameters and automatic variables take [bytes]: they
    exist as long as the body [x] runs, below whatever [x] itself calls *)
Definition call {A} (bytes : Z) (x : stacked A) : stacked A := (bytes + fst x, snd x).
(** One computation after the other: what the first used has been given back when the
    second begins *)
Definition sbind {A B} (x : stacked A) (f : A -> stacked B) : stacked B :=
  match snd x with
  | Ok a => let y := f a in (Z.max (fst x) (fst y), snd y)
  | UB r => (fst x, UB r)
  end.

Declare Scope stack_scope.
Delimit Scope stack_scope with stack.
Notation "x <- e ;; k" := (sbind e (fun x => k))
  (at level 61, e at next level, right associativity) : stack_scope.
Notation "' p <- e ;; k" := (sbind e (fun p => k))
  (at level 61, p pattern, e at next level, right associativity) : stack_scope.

Notation kif b x y := (if b then x else y) (only parsing).
Notation "'If' b 'Then' x 'Else' y" := (if b then x else y) (at level 200, right associativity, only parsing) : stack_scope.

(** ** The operations of CSem *)
Definition k_int_val (x : Z) : stacked Z := calm (int_val x).
Definition k_shift_count (width k : Z) : stacked Z := calm (shift_count width k).
Definition k_rd {A} (a : list A) (i : Z) : stacked A := calm (rd a i).
Definition k_wr {A} (a : list A) (i : Z) (v : A) : stacked (list A) := calm (wr a i v).
Definition k_rd_range {A} (a : list A) (off len : Z) : stacked (list A) := calm (rd_range a off len).
Definition k_wr_range {A} (a : list A) (off : Z) (src : list A) : stacked (list A) := calm (wr_range a off src).
Definition k_memset {A} (a : list A) (off : Z) (v : A) (len : Z) : stacked (list A) := calm (memset a off v len).
Definition k_defined (l : list (option Z)) : stacked (list Z) := calm (defined l).
Definition k_rd_local (a : list (option Z)) (off len : Z) : stacked (list Z) := calm (rd_local a off len).
Definition k_wr_local (a : list (option Z)) (off : Z) (src : list Z) : stacked (list (option Z)) := calm (wr_local a off src).
Definition k_load (m : memory) (a len : Z) : stacked (list Z) := calm (load m a len).
Definition k_rd_word (le : bool) (sz : nat) (a : list Z) (off i : Z) : stacked Z := calm (rd_word le sz a off i).
Definition k_wr_word (le : bool) (sz : nat) (a : list Z) (off i v : Z) : stacked (list Z) := calm (wr_word le sz a off i v).

Fixpoint k_for {S : Type} (n : nat) (i : Z) (body : Z -> S -> stacked S) (s : S) : stacked S :=
  match n with
  | O => kret s
  | Datatypes.S n' => sbind (body i s) (fun s' => k_for n' (i + 1) body s')
  end.

(** ** Measuring changes nothing: the outcome is that of CSem *)
Lemma answer_bind {A B} (x : stacked A) (f : A -> stacked B) : answer (sbind x f) = bind (answer x) (fun a => answer (f a)).
Proof. unfold answer, sbind. destruct (snd x); reflexivity. Qed.
Lemma answer_if {A} (b : bool) (x y : stacked A) : answer (kif b x y) = if b then answer x else answer y.
Proof. destruct b; reflexivity. Qed.
Lemma answer_ret {A} (a : A) : answer (kret a) = Ok a. Proof. reflexivity. Qed.
Lemma answer_call {A} n (x : stacked A) : answer (call n x) = answer x. Proof. reflexivity. Qed.
Lemma bind_ext2 {A B} (x y : outcome A) (f g : A -> outcome B) : x = y -> (forall a, f a = g a) -> bind x f = bind y g.
Proof. intros -> H. destruct y; [apply H|reflexivity]. Qed.
Lemma answer_for {S} n : forall i (b : Z -> S -> stacked S) (b' : Z -> S -> outcome S) s,
  (forall i s, answer (b i s) = b' i s) -> answer (k_for n i b s) = for_loop n i b' s.
Proof.
  induction n as [|n IH]; intros i b b' s H; [reflexivity|]. cbn [k_for for_loop].
  rewrite answer_bind. apply bind_ext2; [apply H|]. intros a. apply IH, H.
Qed.

(** ** Bounds: at most [n] bytes are in use at any time, and the outcome, if there is one,
    has the property [Q] *)
Definition fits {A} (n : Z) (Q : A -> Prop) (x : stacked A) : Prop :=
  space x <= n /\ forall a, answer x = Ok a -> Q a.
Definition anything {A} (_ : A) : Prop := True.

Lemma fits_le {A} n m (Q : A -> Prop) x : fits n Q x -> n <= m -> fits m Q x.
Proof. intros [H K] L. split; [lia|exact K]. Qed.
Lemma fits_weaken {A} n (Q R : A -> Prop) x : fits n Q x -> (forall a, answer x = Ok a -> Q a -> R a) -> fits n R x.
Proof. intros [H K] L. split; [exact H|]. intros a E. exact (L a E (K a E)). Qed.
Lemma fits_any {A} n (Q : A -> Prop) x : fits n Q x -> fits n anything x.
Proof. intros H. apply (fits_weaken _ _ _ _ H). intros; exact I. Qed.
Lemma fits_ret {A} n (Q : A -> Prop) a : 0 <= n -> Q a -> fits n Q (kret a).
Proof. intros H K. split; [exact H|]. intros b [= <-]. exact K. Qed.
Lemma fits_ub {A} n (Q : A -> Prop) r : 0 <= n -> fits n Q (kub r).
Proof. intros H. split; [exact H|]. intros b [=]. Qed.
Lemma fits_calm {A} n (Q : A -> Prop) o : 0 <= n -> (forall a, o = Ok a -> Q a) -> fits n Q (calm o).
Proof. intros H K. split; [exact H|exact K]. Qed.
Lemma fits_bind {A B} n (Q : A -> Prop) (R : B -> Prop) x f :
  fits n Q x -> (forall a, answer x = Ok a -> Q a -> fits n R (f a)) -> fits n R (sbind x f).
Proof.
  intros [H K] L. unfold fits, space, answer, sbind in *. destruct (snd x) as [a|r]; cbn [fst snd].
  - destruct (L a eq_refl (K a eq_refl)) as [L1 L2]. split; [lia|exact L2].
  - split; [exact H|]. intros b [=].
Qed.
Lemma fits_call {A} n k (Q : A -> Prop) x : fits (n - k) Q x -> fits n Q (call k x).
Proof. intros [H K]. split; [|exact K]. unfold space, call in *. cbn [fst]. lia. Qed.
Lemma fits_if {A} n (Q : A -> Prop) (b : bool) x y : (b = true -> fits n Q x) -> (b = false -> fits n Q y) -> fits n Q (kif b x y).
Proof. intros H K. destruct b; [apply H|apply K]; reflexivity. Qed.
Lemma fits_for {S} n (Q : S -> Prop) m : forall i b s, 0 <= n -> (forall j s, Q s -> fits n Q (b j s)) -> Q s -> fits n Q (k_for m i b s).
Proof.
  induction m as [|m IH]; intros i b s Hn H Hs; cbn [k_for]; [apply fits_ret; assumption|].
  apply (fits_bind _ Q); [apply H, Hs|]. intros a _ Ha. apply IH; assumption.
Qed.
