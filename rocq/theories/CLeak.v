(** * C semantics with an observer

    The same vocabulary as CSem, for a program that is watched: beside its outcome a run
    has a trace of everything the processor does visibly at the level of C, namely which
    way each branch goes, which array elements and addresses each access touches, and by
    how much values are shifted (where it is not a constant).
    The values read, written and computed are not in the trace.

    Nothing in this file models a particular function of /repo. *)
From Verif Require Import CSem.

Inductive event : Set :=
| Branch (b : bool)        (* an if, a conditional expression, a loop condition *)
| Read (off len : Z)       (* elements [off, off+len) of the array at hand are read *)
| Write (off len : Z)      (* ... are written *)
| Fetch (addr len : Z)     (* bytes of caller memory are read *)
| Jump (target : Z)        (* a call through a function pointer *)
| Shift (count : Z)        (* a shift by a count that is not a constant *)
| Loop (n : Z)             (* a loop that makes n passes over n consecutive bytes *)
| Block (size : Z).        (* a run of the compression function or permutation that takes
                              blocks of [size] bytes: 64 SHA-256, 128 SHA-512, 136 SHAKE256 *)

(** The trace of a run and its outcome *)
Definition leaky (A : Type) : Type := (list event * outcome A)%type.
Definition trace {A} (x : leaky A) : list event := fst x.
Definition result {A} (x : leaky A) : outcome A := snd x.

Definition lret {A} (a : A) : leaky A := ([], Ok a).
Definition lub {A} (r : ub_reason) : leaky A := ([], UB r).
(** A computation without visible effects *)
Definition quiet {A} (o : outcome A) : leaky A := ([], o).
Definition tick {A} (e : event) (x : leaky A) : leaky A := (e :: fst x, snd x).
Definition lbind {A B} (x : leaky A) (f : A -> leaky B) : leaky B :=
  match snd x with
  | Ok a => (fst x ++ fst (f a), snd (f a))
  | UB r => (fst x, UB r)
  end.

Declare Scope leak_scope.
Delimit Scope leak_scope with leak.
Notation "x <- e ;; k" := (lbind e (fun x => k))
  (at level 61, e at next level, right associativity) : leak_scope.
Notation "' p <- e ;; k" := (lbind e (fun p => k))
  (at level 61, p pattern, e at next level, right associativity) : leak_scope.

(** A branch: the condition is visible *)
Definition lif {A} (b : bool) (x y : leaky A) : leaky A := tick (Branch b) (if b then x else y).
Notation "'If' b 'Then' x 'Else' y" := (lif b x y) (at level 200, right associativity) : leak_scope.

(** ** The operations of CSem: the positions are visible, the contents are not *)
Definition l_int_val (x : Z) : leaky Z := quiet (int_val x).
Definition l_shift_count (width k : Z) : leaky Z := tick (Shift k) (quiet (shift_count width k)).
Definition l_rd {A} (a : list A) (i : Z) : leaky A := tick (Read i 1) (quiet (rd a i)).
Definition l_wr {A} (a : list A) (i : Z) (v : A) : leaky (list A) := tick (Write i 1) (quiet (wr a i v)).
Definition l_rd_range {A} (a : list A) (off len : Z) : leaky (list A) := tick (Read off len) (quiet (rd_range a off len)).
Definition l_wr_range {A} (a : list A) (off : Z) (src : list A) : leaky (list A) :=
  tick (Write off (zlen src)) (quiet (wr_range a off src)).
Definition l_memset {A} (a : list A) (off : Z) (v : A) (len : Z) : leaky (list A) :=
  tick (Write off len) (quiet (memset a off v len)).
Definition l_defined (l : list (option Z)) : leaky (list Z) := quiet (defined l).
Definition l_rd_local (a : list (option Z)) (off len : Z) : leaky (list Z) := tick (Read off len) (quiet (rd_local a off len)).
Definition l_wr_local (a : list (option Z)) (off : Z) (src : list Z) : leaky (list (option Z)) :=
  tick (Write off (zlen src)) (quiet (wr_local a off src)).
Definition l_load (m : memory) (a len : Z) : leaky (list Z) := tick (Fetch a len) (quiet (load m a len)).
Definition l_rd_word (le : bool) (sz : nat) (a : list Z) (off i : Z) : leaky Z :=
  tick (Read (off + Z.of_nat sz * i) (Z.of_nat sz)) (quiet (rd_word le sz a off i)).
Definition l_wr_word (le : bool) (sz : nat) (a : list Z) (off i v : Z) : leaky (list Z) :=
  tick (Write (off + Z.of_nat sz * i) (Z.of_nat sz)) (quiet (wr_word le sz a off i v)).

(** A loop: each evaluation of the condition is visible *)
Fixpoint l_for {S : Type} (n : nat) (i : Z) (body : Z -> S -> leaky S) (s : S) : leaky S :=
  match n with
  | O => tick (Branch false) (lret s)
  | Datatypes.S n' => tick (Branch true) (lbind (body i s) (fun s' => l_for n' (i + 1) body s'))
  end.

(** ** Watching changes nothing: the outcome is that of CSem *)
Lemma result_bind {A B} (x : leaky A) (f : A -> leaky B) : result (lbind x f) = bind (result x) (fun a => result (f a)).
Proof. unfold result, lbind. destruct (snd x); reflexivity. Qed.
Lemma result_if {A} (b : bool) (x y : leaky A) : result (lif b x y) = if b then result x else result y.
Proof. destruct b; reflexivity. Qed.
Lemma result_ret {A} (a : A) : result (lret a) = Ok a. Proof. reflexivity. Qed.
Lemma result_tick {A} e (x : leaky A) : result (tick e x) = result x. Proof. reflexivity. Qed.
Lemma bind_ext2 {A B} (x y : outcome A) (f g : A -> outcome B) : x = y -> (forall a, f a = g a) -> bind x f = bind y g.
Proof. intros -> H. destruct y; [apply H|reflexivity]. Qed.
Lemma result_for {S} n : forall i (b : Z -> S -> leaky S) (b' : Z -> S -> outcome S) s,
  (forall i s, result (b i s) = b' i s) -> result (l_for n i b s) = for_loop n i b' s.
Proof.
  induction n as [|n IH]; intros i b b' s H; [reflexivity|]. cbn [l_for for_loop].
  rewrite result_tick, result_bind. apply bind_ext2; [apply H|]. intros a. apply IH, H.
Qed.

(** ** Two runs side by side: whenever both have an outcome, the traces are equal and the
    outcomes related *)
Definition sim {A B} (R : A -> B -> Prop) (x : leaky A) (y : leaky B) : Prop :=
  forall a b, result x = Ok a -> result y = Ok b -> trace x = trace y /\ R a b.

Lemma sim_ret {A B} (R : A -> B -> Prop) a b : R a b -> sim R (lret a) (lret b).
Proof. intros H ? ? [= <-] [= <-]. split; [reflexivity|exact H]. Qed.
Lemma sim_ub_l {A B} (R : A -> B -> Prop) r y : sim R (lub r) y.
Proof. intros ? ? [=]. Qed.
Lemma sim_quiet {A B} (R : A -> B -> Prop) x y : (forall a b, x = Ok a -> y = Ok b -> R a b) -> sim R (quiet x) (quiet y).
Proof. intros H a b E F. split; [reflexivity|apply H; assumption]. Qed.
Lemma sim_tick {A B} (R : A -> B -> Prop) e e' x y : e = e' -> sim R x y -> sim R (tick e x) (tick e' y).
Proof. intros -> H a b E F. destruct (H a b E F) as [T HR]. split; [|exact HR]. unfold trace, tick in *. cbn [fst]. f_equal. exact T. Qed.
Lemma sim_bind {A B C D} (Q : A -> B -> Prop) (R : C -> D -> Prop) x y f g : sim Q x y ->
  (forall a b, result x = Ok a -> result y = Ok b -> Q a b -> sim R (f a) (g b)) -> sim R (lbind x f) (lbind y g).
Proof.
  intros H K c d E F. rewrite result_bind in E. rewrite result_bind in F.
  destruct (result x) as [a|] eqn:Ex; [|discriminate]. destruct (result y) as [b|] eqn:Ey; [|discriminate]. cbn [bind] in E, F.
  destruct (H a b Ex Ey) as [T HQ]. destruct (K a b eq_refl eq_refl HQ c d E F) as [T' HR]. split; [|exact HR].
  unfold result, trace, lbind in *. rewrite Ex, Ey. cbn [fst]. congruence.
Qed.
Lemma sim_if {A B} (R : A -> B -> Prop) b b' x y x' y' : b = b' -> (b = true -> sim R x x') -> (b = false -> sim R y y') ->
  sim R (lif b x y) (lif b' x' y').
Proof. intros <- H K. unfold lif. apply sim_tick; [reflexivity|]. destruct b; [apply H|apply K]; reflexivity. Qed.
Lemma sim_weaken {A B} (Q R : A -> B -> Prop) x y : sim Q x y -> (forall a b, result x = Ok a -> result y = Ok b -> Q a b -> R a b) -> sim R x y.
Proof. intros H K a b E F. destruct (H a b E F) as [T HQ]. split; [exact T|apply K; assumption]. Qed.
Lemma sim_for {S T} (R : S -> T -> Prop) n : forall i b b' s t, (forall j s t, i <= j < i + Z.of_nat n -> R s t -> sim R (b j s) (b' j t)) ->
  R s t -> sim R (l_for n i b s) (l_for n i b' t).
Proof.
  induction n as [|n IH]; intros i b b' s t H HR; cbn [l_for]; (apply sim_tick; [reflexivity|]).
  - apply sim_ret, HR.
  - apply (sim_bind R); [apply H; [lia|exact HR]|]. intros a c _ _ HR'. apply IH; [|exact HR']. intros j s' t' Hj. apply H. lia.
Qed.
(** Facts about each run alone *)
Lemma sim_both {A B} (R : A -> B -> Prop) x y : sim R x y -> sim (fun a b => R a b /\ result x = Ok a /\ result y = Ok b) x y.
Proof. intros H a b E F. destruct (H a b E F) as [T HR]. split; [exact T|]. auto. Qed.

(** Anything is related to anything *)
Definition any {A B} (_ : A) (_ : B) : Prop := True.
Definition samelen {A B} (a : list A) (b : list B) : Prop := length a = length b.
Lemma sim_int_val x y : sim any (l_int_val x) (l_int_val y). Proof. apply sim_quiet. intros; exact I. Qed.
Lemma sim_shift_count w x : sim eq (l_shift_count w x) (l_shift_count w x).
Proof. apply sim_tick; [reflexivity|]. apply sim_quiet. intros; congruence. Qed.
Lemma sim_rd {A B} (a : list A) (b : list B) i : sim any (l_rd a i) (l_rd b i).
Proof. apply sim_tick; [reflexivity|]. apply sim_quiet. intros; exact I. Qed.
Lemma sim_wr {A B} (a : list A) (b : list B) i v w : sim any (l_wr a i v) (l_wr b i w).
Proof. apply sim_tick; [reflexivity|]. apply sim_quiet. intros; exact I. Qed.
Lemma rd_range_length {A} (a l : list A) o k : rd_range a o k = Ok l -> length l = Z.to_nat k.
Proof.
  unfold rd_range. destruct ((0 <=? o) && (0 <=? k) && (o + k <=? zlen a)) eqn:E; [|discriminate]. intros [= <-].
  apply andb_prop in E. destruct E as [E E3]. apply andb_prop in E. destruct E as [E1 E2].
  apply Z.leb_le in E1, E2, E3. unfold zlen in E3. rewrite firstn_length, skipn_length. lia.
Qed.
Lemma load_n_length m n : forall a l, load_n m a n = Ok l -> length l = n.
Proof.
  induction n as [|n IH]; intros a l; cbn [load_n]; [intros [= <-]; reflexivity|].
  destruct (m a) as [b|]; [|discriminate]. destruct (load_n m (a + 1) n) as [r|] eqn:E; [|discriminate]. cbn [bind]. intros [= <-].
  cbn [length]. f_equal. exact (IH _ _ E).
Qed.
Lemma load_length m a n l : load m a n = Ok l -> length l = Z.to_nat n.
Proof. unfold load. destruct (0 <=? n); [|discriminate]. apply load_n_length. Qed.
Lemma sim_rd_range {A B} (a : list A) (b : list B) o k : sim samelen (l_rd_range a o k) (l_rd_range b o k).
Proof. apply sim_tick; [reflexivity|]. apply sim_quiet. intros x y Hx Hy. apply rd_range_length in Hx, Hy. unfold samelen. congruence. Qed.
Lemma sim_wr_range {A B} (a : list A) (b : list B) o s t : samelen s t -> sim any (l_wr_range a o s) (l_wr_range b o t).
Proof. intros H. apply sim_tick; [unfold zlen; rewrite H; reflexivity|]. apply sim_quiet. intros; exact I. Qed.
Lemma sim_memset {A B} (a : list A) (b : list B) o v w k : sim any (l_memset a o v k) (l_memset b o w k).
Proof. apply sim_tick; [reflexivity|]. apply sim_quiet. intros; exact I. Qed.
Lemma defined_length l : forall r, defined l = Ok r -> length r = length l.
Proof.
  induction l as [|[v|] l IH]; intros r; cbn [defined]; [intros [= <-]; reflexivity| |discriminate].
  destruct (defined l) as [s|] eqn:E; [|discriminate]. cbn [bind]. intros [= <-]. cbn [length]. f_equal. apply IH. reflexivity.
Qed.
Lemma sim_defined a b : samelen a b -> sim samelen (l_defined a) (l_defined b).
Proof. intros H. apply sim_quiet. intros x y Hx Hy. apply defined_length in Hx, Hy. unfold samelen in *. congruence. Qed.
Lemma sim_rd_local a b o k : sim samelen (l_rd_local a o k) (l_rd_local b o k).
Proof.
  apply sim_tick; [reflexivity|]. apply sim_quiet. unfold rd_local. intros x y Hx Hy.
  destruct (rd_range a o k) as [s|] eqn:E; [|discriminate]. destruct (rd_range b o k) as [t|] eqn:F; [|discriminate]. cbn [bind] in Hx, Hy.
  apply rd_range_length in E, F. apply defined_length in Hx, Hy. unfold samelen. congruence.
Qed.
Lemma wr_range_length {A} (a s l : list A) o : wr_range a o s = Ok l -> length l = length a.
Proof.
  unfold wr_range. destruct ((0 <=? o) && (o + zlen s <=? zlen a)) eqn:E; [|discriminate]. intros [= <-].
  apply andb_prop in E. destruct E as [E1 E2]. apply Z.leb_le in E1, E2. unfold zlen in E2.
  rewrite !app_length, firstn_length, skipn_length. lia.
Qed.
Lemma sim_wr_local a b o s t : samelen s t -> samelen a b -> sim samelen (l_wr_local a o s) (l_wr_local b o t).
Proof.
  intros H K. apply sim_tick; [unfold zlen; rewrite H; reflexivity|]. apply sim_quiet. unfold wr_local. intros x y Hx Hy.
  apply wr_range_length in Hx, Hy. unfold samelen in *. congruence.
Qed.
Lemma sim_load m m' a k : sim samelen (l_load m a k) (l_load m' a k).
Proof. apply sim_tick; [reflexivity|]. apply sim_quiet. intros x y Hx Hy. apply load_length in Hx, Hy. unfold samelen. congruence. Qed.
Lemma sim_rd_word le sz a b o i : sim any (l_rd_word le sz a o i) (l_rd_word le sz b o i).
Proof. apply sim_tick; [reflexivity|]. apply sim_quiet. intros; exact I. Qed.
Lemma sim_wr_word le sz a b o i v w : sim any (l_wr_word le sz a o i v) (l_wr_word le sz b o i w).
Proof. apply sim_tick; [reflexivity|]. apply sim_quiet. intros; exact I. Qed.
