(** * The lane round is the bit level round of FIPS 202 *)
From Verif Require Import Arr SpecKeccak ModelFips202 PfKeccakLanes.
From Verif Require Import PfSha2Common.

Definition lane_ok (x : Z) : Prop := 0 <= x < 2 ^ 64.
Definition lanes_ok (L : list Z) : Prop := Forall lane_ok L /\ length L = 25%nat.

Lemma lane_bits_range x : 0 <= x -> (forall i, 64 <= i -> Z.testbit x i = false) -> lane_ok x.
Proof. intros; apply range_of_bits; auto; lia. Qed.
Lemma lxor_ok a b : lane_ok a -> lane_ok b -> lane_ok (Z.lxor a b).
Proof.
  intros Ha Hb. apply lane_bits_range.
  - apply Z.lxor_nonneg. unfold lane_ok in *; split; lia.
  - intros i Hi. rewrite Z.lxor_spec, !(testbit_high 64) by assumption. reflexivity.
Qed.
Lemma land_ok a b : lane_ok a -> lane_ok b -> lane_ok (Z.land a b).
Proof.
  intros Ha Hb. apply lane_bits_range.
  - apply Z.land_nonneg. left; apply Ha.
  - intros i Hi. rewrite Z.land_spec, !(testbit_high 64) by assumption. reflexivity.
Qed.
Lemma u64_ok a : lane_ok (u64 a).
Proof. unfold lane_ok, u64. apply Z.mod_pos_bound. lia. Qed.
Lemma rol_ok a k : 0 <= k < 64 -> lane_ok a -> lane_ok (rol64 a k).
Proof.
  intros Hk Ha. unfold rol64. destruct (k =? 0); [exact Ha|].
  apply lxor_ok; [apply u64_ok|]. apply lane_bits_range.
  - apply Z.shiftr_nonneg, Ha.
  - intros i Hi. rewrite Z.shiftr_spec by lia. apply (testbit_high 64); [exact Ha|lia].
Qed.
Lemma not64_ok a : lane_ok (not64 a).
Proof. apply u64_ok. Qed.

Lemma rol_bit a k z : lane_ok a -> 0 <= k < 64 -> 0 <= z < 64 ->
  Z.testbit (rol64 a k) z = Z.testbit a ((z - k) mod 64).
Proof.
  intros Ha Hk Hz. unfold rol64. destruct (Z.eqb_spec k 0) as [->|Hn].
  - f_equal. rewrite Z.mod_small; lia.
  - rewrite Z.lxor_spec. unfold u64. rewrite Z.mod_pow2_bits_low by lia.
    rewrite Z.shiftl_spec by lia. rewrite Z.shiftr_spec by lia.
    destruct (Z.lt_ge_cases z k).
    + rewrite (Z.testbit_neg_r a (z - k)) by lia.
      replace ((z - k) mod 64) with (z + (64 - k)) by lia. apply xorb_false_l.
    + rewrite (testbit_high 64 a (z + (64 - k))) by (assumption || lia).
      replace ((z - k) mod 64) with (z - k) by lia. apply xorb_false_r.
Qed.
Lemma not64_bit a z : 0 <= z < 64 -> Z.testbit (not64 a) z = xorb (Z.testbit a z) true.
Proof.
  intros Hz. unfold not64, u64. rewrite Z.mod_pow2_bits_low by lia.
  rewrite Z.lnot_spec by lia. rewrite xorb_true_r. reflexivity.
Qed.

(** A state array and the lanes that hold it. *)
Definition holds (L : list Z) (A : sarray) : Prop :=
  forall x y z, 0 <= x < 5 -> 0 <= y < 5 -> 0 <= z < 64 ->
  Z.testbit (nth (Z.to_nat (5 * y + x)) L 0) z = A x y z.

Lemma ln_ok L i : lanes_ok L -> lane_ok (ln L i).
Proof.
  intros [H _]. unfold ln. destruct (Nat.lt_ge_cases i (length L)).
  - apply Forall_nth'; assumption.
  - rewrite nth_overflow by assumption. red; lia.
Qed.
Lemma lC_ok L x : lanes_ok L -> lane_ok (lC L x).
Proof. intros H. unfold lC. repeat apply lxor_ok; apply ln_ok, H. Qed.
Lemma lT_ok L i : lanes_ok L -> lane_ok (lT L i).
Proof.
  intros H. unfold lT, lD. apply lxor_ok; [apply ln_ok, H|].
  apply lxor_ok; [apply lC_ok, H|]. apply rol_ok; [lia|apply lC_ok, H].
Qed.
Lemma rho_off_range i : (0 <= nth i rho_off O < 64)%nat.
Proof.
  destruct (Nat.lt_ge_cases i 25) as [H|H].
  - do 25 (destruct i as [|i]; [cbn; lia|]). lia.
  - rewrite nth_overflow by (cbn; lia). lia.
Qed.
Lemma lB_ok L i : lanes_ok L -> lane_ok (lB L i).
Proof.
  intros H. unfold lB. apply rol_ok; [|apply lT_ok, H].
  pose proof (rho_off_range (5 * Nat.modulo i 5 + Nat.modulo (Nat.modulo i 5 + 3 * Nat.div i 5) 5)).
  lia.
Qed.
Lemma lE_ok L i : lanes_ok L -> lane_ok (lE L i).
Proof. intros H. unfold lE. apply lxor_ok; [apply lB_ok, H|]. apply land_ok; [apply not64_ok|apply lB_ok, H]. Qed.
Lemma lround_ok L c : lanes_ok L -> lane_ok c -> lanes_ok (lround L c).
Proof.
  intros H Hc. split; [|reflexivity]. unfold lround. constructor.
  - apply lxor_ok; [apply lE_ok, H|exact Hc].
  - apply Forall_map, Forall_forall. intros; apply lE_ok, H.
Qed.

Lemma five (P : Z -> Prop) : P 0 -> P 1 -> P 2 -> P 3 -> P 4 -> forall x, 0 <= x < 5 -> P x.
Proof.
  intros. assert (D : x = 0 \/ x = 1 \/ x = 2 \/ x = 3 \/ x = 4) by lia.
  destruct D as [->|[->|[->|[->| ->]]]]; assumption.
Qed.

Ltac cases5 x H :=
  let D := fresh in
  assert (D : x = 0 \/ x = 1 \/ x = 2 \/ x = 3 \/ x = 4) by (clear - H; lia);
  clear H; destruct D as [->|[->|[->|[->| ->]]]].

Section Round.
Variables (L : list Z) (A : sarray).
Hypothesis HL : lanes_ok L.
Hypothesis HA : holds L A.

Lemma bit_ln x y z : 0 <= x < 5 -> 0 <= y < 5 -> 0 <= z < 64 ->
  Z.testbit (ln L (Z.to_nat (5 * y + x))) z = A x y z.
Proof. intros; apply HA; assumption. Qed.
Lemma bit_lC x z : 0 <= x < 5 -> 0 <= z < 64 ->
  Z.testbit (lC L (Z.to_nat x)) z
  = xorb (A x 0 z) (xorb (A x 1 z) (xorb (A x 2 z) (xorb (A x 3 z) (A x 4 z)))).
Proof.
  intros Hx Hz. unfold lC. rewrite !Z.lxor_spec.
  replace (Z.to_nat x) with (Z.to_nat (5 * 0 + x)) at 1 by lia.
  replace (Z.to_nat x + 5)%nat with (Z.to_nat (5 * 1 + x)) by lia.
  replace (Z.to_nat x + 10)%nat with (Z.to_nat (5 * 2 + x)) by lia.
  replace (Z.to_nat x + 15)%nat with (Z.to_nat (5 * 3 + x)) by lia.
  replace (Z.to_nat x + 20)%nat with (Z.to_nat (5 * 4 + x)) by lia.
  rewrite !bit_ln by lia. rewrite !xorb_assoc. reflexivity.
Qed.
Lemma bit_lT x y z : 0 <= x < 5 -> 0 <= y < 5 -> 0 <= z < 64 ->
  Z.testbit (lT L (Z.to_nat (5 * y + x))) z = theta A x y z.
Proof.
  intros Hx Hy Hz. unfold lT, theta. rewrite Z.lxor_spec, bit_ln by assumption. f_equal.
  replace (Nat.modulo (Z.to_nat (5 * y + x)) 5) with (Z.to_nat x) by
    (rewrite <- (Nat2Z.id (Nat.modulo _ _)), Nat2Z.inj_mod, Z2Nat.id by lia;
     f_equal; change (Z.of_nat 5) with 5; lia).
  unfold lD. rewrite Z.lxor_spec.
  replace (Nat.modulo (Z.to_nat x + 4) 5) with (Z.to_nat ((x - 1) mod 5)).
  2: { revert x Hx; apply five; reflexivity. }
  replace (Nat.modulo (Z.to_nat x + 1) 5) with (Z.to_nat ((x + 1) mod 5)).
  2: { revert x Hx; apply five; reflexivity. }
  rewrite rol_bit by (auto using lC_ok; lia). rewrite !bit_lC by lia. reflexivity.
Qed.
End Round.

Definition spec_off : list Z :=
  [0; 1; 190; 28; 91; 36; 300; 6; 55; 276; 3; 10; 171; 153; 231; 105; 45; 15; 21; 136; 210; 66;
   253; 120; 78].
Lemma rho_spec B x y z : 0 <= x < 5 -> 0 <= y < 5 -> 0 <= z < 64 ->
  rho B x y z = B x y ((z - nth (Z.to_nat (5 * y + x)) spec_off 0) mod 64).
Proof.
  intros Hx Hy Hz. cases5 x Hx; cases5 y Hy; try reflexivity.
  cbn [nth spec_off Z.to_nat Z.mul Z.add]. rewrite Z.sub_0_r, Z.mod_small by exact Hz. reflexivity.
Qed.
Lemma off_spec i : (i < 25)%nat -> Z.of_nat (nth i rho_off O) = nth i spec_off 0 mod 64.
Proof. intros H. do 25 (destruct i as [|i]; [reflexivity|]). lia. Qed.

Section Round2.
Variables (L : list Z) (A : sarray).
Hypothesis HL : lanes_ok L.
Hypothesis HA : holds L A.

Lemma bit_lB x y z : 0 <= x < 5 -> 0 <= y < 5 -> 0 <= z < 64 ->
  Z.testbit (lB L (Z.to_nat (5 * y + x))) z = pi (rho (theta A)) x y z.
Proof.
  intros Hx Hy Hz. unfold pi. rewrite rho_spec by lia.
  assert (E : lB L (Z.to_nat (5 * y + x)) =
    let src := Z.to_nat (5 * x + (x + 3 * y) mod 5) in
    rol64 (lT L src) (Z.of_nat (nth src rho_off O))).
  { clear Hz. cases5 x Hx; cases5 y Hy; reflexivity. }
  rewrite E. cbv zeta. clear E.
  pose proof (rho_off_range (Z.to_nat (5 * x + (x + 3 * y) mod 5))).
  rewrite rol_bit by (auto using lT_ok; lia).
  rewrite off_spec by lia. rewrite Zminus_mod_idemp_r.
  apply bit_lT; auto; lia.
Qed.
Lemma bit_lE x y z : 0 <= x < 5 -> 0 <= y < 5 -> 0 <= z < 64 ->
  Z.testbit (lE L (Z.to_nat (5 * y + x))) z = chi (pi (rho (theta A))) x y z.
Proof.
  intros Hx Hy Hz. unfold chi.
  assert (E : lE L (Z.to_nat (5 * y + x)) =
    Z.lxor (lB L (Z.to_nat (5 * y + x)))
      (Z.land (not64 (lB L (Z.to_nat (5 * y + (x + 1) mod 5))))
         (lB L (Z.to_nat (5 * y + (x + 2) mod 5))))).
  { clear Hz. cases5 x Hx; cases5 y Hy; reflexivity. }
  rewrite E, Z.lxor_spec, Z.land_spec, not64_bit by assumption.
  rewrite !bit_lB by lia. reflexivity.
Qed.

Lemma RC_ok ir z : 0 <= ir < 24 -> 0 <= z < 64 ->
  Z.testbit (nth (Z.to_nat ir) rcs 0) z = RC ir z.
Proof.
  intros Hi Hz.
  assert (E : forallb (fun i => forallb (fun z => Bool.eqb
     (Z.testbit (nth i rcs 0) (Z.of_nat z)) (RC (Z.of_nat i) (Z.of_nat z))) (seq 0 64)) (seq 0 24) = true)
    by (vm_compute; reflexivity).
  rewrite forallb_forall in E. specialize (E (Z.to_nat ir)).
  rewrite in_seq in E. assert (E1 := E ltac:(lia)). clear E.
  rewrite forallb_forall in E1. specialize (E1 (Z.to_nat z)). rewrite in_seq in E1.
  assert (E2 := E1 ltac:(lia)). apply eqb_prop in E2. rewrite !Z2Nat.id in E2 by lia. exact E2.
Qed.

Lemma lround_holds ir : 0 <= ir < 24 -> holds (lround L (nth (Z.to_nat ir) rcs 0)) (Rnd A ir).
Proof.
  intros Hi x y z Hx Hy Hz. unfold Rnd, iota.
  rewrite <- bit_lE by assumption.
  destruct (Z.eqb_spec x 0) as [->|Hn]; [destruct (Z.eqb_spec y 0) as [->|Hn]|]; cbn [andb].
  - change (nth _ (lround _ _) 0) with (Z.lxor (lE L 0) (nth (Z.to_nat ir) rcs 0)).
    rewrite Z.lxor_spec, RC_ok by assumption. reflexivity.
  - unfold lround. set (i := Z.to_nat (5 * y + 0)). assert (1 <= i < 25)%nat by lia.
    clearbody i. clear Hy Hn. f_equal.
    do 25 (destruct i as [|i]; [try reflexivity; lia|]). lia.
  - unfold lround. set (i := Z.to_nat (5 * y + x)). assert (1 <= i < 25)%nat by lia.
    clearbody i. clear Hx Hy Hn. f_equal.
    do 25 (destruct i as [|i]; [try reflexivity; lia|]). lia.
Qed.
End Round2.

(** ** Strings *)
Definition lane_bits (w : Z) : list bool := map (fun i => Z.testbit w (Z.of_nat i)) (seq 0 64).
Definition str (L : list Z) : list bool := flat_map lane_bits L.

Lemma flat_map_len {A B} (f : A -> list B) n l : (forall a, length (f a) = n) ->
  length (flat_map f l) = (n * length l)%nat.
Proof.
  intros H; induction l as [|a l IH]; cbn [flat_map length]; [lia|].
  rewrite app_length, IH, H. lia.
Qed.
Lemma nth_flat_map {A B} (f : A -> list B) n l d d' i : (0 < n)%nat -> (forall a, length (f a) = n) ->
  (i < n * length l)%nat -> nth i (flat_map f l) d = nth (i mod n) (f (nth (i / n) l d')) d.
Proof.
  intros Hn H. revert i; induction l as [|a l IH]; intros i Hi; [cbn in Hi; lia|].
  cbn [flat_map]. destruct (Nat.lt_ge_cases i n) as [Hlt|Hge].
  - rewrite app_nth1 by (rewrite H; exact Hlt).
    rewrite Nat.div_small, Nat.mod_small by exact Hlt. reflexivity.
  - rewrite app_nth2 by (rewrite H; exact Hge). rewrite H.
    rewrite IH by (cbn [length] in Hi; lia).
    replace i with ((i - n) + 1 * n)%nat at 3 4 by lia.
    rewrite Nat.mod_add, Nat.div_add by lia. rewrite Nat.add_1_r. reflexivity.
Qed.
Lemma lane_bits_length w : length (lane_bits w) = 64%nat.
Proof. reflexivity. Qed.
Lemma str_length L : length (str L) = (64 * length L)%nat.
Proof. apply flat_map_len, lane_bits_length. Qed.
Lemma lane_bits_nth w i : (i < 64)%nat -> nth i (lane_bits w) false = Z.testbit w (Z.of_nat i).
Proof.
  intros H. unfold lane_bits.
  rewrite (nth_indep _ false (Z.testbit w (Z.of_nat 0))) by (rewrite map_length, seq_length; exact H).
  rewrite (map_nth (fun i => Z.testbit w (Z.of_nat i))), seq_nth by exact H. reflexivity.
Qed.
Lemma str_nth L i : (i < 64 * length L)%nat ->
  nth i (str L) false = Z.testbit (nth (i / 64) L 0) (Z.of_nat (i mod 64)).
Proof.
  intros H. unfold str. rewrite (nth_flat_map lane_bits 64 L false 0) by (auto using lane_bits_length; lia).
  apply lane_bits_nth. apply Nat.mod_upper_bound. lia.
Qed.
Lemma str_holds L : length L = 25%nat -> holds L (array_of_string (str L)).
Proof.
  intros H x y z Hx Hy Hz. unfold array_of_string. rewrite str_nth by lia.
  f_equal; [f_equal|].
  - rewrite <- (Nat2Z.id (Nat.div _ _)), Nat2Z.inj_div, Z2Nat.id by lia. f_equal. change (Z.of_nat 64) with 64. lia.
  - rewrite Nat2Z.inj_mod, Z2Nat.id by lia. change (Z.of_nat 64) with 64. lia.
Qed.
Lemma holds_str L A : length L = 25%nat -> holds L A -> string_of_array A = str L.
Proof.
  intros H HA. apply (nth_ext' false).
  - unfold string_of_array. rewrite !map_length, seq_length, str_length. lia.
  - intros i Hi. unfold string_of_array in *. rewrite !map_length, seq_length in Hi.
    rewrite str_nth by lia. rewrite map_map.
    set (f := fun x : nat => _).
    rewrite (nth_indep _ false (f O)) by (rewrite map_length, seq_length; exact Hi).
    rewrite (map_nth f), seq_nth by exact Hi. unfold f. rewrite Nat.add_0_l.
    rewrite <- HA by lia. f_equal.
    + f_equal. rewrite <- (Nat2Z.id (Nat.div _ _)), Nat2Z.inj_div. f_equal.
      change (Z.of_nat 64) with 64. lia.
    + rewrite Nat2Z.inj_mod. reflexivity.
Qed.

Lemma rcs_ok i : lane_ok (nth i rcs 0).
Proof.
  destruct (Nat.lt_ge_cases i 24) as [H|H].
  - do 24 (destruct i as [|i]; [cbn; red; lia|]). lia.
  - rewrite nth_overflow by exact H. red; lia.
Qed.
Lemma fold_left_ext {A B} (f g : A -> B -> A) l a :
  (forall a b, In b l -> f a b = g a b) -> fold_left f l a = fold_left g l a.
Proof.
  revert a; induction l as [|b l IH]; intros a H; [reflexivity|]. cbn.
  rewrite H by (left; reflexivity). apply IH. intros; apply H; right; assumption.
Qed.

(** The permutation on lanes. *)
Definition perm (L : list Z) : list Z := lrounds rcs L.
Lemma rcs_from_seq : rcs = map (fun i => nth (Z.to_nat i) rcs 0) (map Z.of_nat (seq 0 24)).
Proof. reflexivity. Qed.
Lemma keccak_p_str L : lanes_ok L -> keccak_p (str L) = str (perm L) /\ lanes_ok (perm L).
Proof.
  intros HL. unfold keccak_p, perm, lrounds. rewrite rcs_from_seq.
  assert (Hr : Forall (fun i => 0 <= i < 24) (map Z.of_nat (seq 0 24))) by
    (apply Forall_map, Forall_forall; intros i Hi; apply in_seq in Hi; lia).
  set (l := map Z.of_nat (seq 0 24)) in *. clearbody l.
  revert L HL; induction l as [|ir l IH]; intros L HL; [split; [reflexivity|exact HL]|].
  inversion Hr; subst. cbn [fold_left map].
  assert (HL' : lanes_ok (lround L (nth (Z.to_nat ir) rcs 0))) by (apply lround_ok; auto using rcs_ok).
  rewrite (holds_str (lround L (nth (Z.to_nat ir) rcs 0)));
    [|reflexivity|apply lround_holds; auto; apply str_holds, HL].
  apply IH; auto.
Qed.
