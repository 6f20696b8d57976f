(** * The test program (C50)

    [main] (test_sphincs.c): ModelMain.v, for any four test routines; then with the routines
    of ModelKat.v and ModelTest.v. *)
From Coq Require Import String Sorting.Sorted.
From Verif Require Import Arr SpecSha2 SpecKeccak SpecSLH SpecMap SpecApi ModelParams ModelCtx ModelSha512 ModelApi ModelTest ModelKat ModelMain
  PfComplete PfForge PfTest PfKat SpecSessions SpecTest PropSign PropApi PropTest PropKat.
Ltac Zify.zify_post_hook ::= idtac.
Local Open Scope string_scope.
Local Open Scope list_scope.
Local Open Scope Z_scope.

(** ** What the arguments mean *)
(** The names of the tests, in the order in which they are run *)
Definition test_names : list string := ["sha512"; "shake256"; "testvector"; "verify"].
Definition options : list string := ["all"; "-f"; "-full"; "-q"; "-v"].
Definition understood (args : list string) : Prop := forall a, In a args -> In a test_names \/ In a options.
(** test number [i] is asked for *)
Definition asked_for (args : list string) (i : Z) : Prop :=
  0 <= i < 4 /\ (In (nth (Z.to_nat i) test_names "") args \/ In "all" args).

Lemma bit_test t i : 0 <= i -> (0 =? Z.land t (Z.shiftl 1 i)) = negb (Z.testbit t i).
Proof.
  intros Hi. rewrite Z.shiftl_1_l. destruct (Z.testbit t i) eqn:E; cbn [negb].
  - apply Z.eqb_neq. intros X. assert (Y : Z.testbit (Z.land t (2 ^ i)) i = false) by (rewrite <- X; apply Z.bits_0).
    rewrite Z.land_spec, E, Z.pow2_bits_true in Y by exact Hi. discriminate.
  - apply Z.eqb_eq. symmetry. apply Z.bits_inj. intros k. rewrite Z.land_spec, Z.bits_0. destruct (Z.eq_dec i k) as [<-|H]; [rewrite E; reflexivity|].
    rewrite Z.pow2_bits_false by exact H. apply andb_false_r.
Qed.
Lemma all_bits i : 0 <= i < 4 -> Z.testbit (u32 (Z.lnot 0)) i = true.
Proof. intros Hi. assert (i = 0 \/ i = 1 \/ i = 2 \/ i = 3) as [-> | [-> | [-> | ->]]] by lia; reflexivity. Qed.
Lemma find_spec s : match find_test s 0 keywords with
  | Some j => 0 <= j < 4 /\ s = nth (Z.to_nat j) test_names ""
  | None => ~ In s test_names end.
Proof.
  unfold find_test, keywords.
  destruct (String.eqb_spec s "sha512") as [->|N0]; [split; [lia|reflexivity]|].
  destruct (String.eqb_spec s "shake256") as [->|N1]; [split; [lia|reflexivity]|].
  destruct (String.eqb_spec s "testvector") as [->|N2]; [split; [lia|reflexivity]|].
  destruct (String.eqb_spec s "verify") as [->|N3]; [split; [lia|reflexivity]|].
  cbn [test_names In]. intuition congruence.
Qed.
Lemma name_inj i j : 0 <= i < 4 -> 0 <= j < 4 -> nth (Z.to_nat i) test_names "" = nth (Z.to_nat j) test_names "" -> i = j.
Proof.
  intros Hi Hj. assert (i = 0 \/ i = 1 \/ i = 2 \/ i = 3) as [-> | [-> | [-> | ->]]] by lia;
    assert (j = 0 \/ j = 1 \/ j = 2 \/ j = 3) as [-> | [-> | [-> | ->]]] by lia; first [reflexivity|discriminate].
Qed.
Lemma name_in i : 0 <= i < 4 -> In (nth (Z.to_nat i) test_names "") test_names.
Proof. intros Hi. apply nth_In. cbn. lia. Qed.
Lemma not_name s i : ~ In s test_names -> 0 <= i < 4 -> nth (Z.to_nat i) test_names "" <> s.
Proof. intros H Hi E. apply H. rewrite <- E. apply name_in, Hi. Qed.

Lemma arguments_spec : forall args t fo fa, (t = 0 \/ exists i, 0 <= i < 4 /\ Z.testbit t i = true) ->
  match arguments args t fo fa with
  | None => ~ understood args
  | Some (t', fo', fa') => understood args /\
      (forall i, 0 <= i < 4 -> (Z.testbit t' i = true <-> Z.testbit t i = true \/ asked_for args i)) /\
      (t' = 0 \/ exists i, 0 <= i < 4 /\ Z.testbit t' i = true) /\
      (fo' = true <-> fo = true \/ In "-f" args) /\ (fa' = false <-> fa = false \/ In "-full" args)
  end.
Proof.
  induction args as [|a args IH]; intros t fo fa HT; cbn [arguments].
  - split; [intros a []|]. split; [intros i Hi; unfold asked_for; cbn [In]; tauto|]. split; [exact HT|]. cbn [In]. tauto.
  - pose proof (find_spec a) as FS. destruct (find_test a 0 keywords) as [j|].
    + destruct FS as [Hj ->].
      assert (BT : forall i, 0 <= i -> Z.testbit (Z.lor t (Z.shiftl 1 j)) i = (Z.testbit t i || (j =? i))%bool).
      { intros i Hi. rewrite Z.lor_spec, Z.shiftl_1_l. destruct (Z.eqb_spec j i) as [<-|N]; [rewrite Z.pow2_bits_true by lia; reflexivity|rewrite Z.pow2_bits_false by exact N; reflexivity]. }
      specialize (IH (Z.lor t (Z.shiftl 1 j)) fo fa). destruct (arguments args (Z.lor t (Z.shiftl 1 j)) fo fa) as [[[t' fo'] fa']|].
      * destruct IH as (I1 & I2 & I3 & I4 & I5); [right; exists j; split; [exact Hj|]; rewrite BT, Z.eqb_refl by lia; apply orb_true_r|].
        split; [|split; [|split; [exact I3|split]]].
        -- intros a [<-|Ha]; [left; apply name_in, Hj|apply I1, Ha].
        -- intros i Hi. rewrite I2, BT, orb_true_iff, Z.eqb_eq by lia. unfold asked_for. cbn [In]. split.
           ++ intros [[H| ->]|[_ [H|H]]]; intuition auto.
           ++ intros [H|[_ [[H|H]|[H|H]]]]; [tauto| |tauto| |tauto].
              ** left. right. apply name_inj; auto.
              ** exfalso. revert H. assert (j = 0 \/ j = 1 \/ j = 2 \/ j = 3) as [-> | [-> | [-> | ->]]] by lia; discriminate.
        -- rewrite I4. cbn [In]. split; [tauto|]. intros [H|[H|H]]; [tauto| |tauto]. exfalso. revert H. assert (j = 0 \/ j = 1 \/ j = 2 \/ j = 3) as [-> | [-> | [-> | ->]]] by lia; discriminate.
        -- rewrite I5. cbn [In]. split; [tauto|]. intros [H|[H|H]]; [tauto| |tauto]. exfalso. revert H. assert (j = 0 \/ j = 1 \/ j = 2 \/ j = 3) as [-> | [-> | [-> | ->]]] by lia; discriminate.
      * intros U. apply IH; [right; exists j; split; [exact Hj|]; rewrite BT, Z.eqb_refl by lia; apply orb_true_r|]. intros a Ha. apply U. right. exact Ha.
    + assert (NN : forall i, 0 <= i < 4 -> nth (Z.to_nat i) test_names "" <> a) by (intros i Hi; apply not_name; assumption).
      destruct (String.eqb_spec a "all") as [->|N0].
      { specialize (IH (u32 (Z.lnot 0)) fo fa). assert (HA : u32 (Z.lnot 0) = 0 \/ exists i, 0 <= i < 4 /\ Z.testbit (u32 (Z.lnot 0)) i = true) by (right; exists 0; split; [lia|reflexivity]).
        destruct (arguments args (u32 (Z.lnot 0)) fo fa) as [[[t' fo'] fa']|].
        - destruct (IH HA) as (I1 & I2 & I3 & I4 & I5). split; [|split; [|split; [exact I3|split]]].
          + intros a [<-|Ha]; [right; cbn; tauto|apply I1, Ha].
          + intros i Hi. rewrite I2, all_bits by exact Hi. unfold asked_for. cbn [In]. tauto.
          + rewrite I4. cbn [In]. intuition discriminate.
          + rewrite I5. cbn [In]. intuition discriminate.
        - intros U. apply (IH HA). intros a Ha. apply U. right. exact Ha. }
      assert (AF : forall i, asked_for (a :: args) i <-> asked_for args i).
      { intros i. unfold asked_for. cbn [In]. split.
        - intros [Hi [[H|H]|[H|H]]]; [exfalso; apply (NN i Hi); auto|tauto|contradiction|tauto].
        - tauto. }
      assert (NU : forall b, ~ understood args -> ~ understood (b :: args)) by (intros b H U; apply H; intros c Hc; apply U; right; exact Hc).
      assert (YU : In a options -> understood args -> understood (a :: args)) by (intros H U c [<-|Hc]; [right; exact H|apply U, Hc]).
      destruct (String.eqb_spec a "-f") as [EF|N1].
      { specialize (IH t true fa HT). destruct (arguments args t true fa) as [[[t' fo'] fa']|]; [|apply NU, IH].
        destruct IH as (I1 & I2 & I3 & I4 & I5). split; [apply YU; [subst a; cbn; tauto|exact I1]|]. split; [intros i Hi; rewrite I2, AF by exact Hi; reflexivity|].
        split; [exact I3|]. rewrite I4, I5. subst a. cbn [In]. intuition discriminate. }
      destruct (String.eqb_spec a "-full") as [EF|N2].
      { specialize (IH t fo false HT). destruct (arguments args t fo false) as [[[t' fo'] fa']|]; [|apply NU, IH].
        destruct IH as (I1 & I2 & I3 & I4 & I5). split; [apply YU; [subst a; cbn; tauto|exact I1]|]. split; [intros i Hi; rewrite I2, AF by exact Hi; reflexivity|].
        split; [exact I3|]. rewrite I4, I5. subst a. cbn [In]. intuition discriminate. }
      assert (REST : In a options -> match arguments args t fo fa with
        | None => ~ understood (a :: args)
        | Some (t', fo', fa') => understood (a :: args) /\ (forall i, 0 <= i < 4 -> (Z.testbit t' i = true <-> Z.testbit t i = true \/ asked_for (a :: args) i)) /\
            (t' = 0 \/ exists i, 0 <= i < 4 /\ Z.testbit t' i = true) /\ (fo' = true <-> fo = true \/ In "-f" (a :: args)) /\ (fa' = false <-> fa = false \/ In "-full" (a :: args)) end).
      { intros HO. specialize (IH t fo fa HT). destruct (arguments args t fo fa) as [[[t' fo'] fa']|]; [|apply NU, IH].
        destruct IH as (I1 & I2 & I3 & I4 & I5). split; [apply YU; assumption|]. split; [intros i Hi; rewrite I2, AF by exact Hi; reflexivity|].
        split; [exact I3|]. rewrite I4, I5. cbn [In]. split; (split; [tauto|]; intros [H|[H|H]]; [tauto|contradiction|tauto]). }
      destruct (String.eqb_spec a "-q") as [EF|N3]; [apply REST; subst a; cbn; tauto|].
      destruct (String.eqb_spec a "-v") as [EF|N4]; [apply REST; subst a; cbn; tauto|].
      intros U. destruct (U a (or_introl eq_refl)) as [H|H]; [exact (FS H)|]. cbn [options In] in H. intuition congruence.
Qed.

(** ** What is run *)
Section Run.
Variable res : Z -> Z.
Variable fast : bool.
Lemma run_spec : forall routines i t fo s, 0 <= i ->
  (forall k rt, nth_error routines k = Some rt -> rt fast = Ok (res (i + Z.of_nat k))) ->
  exists s' ran, run_tests routines i t fo fast s = Ok (s', ran) /\
    exists rest, ran ++ rest = filter (Z.testbit t) (map (fun k => i + Z.of_nat k) (seq 0 (List.length routines))) /\
      (s' = if forallb (fun j => negb (res j =? 0)) ran then s else EXIT_FAILURE) /\
      (rest <> [] -> fo = false /\ exists l j, ran = l ++ [j] /\ res j = 0) /\
      (fo = false -> forall l j l', ran = l ++ j :: l' -> res j = 0 -> l' = []).
Proof.
  induction routines as [|rt rts IH]; intros i t fo s Hi HR; cbn [run_tests].
  - exists s, []. split; [reflexivity|]. exists []. split; [reflexivity|]. split; [reflexivity|]. split; [intros X; contradiction X; reflexivity|].
    intros _ l j l' H. destruct l; discriminate.
  - assert (HR' : forall k r, nth_error rts k = Some r -> r fast = Ok (res (i + 1 + Z.of_nat k))).
    { intros k r Hk. specialize (HR (Datatypes.S k) r Hk). rewrite HR. f_equal. f_equal. lia. }
    assert (SQ : filter (Z.testbit t) (map (fun k => i + Z.of_nat k) (seq 0 (List.length (rt :: rts)))) =
       (if Z.testbit t i then [i] else []) ++ filter (Z.testbit t) (map (fun k => i + 1 + Z.of_nat k) (seq 0 (List.length rts)))).
    { cbn [List.length seq map]. rewrite Z.add_0_r. rewrite <- seq_shift, map_map.
      erewrite map_ext with (l := seq 0 (List.length rts)); [|intros k; assert (i + Z.of_nat (Datatypes.S k) = i + 1 + Z.of_nat k) as -> by lia; reflexivity].
      cbn [filter]. destruct (Z.testbit t i); reflexivity. }
    rewrite SQ. clear SQ. rewrite bit_test by exact Hi. destruct (Z.testbit t i); cbn [negb app].
    2:{ exact (IH (i + 1) t fo s ltac:(lia) HR'). }
    rewrite (HR 0%nat rt eq_refl), Z.add_0_r. cbn [bind].
    destruct (Z.eqb_spec (res i) 0) as [R0|R0]; cbn [negb].
    + destruct fo; cbn [negb].
      * destruct (IH (i + 1) t true EXIT_FAILURE ltac:(lia) HR') as (s' & ran & E & rest & E1 & E2 & E3 & E4). rewrite E. cbn [bind].
        exists s', (i :: ran). split; [reflexivity|]. exists rest. split; [cbn [app]; rewrite E1; reflexivity|].
        split; [cbn [forallb]; rewrite R0; cbn [Z.eqb negb andb]; rewrite E2; destruct (forallb _ ran); reflexivity|].
        split; [intros X; destruct (E3 X); discriminate|discriminate].
      * exists EXIT_FAILURE, [i]. split; [reflexivity|]. eexists. split; [cbn [app]; reflexivity|].
        split; [cbn [forallb]; rewrite R0; reflexivity|]. split; [intros _; split; [reflexivity|]; exists [], i; auto|].
        intros _ l j l' H _. destruct l as [|x l]; [injection H as _ H; auto|]. destruct l; discriminate.
    + destruct (IH (i + 1) t fo s ltac:(lia) HR') as (s' & ran & E & rest & E1 & E2 & E3 & E4). rewrite E. cbn [bind].
      exists s', (i :: ran). split; [reflexivity|]. exists rest. split; [cbn [app]; rewrite E1; reflexivity|].
      split; [cbn [forallb]; rewrite (proj2 (Z.eqb_neq _ _) R0); cbn [negb andb]; exact E2|]. split.
      * intros X. destruct (E3 X) as (F & l & j & -> & Z0). split; [exact F|]. exists (i :: l), j. auto.
      * intros F l j l' H Z0. destruct l as [|x l]; [injection H as -> _; contradiction|]. injection H as _ H. exact (E4 F l j l' H Z0).
Qed.
End Run.

(** ** The program *)
(** Each test routine ends with some result: 0 is a failure.  The program's exit status is
    success exactly if every argument is understood, some test is asked for, and every test
    that is asked for succeeds. *)
Theorem C50_exit_status : forall r0 r1 r2 r3 args res,
  (let fast := negb (existsb (String.eqb "-full") args) in
   r0 fast = Ok (res 0) /\ r1 fast = Ok (res 1) /\ r2 fast = Ok (res 2) /\ r3 fast = Ok (res 3)) ->
  exists status ran, main [r0; r1; r2; r3] args = Ok (status, ran) /\ (status = 0 \/ status = 1) /\
    (status = 0 <-> understood args /\ (exists i, asked_for args i) /\ (forall i, asked_for args i -> res i <> 0)) /\
    (* nothing is run unless the arguments are understood; the tests that are run are asked for, in the
       order of the table, each once; if one that is asked for is not run, then -f is not given and the
       last one that is run fails; without -f nothing is run after a failure *)
    (~ understood args -> ran = []) /\
    (forall i, In i ran -> asked_for args i) /\ NoDup ran /\ (forall a i b j c, ran = a ++ i :: b ++ j :: c -> i < j) /\
    (understood args -> forall i, asked_for args i -> ~ In i ran -> ~ In "-f" args /\ exists l j, ran = l ++ [j] /\ j < i /\ res j = 0) /\
    (~ In "-f" args -> forall l j l', ran = l ++ j :: l' -> res j = 0 -> l' = []).
Proof.
  intros r0 r1 r2 r3 args res. cbv zeta. intros (H0 & H1 & H2 & H3). unfold main.
  assert (EF : existsb (String.eqb "-full") args = true <-> In "-full" args).
  { rewrite existsb_exists. split; [intros (x & Hx & E); apply String.eqb_eq in E; subst x; exact Hx|intros H; exists "-full"; split; [exact H|reflexivity]]. }
  pose proof (arguments_spec args 0 false true (or_introl eq_refl)) as AS.
  destruct (arguments args 0 false true) as [[[t fo] fa]|].
  2:{ exists EXIT_FAILURE, []. split; [reflexivity|]. split; [right; reflexivity|]. split; [split; [discriminate|tauto]|]. split; [reflexivity|].
      split; [intros i []|]. split; [constructor|]. split; [intros [|] i b j c H; discriminate|]. split; [contradiction|]. intros _ [|] j l' H; discriminate. }
  destruct AS as (U & BT & NZ & FO & FA).
  assert (BT' : forall i, 0 <= i < 4 -> (Z.testbit t i = true <-> asked_for args i)).
  { intros i Hi. rewrite BT by exact Hi. rewrite Z.bits_0. split; [intros [H|H]; [discriminate|exact H]|auto]. }
  destruct (Z.eqb_spec t 0) as [T0|T0].
  { assert (NA : forall i, ~ asked_for args i) by (intros i Hi; pose proof (proj1 Hi) as Hr; apply BT' in Hi; [|exact Hr]; rewrite T0, Z.bits_0 in Hi; discriminate).
    exists EXIT_FAILURE, []. split; [reflexivity|]. split; [right; reflexivity|]. split; [split; [discriminate|intros (_ & (i & Hi) & _); exfalso; exact (NA i Hi)]|]. split; [reflexivity|].
    split; [intros i []|]. split; [constructor|]. split; [intros [|] i b j c H; discriminate|]. split; [intros _ i Hi; exfalso; exact (NA i Hi)|]. intros _ [|] j l' H; discriminate. }
  assert (EFA : fa = negb (existsb (String.eqb "-full") args)).
  { destruct (existsb (String.eqb "-full") args) eqn:EE; cbn [negb].
    - apply FA. right. apply EF. reflexivity.
    - destruct fa; [reflexivity|]. exfalso. destruct (proj1 FA eq_refl) as [H|H]; [discriminate|]. apply EF in H. discriminate. }
  rewrite <- EFA in H0, H1, H2, H3.
  assert (EFO : fo = false <-> ~ In "-f" args).
  { split; [intros -> H; assert (X : false = true) by (apply FO; auto); discriminate|]. intros H. destruct fo; [|reflexivity]. exfalso. destruct (proj1 FO eq_refl); [discriminate|contradiction]. }
  destruct (run_spec res fa [r0; r1; r2; r3] 0 t fo EXIT_SUCCESS ltac:(lia)) as (s & ran & E & rest & E1 & E2 & E3 & E4).
  { intros k rt Hk. destruct k as [|[|[|[|k]]]]; [injection Hk as <-; assumption ..|]. destruct k; discriminate. }
  exists s, ran. split; [exact E|]. change (map (fun k => 0 + Z.of_nat k) (seq 0 (List.length [r0; r1; r2; r3]))) with [0; 1; 2; 3] in E1.
  assert (SORT : forall a i b j c, ran = a ++ i :: b ++ j :: c -> i < j).
  { intros a i b j c HR. rewrite HR in E1. revert E1. clear. rewrite <- app_assoc. cbn [app]. rewrite <- app_assoc. cbn [app]. intros E1.
    assert (G : StronglySorted Z.lt (filter (Z.testbit t) [0; 1; 2; 3])).
    { cbn [filter]. destruct (Z.testbit t 0), (Z.testbit t 1), (Z.testbit t 2), (Z.testbit t 3); 
        (constructor || idtac); repeat (match goal with |- StronglySorted _ (_ :: _) => constructor | |- StronglySorted _ [] => constructor | |- Forall _ (_ :: _) => constructor | |- Forall _ [] => constructor | |- _ < _ => lia end). }
    rewrite <- E1 in G. clear E1. induction a as [|x a IH]; cbn [app] in G.
    - apply StronglySorted_inv in G. destruct G as [_ G]. rewrite Forall_forall in G. apply G. apply in_or_app. right. left. reflexivity.
    - apply IH. apply StronglySorted_inv in G. apply G. }
  assert (INR : forall i, In i (ran ++ rest) <-> asked_for args i).
  { intros i. rewrite E1, filter_In. split.
    - intros [Hi Hb]. assert (0 <= i < 4) by (cbn [In] in Hi; lia). apply BT'; assumption.
    - intros Hi. pose proof (proj1 Hi) as Hr. split; [cbn [In]; lia|]. apply BT'; assumption. }
  assert (FB : forallb (fun j => negb (res j =? 0)) ran = true <-> forall j, In j ran -> res j <> 0).
  { rewrite forallb_forall. split; intros X j Hj; specialize (X j Hj); [apply negb_true_iff, Z.eqb_neq in X; exact X|apply negb_true_iff, Z.eqb_neq, X]. }
  split; [rewrite E2; destruct (forallb _ ran); [left|right]; reflexivity|]. split; [split|split; [contradiction|split; [|split; [|split; [exact SORT|split]]]]].
  - intros S0. assert (FT : forallb (fun j => negb (res j =? 0)) ran = true) by (rewrite E2 in S0; destruct (forallb _ ran); [reflexivity|discriminate]).
    split; [exact U|]. split.
    + destruct NZ as [|(i & Hi & Hb)]; [contradiction|]. exists i. apply BT'; assumption.
    + intros i Hi. apply INR in Hi. destruct rest as [|y rest]; [rewrite app_nil_r in Hi; apply FB; assumption|]. exfalso. destruct (E3 ltac:(discriminate)) as (_ & l & j & HR & Z0).
      apply (proj1 FB FT j); [rewrite HR; apply in_or_app; right; left; reflexivity|exact Z0].
  - intros (_ & _ & HA). rewrite E2. assert (FT : forallb (fun j => negb (res j =? 0)) ran = true) by (apply FB; intros j Hj; apply HA, INR, in_or_app; left; exact Hj). rewrite FT. reflexivity.
  - intros i Hi. apply INR, in_or_app. left. exact Hi.
  - apply NoDup_nth_error. intros a b Ha Hab. destruct (Nat.lt_trichotomy a b) as [L|[L|L]]; [|exact L|].
    + exfalso. destruct (nth_error ran a) as [x|] eqn:Ex; [|apply nth_error_None in Ex; lia]. symmetry in Hab.
      destruct (nth_error_split _ _ Ex) as (l1 & l2 & Er & Ll). rewrite Er in Hab. rewrite nth_error_app2 in Hab by lia. rewrite Ll in Hab.
      replace (b - a)%nat with (Datatypes.S (b - a - 1)) in Hab by lia. cbn [nth_error] in Hab. destruct (nth_error_split _ _ Hab) as (l3 & l4 & Er2 & _). rewrite Er2 in Er.
      pose proof (SORT _ _ _ _ _ Er). lia.
    + exfalso. assert (Hb : (b < List.length ran)%nat) by lia. destruct (nth_error ran b) as [x|] eqn:Ex; [|apply nth_error_None in Ex; lia].
      destruct (nth_error_split _ _ Ex) as (l1 & l2 & Er & Ll). rewrite Er in Hab. rewrite nth_error_app2 in Hab by lia. rewrite Ll in Hab.
      replace (a - b)%nat with (Datatypes.S (a - b - 1)) in Hab by lia. cbn [nth_error] in Hab. destruct (nth_error_split _ _ Hab) as (l3 & l4 & Er2 & _). rewrite Er2 in Er.
      pose proof (SORT _ _ _ _ _ Er). lia.
  - intros _ i Hi Hn. assert (Hi' := proj2 (INR i) Hi). apply in_app_or in Hi'. destruct Hi' as [Hi'|Hi']; [contradiction|].
    destruct rest as [|y rest]; [destruct Hi'|]. destruct (E3 ltac:(discriminate)) as (F & l & j & HR & Z0).
    split; [apply EFO, F|]. exists l, j. split; [exact HR|]. split; [|exact Z0].
    assert (G : StronglySorted Z.lt (filter (Z.testbit t) [0; 1; 2; 3])).
    { clear. cbn [filter]. destruct (Z.testbit t 0), (Z.testbit t 1), (Z.testbit t 2), (Z.testbit t 3); 
        (constructor || idtac); repeat (match goal with |- StronglySorted _ (_ :: _) => constructor | |- StronglySorted _ [] => constructor | |- Forall _ (_ :: _) => constructor | |- Forall _ [] => constructor | |- _ < _ => lia end). }
    rewrite <- E1, HR, <- app_assoc in G. clear - G Hi'. cbn [app] in G. induction l as [|x l IH]; cbn [app] in G.
    + apply StronglySorted_inv in G. destruct G as [_ G]. rewrite Forall_forall in G. apply G, Hi'.
    + apply IH. apply StronglySorted_inv in G. apply G.
  - intros NF. apply E4, EFO, NF.
Qed.

(** ** With the test routines of the repository *)
Definition environment_ok (cfg : config) (n : environment) : Prop :=
  (forall i, wf512 (n_sha512 n i)) /\ (forall b, wf512 (n_filled512 n b)) /\ (forall i, List.length (n_shake n i) = 26%nat) /\
  (forall i, surroundings_ok cfg 0 (n_testvector n i)) /\ (forall i, locals_ok cfg (n_locals n i)) /\
  (forall p, surroundings_ok cfg (slh_sig_length (slh_of p) + 1) (n_verify n p)).
(** With every parameter set compiled in, the program ends, whatever the arguments, and its
    exit status is success exactly if the arguments are understood, some test is asked for,
    the vectors of testvector.h are right if asked for, and no altered signature or message
    verifies, if that is asked for.  The two hash tests never fail. *)
Theorem C50_program : forall cfg n args,
  (forall p, ps_enabled cfg p = true) -> environment_ok cfg n ->
  exists status ran, program cfg n args = Ok (status, ran) /\ (status = 0 \/ status = 1) /\
  (status = 0 <-> understood args /\ (exists i, asked_for args i) /\
    (In "testvector" args \/ In "all" args -> forall p, exists v s, In v testvectors /\ In (s, p) names /\ kat_name v = s /\ claim_holds p v) /\
    (In "verify" args \/ In "all" args -> forall p, In "-full" args \/ ~ In p left_out ->
       forall M' S', altered (negb (existsb (String.eqb "-full") args)) (test_signature p) M' S' -> slh_verify_internal (slh_of p) M' S' (snd (test_key p)) = false)).
Proof.
  intros cfg n args on (N1 & N2 & N3 & N4 & N5 & N6).
  set (fast := negb (existsb (String.eqb "-full") args)).
  assert (EF : existsb (String.eqb "-full") args = true <-> In "-full" args).
  { rewrite existsb_exists. split; [intros (x & Hx & E); apply String.eqb_eq in E; subst x; exact Hx|intros H; exists "-full"; split; [exact H|reflexivity]]. }
  pose proof (C49_sha512_table (cfg_le cfg) _ _ N1 N2) as T0. pose proof (C49_shake_table (cfg_shake_opt cfg) _ N3) as T1.
  destruct (C49_testvector_table cfg 0 _ _ on N4 N5) as (r2 & T2 & R2 & P2).
  destruct (C48_test_verify cfg _ fast on N6) as (r3 & T3 & R3 & P3).
  set (res := fun i : Z => if i =? 2 then r2 else if i =? 3 then r3 else 1).
  destruct (C50_exit_status (fun _ => run_512 (cfg_le cfg) (n_sha512 n) (n_filled512 n) vectors_512) (fun _ => run_shake (cfg_shake_opt cfg) (n_shake n) vectors_shake)
    (fun _ => test_testvector cfg (n_testvector n) (n_locals n) testvectors) (fun fast_flag => test_verify cfg (n_verify n) fast_flag) args res) as (st & ran & E & S01 & HS & _).
  { cbv zeta. fold fast. split; [exact T0|]. split; [exact T1|]. split; [exact T2|exact T3]. }
  exists st, ran. split; [exact E|]. split; [exact S01|]. rewrite HS.
  assert (A2 : asked_for args 2 <-> In "testvector" args \/ In "all" args) by (unfold asked_for; change (nth (Z.to_nat 2) test_names "") with "testvector"; intuition lia).
  assert (A3 : asked_for args 3 <-> In "verify" args \/ In "all" args) by (unfold asked_for; change (nth (Z.to_nat 3) test_names "") with "verify"; intuition lia).
  assert (FL : forall p, (In "-full" args \/ ~ In p left_out) <-> ~ (fast = true /\ In p left_out)).
  { intros p. unfold fast. assert (D : In p left_out \/ ~ In p left_out) by (destruct (in_dec (fun a b : ps_name => ltac:(decide equality) : {a = b} + {a <> b}) p left_out); tauto).
    destruct (existsb (String.eqb "-full") args) eqn:EE; cbn [negb].
    - split; [intros _ [X _]; discriminate|]. intros _. left. apply EF. reflexivity.
    - split; [intros [X|X] [_ Y]; [apply EF in X; discriminate|contradiction]|]. intros X. right. intros Y. apply X. auto. }
  split.
  - intros (U & X & H). split; [exact U|]. split; [exact X|]. split.
    + intros A. apply A2 in A. apply P2. specialize (H 2 A). change (res 2) with r2 in H. destruct R2; [contradiction|assumption].
    + intros A. apply A3 in A. specialize (H 3 A). change (res 3) with r3 in H. assert (r3 = 1) as R by (destruct R3; [contradiction|assumption]). intros p Hp. apply FL in Hp. exact (proj1 P3 R p Hp).
  - intros (U & X & H2 & H3). split; [exact U|]. split; [exact X|]. intros i Hi. pose proof (proj1 Hi) as Hr.
    assert (i = 0 \/ i = 1 \/ i = 2 \/ i = 3) as [-> | [-> | [-> | ->]]] by lia.
    + discriminate.
    + discriminate.
    + apply A2 in Hi. change (res 2) with r2. rewrite (proj2 P2 (H2 Hi)). discriminate.
    + apply A3 in Hi. change (res 3) with r3. assert (r3 = 1) as ->; [|discriminate]. apply P3. intros p Hp. apply FL in Hp. exact (H3 Hi p Hp).
Qed.
(** In particular the hash tests succeed, with any further option, in any order, in every
    configuration with all parameter sets *)
Theorem C50_hash_tests : forall cfg n args,
  (forall p, ps_enabled cfg p = true) -> environment_ok cfg n ->
  (forall a, In a args -> In a ["sha512"; "shake256"; "-f"; "-full"; "-q"; "-v"]) -> (In "sha512" args \/ In "shake256" args) ->
  exists ran, program cfg n args = Ok (0, ran).
Proof.
  intros cfg n args on HN HA HS. destruct (C50_program cfg n args on HN) as (st & ran & E & _ & P). exists ran. rewrite E. f_equal. f_equal. apply P.
  split; [intros a Ha; specialize (HA a Ha); cbn [In test_names options] in *; tauto|].
  split; [destruct HS as [H|H]; [exists 0|exists 1]; (split; [lia|left; exact H])|].
  split; intros [H|H]; apply HA in H; cbn [In] in H; intuition discriminate.
Qed.

(** ** The hypotheses can be met *)
Definition ex_environment (cfg : config) : environment :=
  Environment (fun _ => ex_512) (fun _ => ex_512) (fun _ => repeat 3 26) (fun _ => ex_surroundings cfg SHA2_128s 0) (fun _ => ex_locals cfg)
    (fun p => ex_surroundings cfg p (slh_sig_length (slh_of p) + 1)).
Example ex_environment_ok : forall cfg, environment_ok cfg (ex_environment cfg).
Proof.
  intros cfg. split; [intros i; apply ex_wf512|]. split; [intros i; apply ex_wf512|]. split; [reflexivity|].
  split; [intros i; apply ex_surroundings_ok; lia|]. split; [intros i; apply ex_locals_ok|].
  intros p. apply ex_surroundings_ok. pose proof (L_range p). lia.
Qed.
Example ex_program : exists ran, program full_cfg (ex_environment full_cfg) ["-v"; "shake256"; "sha512"] = Ok (0, ran).
Proof. apply C50_hash_tests; [apply full_on|apply ex_environment_ok|intros a [<-|[<-|[<-|[]]]]; cbn; tauto|cbn; tauto]. Qed.
(** a failing test, a misspelt one, and none *)
Definition ex_routine (r : Z) : bool -> outcome Z := fun _ => Ok r.
Example ex_main : main [ex_routine 1; ex_routine 0; ex_routine 1; ex_routine 1] ["verify"; "all"; "-q"] = Ok (1, [0; 1]) /\
  main [ex_routine 1; ex_routine 0; ex_routine 1; ex_routine 1] ["all"; "-f"] = Ok (1, [0; 1; 2; 3]) /\
  main [ex_routine 1; ex_routine 0; ex_routine 1; ex_routine 1] ["verify"; "sha512"] = Ok (0, [0; 3]) /\
  main [ex_routine 1; ex_routine 0; ex_routine 1; ex_routine 1] ["verify"; "sha-512"] = Ok (1, []) /\
  main [ex_routine 1; ex_routine 0; ex_routine 1; ex_routine 1] ["-f"] = Ok (1, []).
Proof. split; [reflexivity|]. split; [reflexivity|]. split; [reflexivity|]. split; reflexivity. Qed.

Print Assumptions C50_exit_status.
Print Assumptions C50_program.
Print Assumptions C50_hash_tests.
