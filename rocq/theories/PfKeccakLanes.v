(** * The three round implementations compute the same function on 25 lanes *)
From Verif Require Import Arr ModelFips202.

(** ** One round on lanes (index 5y+x) *)
Definition rol64 (a k : Z) : Z :=
  if k =? 0 then a else Z.lxor (u64 (Z.shiftl a k)) (Z.shiftr a (64 - k)).
Definition rho_off : list nat :=
  [0; 1; 62; 28; 27; 36; 44; 6; 55; 20; 3; 10; 43; 25; 39; 41; 45; 15; 21; 8; 18; 2; 61; 56; 14]%nat.
Section L.
Variable L : list Z.
Definition ln (i : nat) : Z := nth i L 0.
Definition lC (x : nat) : Z :=
  Z.lxor (Z.lxor (Z.lxor (Z.lxor (ln x) (ln (x + 5))) (ln (x + 10))) (ln (x + 15))) (ln (x + 20)).
Definition lD (x : nat) : Z :=
  Z.lxor (lC (Nat.modulo (x + 4) 5)) (rol64 (lC (Nat.modulo (x + 1) 5)) 1).
Definition lT (i : nat) : Z := Z.lxor (ln i) (lD (Nat.modulo i 5)).
Definition lB (i : nat) : Z :=
  let x := Nat.modulo i 5 in
  let y := Nat.div i 5 in
  let src := (5 * x + Nat.modulo (x + 3 * y) 5)%nat in
  rol64 (lT src) (Z.of_nat (nth src rho_off O)).
Definition lE (i : nat) : Z :=
  let x := Nat.modulo i 5 in
  let y := Nat.div i 5 in
  Z.lxor (lB i) (Z.land (not64 (lB (5 * y + Nat.modulo (x + 1) 5)))
                        (lB (5 * y + Nat.modulo (x + 2) 5))).
Definition lround (c : Z) : list Z :=
  Z.lxor (lE 0) c :: map lE (seq 1 24).
End L.

Lemma lround_length L c : length (lround L c) = 25%nat.
Proof. reflexivity. Qed.

Lemma list25 (L : list Z) : length L = 25%nat -> exists
  a0 a1 a2 a3 a4 a5 a6 a7 a8 a9 a10 a11 a12 a13 a14 a15 a16 a17 a18 a19 a20 a21 a22 a23 a24,
  L = [a0; a1; a2; a3; a4; a5; a6; a7; a8; a9; a10; a11; a12; a13; a14; a15; a16; a17; a18;
       a19; a20; a21; a22; a23; a24].
Proof.
  intros H. do 25 (destruct L as [|? L]; [discriminate|]). destruct L; [|discriminate].
  do 25 eexists. reflexivity.
Qed.
Lemma list35 {A} (L : list A) : length L = 35%nat -> exists
  a0 a1 a2 a3 a4 a5 a6 a7 a8 a9 a10 a11 a12 a13 a14 a15 a16 a17 a18 a19 a20 a21 a22 a23 a24
  a25 a26 a27 a28 a29 a30 a31 a32 a33 a34,
  L = [a0; a1; a2; a3; a4; a5; a6; a7; a8; a9; a10; a11; a12; a13; a14; a15; a16; a17; a18;
       a19; a20; a21; a22; a23; a24; a25; a26; a27; a28; a29; a30; a31; a32; a33; a34].
Proof.
  intros H. do 35 (destruct L as [|? L]; [discriminate|]). destruct L; [|discriminate].
  do 35 eexists. reflexivity.
Qed.

(** ** OPT 0 and 1 *)
Definition half1 : list kstmt := firstn 86 KeccakText.body.
Definition half2 : list kstmt := skipn 86 KeccakText.body.

Lemma kexecs_app r env a b :
  kexecs r env (a ++ b) = (env' <- kexecs r env a ;; kexecs r env' b).
Proof.
  revert env; induction a as [|s a IH]; intros env; [reflexivity|].
  cbn [app kexecs]. destruct (kexec r env s); cbn [bind]; [apply IH|reflexivity].
Qed.


(** The same interpreter with the two round constants given. *)
Fixpoint keval' (c0 c1 : Z) (env : kenv) (e : kexpr) : outcome Z :=
  match e with
  | EVar (Mat i) => rd (k_mat env) i
  | EVar (Loc i) =>
      o <- rd (k_loc env) i ;;
      match o with Some v => Ok v | None => UB Uninitialised end
  | EXor a b => x <- keval' c0 c1 env a ;; y <- keval' c0 c1 env b ;; Ok (Z.lxor x y)
  | EAnd a b => x <- keval' c0 c1 env a ;; y <- keval' c0 c1 env b ;; Ok (Z.land x y)
  | ENot a => x <- keval' c0 c1 env a ;; Ok (not64 x)
  | ERol v k =>
      x <- match v with
           | Mat i => rd (k_mat env) i
           | Loc i => o <- rd (k_loc env) i ;;
                      match o with Some v => Ok v | None => UB Uninitialised end
           end ;; ROL x k
  | ERC k => if k =? 0 then Ok c0 else if k =? 1 then Ok c1 else UB OutOfBounds
  end.
Definition kexec' (c0 c1 : Z) (env : kenv) (s : kstmt) : outcome kenv :=
  let '(Assign v e) := s in
  x <- keval' c0 c1 env e ;;
  match v with
  | Mat i => m <- wr (k_mat env) i x ;; Ok (mkKenv m (k_loc env))
  | Loc i => l <- wr (k_loc env) i (Some x) ;; Ok (mkKenv (k_mat env) l)
  end.
Fixpoint kexecs' (c0 c1 : Z) (env : kenv) (l : list kstmt) : outcome kenv :=
  match l with
  | [] => Ok env
  | s :: l' => env' <- kexec' c0 c1 env s ;; kexecs' c0 c1 env' l'
  end.

Section RC.
Variables (r c0 c1 : Z).
Hypothesis R0 : rd KeccakF_RoundConstants (r + 0) = Ok c0.
Hypothesis R1 : rd KeccakF_RoundConstants (r + 1) = Ok c1.
Lemma keval_ok env e v : keval' c0 c1 env e = Ok v -> keval r env e = Ok v.
Proof.
  revert v; induction e as [x|a IHa b IHb|a IHa b IHb|a IHa|a k|k]; intros v; cbn [keval' keval].
  - exact (fun H => H).
  - intros H. apply bind_ok in H as (x & Ex & H). apply bind_ok in H as (y & Ey & H).
    rewrite (IHa _ Ex), (IHb _ Ey). exact H.
  - intros H. apply bind_ok in H as (x & Ex & H). apply bind_ok in H as (y & Ey & H).
    rewrite (IHa _ Ex), (IHb _ Ey). exact H.
  - intros H. apply bind_ok in H as (x & Ex & H). rewrite (IHa _ Ex). exact H.
  - exact (fun H => H).
  - destruct (Z.eqb_spec k 0) as [->|]; [intros [= <-]; exact R0|].
    destruct (Z.eqb_spec k 1) as [->|]; [intros [= <-]; exact R1|discriminate].
Qed.
Lemma kexecs_ok env l env' : kexecs' c0 c1 env l = Ok env' -> kexecs r env l = Ok env'.
Proof.
  revert env; induction l as [|[v e] l IH]; intros env; cbn [kexecs kexecs']; [exact (fun H => H)|].
  intros H. apply bind_ok in H as (e1 & E1 & H).
  replace (kexec r env (Assign v e)) with (Ok e1); [apply IH, H|].
  unfold kexec, kexec' in *. apply bind_ok in E1 as (x & Ex & E1).
  rewrite (keval_ok _ _ _ Ex). symmetry; exact E1.
Qed.
End RC.

Definition tail_ok (tl : list Z) : Prop := (length tl <= 1)%nat.

Ltac kcbv := cbv -[Z.lxor Z.land u64 Z.shiftl Z.shiftr not64].

Lemma half1_ok c c1 L tl loc : length L = 25%nat -> tail_ok tl -> length loc = 35%nat ->
  exists L' j, length L' = 25%nat /\ length j = 10%nat /\
    kexecs' c c1 (mkKenv (L ++ tl) loc) half1 = Ok (mkKenv (L' ++ tl) (j ++ map Some (lround L c))).
Proof.
  intros HL Ht Hl.
  destruct (list25 L HL) as (a0 & a1 & a2 & a3 & a4 & a5 & a6 & a7 & a8 & a9 & a10 & a11 & a12
    & a13 & a14 & a15 & a16 & a17 & a18 & a19 & a20 & a21 & a22 & a23 & a24 & ->).
  destruct (list35 loc Hl) as (l0 & l1 & l2 & l3 & l4 & l5 & l6 & l7 & l8 & l9 & l10 & l11 & l12
    & l13 & l14 & l15 & l16 & l17 & l18 & l19 & l20 & l21 & l22 & l23 & l24 & l25 & l26 & l27
    & l28 & l29 & l30 & l31 & l32 & l33 & l34 & ->).
  clear HL Hl.
  destruct tl as [|k [|? ?]]; [| |unfold tail_ok in Ht; cbn in Ht; lia]; clear Ht.
  - eexists [_;_;_;_;_;_;_;_;_;_;_;_;_;_;_;_;_;_;_;_;_;_;_;_;_], [_;_;_;_;_;_;_;_;_;_].
    split; [reflexivity|split; [reflexivity|]].
    kcbv. reflexivity.
  - eexists [_;_;_;_;_;_;_;_;_;_;_;_;_;_;_;_;_;_;_;_;_;_;_;_;_], [_;_;_;_;_;_;_;_;_;_].
    split; [reflexivity|split; [reflexivity|]].
    kcbv. reflexivity.
Qed.

Lemma list10 {A} (L : list A) : length L = 10%nat -> exists
  a0 a1 a2 a3 a4 a5 a6 a7 a8 a9, L = [a0; a1; a2; a3; a4; a5; a6; a7; a8; a9].
Proof.
  intros H. do 10 (destruct L as [|? L]; [discriminate|]). destruct L; [|discriminate].
  do 10 eexists. reflexivity.
Qed.
Lemma half2_ok c0 c L E j tl : length L = 25%nat -> tail_ok tl -> length j = 10%nat ->
  length E = 25%nat ->
  exists loc, length loc = 35%nat /\
    kexecs' c0 c (mkKenv (L ++ tl) (j ++ map Some E)) half2 = Ok (mkKenv (lround E c ++ tl) loc).
Proof.
  intros HL Ht Hl HE.
  destruct (list25 L HL) as (a0 & a1 & a2 & a3 & a4 & a5 & a6 & a7 & a8 & a9 & a10 & a11 & a12
    & a13 & a14 & a15 & a16 & a17 & a18 & a19 & a20 & a21 & a22 & a23 & a24 & ->).
  destruct (list25 E HE) as (e0 & e1 & e2 & e3 & e4 & e5 & e6 & e7 & e8 & e9 & e10 & e11 & e12
    & e13 & e14 & e15 & e16 & e17 & e18 & e19 & e20 & e21 & e22 & e23 & e24 & ->).
  destruct (list10 j Hl) as (j0 & j1 & j2 & j3 & j4 & j5 & j6 & j7 & j8 & j9 & ->).
  clear HL Hl HE.
  destruct tl as [|k [|? ?]]; [| |unfold tail_ok in Ht; cbn in Ht; lia]; clear Ht.
  - eexists [_;_;_;_;_;_;_;_;_;_;_;_;_;_;_;_;_;_;_;_;_;_;_;_;_;_;_;_;_;_;_;_;_;_;_].
    split; [reflexivity|].
    kcbv. reflexivity.
  - eexists [_;_;_;_;_;_;_;_;_;_;_;_;_;_;_;_;_;_;_;_;_;_;_;_;_;_;_;_;_;_;_;_;_;_;_].
    split; [reflexivity|].
    kcbv. reflexivity.
Qed.

Definition rcs : list Z := KeccakF_RoundConstants.
Definition lrounds (cs : list Z) (L : list Z) : list Z := fold_left lround cs L.

Lemma lrounds_length cs L : length L = 25%nat -> length (lrounds cs L) = 25%nat.
Proof. revert L; induction cs; intros L H; [exact H|]. cbn. apply IHcs. reflexivity. Qed.

Lemma rounds01_ok L tl loc : length L = 25%nat -> tail_ok tl -> length loc = 35%nat ->
  exists loc', keccak_rounds_01 (mkKenv (L ++ tl) loc) = Ok (mkKenv (lrounds rcs L ++ tl) loc').
Proof.
  intros HL Ht Hl. unfold keccak_rounds_01.
  change (Z.to_nat ((NROUNDS + 1) / 2)) with 12%nat.
  destruct (for_loop_inv (fun i env => exists loc', length loc' = 35%nat /\
      env = mkKenv (lrounds (firstn (Z.to_nat (2 * i)) rcs) L ++ tl) loc')
    (fun i env => kexecs (2 * i) env KeccakText.body) 12 0 (mkKenv (L ++ tl) loc))
    as (env & E & loc' & Hl' & ->).
  - exists loc. split; [exact Hl|reflexivity].
  - intros i env Hi (l1 & Hl1 & ->).
    assert (HLi := lrounds_length (firstn (Z.to_nat (2 * i)) rcs) L HL).
    set (Li := lrounds _ L) in *.
    set (c0 := nth (Z.to_nat (2 * i)) rcs 0). set (c1 := nth (S (Z.to_nat (2 * i))) rcs 0).
    assert (R0 : rd KeccakF_RoundConstants (2 * i + 0) = Ok c0).
    { rewrite (rd_ok _ _ 0) by (change (zlen KeccakF_RoundConstants) with 24; lia).
      f_equal. unfold c0, rcs. f_equal. lia. }
    assert (R1 : rd KeccakF_RoundConstants (2 * i + 1) = Ok c1).
    { rewrite (rd_ok _ _ 0) by (change (zlen KeccakF_RoundConstants) with 24; lia).
      f_equal. unfold c1, rcs. f_equal. lia. }
    destruct (half1_ok c0 c1 Li tl l1 HLi Ht Hl1) as (L' & j & HL' & Hj & E1).
    destruct (half2_ok c0 c1 L' (lround Li c0) j tl HL' Ht Hj (lround_length _ _))
      as (l2 & Hl2 & E2).
    eexists; split.
    + change KeccakText.body with (half1 ++ half2). rewrite kexecs_app.
      rewrite (kexecs_ok _ _ _ R0 R1 _ _ _ E1). cbn [bind].
      exact (kexecs_ok _ _ _ R0 R1 _ _ _ E2).
    + exists l2. split; [exact Hl2|]. do 2 f_equal.
      unfold Li, lrounds. replace (Z.to_nat (2 * (i + 1))) with (S (S (Z.to_nat (2 * i)))) by lia.
      rewrite (firstn_S_nth (S _) rcs 0), (firstn_S_nth _ rcs 0) by (change (length rcs) with 24%nat; lia).
      rewrite !fold_left_app. reflexivity.
  - exists loc'. rewrite E. reflexivity.
Qed.

Lemma opt0_ok L k : length L = 25%nat -> KeccakF1600_opt0 (L ++ [k]) = Ok (lrounds rcs L ++ [k]).
Proof.
  intros H. unfold KeccakF1600_opt0.
  rewrite rd_range_0 by (unfold zlen; lia). cbn [bind].
  destruct (rounds01_ok L [] no_locals H) as (loc' & E); [unfold tail_ok; cbn; lia|reflexivity|].
  rewrite app_nil_r in E. rewrite E. cbn [bind k_mat]. rewrite app_nil_r.
  rewrite wr_range_0.
  - rewrite skipn_app_exact; [reflexivity|]. rewrite lrounds_length; auto.
  - unfold zlen. rewrite app_length, lrounds_length by exact H. lia.
Qed.
Lemma opt1_ok L k : length L = 25%nat -> KeccakF1600_opt1 (L ++ [k]) = Ok (lrounds rcs L ++ [k]).
Proof.
  intros H. unfold KeccakF1600_opt1.
  destruct (rounds01_ok L [k] no_locals H) as (loc' & E); [unfold tail_ok; cbn; lia|reflexivity|].
  rewrite E. reflexivity.
Qed.

(** ** OPT 2 *)
Lemma opt2_round_ok r c L k bc : length L = 25%nat -> length bc = 5%nat ->
  rd keccakf_rndc r = Ok c ->
  exists bc', length bc' = 5%nat /\ opt2_round r (L ++ [k], bc) = Ok (lround L c ++ [k], bc').
Proof.
  intros HL Hb Hr.
  destruct (list25 L HL) as (a0 & a1 & a2 & a3 & a4 & a5 & a6 & a7 & a8 & a9 & a10 & a11 & a12
    & a13 & a14 & a15 & a16 & a17 & a18 & a19 & a20 & a21 & a22 & a23 & a24 & ->).
  clear HL.
  do 5 (destruct bc as [|? bc]; [discriminate|]). destruct bc; [|discriminate]. clear Hb.
  eexists [_;_;_;_;_]. split; [reflexivity|].
  unfold opt2_round.
  match goal with |- context [opt2_theta ?s] =>
    let e := constr:(opt2_theta s) in
    let e' := eval cbv -[Z.lxor Z.land u64 Z.shiftl Z.shiftr not64] in e in
    change e with e' end. cbn [bind].
  match goal with |- context [opt2_rhopi ?s] =>
    let e := constr:(opt2_rhopi s) in
    let e' := eval cbv -[Z.lxor Z.land u64 Z.shiftl Z.shiftr not64] in e in
    change e with e' end. cbn [bind].
  match goal with |- context [opt2_chi ?s] =>
    let e := constr:(opt2_chi s) in
    let e' := eval cbv -[Z.lxor Z.land u64 Z.shiftl Z.shiftr not64] in e in
    change e with e' end. cbn [bind].
  rewrite Hr. kcbv. reflexivity.
Qed.
Lemma opt2_ok L k : length L = 25%nat -> KeccakF1600_opt2 (L ++ [k]) = Ok (lrounds rcs L ++ [k]).
Proof.
  intros H. unfold KeccakF1600_opt2. change (Z.to_nat NROUNDS) with 24%nat.
  destruct (for_loop_inv (fun i s => exists bc, length bc = 5%nat /\
      s = (lrounds (firstn (Z.to_nat i) rcs) L ++ [k], bc))
    opt2_round 24 0 (L ++ [k], repeat None 5)) as (s & E & bc & Hb & ->).
  - exists (repeat None 5). split; reflexivity.
  - intros i s Hi (bc & Hb & ->).
    assert (HLi := lrounds_length (firstn (Z.to_nat i) rcs) L H).
    set (Li := lrounds _ L) in *.
    destruct (opt2_round_ok i (nth (Z.to_nat i) rcs 0) Li k bc HLi Hb) as (bc' & Hb' & E).
    { rewrite (rd_ok _ _ 0) by (change (zlen keccakf_rndc) with 24; lia). reflexivity. }
    eexists; split; [exact E|]. exists bc'; split; [exact Hb'|]. f_equal. f_equal.
    unfold Li, lrounds. replace (Z.to_nat (i + 1)) with (S (Z.to_nat i)) by lia.
    rewrite (firstn_S_nth _ rcs 0) by (change (length rcs) with 24%nat; lia).
    rewrite !fold_left_app. reflexivity.
  - rewrite E. reflexivity.
Qed.

Lemma permute_ok opt L k : length L = 25%nat ->
  KeccakF1600_StatePermute opt (L ++ [k]) = Ok (lrounds rcs L ++ [k]).
Proof.
  intros H. unfold KeccakF1600_StatePermute.
  destruct (opt =? 2); [apply opt2_ok, H|]. destruct (opt =? 1); [apply opt1_ok, H|apply opt0_ok, H].
Qed.
