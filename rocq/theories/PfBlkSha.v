(** * Counting runs of the compression functions: sha256.c, sha512.c, fips202.c *)
From Verif Require Import CSem CLeak ModelSha256 ModelSha512 ModelFips202 LeakSha2 LeakFips202 PfLeakErase PfLeakErase2 PfKeccakLanes PfLeakSha PfLeakShake SpecBlocks.
Ltac Zify.zify_post_hook ::= idtac.
Ltac dlia := Z.to_euclidean_division_equations; lia.

(** ** Steps that run none of them *)
Definition still_event (e : event) : Prop := match e with Block _ => False | _ => True end.
Definition still {A} (x : leaky A) : Prop := Forall still_event (trace x).
Lemma still_bind {A B} (x : leaky A) (k : A -> leaky B) : still x -> (forall a, still (k a)) -> still (lbind x k).
Proof.
  intros H K. unfold still, trace, lbind in *. destruct (snd x) as [a|]; [|exact H]. cbn [fst]. apply Forall_app. split; [exact H|apply K].
Qed.
Lemma still_tick {A} e (x : leaky A) : still_event e -> still x -> still (tick e x).
Proof. intros H K. constructor; assumption. Qed.
Lemma still_if {A} b (x y : leaky A) : still x -> still y -> still (lif b x y).
Proof. intros H K. apply still_tick; [exact I|]. destruct b; assumption. Qed.
Lemma still_quiet {A} (o : outcome A) : still (quiet o). Proof. constructor. Qed.
Lemma still_ret {A} (a : A) : still (lret a). Proof. constructor. Qed.
Lemma still_ub {A} r : still (@lub A r). Proof. constructor. Qed.
Lemma still_for {S} n : forall i (b : Z -> S -> leaky S) s, (forall i s, still (b i s)) -> still (l_for n i b s).
Proof.
  induction n as [|n IH]; intros i b s H; cbn [l_for]; (apply still_tick; [exact I|]); [apply still_ret|].
  apply still_bind; [apply H|]. intros a. apply IH, H.
Qed.
Create HintDb sq.
Lemma sq_rd {A} (a : list A) i : still (l_rd a i). Proof. apply still_tick; [exact I|constructor]. Qed.
Lemma sq_wr {A} (a : list A) i v : still (l_wr a i v). Proof. apply still_tick; [exact I|constructor]. Qed.
Lemma sq_rd_range {A} (a : list A) i k : still (l_rd_range a i k). Proof. apply still_tick; [exact I|constructor]. Qed.
Lemma sq_wr_range {A} (a : list A) i v : still (l_wr_range a i v). Proof. apply still_tick; [exact I|constructor]. Qed.
Lemma sq_memset {A} (a : list A) i v k : still (l_memset a i v k). Proof. apply still_tick; [exact I|constructor]. Qed.
Lemma sq_rd_local a i k : still (l_rd_local a i k). Proof. apply still_tick; [exact I|constructor]. Qed.
Lemma sq_wr_local a i v : still (l_wr_local a i v). Proof. apply still_tick; [exact I|constructor]. Qed.
Lemma sq_load m a k : still (l_load m a k). Proof. apply still_tick; [exact I|constructor]. Qed.
Lemma sq_rd_word le sz a o i : still (l_rd_word le sz a o i). Proof. apply still_tick; [exact I|constructor]. Qed.
Lemma sq_wr_word le sz a o i v : still (l_wr_word le sz a o i v). Proof. apply still_tick; [exact I|constructor]. Qed.
Lemma sq_shift w k : still (l_shift_count w k). Proof. apply still_tick; [exact I|constructor]. Qed.
Lemma sq_int x : still (l_int_val x). Proof. constructor. Qed.
Lemma sq_defined x : still (l_defined x). Proof. constructor. Qed.
#[global] Hint Resolve sq_rd sq_wr sq_rd_range sq_wr_range sq_memset sq_rd_local sq_wr_local sq_load sq_rd_word sq_wr_word sq_shift sq_int sq_defined : sq.
Ltac stl0 := first
  [ apply still_ret | apply still_ub | apply still_quiet
  | solve [auto with sq nocore]
  | match goal with
    | |- still (lbind _ _) => apply still_bind; [stl0 | intros; stl0]
    | |- still (lif _ _ _) => apply still_if; stl0
    | |- still (l_for _ _ _ _) => apply still_for; intros; stl0
    | |- still (tick _ _) => apply still_tick; [exact I|stl0]
    | |- still (match ?x with _ => _ end) => destruct x; stl0
    | |- context [match ?x with _ => _ end] => is_var x; destruct x; stl0
    end ].
Ltac stl := cbv zeta; stl0.
Lemma sq_ull x0 x1 : still (l_ts_bytes_to_ull x0 x1). Proof. unfold l_ts_bytes_to_ull. stl. Qed.
Lemma sq_bytes x0 x1 : still (l_ts_ull_to_bytes x0 x1). Proof. unfold l_ts_ull_to_bytes. stl. Qed.
#[global] Hint Resolve sq_ull sq_bytes : sq.
Lemma sq_RORc x0 x1 : still (l_RORc x0 x1). Proof. unfold l_RORc. stl. Qed.
#[global] Hint Resolve sq_RORc : sq.
Lemma sq_Sigma0 x : still (l_Sigma0_32 x). Proof. unfold l_Sigma0_32. stl. Qed.
Lemma sq_Sigma1 x : still (l_Sigma1_32 x). Proof. unfold l_Sigma1_32. stl. Qed.
Lemma sq_Gamma0 x : still (l_Gamma0_32 x). Proof. unfold l_Gamma0_32. stl. Qed.
Lemma sq_Gamma1 x : still (l_Gamma1_32 x). Proof. unfold l_Gamma1_32. stl. Qed.
#[global] Hint Resolve sq_Sigma0 sq_Sigma1 sq_Gamma0 sq_Gamma1 : sq.
Lemma sq_load256 x0 x1 x2 : still (l_sha256_load_W x0 x1 x2). Proof. unfold l_sha256_load_W. stl. Qed.
Lemma sq_round256 x0 x1 x2 : still (l_sha256_round x0 x1 x2). Proof. unfold l_sha256_round. stl. Qed.
#[global] Hint Resolve sq_load256 sq_round256 : sq.
Lemma sq_save256 x0 : still (l_ts_SHA256_save_state x0). Proof. unfold l_ts_SHA256_save_state. stl. Qed.
Lemma sq_restore256 x0 x1 : still (l_ts_SHA256_restore_state_after_64 x0 x1). Proof. unfold l_ts_SHA256_restore_state_after_64. stl. Qed.
#[global] Hint Resolve sq_save256 sq_restore256 : sq.
Lemma sq_ROR64c x0 x1 : still (l_ROR64c x0 x1). Proof. unfold l_ROR64c. stl. Qed.
#[global] Hint Resolve sq_ROR64c : sq.
Lemma sq_Sigma0' x : still (l_Sigma0_64 x). Proof. unfold l_Sigma0_64. stl. Qed.
Lemma sq_Sigma1' x : still (l_Sigma1_64 x). Proof. unfold l_Sigma1_64. stl. Qed.
Lemma sq_Gamma0' x : still (l_Gamma0_64 x). Proof. unfold l_Gamma0_64. stl. Qed.
Lemma sq_Gamma1' x : still (l_Gamma1_64 x). Proof. unfold l_Gamma1_64. stl. Qed.
#[global] Hint Resolve sq_Sigma0' sq_Sigma1' sq_Gamma0' sq_Gamma1' : sq.
Lemma sq_load512 x0 x1 x2 : still (l_sha512_load_W x0 x1 x2). Proof. unfold l_sha512_load_W. stl. Qed.
Lemma sq_round512 x0 x1 x2 : still (l_sha512_round x0 x1 x2). Proof. unfold l_sha512_round. stl. Qed.
#[global] Hint Resolve sq_load512 sq_round512 : sq.
Lemma sq_save512 x0 : still (l_ts_SHA512_save_state x0). Proof. unfold l_ts_SHA512_save_state. stl. Qed.
Lemma sq_restore512 x0 x1 : still (l_ts_SHA512_restore_state_after_128 x0 x1). Proof. unfold l_ts_SHA512_restore_state_after_128. stl. Qed.
#[global] Hint Resolve sq_save512 sq_restore512 : sq.
Lemma sq_ROL x0 x1 : still (l_ROL x0 x1). Proof. unfold l_ROL. stl. Qed.
#[global] Hint Resolve sq_ROL : sq.
Lemma sq_keval r env e : still (l_keval r env e). Proof. induction e; cbn [l_keval]; stl. Qed.
#[global] Hint Resolve sq_keval : sq.
Lemma sq_kexec x0 x1 x2 : still (l_kexec x0 x1 x2). Proof. unfold l_kexec. stl. Qed.
#[global] Hint Resolve sq_kexec : sq.
Lemma sq_kexecs r l : forall env, still (l_kexecs r env l). Proof. induction l as [|s l IH]; intros env; cbn [l_kexecs]; stl. Qed.
#[global] Hint Resolve sq_kexecs : sq.
Lemma sq_rounds_01 x0 : still (l_keccak_rounds_01 x0). Proof. unfold l_keccak_rounds_01. stl. Qed.
#[global] Hint Resolve sq_rounds_01 : sq.
Lemma sq_opt0 x0 : still (l_KeccakF1600_opt0 x0). Proof. unfold l_KeccakF1600_opt0. stl. Qed.
Lemma sq_opt1 x0 : still (l_KeccakF1600_opt1 x0). Proof. unfold l_KeccakF1600_opt1. stl. Qed.
Lemma sq_rd_bc x0 x1 : still (l_rd_bc x0 x1). Proof. unfold l_rd_bc. stl. Qed.
#[global] Hint Resolve sq_opt0 sq_opt1 sq_rd_bc : sq.
Lemma sq_theta x0 : still (l_opt2_theta x0). Proof. unfold l_opt2_theta. stl. Qed.
Lemma sq_rhopi x0 : still (l_opt2_rhopi x0). Proof. unfold l_opt2_rhopi. stl. Qed.
Lemma sq_chi x0 : still (l_opt2_chi x0). Proof. unfold l_opt2_chi. stl. Qed.
#[global] Hint Resolve sq_theta sq_rhopi sq_chi : sq.
Lemma sq_round2 x0 x1 : still (l_opt2_round x0 x1). Proof. unfold l_opt2_round. stl. Qed.
#[global] Hint Resolve sq_round2 : sq.
Lemma sq_opt2 x0 : still (l_KeccakF1600_opt2 x0). Proof. unfold l_KeccakF1600_opt2. stl. Qed.
Lemma sq_inc_init x0 : still (l_keccak_inc_init x0). Proof. unfold l_keccak_inc_init. stl. Qed.
Lemma sq_absorb_bytes x0 x1 x2 : still (l_absorb_bytes x0 x1 x2). Proof. unfold l_absorb_bytes. stl. Qed.
Lemma sq_finalize x0 x1 x2 : still (l_keccak_inc_finalize x0 x1 x2). Proof. unfold l_keccak_inc_finalize. stl. Qed.
Lemma sq_state_byte x0 x1 : still (l_state_byte x0 x1). Proof. unfold l_state_byte. stl. Qed.
#[global] Hint Resolve sq_opt2 sq_inc_init sq_absorb_bytes sq_finalize sq_state_byte : sq.

(** ** A run of [x] that has an outcome runs primitive [q] exactly [k] times, and the outcome is in [Q] *)
Definition takes {A} (q : primitive) (k : Z) (Q : A -> Prop) (x : leaky A) : Prop :=
  forall a, result x = Ok a -> times_run q (trace x) = k /\ Q a.
Lemma run_app q t u : times_run q (t ++ u) = times_run q t + times_run q u.
Proof. unfold times_run. rewrite filter_app, app_length. lia. Qed.
Lemma run_still q t : Forall still_event t -> times_run q t = 0.
Proof. unfold times_run. induction 1 as [|e t He _ IH]; [reflexivity|]. destruct e; cbn [filter is_run]; try exact IH. contradiction. Qed.
Lemma run_quiet q e t : still_event e -> times_run q (e :: t) = times_run q t.
Proof. intros He. unfold times_run. destruct e; try reflexivity. contradiction. Qed.
Lemma run_block q b t : times_run q (Block b :: t) = (if b =? rate q then 1 else 0) + times_run q t.
Proof. unfold times_run. cbn [filter is_run]. destruct (b =? rate q); cbn [length]; lia. Qed.

Section Takes.
Variable q : primitive.
Lemma tk_ret {A} (Q : A -> Prop) a : Q a -> takes q 0 Q (lret a).
Proof. intros H b E. injection E as <-. split; [reflexivity|exact H]. Qed.
Lemma tk_ub {A} k (Q : A -> Prop) r : takes q k Q (lub r).
Proof. intros b E. discriminate. Qed.
Lemma tk_eq {A} k k' (Q : A -> Prop) x : takes q k Q x -> k = k' -> takes q k' Q x.
Proof. intros H <-. exact H. Qed.
Lemma tk_weak {A} k (Q R : A -> Prop) x : takes q k Q x -> (forall a, result x = Ok a -> Q a -> R a) -> takes q k R x.
Proof. intros H K a E. destruct (H a E) as [T HQ]. split; [exact T|apply K; assumption]. Qed.
Lemma tk_still {A} (Q : A -> Prop) x : still x -> (forall a, result x = Ok a -> Q a) -> takes q 0 Q x.
Proof. intros S H a E. split; [apply run_still, S|apply H, E]. Qed.
Lemma tk_bind {A B} k1 k2 (Q : A -> Prop) (R : B -> Prop) x g : takes q k1 Q x ->
  (forall a, result x = Ok a -> Q a -> takes q k2 R (g a)) -> takes q (k1 + k2) R (lbind x g).
Proof.
  intros H K b E. rewrite result_bind in E. destruct (result x) as [a|] eqn:Ex; [|discriminate]. cbn [bind] in E.
  destruct (H a Ex) as [T HQ]. destruct (K a eq_refl HQ b E) as [T' HR]. split; [|exact HR].
  unfold result, trace, lbind in *. rewrite Ex. cbn [fst]. rewrite run_app. congruence.
Qed.
(** a first step without runs *)
Lemma tk_bind0 {A B} k (R : B -> Prop) (x : leaky A) g : still x ->
  (forall a, result x = Ok a -> takes q k R (g a)) -> takes q k R (lbind x g).
Proof. intros H K. apply (tk_bind 0 k (fun _ => True)); [apply tk_still; auto|]. intros a E _. apply K, E. Qed.
Lemma tk_tick {A} e k (Q : A -> Prop) x : still_event e -> takes q k Q x -> takes q k Q (tick e x).
Proof. intros He H a E. destruct (H a E) as [T HQ]. split; [|exact HQ]. unfold trace, tick. cbn [fst]. rewrite run_quiet by exact He. exact T. Qed.
Lemma tk_block {A} q' (Q : A -> Prop) x : still x -> (forall a, result x = Ok a -> Q a) -> takes q (of_ q' 1 q) Q (tick (Block (rate q')) x).
Proof.
  intros S H a E. split; [|apply H, E]. unfold trace, tick. cbn [fst]. rewrite run_block. unfold still, trace in S.
  rewrite run_still by exact S. unfold of_. lia.
Qed.
Lemma tk_if {A} k (Q : A -> Prop) b x y : (b = true -> takes q k Q x) -> (b = false -> takes q k Q y) -> takes q k Q (lif b x y).
Proof. intros H K. apply tk_tick; [exact I|]. destruct b; [apply H|apply K]; reflexivity. Qed.
(** a loop: pass [j] makes K (j + 1) - K j runs *)
Lemma tk_for {S} (K : Z -> Z) (Q : Z -> S -> Prop) n : forall i (b : Z -> S -> leaky S) s, Q i s ->
  (forall j s, i <= j < i + Z.of_nat n -> Q j s -> takes q (K (j + 1) - K j) (Q (j + 1)) (b j s)) ->
  takes q (K (i + Z.of_nat n) - K i) (Q (i + Z.of_nat n)) (l_for n i b s).
Proof.
  induction n as [|n IH]; intros i b s Hs H; cbn [l_for].
  - apply tk_tick; [exact I|]. rewrite Z.add_0_r. eapply tk_eq; [apply tk_ret, Hs|]. lia.
  - apply tk_tick; [exact I|]. replace (i + Z.of_nat (Datatypes.S n)) with (i + 1 + Z.of_nat n) by lia. eapply tk_eq.
    + eapply tk_bind; [apply H; [lia|exact Hs]|]. intros a _ Ha. apply IH; [exact Ha|]. intros j s' Hj. apply H. lia.
    + lia.
Qed.
(** a loop of equal passes *)
Lemma tk_for_eq {S} k (Q : S -> Prop) n i (b : Z -> S -> leaky S) s : Q s ->
  (forall j s, Q s -> takes q k Q (b j s)) -> takes q (Z.of_nat n * k) Q (l_for n i b s).
Proof.
  intros Hs H. eapply tk_eq; [apply (tk_for (fun j => j * k) (fun _ => Q)); [exact Hs|]|cbv beta; ring].
  intros j s' _ Hs'. eapply tk_eq; [apply H, Hs'|]. cbv beta. ring.
Qed.
(** Linear in the number of runs *)
Lemma of_add q' a b : of_ q' a q + of_ q' b q = of_ q' (a + b) q. Proof. unfold of_. destruct (_ =? _); lia. Qed.
Lemma of_sub q' a b : of_ q' a q - of_ q' b q = of_ q' (a - b) q. Proof. unfold of_. destruct (_ =? _); lia. Qed.
Lemma of_mul q' a b : a * of_ q' b q = of_ q' (a * b) q. Proof. unfold of_. destruct (_ =? _); lia. Qed.
Lemma of_0 q' : of_ q' 0 q = 0. Proof. unfold of_. destruct (_ =? _); lia. Qed.

(** ** sha256.c *)
Local Notation of256 k := (of_ sha256_compression k q).
Lemma tk_compress le c b : takes q (of256 1) (fun c' => s256_num c' = s256_num c) (l_compress le c b).
Proof.
  unfold l_compress. apply (tk_block sha256_compression).
  - stl.
  - intros a. rewrite !result_bind. repeat match goal with |- context [bind ?x _] => destruct x; cbn [bind]; [|discriminate]; rewrite ?result_bind end.
    match goal with x : (list Z * _)%type |- _ => destruct x end. intros E. apply ok_inj in E. subst a. reflexivity.
Qed.
Lemma tk_loop256 le fuel : forall c p, 0 <= s256_num c < 64 -> 
  takes q (of256 ((s256_num c + zlen p) / 64)) (fun c' => s256_num c' = (s256_num c + zlen p) mod 64) (l_sha256_update_loop le fuel c p).
Proof.
  induction fuel as [|fuel IH]; intros c p Hn; [apply tk_ub|]. cbn [l_sha256_update_loop]. cbv zeta. assert (Hp : 0 <= zlen p) by (unfold zlen; lia).
  apply tk_if; intros E; [apply Z.eqb_eq in E; rewrite E, Z.add_0_r|apply Z.eqb_neq in E].
  { rewrite Z.div_small by lia. rewrite of_0. apply tk_ret. symmetry. apply Z.mod_small. lia. }
  assert (Eu : u32 (64 - s256_num c) = 64 - s256_num c) by (unfold u32; apply Z.mod_small; lia). rewrite Eu.
  eapply tk_eq; [eapply (tk_bind 0 _ (fun st => st = Z.min (zlen p) (64 - s256_num c)))|apply Z.add_0_l].
  { apply tk_if; intros X; apply tk_ret; [apply Z.ltb_lt in X|apply Z.ltb_ge in X]; [|lia]. unfold u32. rewrite Z.mod_small by lia. lia. }
  intros st _ ->. set (st := Z.min (zlen p) (64 - s256_num c)).
  assert (Hs : 0 < st <= 64 - s256_num c /\ st <= zlen p) by (unfold st; lia).
  assert (Hk : zlen (skipn (Z.to_nat st) p) = zlen p - st) by (unfold zlen in *; rewrite skipn_length; lia).
  apply tk_if; intros E1; [apply Z.eqb_eq in E1|apply Z.eqb_neq in E1].
  - apply tk_bind0; [auto with sq nocore|]. intros blk _. assert (s256_num c = 0) as E0 by lia. rewrite E0 in *.
    eapply tk_eq; [eapply (tk_bind _ (of256 ((zlen p - st) / 64))); [apply tk_compress|]|].
    + intros c1 _ F1. cbn [s256_num] in F1. pose proof (IH c1 (skipn (Z.to_nat st) p) ltac:(lia)) as X. rewrite F1, Hk, !Z.add_0_l in X.
      eapply tk_weak; [exact X|]. intros c2 _ F2. cbv beta in F2 |- *. rewrite F2, Z.add_0_l. replace (zlen p) with (zlen p - st + 1 * 64) at 2 by lia.
      rewrite Z.mod_add by lia. reflexivity.
    + rewrite of_add. f_equal. rewrite Z.add_0_l. replace (zlen p) with (zlen p - st + 1 * 64) at 2 by lia. rewrite Z.div_add by lia. lia.
  - apply tk_bind0; [auto with sq nocore|]. intros src _. apply tk_bind0; [auto with sq nocore|]. intros x _.
    assert (Ev : u32 (st + s256_num c) = st + s256_num c) by (unfold u32; apply Z.mod_small; lia). rewrite Ev.
    apply tk_if; intros E2; [apply Z.ltb_lt in E2|apply Z.ltb_ge in E2].
    + assert (st = zlen p) as E3 by (unfold st in *; lia). rewrite Z.div_small by lia. rewrite of_0. apply tk_ret. cbn [s256_num].
      unfold u32. rewrite (Z.mod_small _ 64) by lia. rewrite Z.mod_small by lia. lia.
    + eapply tk_eq; [eapply (tk_bind _ (of256 ((zlen p - st) / 64))); [apply tk_compress|]|].
      * intros c1 _ F1. cbn [s256_num] in F1. pose proof (IH c1 (skipn (Z.to_nat st) p) ltac:(lia)) as X. rewrite F1, Hk, !Z.add_0_l in X.
        eapply tk_weak; [exact X|]. intros c2 _ F2. cbv beta in F2 |- *. rewrite F2. replace (s256_num c + zlen p) with (zlen p - st + 1 * 64) by lia.
        rewrite Z.mod_add by lia. reflexivity.
      * rewrite of_add. f_equal. replace (s256_num c + zlen p) with (zlen p - st + 1 * 64) by lia. rewrite Z.div_add by lia. lia.
Qed.
Lemma tk_update256 le c p : 0 <= s256_num c < 64 ->
  takes q (of256 ((s256_num c + zlen p) / 64)) (fun c' => s256_num c' = (s256_num c + zlen p) mod 64) (l_ts_SHA256_update le c p).
Proof. intros H. unfold l_ts_SHA256_update. cbv zeta. exact (tk_loop256 le _ (mkSha256 _ _ (s256_num c) _) p H). Qed.
Lemma tk_final256 le c n : 0 <= s256_num c < 64 ->
  takes q (of256 ((s256_num c + 8) / 64 + 1)) (fun _ => True) (l_ts_SHA256_final_trunc le c n).
Proof.
  intros H. unfold l_ts_SHA256_final_trunc. apply tk_bind0; [auto with sq nocore|]. intros fc Ef.
  assert (Lf : zlen fc = 8) by (apply ok_inj in Ef; subst fc; reflexivity).
  eapply tk_eq; [eapply tk_bind; [apply tk_update256, H|]|].
  - intros c1 _ F1. change (zlen [128]) with 1 in F1. set (n1 := (s256_num c + 1) mod 64) in *. assert (B1 : 0 <= n1 < 64) by (apply Z.mod_pos_bound; lia).
    eapply tk_bind.
    + apply (tk_if (of256 (if 56 <? n1 then 1 else 0))); rewrite F1; intros X; rewrite X.
      * eapply tk_eq; [eapply tk_weak; [apply tk_update256; rewrite F1; exact B1|]|].
        { intros c2 _ _. exact I. }
        f_equal. rewrite F1. change (zlen _) with 8. apply Z.ltb_lt in X. dlia.
      * eapply tk_eq; [apply tk_ret; exact I|]. symmetry. apply of_0.
    + intros c2 _ _. apply tk_bind0; [auto with sq nocore|]. intros x _. eapply tk_eq.
      * eapply (tk_bind (of256 1) 0 (fun _ => True)).
        { eapply tk_eq; [eapply tk_weak; [apply tk_update256; cbn [s256_num]; lia|auto]|]. cbn [s256_num]. rewrite Lf. reflexivity. }
        intros c3 _ _. apply tk_still; [stl|auto].
      * reflexivity.
  - change (zlen [128]) with 1. rewrite Z.add_0_r, !of_add. f_equal. set (k := s256_num c) in *. destruct (Z.ltb_spec 56 ((k + 1) mod 64)) as [Y|Y]; dlia.
Qed.

(** ** sha512.c *)
Local Notation of512 k := (of_ sha512_compression k q).
Lemma tk_compress512 le c b : takes q (of512 1) (fun c' => s512_num c' = s512_num c) (l_sha512_compress le c b).
Proof.
  unfold l_sha512_compress. apply (tk_block sha512_compression).
  - stl.
  - intros a. rewrite !result_bind. repeat match goal with |- context [bind ?x _] => destruct x; cbn [bind]; [|discriminate]; rewrite ?result_bind end.
    match goal with x : (list Z * _)%type |- _ => destruct x end. intros E. apply ok_inj in E. subst a. reflexivity.
Qed.
Lemma tk_loop512 le fuel : forall c p, 0 <= s512_num c < 128 -> 
  takes q (of512 ((s512_num c + zlen p) / 128)) (fun c' => s512_num c' = (s512_num c + zlen p) mod 128) (l_sha512_update_loop le fuel c p).
Proof.
  induction fuel as [|fuel IH]; intros c p Hn; [apply tk_ub|]. cbn [l_sha512_update_loop]. cbv zeta. assert (Hp : 0 <= zlen p) by (unfold zlen; lia).
  apply tk_if; intros E; [apply Z.eqb_eq in E; rewrite E, Z.add_0_r|apply Z.eqb_neq in E].
  { rewrite Z.div_small by lia. rewrite of_0. apply tk_ret. symmetry. apply Z.mod_small. lia. }
  assert (Eu : u32 (128 - s512_num c) = 128 - s512_num c) by (unfold u32; apply Z.mod_small; lia). rewrite Eu.
  eapply tk_eq; [eapply (tk_bind 0 _ (fun st => st = Z.min (zlen p) (128 - s512_num c)))|apply Z.add_0_l].
  { apply tk_if; intros X; apply tk_ret; [apply Z.ltb_lt in X|apply Z.ltb_ge in X]; [|lia]. unfold u32. rewrite Z.mod_small by lia. lia. }
  intros st _ ->. set (st := Z.min (zlen p) (128 - s512_num c)).
  assert (Hs : 0 < st <= 128 - s512_num c /\ st <= zlen p) by (unfold st; lia).
  assert (Hk : zlen (skipn (Z.to_nat st) p) = zlen p - st) by (unfold zlen in *; rewrite skipn_length; lia).
  apply tk_if; intros E1; [apply Z.eqb_eq in E1|apply Z.eqb_neq in E1].
  - apply tk_bind0; [auto with sq nocore|]. intros blk _. assert (s512_num c = 0) as E0 by lia. rewrite E0 in *.
    eapply tk_eq; [eapply (tk_bind _ (of512 ((zlen p - st) / 128))); [apply tk_compress512|]|].
    + intros c1 _ F1. cbn [s512_num] in F1. pose proof (IH c1 (skipn (Z.to_nat st) p) ltac:(lia)) as X. rewrite F1, Hk, !Z.add_0_l in X.
      eapply tk_weak; [exact X|]. intros c2 _ F2. cbv beta in F2 |- *. rewrite F2, Z.add_0_l. replace (zlen p) with (zlen p - st + 1 * 128) at 2 by lia.
      rewrite Z.mod_add by lia. reflexivity.
    + rewrite of_add. f_equal. rewrite Z.add_0_l. replace (zlen p) with (zlen p - st + 1 * 128) at 2 by lia. rewrite Z.div_add by lia. lia.
  - apply tk_bind0; [auto with sq nocore|]. intros src _. apply tk_bind0; [auto with sq nocore|]. intros x _.
    assert (Ev : u32 (st + s512_num c) = st + s512_num c) by (unfold u32; apply Z.mod_small; lia). rewrite Ev.
    apply tk_if; intros E2; [apply Z.ltb_lt in E2|apply Z.ltb_ge in E2].
    + assert (st = zlen p) as E3 by (unfold st in *; lia). rewrite Z.div_small by lia. rewrite of_0. apply tk_ret. cbn [s512_num].
      unfold u32. rewrite (Z.mod_small _ 128) by lia. rewrite Z.mod_small by lia. lia.
    + eapply tk_eq; [eapply (tk_bind _ (of512 ((zlen p - st) / 128))); [apply tk_compress512|]|].
      * intros c1 _ F1. cbn [s512_num] in F1. pose proof (IH c1 (skipn (Z.to_nat st) p) ltac:(lia)) as X. rewrite F1, Hk, !Z.add_0_l in X.
        eapply tk_weak; [exact X|]. intros c2 _ F2. cbv beta in F2 |- *. rewrite F2. replace (s512_num c + zlen p) with (zlen p - st + 1 * 128) by lia.
        rewrite Z.mod_add by lia. reflexivity.
      * rewrite of_add. f_equal. replace (s512_num c + zlen p) with (zlen p - st + 1 * 128) by lia. rewrite Z.div_add by lia. lia.
Qed.
Lemma tk_update512 le c p : 0 <= s512_num c < 128 ->
  takes q (of512 ((s512_num c + zlen p) / 128)) (fun c' => s512_num c' = (s512_num c + zlen p) mod 128) (l_ts_SHA512_update le c p).
Proof. intros H. unfold l_ts_SHA512_update. cbv zeta. exact (tk_loop512 le _ (mkSha512 _ _ (s512_num c) _) p H). Qed.
Lemma tk_final512 le c n : 0 <= s512_num c < 128 ->
  takes q (of512 ((s512_num c + 16) / 128 + 1)) (fun _ => True) (l_ts_SHA512_final_trunc le c n).
Proof.
  intros H. unfold l_ts_SHA512_final_trunc. apply tk_bind0; [auto with sq nocore|]. intros fc Ef.
  assert (Lf : zlen fc = 16) by (apply ok_inj in Ef; subst fc; reflexivity).
  eapply tk_eq; [eapply tk_bind; [apply tk_update512, H|]|].
  - intros c1 _ F1. change (zlen [128]) with 1 in F1. set (n1 := (s512_num c + 1) mod 128) in *. assert (B1 : 0 <= n1 < 128) by (apply Z.mod_pos_bound; lia).
    eapply tk_bind.
    + apply (tk_if (of512 (if 112 <? n1 then 1 else 0))); rewrite F1; intros X; rewrite X.
      * eapply tk_eq; [eapply tk_weak; [apply tk_update512; rewrite F1; exact B1|]|].
        { intros c2 _ _. exact I. }
        f_equal. rewrite F1. change (zlen _) with 16. apply Z.ltb_lt in X. dlia.
      * eapply tk_eq; [apply tk_ret; exact I|]. symmetry. apply of_0.
    + intros c2 _ _. apply tk_bind0; [auto with sq nocore|]. intros x _. eapply tk_eq.
      * eapply (tk_bind (of512 1) 0 (fun _ => True)).
        { eapply tk_eq; [eapply tk_weak; [apply tk_update512; cbn [s512_num]; lia|auto]|]. cbn [s512_num]. rewrite Lf. reflexivity. }
        intros c3 _ _. apply tk_still; [stl|auto].
      * reflexivity.
  - change (zlen [128]) with 1. rewrite Z.add_0_r, !of_add. f_equal. set (k := s512_num c) in *. destruct (Z.ltb_spec 112 ((k + 1) mod 128)) as [Y|Y]; dlia.
Qed.


(** ** fips202.c *)
Local Notation ofk k := (of_ keccak_permutation k q).
Definition kat (k : Z) (s : list Z) : Prop := 0 <= k < 136 /\ exists L, length L = 25%nat /\ s = L ++ [k].
Lemma kat_rd k s v : kat k s -> result (l_rd s 25) = Ok v -> v = k.
Proof. intros (_ & L & H & ->). unfold l_rd. rewrite result_tick. unfold quiet, result. cbn [snd]. rewrite rd25 by exact H. intros E. apply ok_inj in E. congruence. Qed.
Lemma kat_wr k s i v s' : kat k s -> i < 25 -> result (l_wr s i v) = Ok s' -> kat k s'.
Proof.
  intros (B & L & H & ->) Hi. unfold l_wr. rewrite result_tick. unfold quiet, result. cbn [snd]. intros E.
  destruct (wr_low L k i v s' H Hi E) as (M & HM & ->). split; [exact B|]. exists M. auto.
Qed.
Lemma kat_wr25 k s v s' : kat k s -> 0 <= v < 136 -> result (l_wr s 25 v) = Ok s' -> kat v s'.
Proof.
  intros (_ & L & H & ->) Hv. unfold l_wr. rewrite result_tick. unfold quiet, result. cbn [snd]. rewrite wr25 by exact H. intros E. apply ok_inj in E. subst s'.
  split; [exact Hv|]. exists L. auto.
Qed.
Lemma tk_perm opt k s : kat k s -> takes q (ofk 1) (kat k) (l_KeccakF1600_StatePermute opt s).
Proof.
  intros (B & L & H & ->). unfold l_KeccakF1600_StatePermute. apply (tk_block keccak_permutation).
  - destruct (opt =? 2); [apply sq_opt2|]. destruct (opt =? 1); [apply sq_opt1|apply sq_opt0].
  - intros a E. pose proof (er_perm opt (L ++ [k])) as X. unfold l_KeccakF1600_StatePermute in X. rewrite result_tick in X. rewrite X, PfKeccakLanes.permute_ok in E by exact H.
    apply ok_inj in E. subst a. split; [exact B|]. eexists. split; [|reflexivity]. apply PfKeccakLanes.lrounds_length, H.
Qed.
Lemma tk_absorb_bytes k s m c : kat k s -> k + c <= 136 -> takes q 0 (kat k) (l_absorb_bytes s m c).
Proof.
  intros H Hc. unfold l_absorb_bytes. pose proof (proj1 H) as B.
  eapply tk_eq; [apply (tk_for (fun _ => 0) (fun _ => kat k)); [exact H|]|reflexivity]. intros i a Hi Ha. cbv beta. apply (tk_eq 0); [|reflexivity].
  apply tk_bind0; [auto with sq nocore|]. intros x Ex. apply (kat_rd k) in Ex; [|exact Ha]. subst x.
  apply tk_bind0; [auto with sq nocore|]. intros b _. cbv zeta. assert (Hi' : i < c) by (destruct (Z.le_gt_cases c 0); lia).
  rewrite (u64_small (k + i)) by lia. apply tk_bind0; [auto with sq nocore|]. intros w _. apply tk_bind0; [auto with sq nocore|]. intros sh _.
  apply tk_still; [auto with sq nocore|]. intros s' E. apply (kat_wr k a _ _ _ Ha) in E; [exact E|].
  rewrite Z.shiftr_div_pow2 by lia. change (2 ^ 3) with 8. apply Z.div_lt_upper_bound; lia.
Qed.
Lemma tk_absorb_loop opt fuel : forall k s m, kat k s -> zlen m < 2 ^ 63 ->
  takes q (ofk ((k + zlen m) / 136)) (kat ((k + zlen m) mod 136)) (l_absorb_loop opt fuel 136 s m).
Proof.
  induction fuel as [|fuel IH]; intros k s m H Hm; [apply tk_ub|]. cbn [l_absorb_loop]. assert (Hp : 0 <= zlen m) by (unfold zlen; lia). pose proof (proj1 H) as B.
  apply tk_bind0; [auto with sq nocore|]. intros x Ex. apply (kat_rd k) in Ex; [|exact H]. subst x. rewrite (u64_small (zlen m + k)) by lia.
  apply tk_if; intros E; [apply Z.leb_le in E|apply Z.leb_gt in E].
  - cbv zeta. rewrite (u64_small (136 - k)) by lia.
    assert (Hk : zlen (skipn (Z.to_nat (136 - k)) m) = zlen m - (136 - k)) by (unfold zlen in *; rewrite skipn_length; lia).
    eapply tk_eq; [eapply tk_bind; [apply (tk_absorb_bytes k); [exact H|lia]|]|].
    + intros s1 _ H1. apply tk_bind0; [auto with sq nocore|]. intros s2 E2. apply (kat_wr25 k _ 0 _ H1) in E2; [|lia].
      eapply (tk_bind _ (ofk ((zlen m - (136 - k)) / 136))); [apply (tk_perm opt 0), E2|]. intros s3 _ H3.
      pose proof (IH 0 s3 (skipn (Z.to_nat (136 - k)) m) H3 ltac:(lia)) as X. rewrite Hk, Z.add_0_l in X.
      replace (k + zlen m) with (zlen m - (136 - k) + 1 * 136) by lia. rewrite Z.mod_add by lia. exact X.
    + rewrite Z.add_0_l, of_add. f_equal. replace (k + zlen m) with (zlen m - (136 - k) + 1 * 136) by lia. rewrite Z.div_add by lia. lia.
  - rewrite Z.div_small by lia. rewrite of_0. rewrite Z.mod_small by lia.
    eapply (tk_bind 0 0); [apply (tk_absorb_bytes k); [exact H|lia]|]. intros s1 _ H1.
    apply tk_bind0; [auto with sq nocore|]. intros x Ex. apply (kat_rd k) in Ex; [|exact H1]. subst x. rewrite (u64_small (k + zlen m)) by lia.
    apply tk_still; [auto with sq nocore|]. intros s2 E2. apply (kat_wr25 k _ _ _ H1) in E2; [exact E2|lia].
Qed.
Lemma tk_absorb opt k s m : kat k s -> zlen m < 2 ^ 63 ->
  takes q (ofk ((k + zlen m) / 136)) (kat ((k + zlen m) mod 136)) (l_ts_shake256_inc_absorb opt s m).
Proof. intros H Hm. exact (tk_absorb_loop opt _ k s m H Hm). Qed.
Lemma for_wr_len n : forall i (s a : list Z), result (l_for n i (fun i s => l_wr s i 0) s) = Ok a -> length a = length s.
Proof.
  induction n as [|n IH]; intros i s a; cbn [l_for].
  - intros E. apply ok_inj in E. congruence.
  - rewrite result_tick, result_bind. destruct (result (l_wr s i 0)) as [b|] eqn:Eb; [|discriminate]. cbn [bind]. intros E. rewrite (IH _ _ _ E).
    unfold l_wr in Eb. rewrite result_tick in Eb. apply wr_length in Eb. exact Eb.
Qed.
Lemma tk_inc_init s : length s = 26%nat -> takes q 0 (kat 0) (l_ts_shake256_inc_init s).
Proof.
  intros Hs. unfold l_ts_shake256_inc_init. apply tk_still; [auto with sq nocore|]. intros s1 E. pose proof (sim_inc_init s s Hs Hs s1 s1 E E) as [_ (L & M & k & HL & _ & Hk & E1 & _)].
  unfold l_keccak_inc_init in E. rewrite result_bind in E. destruct (result (l_for 25 _ _ s)) as [a|] eqn:Ea; [|discriminate]. cbn [bind] in E.
  unfold l_wr in E. rewrite result_tick in E. unfold quiet, result in E. cbn [snd] in E.
  assert (La : length a = 26%nat).
  { rewrite <- Hs. exact (for_wr_len _ _ _ _ Ea). }
  rewrite <- (firstn_skipn 25 a) in E. assert (L0 : length (firstn 25 a) = 25%nat) by (rewrite firstn_length; lia).
  assert (K0 : length (skipn 25 a) = 1%nat) by (rewrite skipn_length; lia). destruct (skipn 25 a) as [|u [|]]; [discriminate| |discriminate].
  rewrite wr25 in E by exact L0. apply ok_inj in E. split; [lia|]. exists (firstn 25 a). split; [exact L0|]. symmetry. exact E.
Qed.
Lemma tk_finalize k s : kat k s -> takes q 0 (kat 0) (l_ts_shake256_inc_finalize s).
Proof.
  intros H. unfold l_ts_shake256_inc_finalize, l_keccak_inc_finalize. pose proof (proj1 H) as B.
  apply tk_bind0; [auto with sq nocore|]. intros x Ex. apply (kat_rd k) in Ex; [|exact H]. subst x.
  apply tk_bind0; [auto with sq nocore|]. intros w _. apply tk_bind0; [auto with sq nocore|]. intros sh _.
  apply tk_bind0; [auto with sq nocore|]. intros s1 E1. apply (kat_wr k s _ _ _ H) in E1; [|apply shr3_low; lia].
  apply tk_bind0; [auto with sq nocore|]. intros w1 _. apply tk_bind0; [auto with sq nocore|]. intros sh1 _.
  apply tk_bind0; [auto with sq nocore|]. intros s2 E2. apply (kat_wr k s1 _ _ _ E1) in E2; [|reflexivity].
  apply tk_still; [auto with sq nocore|]. intros s3 E3. apply (kat_wr25 k _ _ _ E2) in E3; [exact E3|lia].
Qed.
Lemma tk_squeeze_loop opt fuel : forall k s l, kat k s -> takes q (ofk ((l + 135) / 136 - (if l <? 0 then (l + 135) / 136 else 0))) (fun _ => True) (l_squeeze_loop opt fuel 136 s l).
Proof.
  induction fuel as [|fuel IH]; intros k s l H; [apply tk_ub|]. cbn [l_squeeze_loop]. pose proof (proj1 H) as B.
  apply tk_if; intros E; [apply Z.leb_le in E|apply Z.leb_gt in E].
  - eapply tk_eq; [apply tk_ret; exact I|]. symmetry. etransitivity; [|apply (of_0 keccak_permutation)]. f_equal. destruct (Z.ltb_spec l 0); [lia|]. assert (l = 0) by lia. subst l. reflexivity.
  - eapply tk_eq; [eapply tk_bind; [apply (tk_perm opt k), H|]|].
    + intros s1 _ H1. cbv zeta. apply tk_bind0; [stl|]. intros o _. rewrite u64_small by lia.
      apply tk_bind0; [auto with sq nocore|]. intros s2 E2. apply (kat_wr25 k _ _ _ H1) in E2; [|lia].
      eapply tk_bind; [apply (IH _ _ _ E2)|]. intros [r s3] _ _. apply tk_ret. exact I.
    + rewrite Z.add_0_r, of_add. f_equal. destruct (Z.ltb_spec l 0); [lia|]. destruct (Z.ltb_spec (l - Z.min l 136) 0); [lia|]. dlia.
Qed.
Lemma tk_squeeze opt s l : 0 <= l -> kat 0 s -> takes q (ofk ((l + 135) / 136)) (fun _ => True) (l_ts_shake256_inc_squeeze opt l s).
Proof.
  intros Hl H. unfold l_ts_shake256_inc_squeeze, l_keccak_inc_squeeze. change SHAKE256_RATE with 136.
  apply tk_bind0; [auto with sq nocore|]. intros x Ex. apply (kat_rd 0) in Ex; [|exact H]. subst x. cbv zeta.
  apply tk_bind0; [stl|]. intros o _. rewrite u64_small by lia. apply tk_bind0; [auto with sq nocore|]. intros s2 E2. apply (kat_wr25 0 _ _ _ H) in E2; [|lia].
  eapply tk_eq; [eapply tk_bind; [apply (tk_squeeze_loop opt _ _ _ _ E2)|]|].
  - intros [r s3] _ _. apply tk_ret. exact I.
  - rewrite Z.add_0_r. rewrite Z.min_r by lia. rewrite Z.sub_0_r. destruct (Z.ltb_spec l 0); [lia|]. f_equal. lia.
Qed.
End Takes.
