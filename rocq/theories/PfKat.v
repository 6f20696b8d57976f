(** * The known answer tests *)
From Verif Require Import Arr SpecSha2 SpecKeccak SpecSLH SpecMap SpecForge SpecBinding SpecTest SpecApi SpecSessions ModelParams ModelCtx ModelSha256 ModelSha512 ModelFips202
  ModelSphincs ModelVerify ModelKeygen ModelApi ModelTest ModelKat PfHashSessions PfShake
  PfIter PfSpec PfApi PfKeygen PfComplete PfSession PfForge PfBind PfTest PropSign PropVerify PropApi.
From Verif Require PfSha256 PfSha512.
Ltac Zify.zify_post_hook ::= idtac.

Definition eqb (a b : list Z) : bool := if list_eq_dec Z.eq_dec a b then true else false.
Lemma eqb_true a b : eqb a b = true <-> a = b.
Proof. unfold eqb. destruct (list_eq_dec Z.eq_dec a b); split; congruence. Qed.
Lemma same_ok a b n : 0 <= n -> n <= len a -> n <= len b -> same a b n = Ok (eqb (firstn (Z.to_nat n) a) (firstn (Z.to_nat n) b)).
Proof. intros Hn Ha Hb. unfold same. rewrite !rd_range_ok by (change (@zlen Z) with len; lia). reflexivity. Qed.

(** ** test_sha512.c *)
Definition wf512 (c : sha512_ctx) : Prop := length (s512_h c) = 8%nat /\ is_bytes (s512_x c) /\ length (s512_x c) = 128%nat.
Section Sha512.
Variable le : bool.
Local Notation rep := (PfSha512.rep SHA512).
Local Notation S512 := PfSha512.SHA512_is.
Lemma rep_wf c m : rep c m -> wf512 c.
Proof.
  intros [H _]. split; [apply (PfSha512.repx_h_ok SHA512 S512 c m H)|]. split; [apply (PfSha512.rx_x _ _ _ H)|exact (PfSha512.rx_len _ _ _ H)].
Qed.
Lemma init_512 c : wf512 c -> rep (ts_SHA512_init c) [].
Proof. intros (_ & H1 & H2). apply PfSha512.repx_init; [first [exact S512|exact H1]|first [exact H1|exact H2]..]. Qed.
Lemma update_512 c m p : rep c m -> is_bytes p -> exists c', ts_SHA512_update le c p = Ok c' /\ rep c' (m ++ p).
Proof. intros H1 H2. exact (PfSha512.update_spec SHA512 S512 le c m p H1 H2). Qed.
Lemma final_512 c m k : rep c m -> 8 * len m < 2 ^ 64 -> 0 <= k <= 8 ->
  exists c', ts_SHA512_final_trunc le c (8 * k) = Ok (firstn (Z.to_nat (8 * k)) (sha2 SHA512 m), c') /\ wf512 c'.
Proof.
  intros H1 H2 Hk. destruct (PfSha512.final_trunc_spec SHA512 S512 le c m (Z.to_nat k) H1 H2 ltac:(lia)) as (c' & E & m' & R).
  exists c'. split.
  - replace (8 * k) with (8 * Z.of_nat (Z.to_nat k)) by lia. rewrite E. do 3 f_equal. lia.
  - split; [apply (PfSha512.repx_h_ok SHA512 S512 c' m' R)|]. split; [apply (PfSha512.rx_x _ _ _ R)|exact (PfSha512.rx_len _ _ _ R)].
Qed.
Lemma final_512_all c m : rep c m -> 8 * len m < 2 ^ 64 -> exists c', ts_SHA512_final le c = Ok (sha2 SHA512 m, c') /\ wf512 c'.
Proof.
  intros H1 H2. destruct (final_512 c m 8 H1 H2 ltac:(lia)) as (c' & E & W). exists c'. split; [|exact W].
  unfold ts_SHA512_final. change 64 with (8 * 8). rewrite E. rewrite firstn_all2 by (rewrite sha512_length; cbn; lia). reflexivity.
Qed.

Variables (message expected : list Z).
Local Notation L := (len message).
Hypothesis BM : is_bytes message.
Hypothesis HL : L < 2 ^ 31.
Hypothesis LE : len expected = 64.

Lemma pieces_512_ok n : 0 < n < 2 ^ 31 -> forall fuel j c, rep c (firstn (Z.to_nat j) message) -> 0 <= j < 2 ^ 32 -> (Z.to_nat (L - j) < fuel)%nat ->
  exists c', pieces_512 le fuel message L n j c = Ok c' /\ rep c' message.
Proof using BM HL LE.
  intros Hn. induction fuel as [|fuel IH]; intros j c R Hj HF; [lia|]. cbn [pieces_512].
  destruct (Z.ltb_spec j L) as [H|H].
  2:{ exists c. split; [reflexivity|]. rewrite firstn_all2 in R by (unfold len in H; lia). exact R. }
  cbv zeta. unfold u32 at 1 2. rewrite Z.mod_small by lia.
  assert (EM : (if n <? L - j then n else L - j) = Z.min n (L - j)) by (destruct (Z.ltb_spec n (L - j)); lia). rewrite EM.
  rewrite rd_range_ok by (change (@zlen Z) with len; lia). cbn [bind].
  destruct (update_512 c _ (firstn (Z.to_nat (Z.min n (L - j))) (skipn (Z.to_nat j) message)) R) as (c' & E & R').
  { apply Forall_firstn', Forall_skipn', BM. }
  rewrite E. cbn [bind]. assert (EJ : u32 (j + n) = j + n) by (apply Z.mod_small; lia). rewrite EJ.
  apply IH; [|lia|lia]. rewrite <- firstn_plus in R'.
  destruct (Z.min_spec n (L - j)) as [[H1 H2]|[H1 H2]]; rewrite H2 in R'.
  - replace (Z.to_nat (j + n)) with (Z.to_nat j + Z.to_nat n)%nat by lia. exact R'.
  - rewrite firstn_all2 by (unfold len in *; lia). rewrite firstn_all2 in R' by (unfold len in *; lia). exact R'.
Qed.
Local Notation good := (eqb expected (sha2 SHA512 message)).
Lemma small : 8 * L < 2 ^ 64. Proof using HL. clear - HL. lia. Qed.
Lemma whole : firstn 64 expected = expected. Proof using LE. apply firstn_all2. unfold len in LE. lia. Qed.
Lemma digest_len : len (sha2 SHA512 message) = 64. Proof using. clear. unfold len. rewrite sha512_length. reflexivity. Qed.
Lemma put_digest : wr_range (repeat 0 64) 0 (sha2 SHA512 message) = Ok (sha2 SHA512 message).
Proof using.
  clear. rewrite wr_range_0 by (change (@zlen Z) with len; rewrite digest_len; cbn; lia). rewrite skipn_all2, app_nil_r by (rewrite sha512_length; cbn; lia). reflexivity.
Qed.
Lemma compare_digest : same expected (sha2 SHA512 message) 64 = Ok good.
Proof using LE.
  pose proof digest_len as D. rewrite same_ok by lia. change (Z.to_nat 64) with 64%nat. rewrite whole, (firstn_all2 (sha2 SHA512 message)) by (rewrite sha512_length; lia). reflexivity.
Qed.
Lemma sizes_512_ok : forall fuel n c, wf512 c -> 1 <= n -> (Z.to_nat (L + 1 - n) < fuel)%nat ->
  exists c', sizes_512 le fuel expected message L n c = Ok (if n <=? L then good else true, c') /\ wf512 c'.
Proof using BM HL LE.
  induction fuel as [|fuel IH]; intros n c W Hn HF; [lia|]. cbn [sizes_512].
  destruct (Z.leb_spec n L) as [H|H]; [|exists c; split; [reflexivity|exact W]]. cbv zeta.
  destruct (pieces_512_ok n ltac:(lia) (S (Z.to_nat L)) 0 (ts_SHA512_init c) (init_512 c W) ltac:(lia) ltac:(lia)) as (c1 & E1 & R1). rewrite E1. cbn [bind].
  destruct (final_512_all c1 message R1 small) as (c2 & E2 & W2). rewrite E2. cbn [bind]. rewrite put_digest. cbn [bind]. rewrite compare_digest. cbn [bind].
  destruct good eqn:EG; cbn [negb]; [|exists c2; split; [reflexivity|exact W2]].
  assert (EN : u32 (n + 1) = n + 1) by (apply Z.mod_small; lia). rewrite EN.
  destruct (IH (n + 1) c2 W2 ltac:(lia) ltac:(lia)) as (c' & E & W'). exists c'. split; [|exact W']. rewrite E. destruct (n + 1 <=? L); reflexivity.
Qed.
Lemma untouched_ok l : len l = 64 -> forall fuel i, 0 <= i -> (Z.to_nat (64 - i) < fuel)%nat -> Forall (fun x => x = 0) (skipn (Z.to_nat i) l) -> untouched fuel l i = Ok true.
Proof using.
  clear. intros HL. induction fuel as [|fuel IH]; intros i Hi HF HZ; [lia|]. cbn [untouched]. destruct (Z.ltb_spec i 64) as [H|]; [|reflexivity].
  rewrite (rd_ok l i 0) by (change (@zlen Z) with len; lia). cbn [bind].
  rewrite (skipn_S_nth 0) in HZ by (unfold len in HL; lia). rewrite (Forall_inv HZ). cbn [Z.eqb negb]. apply IH; [lia|lia|].
  replace (Z.to_nat (i + 1)) with (S (Z.to_nat i)) by lia. exact (Forall_inv_tail HZ).
Qed.
Lemma trunc_512_ok filled : (forall b, wf512 (filled b)) -> forall fuel k c, wf512 c -> 1 <= k <= 9 -> (Z.to_nat (9 - k) < fuel)%nat ->
  exists ok c', trunc_512 le fuel filled expected message L (8 * k) c = Ok (ok, c') /\ wf512 c' /\
    (expected = sha2 SHA512 message -> ok = true) /\ (k <= 8 -> ok = true -> expected = sha2 SHA512 message).
Proof using BM HL LE.
  intros WF. induction fuel as [|fuel IH]; intros k c W Hk HF; [lia|]. cbn [trunc_512].
  destruct (Z.leb_spec (8 * k) 64) as [H|H].
  2:{ exists true, c. split; [reflexivity|]. split; [exact W|]. split; [reflexivity|lia]. }
  cbv zeta. rewrite rd_range_all by reflexivity. cbn [bind].
  destruct (update_512 _ _ message (init_512 _ (WF (8 * k))) BM) as (c1 & E1 & R1). rewrite E1. cbn [bind app] in *.
  destruct (final_512 c1 message k R1 small ltac:(lia)) as (c2 & E2 & W2). rewrite E2. cbn [bind].
  set (D := sha2 SHA512 message) in *. assert (LD : len D = 64) by apply digest_len.
  assert (Lf : length (firstn (Z.to_nat (8 * k)) D) = Z.to_nat (8 * k)) by (rewrite firstn_length; unfold len in LD; lia).
  rewrite wr_range_0 by (unfold zlen; rewrite Lf, repeat_length; lia). cbn [bind]. rewrite Lf.
  set (A := firstn (Z.to_nat (8 * k)) D ++ skipn (Z.to_nat (8 * k)) (repeat 0 64)).
  assert (LA : len A = 64) by (unfold A; rewrite len_app; unfold len in *; rewrite Lf, skipn_length, repeat_length; lia).
  rewrite same_ok by lia. cbn [bind]. unfold A at 1. rewrite firstn_app_exact by exact Lf.
  destruct (eqb (firstn (Z.to_nat (8 * k)) expected) (firstn (Z.to_nat (8 * k)) D)) eqn:EG; cbn [negb].
  2:{ exists false, c2. split; [reflexivity|]. split; [exact W2|]. split; [|discriminate]. intros ->.
      rewrite (proj2 (eqb_true _ _) eq_refl) in EG. discriminate. }
  rewrite (untouched_ok A LA) by (try lia; unfold A; rewrite skipn_app, skipn_all2, Lf, Nat.sub_diag by lia; cbn [app skipn];
    apply Forall_skipn'; apply Forall_forall; intros x Hx; exact (repeat_spec _ _ _ Hx)). cbn [bind negb].
  replace (8 * k + 8) with (8 * (k + 1)) by ring.
  destruct (IH (k + 1) c2 W2 ltac:(lia) ltac:(lia)) as (ok & c' & E & W' & P1 & P2). exists ok, c'. split; [exact E|]. split; [exact W'|]. split; [exact P1|].
  intros _ Hok. destruct (Z.eq_dec k 8) as [->|]; [|apply P2; [lia|exact Hok]].
  apply eqb_true in EG. rewrite !firstn_all2 in EG by (unfold len in *; lia). exact EG.
Qed.
Theorem test_one_512_ok c filled : wf512 c -> (forall b, wf512 (filled b)) ->
  exists r, test_one_512 le c filled expected message L = Ok r /\ (r = 0 \/ r = 1) /\ (r = 1 <-> expected = sha2 SHA512 message).
Proof using BM HL LE.
  intros W WF. unfold test_one_512. assert (0 <= L) by (unfold len; lia).
  destruct (sizes_512_ok (S (S (Z.to_nat L))) 1 c W ltac:(lia) ltac:(lia)) as (c1 & E1 & W1). rewrite E1. cbn [bind]. clear E1.
  assert (NO : expected <> sha2 SHA512 message -> exists r : Z, Ok 0 = Ok r /\ (r = 0 \/ r = 1) /\ (r = 1 <-> expected = sha2 SHA512 message)).
  { intros N. exists 0. split; [reflexivity|]. split; [auto|]. split; [discriminate|intros X; contradiction]. }
  destruct (if 1 <=? L then good else true) eqn:EG; cbn [negb].
  2:{ apply NO. intros X. rewrite (proj2 (eqb_true _ _) X) in EG. destruct (1 <=? L); discriminate. }
  destruct (trunc_512_ok filled WF 9 1 c1 W1 ltac:(lia) ltac:(lia)) as (ok & c2 & E2 & W2 & P1 & P2). change (8 * 1) with 8 in E2. rewrite E2. cbn [bind]. clear E2.
  destruct ok; cbn [negb]; [|apply NO; intros X; specialize (P1 X); discriminate].
  specialize (P2 ltac:(lia) eq_refl).
  assert (YES : exists r : Z, Ok 1 = Ok r /\ (r = 0 \/ r = 1) /\ (r = 1 <-> expected = sha2 SHA512 message)) by (exists 1; split; [reflexivity|]; split; [auto|tauto]).
  destruct (Z.leb_spec 128 L) as [H1|]; [|exact YES]. cbv zeta.
  rewrite rd_range_ok by (change (@zlen Z) with len; lia). cbn [bind skipn Z.to_nat]. change (Pos.to_nat 128) with 128%nat.
  assert (B1 : is_bytes (firstn 128 message)) by apply Forall_firstn', BM.
  destruct (update_512 _ _ (firstn 128 message) (init_512 _ W2) B1) as (c3 & E3 & R3). rewrite E3. cbn [bind app] in *.
  rewrite (PfSha512.save_spec SHA512 S512 c3 _ (PfSha512.rep_x _ _ _ R3)). cbn [bind].
  destruct (WF 42) as (F1 & F2 & F3).
  destruct (PfSha512.restore_spec SHA512 S512 (filled 42) (s512_h c3) (firstn 128 message) F1 F2 F3 B1) as (c4 & E4 & R4).
  { rewrite firstn_length. unfold len in H1. change (Nat.min 128 (length message) = 128%nat). lia. }
  { exact (PfSha512.rx_h _ _ _ (PfSha512.rep_x _ _ _ R3)). }
  rewrite E4. cbn [bind]. rewrite rd_range_ok by (change (@zlen Z) with len; lia). cbn [bind]. change (Z.to_nat 128) with 128%nat.
  rewrite (firstn_all2 (skipn 128 message)) by (rewrite skipn_length; unfold len in *; lia).
  destruct (update_512 _ _ (skipn 128 message) R4 (Forall_skipn' _ _ _ BM)) as (c5 & E5 & R5). rewrite E5. cbn [bind]. rewrite firstn_skipn in R5.
  destruct (final_512_all c5 message R5 small) as (c6 & E6 & W6). rewrite E6. cbn [bind]. rewrite put_digest. cbn [bind]. rewrite compare_digest. cbn [bind].
  rewrite (proj2 (eqb_true _ _) P2). cbn [negb]. exact YES.
Qed.
End Sha512.

(** ** test_shake.c *)
Section Shake.
Variable opt : Z.
Lemma srep_len s g : srep s g -> length s = 26%nat.
Proof. intros (L & k & -> & HL & _). rewrite app_length. destruct HL as [_ ->]. reflexivity. Qed.
Variables (message expected : list Z).
Local Notation L := (len message).
Local Notation M := (len expected).
Hypothesis BM : is_bytes message.
Hypothesis HL : L < 2 ^ 31.
Hypothesis HM : M < 2 ^ 31.

Lemma pieces_shake_ok n : 0 < n < 2 ^ 31 -> forall fuel j c, arep c (firstn (Z.to_nat j) message) -> 0 <= j < 2 ^ 32 -> (Z.to_nat (L - j) < fuel)%nat ->
  exists c', pieces_shake opt fuel message L n j c = Ok c' /\ arep c' message.
Proof using BM HL HM.
  intros Hn. induction fuel as [|fuel IH]; intros j c R Hj HF; [lia|]. cbn [pieces_shake].
  destruct (Z.ltb_spec j L) as [H|H].
  2:{ exists c. split; [reflexivity|]. rewrite firstn_all2 in R by (unfold len in H; lia). exact R. }
  cbv zeta. unfold u32 at 1 2. rewrite Z.mod_small by lia.
  assert (EM : (if n <? L - j then n else L - j) = Z.min n (L - j)) by (destruct (Z.ltb_spec n (L - j)); lia). rewrite EM.
  rewrite rd_range_ok by (change (@zlen Z) with len; lia). cbn [bind].
  destruct (shake_absorb_ok opt c _ (firstn (Z.to_nat (Z.min n (L - j))) (skipn (Z.to_nat j) message)) R) as (c' & E & R').
  { apply Forall_firstn', Forall_skipn', BM. }
  { unfold zlen. rewrite firstn_length. lia. }
  rewrite E. cbn [bind]. assert (EJ : u32 (j + n) = j + n) by (apply Z.mod_small; lia). rewrite EJ.
  apply IH; [|lia|lia]. rewrite <- firstn_plus in R'.
  destruct (Z.min_spec n (L - j)) as [[H1 H2]|[H1 H2]]; rewrite H2 in R'.
  - replace (Z.to_nat (j + n)) with (Z.to_nat j + Z.to_nat n)%nat by lia. exact R'.
  - rewrite firstn_all2 by (unfold len in *; lia). rewrite firstn_all2 in R' by (unfold len in *; lia). exact R'.
Qed.

(** the comparison of the output, piece by piece *)
Lemma outputs_shake_ok k : 0 < k <= 128 -> forall fuel j c act, srep c (fun i => SHK message (Z.to_nat j + i)) -> length act = 128%nat -> 0 <= j <= M -> (Z.to_nat (M - j) < fuel)%nat ->
  firstn (Z.to_nat j) expected = map (SHK message) (seq 0 (Z.to_nat j)) ->
  exists b c', outputs_shake opt fuel expected act M k j c = Ok (b, c') /\ length c' = 26%nat /\ (b = true <-> expected = map (SHK message) (seq 0 (Z.to_nat M))).
Proof using BM HL HM.
  intros Hk. induction fuel as [|fuel IH]; intros j c act R LA Hj HF HE; [lia|]. cbn [outputs_shake].
  destruct (Z.ltb_spec j M) as [H|H].
  2:{ exists true, c. split; [reflexivity|]. split; [exact (srep_len _ _ R)|]. assert (j = M) as -> by lia. rewrite firstn_all2 in HE by (unfold len; lia). tauto. }
  cbv zeta. assert (EU : u32 (M - j) = M - j) by (apply Z.mod_small; lia). rewrite EU.
  assert (EM : (if k <? M - j then k else M - j) = Z.min k (M - j)) by (destruct (Z.ltb_spec k (M - j)); lia). rewrite EM.
  set (t := Z.min k (M - j)). assert (Ht : 0 < t <= 128 /\ j + t <= M) by (subst t; lia).
  destruct (shake_squeeze_ok opt c _ t R ltac:(lia)) as (c' & E & R'). rewrite E. cbn [bind].
  set (D := map (fun i => SHK message (Z.to_nat j + i)) (seq 0 (Z.to_nat t))).
  assert (LD : length D = Z.to_nat t) by (unfold D; rewrite map_length, seq_length; reflexivity).
  rewrite wr_range_0 by (unfold zlen; lia). cbn [bind]. rewrite LD.
  rewrite rd_range_ok by (change (@zlen Z) with len; lia). cbn [bind]. change (@zlen Z) with len.
  rewrite (firstn_all2 (skipn (Z.to_nat j) expected)) by (rewrite skipn_length; unfold len; lia).
  rewrite same_ok.
  2: lia. 2: unfold len in *; rewrite skipn_length; lia. 2: unfold len; rewrite app_length, skipn_length; lia.
  cbn [bind]. rewrite firstn_app_exact by exact LD.
  assert (SP : map (SHK message) (seq 0 (Z.to_nat (j + t))) = map (SHK message) (seq 0 (Z.to_nat j)) ++ D).
  { replace (Z.to_nat (j + t)) with (Z.to_nat j + Z.to_nat t)%nat by lia. rewrite seq_app, map_app. f_equal. unfold D. rewrite (map_seq_shift _ (0 + Z.to_nat j)). reflexivity. }
  destruct (eqb (firstn (Z.to_nat t) (skipn (Z.to_nat j) expected)) D) eqn:EG; cbn [negb].
  2:{ exists false, c'. split; [reflexivity|]. split; [exact (srep_len _ _ R')|]. split; [discriminate|]. intros X. exfalso.
      assert (X2 : firstn (Z.to_nat (j + t)) expected = map (SHK message) (seq 0 (Z.to_nat (j + t)))).
      { rewrite X. replace (Z.to_nat M) with (Z.to_nat (j + t) + Z.to_nat (M - (j + t)))%nat by lia. rewrite seq_app, map_app. apply firstn_app_exact. rewrite map_length, seq_length. reflexivity. }
      replace (Z.to_nat (j + t)) with (Z.to_nat j + Z.to_nat t)%nat in X2 at 1 by lia. rewrite firstn_plus, SP, HE in X2. apply app_inv_head in X2.
      rewrite (proj2 (eqb_true _ _) X2) in EG. discriminate. }
  apply eqb_true in EG. assert (EJ : u32 (j + t) = j + t) by (apply Z.mod_small; lia). rewrite EJ.
  apply IH; [|rewrite app_length, skipn_length; lia|lia|lia|].
  - assert (XX : forall i, (Z.to_nat j + (Z.to_nat t + i))%nat = (Z.to_nat (j + t) + i)%nat) by (intros; lia).
    destruct R' as (L1 & k1 & Q1 & Q2 & Q3 & Q4). exists L1, k1. split; [exact Q1|]. split; [exact Q2|]. split; [exact Q3|]. intros i. rewrite Q4, XX. reflexivity.
  - replace (Z.to_nat (j + t)) with (Z.to_nat j + Z.to_nat t)%nat at 1 by lia. rewrite firstn_plus, SP, HE, EG. reflexivity.
Qed.
Lemma sizes_shake_ok : forall fuel n c, length c = 26%nat -> 1 <= n -> (Z.to_nat (L + 1 - n) < fuel)%nat ->
  exists r, sizes_shake opt fuel expected M message L n c = Ok r /\ (r = 0 \/ r = 1) /\ (r = 1 <-> (n <= L -> expected = shake256 message M)).
Proof using BM HL HM.
  induction fuel as [|fuel IH]; intros n c W Hn HF; [lia|]. cbn [sizes_shake].
  destruct (Z.leb_spec n L) as [H|H]; [|exists 1; split; [reflexivity|]; split; [auto|]; split; [intros; lia|reflexivity]].
  destruct (shake_init_ok c W) as (c0 & E0 & R0). rewrite E0. cbn [bind].
  destruct (pieces_shake_ok n ltac:(lia) (Datatypes.S (Z.to_nat L)) 0 c0 R0 ltac:(lia) ltac:(lia)) as (c1 & E1 & R1). rewrite E1. cbn [bind].
  destruct (shake_finalize_ok c1 message R1) as (c2 & E2 & R2). rewrite E2. cbn [bind]. cbv zeta.
  assert (0 <= M) by (unfold len; lia).
  destruct (outputs_shake_ok (if 128 <? n then 128 else n) ltac:(destruct (Z.ltb_spec 128 n); lia) (Datatypes.S (Z.to_nat M)) 0 c2 (repeat 0 128) (frep_srep _ _ R2) (repeat_length _ _) ltac:(lia) ltac:(lia) eq_refl) as (b & c3 & E3 & W3 & P3).
  rewrite E3. cbn [bind]. rewrite <- shake256_stream in P3 by exact BM.
  destruct b; cbn [negb].
  2:{ exists 0. split; [reflexivity|]. split; [auto|]. split; [discriminate|]. intros X. destruct P3 as [_ P3]. specialize (P3 (X H)). discriminate. }
  assert (EN : u32 (n + 1) = n + 1) by (apply Z.mod_small; lia). rewrite EN.
  destruct (IH (n + 1) c3 W3 ltac:(lia) ltac:(lia)) as (r & E & B & P). exists r. split; [exact E|]. split; [exact B|]. rewrite P. destruct P3 as [P3 _]. specialize (P3 eq_refl). tauto.
Qed.
Theorem test_one_shake_ok c : length c = 26%nat -> 1 <= L ->
  exists r, test_one_shake opt c expected M message L = Ok r /\ (r = 0 \/ r = 1) /\ (r = 1 <-> expected = shake256 message M).
Proof using BM HL HM.
  intros W H1. destruct (sizes_shake_ok (Datatypes.S (Datatypes.S (Z.to_nat L))) 1 c W ltac:(lia) ltac:(lia)) as (r & E & B & P).
  exists r. split; [exact E|]. split; [exact B|]. tauto.
Qed.
End Shake.
