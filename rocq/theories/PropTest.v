(** * What the test and measurement programs do (C48)

    [do_test], [test_verify] (test_verify.c), [get_ver_space], [get_sig_space], [run_sign]
    (get_space.c, get_space2.c): ModelTest.v.  [altered], [flipped], [excused]: SpecTest.v. *)
From Verif Require Import Arr SpecSLH SpecMap SpecForge SpecBinding SpecTest SpecApi SpecSessions ModelParams ModelCtx ModelSphincs ModelVerify ModelKeygen ModelApi ModelTest
  PfIter PfSpec PfApi PfKeygen PfComplete PfSession PfForge PfForge2 PfUses PfEUF PfBind PfTest PropSign PropVerify PropApi PropForge PropBinding.
Ltac Zify.zify_post_hook ::= idtac.

(** What the compiler, the C library and the processor must provide: arrays of the declared
    sizes, [block] bytes from malloc, the messages in readable memory, and the key arrays
    where they are *)
Definition surroundings_ok (cfg : config) (block : Z) (e : surroundings) : Prop :=
  is_bytes (e_private_key e) /\ len (e_private_key e) = 128 /\
  is_bytes (e_public_key e) /\ len (e_public_key e) = 64 /\
  (forall priv pub, is_bytes priv -> len priv <= 128 -> is_bytes pub -> len pub <= 64 ->
     holds (e_view e priv pub) (e_sk e) priv /\ holds (e_view e priv pub) (e_pk e) pub /\
     holds (e_view e priv pub) (e_message e) message /\ holds (e_view e priv pub) (e_wrong_message e) wrong_message) /\
  0 <= e_message e < addresses (platform_of cfg) /\ 0 <= e_wrong_message e < addresses (platform_of cfg) /\
  wf_ctx cfg (e_ctx e) /\ (forall b, wf_ctx cfg (e_filled e b)) /\
  match e_malloc e with Some s => is_bytes s /\ len s = block | None => False end.

(** The key pair from given random bytes, and the signature without a random function *)
Definition key_from (p : ps_name) (d : list Z) : list Z * list Z :=
  let n := p_n (slh_of p) in slh_keygen_internal (slh_of p) (slice d 0 n) (slice d n n) (slice d (2 * n) n).
Definition test_key (p : ps_name) : list Z * list Z := key_from p (snd (local_rand (3 * p_n (slh_of p)))).
Definition test_signature (p : ps_name) : list Z :=
  let n := p_n (slh_of p) in let SK := fst (test_key p) in slh_sign_internal (slh_of p) message SK (slice SK (2 * n) n).

(** ** Lemmas *)
Lemma local_rand_ok n : 0 <= n -> is_bytes (snd (local_rand n)) /\ len (snd (local_rand n)) = n.
Proof.
  intros Hn. cbn [local_rand snd].
  assert (G : forall k r, is_bytes (local_rand_bytes k r) /\ len (local_rand_bytes k r) = Z.of_nat k).
  { clear. induction k as [|k IH]; intros r; [split; [constructor|reflexivity]|]. cbn [local_rand_bytes]. cbv zeta. destruct (IH (u32 (r + Z.lor (u32 (r * r)) 5))) as [B L].
    split; [constructor; [apply Z.mod_pos_bound; lia|exact B]|]. unfold len in *. cbn [length]. lia. }
  destruct (G (Z.to_nat n) 0x1234) as [B L]. split; [exact B|]. rewrite L. lia.
Qed.
Lemma key_from_ok p d : is_bytes d -> len d = 3 * p_n (slh_of p) ->
  let n := p_n (slh_of p) in let SK := fst (key_from p d) in let PK := snd (key_from p d) in
  is_bytes SK /\ len SK = 4 * n /\ is_bytes PK /\ len PK = 2 * n.
Proof.
  intros B L n SK PK. pose proof (nbnd p) as Nb. fold n in Nb, L.
  assert (SL : forall i, 0 <= i <= 2 -> len (slice d (i * n) n) = n) by (intros i Hi; apply slice_zlen; [nia|lia|change (@zlen Z) with len; nia]).
  pose proof (SL 0 ltac:(lia)) as S0. pose proof (SL 1 ltac:(lia)) as S1. pose proof (SL 2 ltac:(lia)) as S2. rewrite Z.mul_0_l in S0. rewrite Z.mul_1_l in S1.
  assert (SB : forall o l, is_bytes (slice d o l)) by (intros; apply slice_bytes, B).
  pose proof (root_shape p (slice d 0 n) (slice d (2 * n) n) (SB _ _) (SB _ _) S0 S2) as [Lr Br]. fold n in Lr.
  unfold SK, PK, key_from, slh_keygen_internal. fold n. cbn [fst snd].
  split; [apply bytes_app; [apply SB|]; apply bytes_app; [apply SB|]; apply bytes_app; [apply SB|exact Br]|].
  split; [rewrite !len_app; lia|]. split; [apply bytes_app; [apply SB|exact Br]|]. rewrite len_app; lia.
Qed.
Lemma holds_app_l m a l1 l2 : holds m a (l1 ++ l2) -> holds m a l1.
Proof.
  intros [B H]. apply Forall_app in B. split; [apply B|]. intros i Hi. rewrite H by (rewrite app_length; lia). rewrite app_nth1 by exact Hi. reflexivity.
Qed.

Section Test.
Variables (cfg : config) (p : ps_name) (e : surroundings).
Hypothesis on : ps_enabled cfg p = true.
Hypothesis OKs : surroundings_ok cfg (slh_sig_length (slh_of p) + 1) e.
Local Notation P := (slh_of p).
Local Notation n := (p_n (slh_of p)).
Local Notation L := (slh_sig_length (slh_of p)).
Local Notation SK := (fst (test_key p)).
Local Notation PK := (snd (test_key p)).
Local Notation sigma := (test_signature p).

Lemma test_run fast : exists r, do_test cfg e p true fast 1 = Ok r /\ (r = 0 \/ r = 1) /\
  is_bytes sigma /\ len sigma = L /\ slh_verify_internal P message sigma PK = true /\
  (r = 1 <-> forall M' S', altered fast sigma M' S' -> slh_verify_internal P M' S' PK = false).
Proof.
  destruct OKs as (Bpriv & Lpriv & Bpub & Lpub & HV & Am & Aw & Wc & WF & HM). destruct (e_malloc e) as [s0|] eqn:EM; [|contradiction]. destruct HM as [Bs0 Ls0].
  pose proof (nbnd p) as Nb. pose proof (L_range p) as LR. pose proof (local_rand_ok (3 * n) ltac:(lia)) as [Bd Ld].
  set (d := snd (local_rand (3 * n))) in *.
  destruct (key_from_ok p d Bd Ld) as (BSK & LSK & BPK & LPK). change (key_from p d) with (test_key p) in *.
  assert (GK : genkey_ok p (e_private_key e) (Some (e_public_key e)) local_rand).
  { split; [exact Bpriv|]. split; [lia|]. split; [lia|]. cbn [random_ok]. unfold local_rand. fold (snd (local_rand (3 * n))) || idtac.
    change (local_rand_bytes (Z.to_nat (3 * n)) 4660) with d. split; [exact Bd|]. split; [lia|intros _; exact Ld]. }
  pose proof (gen_key_cases cfg p (e_sk e) (e_private_key e) (Some (e_public_key e)) local_rand on GK) as EK. cbv zeta in EK.
  change (fst (local_rand (3 * n))) with 1 in EK. fold d in EK. cbn [Z.eqb] in EK.
  change (slh_keygen_internal P (slice d 0 n) (slice d n n) (slice d (2 * n) n)) with (test_key p) in EK.
  destruct (test_key p) as [sk0 pk0] eqn:ETK. cbn [fst snd] in *. cbn [option_map] in EK.
  set (priv := sk0 ++ skipn (Z.to_nat (4 * n)) (e_private_key e)) in EK. set (pub := pk0 ++ skipn (Z.to_nat (2 * n)) (e_public_key e)) in EK.
  assert (Bp1 : is_bytes priv) by (apply bytes_app; [exact BSK|apply Forall_skipn', Bpriv]).
  assert (Lp1 : len priv <= 128) by (unfold priv; rewrite len_app; unfold len in *; rewrite skipn_length; lia).
  assert (Bp2 : is_bytes pub) by (apply bytes_app; [exact BPK|apply Forall_skipn', Bpub]).
  assert (Lp2 : len pub <= 64) by (unfold pub; rewrite len_app; unfold len in *; rewrite skipn_length; lia).
  destruct (HV priv pub Bp1 Lp1 Bp2 Lp2) as (V1 & V2 & V3 & V4). apply holds_app_l in V1, V2.
  set (m := e_view e priv pub) in *.
  assert (SI : sign_init_ok m (e_message e) message p (e_sk e) sk0 None) by (split; [exact V1|]; split; [exact LSK|]; split; [exact V3|]; split; [reflexivity|exact I]).
  set (rq := Req m s0 (L + 1)).
  assert (RQ : Forall (request_ok (e_sk e) sk0) [rq]) by (constructor; [|constructor]; split; [exact V1|]; cbn [rq_size rq_dest rq]; lia).
  destruct (sign_session cfg p (e_ctx e) m (e_message e) message (e_sk e) sk0 None [rq] on Wc SI RQ) as (c1 & ES).
  destruct (signature_len _ _ _ _ _ _ _ SI) as [LSg BSg].
  assert (ESg : signature p message sk0 None = sigma) by (unfold test_signature; rewrite ETK; reflexivity). rewrite ESg in *.
  assert (KF : slh_keygen_internal P (slice d 0 n) (slice d n n) (slice d (2 * n) n) = (sk0, pk0)) by exact ETK.
  assert (SZ : ts_size_signature (the_ps cfg p) = L) by apply size_sig.
  assert (SLn : forall i, 0 <= i <= 2 -> len (slice d (i * n) n) = n) by (intros i Hi; apply slice_zlen; [nia|lia|change (@zlen Z) with len; nia]).
  assert (OKV : slh_verify_internal P message sigma pk0 = true).
  { pose proof (SLn 0 ltac:(lia)) as S0. pose proof (SLn 1 ltac:(lia)) as S1. pose proof (SLn 2 ltac:(lia)) as S2. rewrite Z.mul_0_l in S0. rewrite Z.mul_1_l in S1.
    destruct (honest_valid cfg p _ _ _ sk0 pk0 KF S0 S1 S2 message (e_ctx e) m (e_message e) (e_sk e) None [rq] _ c1 on Wc SI RQ ltac:(unfold asked; cbn [fold_right rq_size rq]; lia) ES) as (_ & _ & HVf).
    cbn [map taken concat sign_answers rq_size rq_dest rq app] in HVf. rewrite LSg, Z.min_r in HVf by lia. rewrite app_nil_r in HVf.
    rewrite Nat2Z.id, firstn_app_exact in HVf by (rewrite firstn_length; unfold len in LSg; lia). rewrite firstn_all2 in HVf by (unfold len in LSg; lia). exact HVf. }
  unfold sign_history in ES. cbn [map calls call sign_answers rq_mem rq_size rq_dest rq] in ES. rewrite LSg, Z.min_r in ES by lia.
  rewrite Z2Nat.id in ES by lia. rewrite firstn_all2 in ES by (unfold len in LSg; lia).
  set (x := skipn (Z.to_nat L) s0) in ES.
  assert (Bx : is_bytes x) by (apply Forall_skipn', Bs0). assert (Lx : len x = 1) by (unfold x, len in *; rewrite skipn_length; lia).
  unfold do_test. cbn [negb andb Z.eqb]. rewrite Bool.andb_false_r. cbv zeta. rewrite EK. cbn [bind Z.eqb]. rewrite EM. fold m.
  change (zlen message) with (len message). change (zlen wrong_message) with (len wrong_message). rewrite SZ.
  destruct (ts_init_sign cfg m (e_ctx e) (e_message e) (len message) (the_ps cfg p) (e_sk e) None) as [c0|]; cbn [bind] in ES |- *; [|discriminate].
  destruct (ts_sign cfg m s0 (L + 1) c0) as [[[r1 s1] c2]|]; cbn [bind] in ES |- *; [|discriminate].
  assert (ES' := ok_inj' _ _ ES). assert (Er : r1 = L) by congruence. assert (Es : s1 = sigma ++ x) by congruence. rewrite Er, Es. clear ES ES' Er Es.
  rewrite Z.eqb_refl. cbn [negb].
  assert (B1 : is_bytes (sigma ++ x)) by (apply bytes_app; assumption). assert (L1 : len (sigma ++ x) = L + 1) by (rewrite len_app; lia).
  assert (VI : forall a M, M = message /\ a = e_message e \/ M = wrong_message /\ a = e_wrong_message e -> verify_init_ok cfg m a M p (e_pk e) pk0).
  { pose proof (addresses_ge cfg). intros a M [[-> ->]|[-> ->]]; (split; [exact V2|]; split; [exact LPK|]; split; [assumption|]; split; [apply bytes_dec; reflexivity|]; change (len message) with 3; change (len wrong_message) with 3; lia). }
  pose proof (VI _ _ (or_introl (conj eq_refl eq_refl))) as I1. pose proof (VI _ _ (or_intror (conj eq_refl eq_refl))) as I2.
  assert (FS : firstn (Z.to_nat L) (sigma ++ x) = sigma) by (apply firstn_app_exact; unfold len in LSg; lia).
  assert (SHORT : forall S, len S <> L -> slh_verify_internal P message S pk0 = false).
  { intros S HS. unfold slh_verify_internal. destruct (Z.eqb_spec (len S) L); [contradiction|reflexivity]. }
  assert (KL : forall k, 0 <= k <= L + 1 -> len (firstn (Z.to_nat k) (sigma ++ x)) = k) by (intros k Hk; unfold len in *; rewrite firstn_length; lia).
  destruct (check_ok cfg p on m (e_pk e) (e_message e) pk0 message I1 V3 (e_filled e 63) (sigma ++ x) L 1 1 (WF _) B1 ltac:(lia) ltac:(lia)) as (d1 & W1 & E1).
  rewrite E1, FS, OKV, Bool.orb_true_r. cbn [bind b2z Z.eqb Pos.eqb andb negb]. clear E1.
  destruct (check_ok cfg p on m (e_pk e) (e_message e) pk0 message I1 V3 (e_filled e 33) (sigma ++ x) (L - 1) 1 0 (WF _) B1 ltac:(lia) ltac:(lia)) as (d2 & W2 & E2).
  rewrite E2, SHORT by (rewrite KL; lia). destruct (Z.ltb_spec (L - 1) L) as [_|]; [|lia]. cbn [bind b2z orb Z.eqb Pos.eqb andb negb]. clear E2.
  destruct (check_ok cfg p on m (e_pk e) (e_message e) pk0 message I1 V3 (e_filled e 64) (sigma ++ x) (L + 1) 0 0 (WF _) B1 ltac:(lia) ltac:(lia)) as (d3 & W3 & E3).
  rewrite E3, SHORT by (rewrite KL; lia). destruct (Z.ltb_spec (L + 1) L) as [|_]; [lia|]. cbn [bind b2z orb Z.eqb Pos.eqb andb negb]. clear E3.
  destruct (all_chunk_sizes_ok cfg p on m (e_pk e) (e_message e) pk0 message I1 V3 (sigma ++ x) B1 ltac:(lia) ltac:(rewrite FS; exact OKV) (e_filled e) (S (Z.to_nat L)) WF 1 1 d3
    ltac:(lia) ltac:(lia) ltac:(lia) W3) as (d4 & W4 & E4). rewrite E4. cbn [bind negb]. clear E4.
  destruct (flip_all_ok cfg p on m (e_pk e) (e_message e) pk0 message I1 V3 [] fast (e_filled e) WF x Bx sigma (S (Z.to_nat L)) BSg LSg 0 d4 ltac:(lia) ltac:(intros _; reflexivity) ltac:(lia) W4)
    as (ok & s2 & d5 & W5 & E5 & Q1 & Q2).
  rewrite E5. cbn [bind]. clear E5. destruct ok; cbn [negb].
  2:{ exists 0. split; [reflexivity|]. split; [auto|]. split; [exact BSg|]. split; [exact LSg|]. split; [first [exact OKV|reflexivity]|]. split; [discriminate|]. intros H. exfalso.
      enough (false = true) by discriminate. apply Q2. intros o' b Ho Hb Hf. apply H. left. split; [reflexivity|]. exists o', b. rewrite LSg. auto. }
  rewrite (Q1 eq_refl). pose proof (proj1 Q2 eq_refl) as HF.
  destruct (check_ok cfg p on m (e_pk e) (e_message e) pk0 message I1 V3 d5 (sigma ++ x) L 1 1 W5 B1 ltac:(lia) ltac:(lia)) as (d6 & W6 & E6).
  rewrite E6, FS, OKV, Bool.orb_true_r. cbn [bind b2z Z.eqb Pos.eqb andb negb]. clear E6.
  destruct (check_ok cfg p on m (e_pk e) (e_wrong_message e) pk0 wrong_message I2 V4 d6 (sigma ++ x) L 0 0 W6 B1 ltac:(lia) ltac:(lia)) as (d7 & W7 & E7).
  rewrite E7, FS. destruct (Z.ltb_spec L L) as [|_]; [lia|]. cbn [bind orb]. clear E7.
  destruct (slh_verify_internal P wrong_message sigma pk0) eqn:EW; cbn [b2z Z.eqb andb negb].
  - exists 0. split; [reflexivity|]. split; [auto|]. split; [exact BSg|]. split; [exact LSg|]. split; [first [exact OKV|reflexivity]|]. split; [discriminate|]. intros H. exfalso.
    enough (slh_verify_internal P wrong_message sigma pk0 = false) by congruence. apply H. right. split; reflexivity.
  - exists 1. split; [reflexivity|]. split; [auto|]. split; [exact BSg|]. split; [exact LSg|]. split; [first [exact OKV|reflexivity]|]. split; [|reflexivity]. intros _ M' S' [[-> (o & b & Ho & Hb & Hf & ->)]|[-> ->]].
    + apply HF; [rewrite LSg in Ho; exact Ho|exact Hb|exact Hf].
    + exact EW.
Qed.
End Test.

Lemma flip_first S o b k : 0 <= o -> (k <= Z.to_nat o)%nat -> (k <= length S)%nat -> firstn k (flipped S o b) = firstn k S.
Proof.
  intros Ho Hk Hl. unfold flipped. rewrite firstn_app, firstn_firstn, firstn_length. rewrite Nat.min_l by lia.
  replace (k - Nat.min (Z.to_nat o) (length S))%nat with 0%nat by lia. cbn [firstn]. apply app_nil_r.
Qed.
Lemma flip_rest S o b k : 0 <= o < len S -> (Z.to_nat o < k)%nat -> skipn k (flipped S o b) = skipn k S.
Proof.
  intros Ho Hk. unfold len in Ho. unfold flipped. rewrite skipn_app, skipn_all2 by (rewrite firstn_length; lia). cbn [app]. rewrite firstn_length.
  replace (k - Nat.min (Z.to_nat o) (length S))%nat with (Datatypes.S (k - Z.to_nat o - 1)) by lia. cbn [skipn]. rewrite skipn_skipn'. f_equal. lia.
Qed.
Lemma flip_differs S o b : 0 <= o < len S -> 0 <= b -> flipped S o b <> S.
Proof.
  intros Ho Hb E. unfold len in Ho. assert (EN := f_equal (fun l => nth (Z.to_nat o) l 0) E). cbn beta in EN. unfold flipped in EN.
  rewrite app_nth2, firstn_length in EN by (rewrite firstn_length; lia). replace (Z.to_nat o - Nat.min (Z.to_nat o) (length S))%nat with 0%nat in EN by lia. cbn [nth] in EN.
  assert (X : Z.lxor (nth (Z.to_nat o) S 0) (Z.lxor (nth (Z.to_nat o) S 0) (2 ^ b)) = 0) by (rewrite EN; apply Z.lxor_nilpotent).
  rewrite <- Z.lxor_assoc, Z.lxor_nilpotent, Z.lxor_0_l in X. pose proof (Z.pow_pos_nonneg 2 b). lia.
Qed.
(** An altered case that is accepted can be excused only by the hash functions *)
Lemma altered_excused p PK sigma fast M' S' : is_bytes PK -> len PK = 2 * p_n (slh_of p) -> is_bytes sigma ->
  slh_verify_internal (slh_of p) message sigma PK = true -> altered fast sigma M' S' -> slh_verify_internal (slh_of p) M' S' PK = true ->
  excused (slh_of p) PK message sigma M' S'.
Proof.
  intros BP LP BS V HA VA. pose proof (nbnd p) as Nb. set (n := p_n (slh_of p)) in *.
  destruct HA as [[-> (o & b & Ho & Hb & _ & ->)]|[-> ->]].
  - fold message in VA |- *. assert (BF : is_bytes (flipped sigma o b)) by (apply flip_bytes_ok; assumption). destruct (Z.lt_ge_cases o n) as [Hl|Hg].
    + right. apply (bound p PK message message (flipped sigma o b) sigma BP LP BF VA V). apply flip_rest; [exact Ho|fold n; lia].
    + left. apply (forge p PK message message (flipped sigma o b) sigma BP LP BF BS VA V).
      * assert (EF : firstn (Z.to_nat n) (flipped sigma o b) = firstn (Z.to_nat n) sigma) by (apply flip_first; unfold len in Ho; lia).
        unfold message_digest, slice. fold n. cbn [skipn Z.to_nat]. rewrite EF. reflexivity.
      * assert (EF : firstn (Z.to_nat n) (flipped sigma o b) = firstn (Z.to_nat n) sigma) by (apply flip_first; unfold len in Ho; lia).
        intros Q. apply (flip_differs sigma o b Ho ltac:(lia)). unfold slice in Q. rewrite !firstn_all2 in Q by (rewrite skipn_length; unfold len; lia). fold n in Q.
        rewrite <- (firstn_skipn (Z.to_nat n) (flipped sigma o b)), EF, Q. apply firstn_skipn.
  - right. apply (bound p PK wrong_message message sigma sigma BP LP BS VA V). reflexivity.
Qed.

(** ** test_verify.c *)
(** [do_test] returns (no undefined behaviour, no endless loop), for every parameter set and
    whatever is in the uninitialised arrays, contexts and the block from malloc.  It returns
    1 exactly if it has nothing to do or none of the altered cases is accepted: the
    unaltered signature is accepted, in one piece and in pieces of all the sizes, and one
    byte less and one byte more are rejected, without any condition. *)
Theorem C48_do_test : forall cfg p e always fast iter,
  ps_enabled cfg p = true -> surroundings_ok cfg (slh_sig_length (slh_of p) + 1) e ->
  exists r, do_test cfg e p always fast iter = Ok r /\ (r = 0 \/ r = 1) /\
  (r = 1 <-> (fast = true /\ always = false) \/ iter = 0 \/
     forall M' S', altered fast (test_signature p) M' S' -> slh_verify_internal (slh_of p) M' S' (snd (test_key p)) = false).
Proof.
  intros cfg p e always fast iter on OK.
  destruct (Bool.bool_dec (fast && negb always) true) as [E1|E1].
  { exists 1. unfold do_test. rewrite E1. split; [reflexivity|]. split; [auto|]. split; [|reflexivity]. intros _. left. destruct fast, always; try discriminate E1; auto. }
  destruct (Z.eq_dec iter 0) as [E2|E2].
  { exists 1. unfold do_test. destruct (fast && negb always); [congruence|]. cbv zeta. rewrite E2. cbn [Z.eqb]. split; [reflexivity|]. split; [auto|]. split; auto. }
  destruct (test_run cfg p e on OK fast) as (r & E & R & _ & _ & _ & H).
  exists r. split; [|split; [exact R|]].
  - rewrite <- E. unfold do_test. destruct (fast && negb always); [congruence|]. rewrite Bool.andb_false_r. cbv zeta.
    destruct (Z.eqb_spec iter 0); [contradiction|]. cbn [Z.eqb]. reflexivity.
  - rewrite H. split; [auto|]. intros [[-> ->]|[X|X]]; [exfalso; apply E1; reflexivity|contradiction|exact X].
Qed.
(** One of the altered cases is accepted, or none: there are finitely many *)
Lemma altered_dec fast S (f : list Z -> list Z -> bool) :
  (forall M' S', altered fast S M' S' -> f M' S' = false) \/ (exists M' S', altered fast S M' S' /\ f M' S' = true).
Proof.
  destruct (f wrong_message S) eqn:EW; [right; exists wrong_message, S; split; [right; split; reflexivity|exact EW]|].
  set (g := fun x => f message (flipped S (fst x) (snd x)) && (negb fast || ((fst x mod 5 =? 0) && (snd x =? 0)))).
  destruct (existsb g (list_prod (upto (len S)) (upto 8))) eqn:EX.
  - right. apply existsb_exists in EX. destruct EX as ([o b] & HIn & HG). apply in_prod_iff in HIn. destruct HIn as [H1 H2]. apply in_upto in H1, H2.
    unfold g in HG. cbn [fst snd] in HG. apply andb_prop in HG. destruct HG as [HG HF]. exists message, (flipped S o b). split; [|exact HG].
    left. split; [reflexivity|]. exists o, b. split; [exact H1|]. split; [exact H2|]. split; [|reflexivity]. intros ->. cbn [negb orb] in HF. apply andb_prop in HF. lia.
  - left. intros M' S' [[-> (o & b & Ho & Hb & Hf & ->)]|[-> ->]]; [|exact EW].
    destruct (f [97; 98; 99] (flipped S o b)) eqn:EF; [|reflexivity]. exfalso.
    enough (existsb g (list_prod (upto (len S)) (upto 8)) = true) by congruence. apply existsb_exists. exists (o, b).
    split; [apply in_prod; rewrite upto_zrange; apply zrange_in; assumption|]. unfold g. cbn [fst snd]. fold message in EF. rewrite EF. cbn [andb].
    destruct fast; [|reflexivity]. destruct (Hf eq_refl) as [H1 H2]. rewrite H1, H2. reflexivity.
Qed.
Lemma test_key_shape p : is_bytes (snd (test_key p)) /\ len (snd (test_key p)) = 2 * p_n (slh_of p).
Proof.
  pose proof (nbnd p) as Nb. destruct (local_rand_ok (3 * p_n (slh_of p)) ltac:(lia)) as [B1 B2].
  destruct (key_from_ok p _ B1 B2) as (_ & _ & B3 & B4). split; [exact B3|exact B4].
Qed.
(** When it reports a failure, one of the altered cases is accepted and exhibits a failure
    of the hash functions. *)
Theorem C48_failure_excused : forall cfg p e always fast iter,
  ps_enabled cfg p = true -> surroundings_ok cfg (slh_sig_length (slh_of p) + 1) e -> do_test cfg e p always fast iter = Ok 0 ->
  exists M' S', altered fast (test_signature p) M' S' /\ slh_verify_internal (slh_of p) M' S' (snd (test_key p)) = true /\
    excused (slh_of p) (snd (test_key p)) message (test_signature p) M' S'.
Proof.
  intros cfg p e always fast iter on OK E0.
  destruct (C48_do_test cfg p e always fast iter on OK) as (r & E & _ & H). rewrite E0 in E. apply ok_inj' in E. rewrite <- E in H.
  destruct (test_run cfg p e on OK fast) as (_ & _ & _ & BS & _ & V & _).
  destruct (test_key_shape p) as [BP LP].
  destruct (altered_dec fast (test_signature p) (fun M' S' => slh_verify_internal (slh_of p) M' S' (snd (test_key p)))) as [N|(M' & S' & HA & HV)].
  - exfalso. enough (0 = 1) by discriminate. apply H. right. right. exact N.
  - exists M', S'. split; [exact HA|]. split; [exact HV|].
    exact (altered_excused p _ _ fast M' S' BP LP BS V HA HV).
Qed.

(** The sets that the short test leaves out; the full test covers all twelve *)
Definition left_out : list ps_name := [SHAKE_128f; SHA2_192f; SHAKE_192f; SHA2_256f; SHAKE_256f].
(** The whole test, when all parameter sets are compiled in: it returns, and it returns 1
    exactly if no altered case of a parameter set that it is to test is accepted. *)
Theorem C48_test_verify : forall cfg es fast,
  (forall p, ps_enabled cfg p = true) -> (forall p, surroundings_ok cfg (slh_sig_length (slh_of p) + 1) (es p)) ->
  exists r, test_verify cfg es fast = Ok r /\ (r = 0 \/ r = 1) /\
  (r = 1 <-> forall p, ~ (fast = true /\ In p left_out) ->
     forall M' S', altered fast (test_signature p) M' S' -> slh_verify_internal (slh_of p) M' S' (snd (test_key p)) = false).
Proof.
  intros cfg es fast on OK.
  assert (G : forall iter ts, exists r, run_tests cfg es fast iter ts = Ok r /\ (r = 0 \/ r = 1) /\
    (r = 1 <-> forall p always, In (p, always) ts -> (fast = true /\ always = false) \/ iter = 0 \/
     forall M' S', altered fast (test_signature p) M' S' -> slh_verify_internal (slh_of p) M' S' (snd (test_key p)) = false)).
  { intros iter ts. induction ts as [|[p a] ts IH]; cbn [run_tests].
    - exists 1. split; [reflexivity|]. split; [auto|]. split; [|reflexivity]. intros _ p a [].
    - destruct (C48_do_test cfg p (es p) a fast iter (on p) (OK p)) as (r & E & R & H). rewrite E. cbn [bind].
      destruct R as [->| ->]; cbn [Z.eqb].
      + exists 0. split; [reflexivity|]. split; [auto|]. split; [discriminate|]. intros X. apply H. apply X. left. reflexivity.
      + destruct IH as (r2 & E2 & R2 & H2). exists r2. split; [exact E2|]. split; [exact R2|]. rewrite H2. split.
        * intros X p' a' [EQ|HIn]; [|apply X, HIn]. injection EQ as <- <-. apply H. reflexivity.
        * intros X p' a' HIn. apply X. right. exact HIn. }
  unfold test_verify. destruct (G 0 tests) as (r0 & E0 & _ & H0). rewrite E0. cbn [bind]. rewrite (proj2 H0) by auto. cbn [Z.eqb].
  destruct (G 1 tests) as (r & E & R & H). rewrite E. cbn [bind]. exists r. split; [destruct R as [->| ->]; reflexivity|]. split; [exact R|].
  rewrite H. split.
  - intros X p HN. destruct (X p (match p with SHAKE_128f | SHA2_192f | SHAKE_192f | SHA2_256f | SHAKE_256f => false | _ => true end)) as [[F1 F2]|[F|F]]; [destruct p; cbn; tauto| |discriminate|exact F].
    exfalso. apply HN. split; [exact F1|]. destruct p; try discriminate F2; cbn; tauto.
  - intros X p a HIn. destruct (Bool.bool_dec fast true) as [F1|F1]; [destruct (Bool.bool_dec a true) as [F2|F2]|].
    + right. right. apply (X p). intros [_ HO]. rewrite F2 in HIn. destruct p; cbn in HIn, HO; intuition discriminate.
    + left. split; [exact F1|]. destruct a; [contradiction|reflexivity].
    + right. right. apply (X p). intros [F2 _]. contradiction.
Qed.
Theorem C48_test_verify_excused : forall cfg es fast,
  (forall p, ps_enabled cfg p = true) -> (forall p, surroundings_ok cfg (slh_sig_length (slh_of p) + 1) (es p)) -> test_verify cfg es fast = Ok 0 ->
  exists p M' S', ~ (fast = true /\ In p left_out) /\ altered fast (test_signature p) M' S' /\ slh_verify_internal (slh_of p) M' S' (snd (test_key p)) = true /\
    excused (slh_of p) (snd (test_key p)) message (test_signature p) M' S'.
Proof.
  intros cfg es fast on OK E.
  assert (G : forall iter ts, run_tests cfg es fast iter ts = Ok 0 -> exists p a, In (p, a) ts /\ do_test cfg (es p) p a fast iter = Ok 0).
  { intros iter ts. induction ts as [|[p a] ts IH]; cbn [run_tests]; [discriminate|].
    destruct (C48_do_test cfg p (es p) a fast iter (on p) (OK p)) as (r & E1 & R & _). rewrite E1. cbn [bind].
    destruct R as [->| ->]; cbn [Z.eqb]; [intros _; exists p, a; split; [left; reflexivity|exact E1]|].
    intros X. destruct (IH X) as (p2 & a2 & H2 & H3). exists p2, a2. split; [right; exact H2|exact H3]. }
  unfold test_verify in E.
  assert (X : exists iter, run_tests cfg es fast iter tests = Ok 0).
  { destruct (run_tests cfg es fast 0 tests) as [r0|] eqn:E0; cbn [bind] in E; [|discriminate]. destruct (Z.eqb_spec r0 0) as [->|]; [exists 0; exact E0|].
    destruct (run_tests cfg es fast 1 tests) as [r1|] eqn:E1; cbn [bind] in E; [|discriminate]. destruct (Z.eqb_spec r1 0) as [->|]; [exists 1; exact E1|discriminate]. }
  destruct X as [iter X]. destruct (G iter tests X) as (p & a & HIn & ED). exists p.
  destruct (C48_failure_excused cfg p (es p) a fast iter (on p) (OK p) ED) as (M' & S' & HH). exists M', S'. split; [|exact HH].
  intros [F1 HO]. assert (FA : a = false) by (destruct p; cbn in HIn, HO; intuition congruence).
  rewrite F1, FA in ED. cbn [do_test andb negb] in ED. unfold do_test in ED. cbn [andb negb] in ED. assert (X0 := ok_inj' _ _ ED). discriminate X0.
Qed.

(** ** get_space.c, get_space2.c *)
Lemma fake_ok2 n : 0 <= n -> is_bytes (snd (fake_rand2 n)) /\ len (snd (fake_rand2 n)) = n.
Proof.
  intros Hn. cbn [fake_rand2 snd]. split; [|unfold len; rewrite map_length, seq_length; lia].
  apply Forall_forall. intros x Hx. apply in_map_iff in Hx. destruct Hx as (i & <- & _). apply Z.mod_pos_bound. lia.
Qed.
Lemma fake_ok1 n : 0 <= n -> is_bytes (snd (fake_rand1 n)) /\ len (snd (fake_rand1 n)) = n.
Proof.
  intros Hn. cbn [fake_rand1 snd]. split; [|unfold len; rewrite map_length, seq_length; lia].
  apply Forall_forall. intros x Hx. apply in_map_iff in Hx. destruct Hx as (i & <- & _). apply Z.mod_pos_bound. lia.
Qed.

(** The loop of [run_sign], one byte at a time, ends after as many calls as the signature
    has bytes, and one more; the bytes are the signature.  [fuel] is any number of
    iterations that is large enough: the loop never goes on. *)
Theorem C48_run_sign : forall cfg p m ctx msg c sk SK fuel,
  ps_enabled cfg p = true -> wf_ctx cfg ctx -> holds m sk SK -> len SK = 4 * p_n (slh_of p) -> holds m msg message ->
  slh_sig_length (slh_of p) < Z.of_nat fuel ->
  run_sign cfg fuel m ctx msg c (the_ps cfg p) sk =
  Ok (slh_sign_internal (slh_of p) message SK (slice SK (2 * p_n (slh_of p)) (p_n (slh_of p)))).
Proof.
  intros cfg p m ctx msg c sk SK fuel on W HS LS HM HF.
  assert (G : forall fuel rem c ctx, Rel cfg (Signing p sk SK rem) ctx -> len rem < Z.of_nat fuel -> sign_bytewise cfg fuel m c ctx = Ok rem).
  { clear - HS. induction fuel as [|fuel IH]; intros rem c ctx HR HL; [unfold len in HL; lia|]. cbn [sign_bytewise].
    assert (ST : step (platform_of cfg) (Signing p sk SK rem) m (Sign [c] 1) (Signed (Z.min 1 (len rem)) (firstn (Z.to_nat (Z.min 1 (len rem))) rem ++ skipn (Z.to_nat (Z.min 1 (len rem))) [c]))
       (Signing p sk SK (skipn (Z.to_nat (Z.min 1 (len rem))) rem))) by (apply s_sign; [intros _; exact HS|lia|change (len [c]) with 1; lia]).
    destruct (simulation cfg _ ctx m _ _ _ ST HR) as (c' & E & HR'). cbn [call] in E.
    destruct (ts_sign cfg m [c] 1 ctx) as [[[r d] c2]|]; cbn [bind] in E |- *; [|discriminate]. assert (EJ := ok_inj' _ _ E).
    assert (Er : r = Z.min 1 (len rem)) by congruence. assert (Ed : d = firstn (Z.to_nat (Z.min 1 (len rem))) rem ++ skipn (Z.to_nat (Z.min 1 (len rem))) [c]) by congruence.
    assert (Ec : c2 = c') by congruence. rewrite Er, Ed, Ec. clear E EJ Er Ed Ec r d c2.
    destruct rem as [|x rem].
    - change (Z.min 1 (len [])) with 0. cbn [firstn skipn app Z.to_nat rd Z.leb Z.compare nth_error bind Z.eqb negb]. reflexivity.
    - assert (E1 : Z.min 1 (len (x :: rem)) = 1) by (unfold len; cbn [length]; lia). rewrite E1 in *. change (Z.to_nat 1) with 1%nat in *.
      cbn [firstn skipn app rd Z.leb Z.compare Z.to_nat nth_error bind Z.eqb Pos.eqb negb] in *. rewrite (IH rem x c' HR') by (unfold len in *; cbn [length] in HL; lia). reflexivity. }
  assert (SI : sign_init_ok m msg message p sk SK None) by (split; [exact HS|]; split; [exact LS|]; split; [exact HM|]; split; [reflexivity|exact I]).
  destruct (signature_len _ _ _ _ _ _ _ SI) as [LSg _].
  unfold run_sign. change 3 with (len message).
  assert (ST : step (platform_of cfg) Fresh m (InitSign msg (len message) p sk None) Started (Signing p sk SK (signature p message SK None))).
  { apply s_init_sign; [exact on|exact HS|exact LS|exact HM|reflexivity|reflexivity|exact I]. }
  destruct (simulation cfg _ ctx m _ _ _ ST W) as (c' & E & HR). cbn [call] in E.
  destruct (ts_init_sign cfg m ctx msg (len message) (the_ps cfg p) sk None) as [c2|]; cbn [bind] in E |- *; [|discriminate].
  assert (EJ := ok_inj' _ _ E). assert (Ec : c2 = c') by congruence. rewrite Ec.
  apply (G fuel (signature p message SK None) c c' HR). rewrite LSg. exact HF.
Qed.
(** get_sig_space: the private key made for it is good for that *)
Theorem C48_get_sig_space : forall cfg p e ctx c fuel,
  ps_enabled cfg p = true -> surroundings_ok cfg (slh_sig_length (slh_of p)) e -> wf_ctx cfg ctx -> slh_sig_length (slh_of p) < Z.of_nat fuel ->
  let n := p_n (slh_of p) in let SK := fst (key_from p (snd (fake_rand1 (3 * n)))) in
  get_sig_space cfg fuel e (the_ps cfg p) ctx c = Ok (slh_sign_internal (slh_of p) message SK (slice SK (2 * n) n)).
Proof.
  intros cfg p e ctx c fuel on (Bpriv & Lpriv & Bpub & Lpub & HV & Am & Aw & Wc & WF & HM) W HF n SK.
  pose proof (nbnd p) as Nb. fold n in Nb. destruct (fake_ok1 (3 * n) ltac:(lia)) as [Bd Ld]. set (d := snd (fake_rand1 (3 * n))) in *.
  destruct (key_from_ok p d Bd Ld) as (BSK & LSK & _). fold SK n in BSK, LSK.
  assert (GK : genkey_ok p (e_private_key e) None fake_rand1).
  { split; [exact Bpriv|]. split; [fold n; lia|]. split; [exact I|]. cbn [random_ok]. fold n. rewrite (surjective_pairing (fake_rand1 (3 * n))). fold d. split; [exact Bd|]. split; [lia|intros _; exact Ld]. }
  pose proof (gen_key_cases cfg p (e_sk e) (e_private_key e) None fake_rand1 on GK) as EK. cbv zeta in EK. fold n in EK.
  change (fst (fake_rand1 (3 * n))) with 1 in EK. fold d in EK. cbn [Z.eqb] in EK.
  change (slh_keygen_internal (slh_of p) (slice d 0 n) (slice d n n) (slice d (2 * n) n)) with (key_from p d) in EK.
  rewrite (surjective_pairing (key_from p d)) in EK. fold SK in EK. cbn [option_map] in EK.
  unfold get_sig_space. rewrite EK. cbn [bind].
  set (priv := SK ++ _). assert (Bp : is_bytes priv) by (apply bytes_app; [exact BSK|apply Forall_skipn', Bpriv]).
  assert (Lp : len priv <= 128) by (unfold priv; rewrite len_app; unfold len in *; rewrite skipn_length; lia).
  destruct (HV priv [] Bp Lp (Forall_nil _) ltac:(change (len []) with 0; lia)) as (V1 & _ & V3 & _). apply holds_app_l in V1.
  apply C48_run_sign; assumption.
Qed.
(** get_ver_space: the signature that it makes, with any block from malloc, verifies *)
Theorem C48_get_ver_space : forall cfg p e ctx,
  ps_enabled cfg p = true -> surroundings_ok cfg (slh_sig_length (slh_of p)) e -> wf_ctx cfg ctx ->
  get_ver_space cfg e (the_ps cfg p) ctx = Ok (Some 1).
Proof.
  intros cfg p e ctx on (Bpriv & Lpriv & Bpub & Lpub & HV & Am & Aw & Wc & WF & HM) W.
  destruct (e_malloc e) as [s0|] eqn:EM; [|contradiction]. destruct HM as [Bs0 Ls0].
  pose proof (nbnd p) as Nb. pose proof (L_range p) as LR. set (n := p_n (slh_of p)) in *. set (L := slh_sig_length (slh_of p)) in *.
  destruct (fake_ok2 (3 * n) ltac:(lia)) as [Bd Ld]. set (d := snd (fake_rand2 (3 * n))) in *.
  destruct (key_from_ok p d Bd Ld) as (BSK & LSK & BPK & LPK).
  set (SK := fst (key_from p d)) in *. set (PK := snd (key_from p d)) in *. fold n in LSK, LPK.
  assert (GK : genkey_ok p (e_private_key e) (Some (e_public_key e)) fake_rand2).
  { split; [exact Bpriv|]. split; [fold n; lia|]. split; [fold n; lia|]. cbn [random_ok]. fold n. rewrite (surjective_pairing (fake_rand2 (3 * n))). fold d. split; [exact Bd|]. split; [lia|intros _; exact Ld]. }
  pose proof (gen_key_cases cfg p (e_sk e) (e_private_key e) (Some (e_public_key e)) fake_rand2 on GK) as EK. cbv zeta in EK. fold n in EK.
  change (fst (fake_rand2 (3 * n))) with 1 in EK. fold d in EK. cbn [Z.eqb] in EK.
  change (slh_keygen_internal (slh_of p) (slice d 0 n) (slice d n n) (slice d (2 * n) n)) with (key_from p d) in EK.
  rewrite (surjective_pairing (key_from p d)) in EK. fold SK PK in EK. cbn [option_map] in EK.
  set (priv := SK ++ _) in EK. set (pub := PK ++ _) in EK.
  assert (Bp1 : is_bytes priv) by (apply bytes_app; [exact BSK|apply Forall_skipn', Bpriv]).
  assert (Lp1 : len priv <= 128) by (unfold priv; rewrite len_app; unfold len in *; rewrite skipn_length; lia).
  assert (Bp2 : is_bytes pub) by (apply bytes_app; [exact BPK|apply Forall_skipn', Bpub]).
  assert (Lp2 : len pub <= 64) by (unfold pub; rewrite len_app; unfold len in *; rewrite skipn_length; lia).
  destruct (HV priv pub Bp1 Lp1 Bp2 Lp2) as (V1 & _ & V3 & _). apply holds_app_l in V1.
  destruct (HV [] pub (Forall_nil _) ltac:(change (len []) with 0; lia) Bp2 Lp2) as (_ & V5 & V6 & _). apply holds_app_l in V5.
  set (m := e_view e priv pub) in *. set (m' := e_view e [] pub) in *.
  assert (RO : random_ok (Some fake_rand2) n).
  { cbn [random_ok]. rewrite (surjective_pairing (fake_rand2 n)). destruct (fake_ok2 n ltac:(lia)) as [B1 B2]. split; [exact B1|]. split; [lia|intros _; exact B2]. }
  assert (SI : sign_init_ok m (e_message e) message p (e_sk e) SK (Some fake_rand2)) by (split; [exact V1|]; split; [exact LSK|]; split; [exact V3|]; split; [reflexivity|exact RO]).
  set (rq := Req m s0 L).
  assert (RQ : Forall (request_ok (e_sk e) SK) [rq]) by (constructor; [|constructor]; split; [exact V1|]; cbn [rq_size rq_dest rq]; lia).
  destruct (sign_session cfg p (e_ctx e) m (e_message e) message (e_sk e) SK (Some fake_rand2) [rq] on Wc SI RQ) as (c1 & ES).
  destruct (signature_len _ _ _ _ _ _ _ SI) as [LSg BSg]. fold L in LSg. set (sigma := signature p message SK (Some fake_rand2)) in *.
  assert (KF : slh_keygen_internal (slh_of p) (slice d 0 n) (slice d n n) (slice d (2 * n) n) = (SK, PK)) by (change (key_from p d = (SK, PK)); apply surjective_pairing).
  assert (SZ : ts_size_signature (the_ps cfg p) = L) by apply size_sig.
  assert (SLn : forall i, 0 <= i <= 2 -> len (slice d (i * n) n) = n) by (intros i Hi; apply slice_zlen; [nia|lia|change (@zlen Z) with len; nia]).
  assert (OKV : slh_verify_internal (slh_of p) message sigma PK = true).
  { pose proof (SLn 0 ltac:(lia)) as S0. pose proof (SLn 1 ltac:(lia)) as S1. pose proof (SLn 2 ltac:(lia)) as S2. rewrite Z.mul_0_l in S0. rewrite Z.mul_1_l in S1.
    destruct (honest_valid cfg p _ _ _ SK PK KF S0 S1 S2 message (e_ctx e) m (e_message e) (e_sk e) (Some fake_rand2) [rq] _ c1 on Wc SI RQ ltac:(unfold asked; cbn [fold_right rq_size rq]; lia) ES) as (_ & _ & HVf).
    cbn [map taken concat sign_answers rq_size rq_dest rq app] in HVf. rewrite LSg, Z.min_r in HVf by lia. rewrite app_nil_r in HVf.
    rewrite Nat2Z.id, firstn_app_exact in HVf by (rewrite firstn_length; unfold len in LSg; lia). rewrite firstn_all2 in HVf by (unfold len in LSg; lia). exact HVf. }
  unfold sign_history in ES. cbn [map calls call sign_answers rq_mem rq_size rq_dest rq] in ES. rewrite LSg, Z.min_r in ES by lia.
  rewrite Z2Nat.id in ES by lia. rewrite firstn_all2 in ES by (unfold len in LSg; lia). rewrite skipn_all2, app_nil_r in ES by (unfold len in Ls0; lia).
  unfold get_ver_space, get_sig_and_public_key. rewrite EK. cbn [bind]. cbv zeta. rewrite EM, SZ. fold m. change 3 with (len message).
  destruct (ts_init_sign cfg m (e_ctx e) (e_message e) (len message) (the_ps cfg p) (e_sk e) (Some fake_rand2)) as [c0|]; cbn [bind] in ES |- *; [|discriminate].
  destruct (ts_sign cfg m s0 L c0) as [[[r1 s1] c2]|]; cbn [bind] in ES |- *; [|discriminate].
  assert (ES' := ok_inj' _ _ ES). assert (Es : s1 = sigma) by congruence. rewrite Es. clear ES ES' Es. cbn [bind].
  assert (I1 : verify_init_ok cfg m' (e_message e) message p (e_pk e) PK).
  { pose proof (addresses_ge cfg). split; [exact V5|]; split; [exact LPK|]; split; [exact Am|]; split; [apply bytes_dec; reflexivity|]; change (len message) with 3; lia. }
  unfold run_verify. fold m'. destruct (start cfg p on m' (e_pk e) (e_message e) PK message I1 ctx W) as (c3 & E3 & A3). rewrite E3. cbn [bind].
  rewrite rd_range_ok by (change (@zlen Z) with len; lia). cbn [skipn Z.to_nat bind]. rewrite firstn_all2 by (unfold len in LSg; lia).
  destruct (feed1 cfg p on m' (e_pk e) (e_message e) PK message I1 V6 ctx [] sigma c3 W (Forall_nil _) (Forall_nil _) BSg ltac:(lia) A3 ltac:(change (0 < L); lia)) as (c4 & E4 & A4).
  rewrite LSg in E4. rewrite E4. cbn [bind]. 
  destruct (at_wf cfg p on m' (e_pk e) (e_message e) PK message I1 V6 ctx ([] ++ [sigma]) c4 W ltac:(constructor; [exact BSg|constructor]) ltac:(constructor; [lia|constructor]) A4) as [_ V7].
  rewrite V7. cbn [app concat]. rewrite app_nil_r, OKV. reflexivity.
Qed.

(** run_keygen: the static array then holds the key, and zeros after it *)
Theorem C48_run_keygen : forall cfg p sk, ps_enabled cfg p = true ->
  let n := p_n (slh_of p) in
  run_keygen cfg sk (the_ps cfg p) = Ok (fst (key_from p (snd (fake_rand2 (3 * n)))) ++ repeat 0 (Z.to_nat (128 - 4 * n))).
Proof.
  intros cfg p sk on n. pose proof (nbnd p) as Nb. fold n in Nb. destruct (fake_ok2 (3 * n) ltac:(lia)) as [Bd Ld]. set (d := snd (fake_rand2 (3 * n))) in *.
  assert (Bz : is_bytes (repeat 0 128)) by (apply bytes_dec; reflexivity).
  assert (GK : genkey_ok p (repeat 0 128) None fake_rand2).
  { split; [exact Bz|]. split; [change (len (repeat 0 128)) with 128; fold n; lia|]. split; [exact I|]. cbn [random_ok]. fold n. rewrite (surjective_pairing (fake_rand2 (3 * n))). fold d. split; [exact Bd|]. split; [lia|intros _; exact Ld]. }
  pose proof (gen_key_cases cfg p sk (repeat 0 128) None fake_rand2 on GK) as EK. cbv zeta in EK. fold n in EK.
  change (fst (fake_rand2 (3 * n))) with 1 in EK. fold d in EK. cbn [Z.eqb] in EK.
  change (slh_keygen_internal (slh_of p) (slice d 0 n) (slice d n n) (slice d (2 * n) n)) with (key_from p d) in EK.
  rewrite (surjective_pairing (key_from p d)) in EK. cbn [option_map] in EK.
  unfold run_keygen. rewrite EK. cbn [bind]. f_equal. f_equal.
  replace (Z.to_nat (128 - 4 * n)) with (128 - Z.to_nat (4 * n))%nat by lia.
  assert (G : forall a b : nat, skipn a (repeat 0 b) = repeat 0 (b - a)).
  { clear. intros a. induction a as [|a IH]; intros [|b]; cbn [skipn repeat Nat.sub]; auto. }
  apply G.
Qed.

(** ** The hypotheses can be met: surroundings exist, for every configuration and set *)
Definition over (m1 m2 : memory) : memory := fun a => match m1 a with Some x => Some x | None => m2 a end.
Definition ex_surroundings (cfg : config) (p : ps_name) (block : Z) : surroundings :=
  Surroundings (repeat 7 128) (repeat 9 64) 1000 2000 100 200
    (fun priv pub => over (mem_of 1000 priv) (over (mem_of 2000 pub) (over (mem_of 100 message) (mem_of 200 wrong_message))))
    (zero_ctx cfg (the_ps cfg p)) (fun _ => zero_ctx cfg (the_ps cfg p)) (Some (repeat 1 (Z.to_nat block))).
Lemma over_l m1 m2 a l : holds m1 a l -> holds (over m1 m2) a l.
Proof. intros [B H]. split; [exact B|]. intros i Hi. unfold over. rewrite H by exact Hi. reflexivity. Qed.
Lemma over_r b k m2 a l : len k <= b -> holds m2 a l -> forall c, a + len l <= c \/ c + b <= a -> holds (over (mem_of c k) m2) a l.
Proof.
  intros Lk [B H] c HD. split; [exact B|]. intros i Hi. unfold over, mem_of. change (@zlen Z) with len.
  destruct (Z.leb_spec c (a + Z.of_nat i)) as [H1|]; [|cbn [andb]; apply H, Hi].
  destruct (Z.ltb_spec (a + Z.of_nat i) (c + len k)) as [H2|]; [|cbn [andb]; apply H, Hi]. exfalso. unfold len in *. lia.
Qed.
Example ex_surroundings_ok : forall cfg p block, 0 <= block -> surroundings_ok cfg block (ex_surroundings cfg p block).
Proof.
  intros cfg p block Hb. pose proof (addresses_ge cfg) as HA.
  split; [apply bytes_dec; reflexivity|]. split; [reflexivity|]. split; [apply bytes_dec; reflexivity|]. split; [reflexivity|].
  split; [intros priv pub B1 L1 B2 L2; cbn [e_view e_sk e_pk e_message e_wrong_message ex_surroundings]|].
  - split; [apply over_l, mem_of_holds, B1|].
    split; [apply (over_r 128); [exact L1|apply over_l, mem_of_holds, B2|lia]|].
    split; [apply (over_r 128); [exact L1| |change (len message) with 3; lia]; apply (over_r 64); [exact L2| |change (len message) with 3; lia]; apply over_l, mem_of_holds, bytes_dec; reflexivity|].
    apply (over_r 128); [exact L1| |change (len wrong_message) with 3; lia]. apply (over_r 64); [exact L2| |change (len wrong_message) with 3; lia].
    apply (over_r 3); [change (len message) with 3; lia| |change (len wrong_message) with 3; lia]. apply mem_of_holds, bytes_dec; reflexivity.
  - cbn [e_message e_wrong_message e_ctx e_filled e_malloc ex_surroundings]. split; [lia|]. split; [lia|]. split; [apply zero_wf|]. split; [intros _; apply zero_wf|].
    split; [apply Forall_forall; intros x Hx; apply repeat_spec in Hx; rewrite Hx; apply (Forall_inv (l:=[])); apply bytes_dec; reflexivity|]. unfold len. rewrite repeat_length. lia.
Qed.
Example ex_test_verify : exists r, test_verify full_cfg (fun p => ex_surroundings full_cfg p (slh_sig_length (slh_of p) + 1)) true = Ok r.
Proof.
  destruct (C48_test_verify full_cfg (fun p => ex_surroundings full_cfg p (slh_sig_length (slh_of p) + 1)) true full_on) as (r & E & _).
  - intros p. apply ex_surroundings_ok. pose proof (L_range p). lia.
  - exists r. exact E.
Qed.

Print Assumptions C48_do_test.
Print Assumptions C48_failure_excused.
Print Assumptions C48_test_verify.
Print Assumptions C48_test_verify_excused.
Print Assumptions C48_run_sign.
Print Assumptions C48_get_sig_space.
Print Assumptions C48_get_ver_space.
Print Assumptions C48_run_keygen.
