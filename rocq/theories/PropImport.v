(** * Private keys from elsewhere (C60)

    read.me: "Alternatively, you could generate the private key externally and import it".
    [consistent], [public_part], [differs_at_most]: SpecImport.v; [sign_init_ok],
    [verify_init_ok], [feeds_ok], [sign_history], [verify_history]: SpecSessions.v. *)
From Verif Require Import Arr SpecSLH SpecApi SpecMap SpecSessions SpecImport ModelParams ModelCtx ModelSphincs ModelVerify ModelKeygen ModelApi PfApi PfApi2 PfKeygen PfComplete PfSession PfForge PfForge2 PfUses PfEUF PfImport PfTest PropSign PropVerify PropApi.
Ltac Zify.zify_post_hook ::= idtac.

Lemma public_part_eq p SK : len SK = 4 * p_n (slh_of p) -> public_part (slh_of p) SK = skipn (Z.to_nat (2 * p_n (slh_of p))) SK.
Proof. intros L. unfold public_part, slice. apply firstn_all2. rewrite skipn_length. unfold len in L. assert (16 <= p_n (slh_of p)) by (destruct p; cbn; lia). lia. Qed.
Lemma slice_agree i l SK SK' o m : 0 <= i -> 0 <= o -> differs_at_most i l SK SK' -> (o + m <= i \/ i + l <= o) -> slice SK' o m = slice SK o m.
Proof.
  intros Hi Ho [L A] D. unfold slice.
  assert (G : forall (a b : list Z) k, (forall j : nat, (j < k)%nat -> nth_error a j = nth_error b j) -> firstn k a = firstn k b).
  { clear. induction a as [|x a IH]; intros b k H.
    - destruct k; [reflexivity|]. specialize (H 0%nat ltac:(lia)). destruct b; [reflexivity|discriminate].
    - destruct k; [reflexivity|]. pose proof (H 0%nat ltac:(lia)) as H0. destruct b as [|y b]; [discriminate|]. cbn in *. f_equal; [congruence|].
      apply IH. intros j Hj. apply (H (S j)). lia. }
  assert (K : forall (a : list Z) u j, nth_error (skipn u a) j = nth_error a (u + j)) by (clear; intros a u; revert a; induction u as [|u IH]; intros [|x a] j; cbn; try reflexivity; [destruct j; reflexivity|apply IH]).
  apply G. intros j Hj. rewrite !K. apply A. lia.
Qed.

(** C60: the signature made with any 4n bytes for a private key verifies with the public key
    in it exactly if the key is consistent: whatever the message, the random function,
    the requests and the chunks are *)
Theorem C60_self_check : forall cfgS cfgV p, ps_enabled cfgS p = true -> ps_enabled cfgV p = true ->
  forall c m0 msg M sk SK f rqs, wf_ctx cfgS c ->
  sign_init_ok m0 msg M p sk SK f -> Forall (request_ok sk SK) rqs ->
  ts_size_signature (the_ps cfgS p) <= asked rqs ->
  exists os c1, calls cfgS (sign_history m0 msg (len M) p sk f rqs) c = Ok (Started :: os, c1) /\
  forall c' m' msg' pk fs mv, wf_ctx cfgV c' ->
  verify_init_ok cfgV m' msg' M p pk (public_part (slh_of p) SK) -> feeds_ok p pk (public_part (slh_of p) SK) msg' M [] fs ->
  concat (map fd_chunk fs) = concat (map taken os) ->
  exists us c2 v, calls cfgV (verify_history m' msg' (len M) p pk fs ++ [(mv, Verify)]) c' = Ok (Started :: us ++ [Verdict v], c2) /\
    (consistent (slh_of p) SK -> v = 1) /\ (~ consistent (slh_of p) SK -> v = 0).
Proof.
  intros cfgS cfgV p onS onV c m0 msg M sk SK f rqs W HI HR HA.
  destruct (C02_signature_is_FIPS205 cfgS p c m0 msg M sk SK f rqs onS W HI HR HA) as (os & c1 & E1 & ET).
  exists os, c1. split; [exact E1|]. intros c' m' msg' pk fs mv W' HI' HF HE. rewrite ET in HE. clear ET E1.
  match type of HE with _ = slh_sign_internal _ _ _ ?r => set (rnd := r) in * end.
  assert (BR : is_bytes rnd).
  { change rnd with (randomness f (p_n (slh_of p)) (slice SK (2 * p_n (slh_of p)) (p_n (slh_of p)))). destruct HI as (A1 & A2 & A3 & A4 & A5).
    apply randomness_bytes; [exact A5|apply PfSpec.slice_bytes, A1]. }
  destruct HI as (A1 & A2 & A3 & A4 & A5). rewrite (public_part_eq p SK A2) in *.
  pose proof (verdict_any p SK (proj1 A1) A2 M rnd (proj1 A3) BR) as HV. rewrite <- HE in HV. fold (all_fed fs) in HV.
  destruct (verify_session cfgV p c' m' msg' M pk _ fs onV W' HI' HF) as (c2 & E2 & V2).
  eexists _, c2, _. rewrite (calls_app _ _ _ _ _ _ E2). cbn [calls]. rewrite V2, HV. cbn [bind app]. split; [reflexivity|].
  unfold consistent. destruct (bytes_eqb _ _) eqn:EB; cbn [b2z].
  - split; [reflexivity|]. intros N. destruct N. symmetry. apply bytes_eqb_eq, EB.
  - split; [|reflexivity]. intros N. rewrite <- N, bytes_eqb_refl in EB. discriminate.
Qed.

(** The keys of ts_gen_key are consistent *)
Theorem C60_generated_keys : forall cfg p addr priv pub g r SK pub', ps_enabled cfg p = true -> genkey_ok p priv pub g ->
  len priv = ts_size_private_key (the_ps cfg p) ->
  ts_gen_key cfg (Some (addr, priv)) pub (Some (the_ps cfg p)) (Some g) = Ok (r, Some SK, pub') -> r = 1 -> consistent (slh_of p) SK.
Proof.
  intros cfg p addr priv pub g r SK pub' on HG Lp HGen ->.
  pose proof (gen_key_cases cfg p addr priv pub g on HG) as X. cbv zeta in X. rewrite X in HGen. clear X.
  set (n := p_n (slh_of p)) in *. set (d := snd (g (3 * n))) in *.
  destruct (Z.eqb_spec (fst (g (3 * n))) 0) as [Er|Er]; [discriminate|].
  assert (En : ps_n (the_ps cfg p) = n) by (unfold n; destruct p; reflexivity). unfold ts_size_private_key in Lp. rewrite En in Lp.
  assert (Nb : 16 <= n <= 32) by (unfold n; destruct p; cbn; lia).
  assert (Ld : len d = 3 * n).
  { destruct HG as (_ & _ & _ & G4). cbn [random_ok] in G4. fold n in G4. unfold d. destruct (g (3 * n)) as [r0 d0]. cbn [fst snd] in *. apply G4. exact Er. }
  assert (SL : forall i, 0 <= i <= 2 -> len (slice d (i * n) n) = n) by (intros i Hi; apply PfSpec.slice_zlen; [nia|lia|change (@zlen Z) with len; nia]).
  pose proof (SL 0 ltac:(lia)) as S0. pose proof (SL 1 ltac:(lia)) as S1. pose proof (SL 2 ltac:(lia)) as S2. rewrite Z.mul_0_l in S0. rewrite Z.mul_1_l in S1.
  rewrite skipn_all2 in HGen by (unfold len in *; lia). unfold slh_keygen_internal in HGen. rewrite app_nil_r in HGen.
  set (a := slice d 0 n) in *. set (b := slice d n n) in *. set (e := slice d (2 * n) n) in *. set (rt := slh_root (slh_of p) e a) in *.
  assert (ESK : SK = a ++ b ++ e ++ rt) by congruence. rewrite ESK. clear HGen ESK.
  assert (Lrt : length rt = Z.to_nat n).
  { unfold rt. destruct HG as (_ & _ & _ & G4). cbn [random_ok] in G4. fold n in G4. 
    assert (Bd : is_bytes d) by (unfold d; destruct (g (3 * n)) as [r0 d0]; apply G4).
    destruct (root_shape p a e (PfSpec.slice_bytes _ _ _ Bd) (PfSpec.slice_bytes _ _ _ Bd) S0 S2) as [L _]. fold n in L. unfold len in L. lia. }
  unfold consistent. fold n. unfold len in *.
  assert (Q : slice (a ++ b ++ e ++ rt) (3 * n) n = rt /\ slice (a ++ b ++ e ++ rt) (2 * n) n = e /\ slice (a ++ b ++ e ++ rt) 0 n = a).
  { unfold slice. split; [|split].
    - replace (Z.to_nat (3 * n)) with (length (a ++ b ++ e)) by (rewrite !app_length; lia). rewrite !app_assoc, <- (app_assoc a b e). rewrite skipn_app_exact by reflexivity. apply firstn_all2. lia.
    - replace (Z.to_nat (2 * n)) with (length (a ++ b)) by (rewrite !app_length; lia). rewrite app_assoc. rewrite skipn_app_exact by reflexivity. apply firstn_app_exact. lia.
    - cbn [Z.to_nat skipn]. apply firstn_app_exact. lia. }
  destruct Q as (-> & -> & ->). reflexivity.
Qed.

(** What a damaged part of a good key does: SK.prf - nothing that a verifier sees; PK.root -
    every signature is rejected by the check with the public key in the key *)
Theorem C60_damage : forall p SK SK', let n := p_n (slh_of p) in consistent (slh_of p) SK -> len SK = 4 * n ->
  (differs_at_most n n SK SK' -> consistent (slh_of p) SK' /\ public_part (slh_of p) SK' = public_part (slh_of p) SK) /\
  (differs_at_most (3 * n) n SK SK' -> SK' <> SK -> ~ consistent (slh_of p) SK').
Proof.
  intros p SK SK' n C L. assert (Nb : 16 <= n <= 32) by (unfold n; destruct p; cbn; lia). unfold consistent, public_part in *. fold n in C |- *. split.
  - intros D. rewrite !(slice_agree n n SK SK') by (first [exact D|lia]). split; [exact C|reflexivity].
  - intros D N E. rewrite (slice_agree (3 * n) n SK SK' (2 * n) n) in E by (first [exact D|lia]). rewrite (slice_agree (3 * n) n SK SK' 0 n) in E by (first [exact D|lia]).
    rewrite <- C in E. apply N. destruct D as [L' A].
    rewrite <- (firstn_skipn (Z.to_nat (3 * n)) SK), <- (firstn_skipn (Z.to_nat (3 * n)) SK'). f_equal.
    + change (slice SK' 0 (3 * n) = slice SK 0 (3 * n)). apply (slice_agree (3 * n) n); [lia|lia|split; [exact L'|exact A]|lia].
    + unfold slice in E. unfold len in *. rewrite !firstn_all2 in E by (rewrite skipn_length; lia). exact E.
Qed.

(** ** Cases that meet the hypotheses: for every parameter set, a key that is consistent and
    one that is not; both go through signing and verifying, with the verdicts 1 and 0 *)
Definition ex_message : list Z := [109; 115; 103].
Definition ex_round (p : ps_name) (SK : list Z) (v : Z) : Prop :=
  let L := slh_sig_length (slh_of p) in
  let PK := public_part (slh_of p) SK in
  let m := mem_of 1000 (SK ++ ex_message) in let m' := mem_of 2000 (PK ++ ex_message) in
  let ctx := zero_ctx full_cfg (the_ps full_cfg p) in
  exists os c1 us c2,
    calls full_cfg (sign_history m (1000 + len SK) 3 p 1000 None [Req m (repeat 0 (Z.to_nat L)) L]) ctx = Ok (Started :: os, c1) /\
    calls full_cfg (verify_history m' (2000 + len PK) 3 p 2000 [Feed m' (concat (map taken os))] ++ [(m', Verify)]) ctx = Ok (Started :: us ++ [Verdict v], c2).
Lemma holds_both a l1 l2 : is_bytes l1 -> is_bytes l2 -> holds (mem_of a (l1 ++ l2)) a l1 /\ holds (mem_of a (l1 ++ l2)) (a + len l1) l2.
Proof.
  intros B1 B2. assert (H : holds (mem_of a (l1 ++ l2)) a (l1 ++ l2)) by (apply mem_of_holds, Forall_app; split; assumption).
  split.
  - destruct H as [_ H]. split; [exact B1|]. intros i Hi. rewrite H by (rewrite app_length; lia). rewrite app_nth1 by exact Hi. reflexivity.
  - destruct H as [_ H]. split; [exact B2|]. intros i Hi. replace (a + len l1 + Z.of_nat i) with (a + Z.of_nat (length l1 + i)) by (unfold len; lia).
    rewrite H by (rewrite app_length; lia). rewrite app_nth2 by lia. do 2 f_equal. lia.
Qed.
Lemma ex_round_ok p SK : is_bytes SK -> len SK = 4 * p_n (slh_of p) ->
  exists v, ex_round p SK v /\ (consistent (slh_of p) SK -> v = 1) /\ (~ consistent (slh_of p) SK -> v = 0).
Proof.
  intros B L. assert (Nb : 16 <= p_n (slh_of p) <= 32) by (destruct p; cbn; lia). pose proof (L_range p) as LR.
  set (LG := slh_sig_length (slh_of p)) in *. set (PK := public_part (slh_of p) SK).
  assert (BM : is_bytes ex_message) by (apply bytes_dec; reflexivity).
  assert (BP : is_bytes PK) by (apply PfSpec.slice_bytes, B).
  assert (LP : len PK = 2 * p_n (slh_of p)) by (apply PfSpec.slice_zlen; [lia|lia|change (@zlen Z) with len; lia]).
  destruct (holds_both 1000 SK ex_message B BM) as [H1 H2]. destruct (holds_both 2000 PK ex_message BP BM) as [H3 H4].
  set (m := mem_of 1000 (SK ++ ex_message)) in *. set (m' := mem_of 2000 (PK ++ ex_message)) in *.
  set (rqs := [Req m (repeat 0 (Z.to_nat LG)) LG]).
  assert (HI : sign_init_ok m (1000 + len SK) ex_message p 1000 SK None) by (split; [exact H1|split; [exact L|split; [exact H2|split; [reflexivity|exact I]]]]).
  assert (HR : Forall (request_ok 1000 SK) rqs).
  { constructor; [|constructor]. split; [exact H1|]. cbn [rq_size rq_dest]. unfold len. rewrite repeat_length. lia. }
  assert (SZ : ts_size_signature (the_ps full_cfg p) = LG) by apply size_sig.
  assert (HA : ts_size_signature (the_ps full_cfg p) <= asked rqs) by (rewrite SZ; unfold rqs, asked; cbn; lia).
  pose proof (zero_wf full_cfg (the_ps full_cfg p)) as W.
  destruct (C02_signature_is_FIPS205 full_cfg p _ m (1000 + len SK) ex_message 1000 SK None rqs (full_on p) W HI HR HA) as (os0 & c0 & E0 & ET0).
  destruct (C60_self_check full_cfg full_cfg p (full_on p) (full_on p) _ m (1000 + len SK) ex_message 1000 SK None rqs W HI HR HA) as (os & c1 & E1 & HV).
  assert (Eo : os0 = os) by congruence. rewrite Eo in ET0. clear E0 Eo.
  assert (BR : is_bytes (slice SK (2 * p_n (slh_of p)) (p_n (slh_of p)))) by apply PfSpec.slice_bytes, B.
  destruct (sig_shape p SK B L ex_message _ BM BR) as [LS BS]. cbv zeta in ET0. rewrite <- ET0 in LS, BS. clear ET0. fold LG in LS.
  destruct (HV _ m' (2000 + len PK) 2000 [Feed m' (concat (map taken os))] m' W) as (us & c2 & v & E2 & V).
  - pose proof (addresses_ge full_cfg). split; [exact H3|]. split; [exact LP|]. split; [lia|]. split; [exact BM|]. change (len ex_message) with 3. lia.
  - cbn [feeds_ok fd_mem fd_chunk]. split; [exact H3|]. split; [exact BS|]. split; [lia|]. split; [intros _; exact H4|exact I].
  - cbn [map concat fd_chunk]. apply app_nil_r.
  - exists v. split; [|exact V]. exists os, c1, us, c2. split; [exact E1|exact E2].
Qed.
Example ex_import : forall p, exists SK SK', consistent (slh_of p) SK /\ ex_round p SK 1 /\ ~ consistent (slh_of p) SK' /\ ex_round p SK' 0.
Proof.
  intros p. assert (Nb : 16 <= p_n (slh_of p) <= 32) by (destruct p; cbn; lia). set (n := p_n (slh_of p)) in *.
  set (s := repeat 5 (Z.to_nat n)).
  assert (Bs : is_bytes s) by (apply Forall_forall; intros x Hx; apply repeat_spec in Hx; subst x; change (0 <= 5 < 256); lia).
  assert (Ls : length s = Z.to_nat n) by apply repeat_length.
  destruct (root_shape p s s Bs Bs ltac:(fold n; unfold len; lia) ltac:(fold n; unfold len; lia)) as [Lr Br]. fold n in Lr.
  set (rt := slh_root (slh_of p) s s) in *.
  assert (Q : forall r, len r = n -> is_bytes r -> let SK := s ++ s ++ s ++ r in is_bytes SK /\ len SK = 4 * n /\ (consistent (slh_of p) SK <-> r = rt)).
  { intros r L B SK. split; [unfold SK; do 3 (apply Forall_app; split; [exact Bs|]); exact B|]. split; [unfold SK, len in *; rewrite !app_length; lia|].
    unfold consistent. fold n. unfold len in *.
    assert (E : slice SK (3 * n) n = r /\ slice SK (2 * n) n = s /\ slice SK 0 n = s).
    { unfold SK, slice. split; [|split].
      - replace (Z.to_nat (3 * n)) with (length (s ++ s ++ s)) by (rewrite !app_length; lia). rewrite !app_assoc, <- (app_assoc s s s). rewrite skipn_app_exact by reflexivity. apply firstn_all2. lia.
      - replace (Z.to_nat (2 * n)) with (length (s ++ s)) by (rewrite !app_length; lia). rewrite app_assoc. rewrite skipn_app_exact by reflexivity. apply firstn_app_exact. lia.
      - cbn [Z.to_nat skipn]. apply firstn_app_exact. lia. }
    destruct E as (-> & -> & ->). reflexivity. }
  assert (D : exists r, len r = n /\ is_bytes r /\ r <> rt).
  { destruct (list_eq_dec Z.eq_dec (repeat 0 (Z.to_nat n)) rt) as [E|E]; [exists s|exists (repeat 0 (Z.to_nat n))].
    - split; [unfold len; lia|]. split; [exact Bs|]. rewrite <- E. unfold s. destruct (Z.to_nat n) eqn:En; [lia|]. cbn. congruence.
    - split; [unfold len; rewrite repeat_length; lia|]. split; [|exact E]. apply Forall_forall; intros x Hx; apply repeat_spec in Hx; subst x; change (0 <= 0 < 256); lia. }
  destruct D as (r & L & B & N). exists (s ++ s ++ s ++ rt), (s ++ s ++ s ++ r).
  destruct (Q rt Lr Br) as (B1 & L1 & C1). destruct (Q r L B) as (B2 & L2 & C2).
  destruct (ex_round_ok p _ B1 L1) as (v & R1 & V1 & _). destruct (ex_round_ok p _ B2 L2) as (v' & R2 & _ & V2).
  assert (K1 : consistent (slh_of p) (s ++ s ++ s ++ rt)) by (apply C1; reflexivity). assert (K2 : ~ consistent (slh_of p) (s ++ s ++ s ++ r)) by (intros X; apply N, C2, X).
  rewrite (V1 K1) in R1. rewrite (V2 K2) in R2. auto.
Qed.

Print Assumptions C60_self_check.
Print Assumptions C60_generated_keys.
Print Assumptions C60_damage.
