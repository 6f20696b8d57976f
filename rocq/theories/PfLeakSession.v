(** * Two signing sessions side by side *)
From Verif Require Import Arr CLeak SpecSLH SpecApi ModelParams ModelCtx ModelHash ModelSphincs ModelApi SpecMap SpecSessions SpecReuse SpecForge SpecLeak PfGlueSha PfIter PfEnv PfAdr PfGlue PfMsg PfCtx PfTree PfPaths PfBits PfWots PfSpec PfSign PfApi PfKeygen PfComplete PfReuse.
From Verif Require Import LeakHash LeakSphincs PfLeakErase3 PfLeakShake PfLeakHash PfLeakSphincs PfLeakInit PfLeakSign PfLeakView.
Ltac Zify.zify_post_hook ::= idtac.

(** ** The session, watched: SpecSessions.sign_history *)
Fixpoint l_requests (cfg : config) (rqs : list request) (c : ts_context) : leaky (list obs * ts_context) :=
  match rqs with
  | [] => lret ([], c)
  | r :: rqs => ('(k, dest, c) <- l_ts_sign cfg (rq_mem r) (rq_dest r) (rq_size r) c ;;
                 '(os, c) <- l_requests cfg rqs c ;; lret (Signed k dest :: os, c))%leak
  end.
Definition l_session (cfg : config) (m0 : memory) (msg l : Z) (p : ps_name) (sk : Z) (f : random_fn) (rqs : list request) (c : ts_context)
  : leaky (list obs * ts_context) :=
  (c <- l_ts_init_sign cfg m0 c msg l (the_ps cfg p) sk f ;;
   '(os, c) <- l_requests cfg rqs c ;; lret (Started :: os, c))%leak.

Lemma er_requests cfg rqs : forall c, result (l_requests cfg rqs c) = calls cfg (map (fun r => (rq_mem r, Sign (rq_dest r) (rq_size r))) rqs) c.
Proof.
  induction rqs as [|r rqs IH]; intros c; [reflexivity|]. cbn [l_requests map calls call].
  rewrite result_bind, er_sign. destruct (ts_sign cfg (rq_mem r) (rq_dest r) (rq_size r) c) as [[[k d] c1]|]; [|reflexivity]. cbn [bind].
  rewrite result_bind, IH. destruct (calls cfg _ c1) as [[os c2]|]; reflexivity.
Qed.
Lemma er_session cfg m0 msg l p sk f rqs c : result (l_session cfg m0 msg l p sk f rqs c) = calls cfg (sign_history m0 msg l p sk f rqs) c.
Proof.
  unfold l_session, sign_history. cbn [calls call]. rewrite result_bind, er_init_sign.
  destruct (ts_init_sign cfg m0 c msg l (the_ps cfg p) sk f) as [c1|]; [|reflexivity]. cbn [bind].
  rewrite result_bind, er_requests. destruct (calls cfg _ c1) as [[os c2]|]; reflexivity.
Qed.

Section Session.
Variable cfg : config.
Variable p : ps_name.
Variable sk : Z.
Local Notation P := (slh_of p).
Local Notation n := (p_n (slh_of p)).

(** The context when [t] bytes of the signature have been handed over *)
Definition RS (SK M SIG : list Z) (t : Z) (c : ts_context) : Prop :=
  is_bytes SK /\ len SK = 4 * n /\
  let PK := skipn (Z.to_nat (2 * n)) SK in
  let D := digest_of P PK M SIG in
  (forall l, 0 <= l < p_d P -> layer_message P M SIG PK l = ots_message P (slice SK (2 * n) n) (slice SK 0 n) l (ots_index P D l)) /\
  0 <= idx_tree_of P D < 2 ^ 64 /\ 0 <= idx_leaf_of P D < 2 ^ p_h' P /\
  exists E, KE cfg p (sk + 2 * n) (slice SK (2 * n) n) E /\
  exists b B o, at_run E (slice SK 0 n) (md_of P D) (idx_tree_of P D) (idx_leaf_of P D) (st E b) B o c /\
    n * Z.of_nat b + o = t /\ (o = 0 -> b = 0%nat).

Lemma RS_init c m msg f SK M : ps_enabled cfg p = true -> wf_ctx cfg c -> sign_init_ok m msg M p sk SK f ->
  exists c', ts_init_sign cfg m c msg (len M) (the_ps cfg p) sk f = Ok c' /\ RS SK M (signature p M SK f) 0 c'.
Proof.
  intros on W (HK & LK & HM & Hl & Hf).
  destruct (KE_build cfg p (sk + 2 * n) (slice SK (2 * n) n) m on) as (E & HE & Em).
  { apply load_slice; [exact HK| | |]; assert (16 <= n <= 32) by (destruct p; cbn; lia); lia. }
  { apply slice_bytes, HK. }
  pose proof HE as (Ec & Ep & Epk & Es). destruct (KE_facts _ _ _ _ _ HE) as (En & EP & Nb).
  assert (Sl : forall o, 0 <= o -> o + n <= 4 * n -> load m (sk + o) n = Ok (slice SK o n) /\ str_ok E (slice SK o n)).
  { intros o H1 H2. split; [apply load_slice; [exact HK|lia|lia|lia]|]. split; [rewrite En; apply slice_zlen; [lia|lia|]; rewrite zlen_len; lia|apply slice_bytes, HK]. }
  assert (Hsk : sk_at E (slice SK 0 n)).
  { unfold sk_at. rewrite Em, Epk, En. replace (sk + 2 * n - 2 * n) with (sk + 0) by lia. apply Sl; lia. }
  assert (Hprf : prf_at E (slice SK n n)).
  { unfold prf_at. rewrite Em, Epk, En. replace (sk + 2 * n - n) with (sk + n) by lia. apply Sl; lia. }
  assert (Hroot : root_at E (slice SK (3 * n) n)).
  { unfold root_at. rewrite Em, Epk, En. replace (sk + 2 * n + n) with (sk + 3 * n) by lia. apply Sl; lia. }
  assert (Mok : msg_ok M) by (split; [apply HM|rewrite zlen_len; lia]).
  assert (Hld : load (e_mem E) msg (zlen M) = Ok M) by (rewrite Em, zlen_len; apply holds_load, HM).
  assert (W' : wf_ctx (e_cfg E) c) by (rewrite Ec; exact W).
  assert (Hf' : rng_ok f (e_n E)) by (rewrite En; apply random_rng, Hf).
  pose proof (init_sign_ok E c msg M _ _ _ f W' Hsk Hprf Hroot Hld Mok Hf') as X. cbv zeta in X.
  destruct X as (c' & HI & HR & HT & HL & SR).
  unfold e_ps in HI. rewrite Ec, Em, Ep, Epk, En in HI. replace (sk + 2 * n - 2 * n) with sk in HI by lia.
  rewrite zlen_len in HI. exists c'. split; [exact HI|].
  assert (BA : is_bytes (randomness f n (slice SK (2 * n) n))).
  { unfold randomness. destruct f as [g|]; [|apply slice_bytes, HK]. cbn [random_ok] in Hf. destruct (g n) as [ret data].
    destruct (ret =? 0); [apply slice_bytes, HK|apply Hf]. }
  assert (BM : is_bytes M) by apply HM. assert (BK : is_bytes SK) by apply HK.
  set (addrnd := randomness f n (slice SK (2 * n) n)) in *.
  destruct (R_ok p SK M addrnd BK LK BM BA) as [LR _].
  destruct (own_parts p SK BK LK M _ LR) as (H1 & H2 & _ & H4). rewrite <- (sign_is_own P M SK addrnd) in H1, H2, H4.
  change (slh_sign_internal P M SK addrnd) with (signature p M SK f) in H1, H2, H4.
  split; [exact BK|]. split; [exact LK|]. cbv zeta.
  rewrite H1 in H2.
  assert (ED : digest_of P (skipn (Z.to_nat (2 * n)) SK) M (signature p M SK f) =
    H_msg (e_hs E) (PRF_msg (e_hs E) (slice SK n n) (addrnd_of f (e_n E) (e_seed E)) M) (e_seed E) (slice SK (3 * n) n) M).
  { rewrite H2. unfold e_hs. rewrite EP, En, Es. reflexivity. }
  rewrite EP in HR, HT, HL. rewrite <- ED in HR, HT, HL.
  split; [intros l Hl0; exact (proj2 (H4 l Hl0))|]. split; [exact HT|]. split; [exact HL|].
  exists E. split; [exact HE|]. exists 0%nat. eexists _, 0. split; [exact HR|]. split; [lia|reflexivity].
Qed.

Lemma pos_inj (a b : nat) o o' : 0 < n -> 0 <= o <= n -> 0 <= o' <= n -> (o = 0 -> a = 0%nat) -> (o' = 0 -> b = 0%nat) ->
  n * Z.of_nat a + o = n * Z.of_nat b + o' -> a = b /\ o = o'.
Proof.
  intros Hn Ho Ho' Ha Hb H. assert (X : Z.of_nat a = Z.of_nat b).
  { destruct (Z.eq_dec o 0) as [E|E]; [rewrite (Ha E) in *|]; (destruct (Z.eq_dec o' 0) as [E'|E']; [rewrite (Hb E') in *|]); clear - Hn Ho Ho' E E' H; nia. }
  split; [lia|]. rewrite X in H. lia.
Qed.
(** The environment for the memory of another call *)
Lemma RS_env SK M SIG t c m : RS SK M SIG t c -> holds m sk SK ->
  exists E b B o, e_cfg E = cfg /\ e_p E = p /\ e_pk E = sk + 2 * n /\ e_mem E = m /\ e_P E = P /\ e_n E = n /\ 16 <= n <= 32 /\
    e_seed E = slice SK (2 * n) n /\
    KE cfg p (sk + 2 * n) (slice SK (2 * n) n) E /\ sk_at E (slice SK 0 n) /\
    let D := digest_of P (skipn (Z.to_nat (2 * n)) SK) M SIG in
    at_run E (slice SK 0 n) (md_of P D) (idx_tree_of P D) (idx_leaf_of P D) (st E b) B o c /\
    n * Z.of_nat b + o = t /\ (o = 0 -> b = 0%nat).
Proof.
  intros (BK & LK & H1 & H2 & H3 & E & HE & b & B & o & HR & Ht & H0) HK.
  pose proof HE as (Ec & Ep & Epk & Es). destruct (KE_facts _ _ _ _ _ HE) as (En & EP & Nb).
  assert (Hld : load m (e_pk E) (p_n (slh_of (e_p E))) = Ok (e_seed E)).
  { rewrite Ep, Epk, Es. apply load_slice; [exact HK|lia|lia|lia]. }
  set (E' := remem E m Hld). exists E', b, B, o. split; [exact Ec|]. split; [exact Ep|]. split; [exact Epk|]. split; [reflexivity|].
  split; [exact EP|]. split; [exact En|]. split; [exact Nb|]. split; [exact Es|]. split; [exact HE|]. split.
  - unfold sk_at. change (e_mem E') with m. change (e_pk E') with (e_pk E). change (e_n E') with (e_n E). rewrite Epk, En.
    replace (sk + 2 * n - 2 * n) with (sk + 0) by lia. split; [apply load_slice; [exact HK|lia|lia|lia]|].
    unfold str_ok. change (e_n E') with (e_n E). rewrite En. split; [apply slice_zlen; [lia|lia|]; rewrite zlen_len; lia|apply slice_bytes, HK].
  - cbv zeta. split; [exact (at_run_remem E m Hld _ _ _ _ _ _ _ _ HR)|]. split; [exact Ht|exact H0].
Qed.
Definition pk_of (SK : list Z) : list Z := skipn (Z.to_nat (2 * n)) SK.
Lemma RS_sign SK1 M1 S1 SK2 M2 S2 t c d m1 m2 dest1 dest2 sz : RS SK1 M1 S1 t c -> RS SK2 M2 S2 t d ->
  holds m1 sk SK1 -> holds m2 sk SK2 -> 0 <= sz < 2 ^ 32 ->
  same_view P t (t + sz) (pk_of SK1) M1 S1 (pk_of SK2) M2 S2 ->
  sim (fun x y => fst (fst x) = fst (fst y) /\ 0 <= fst (fst x) <= sz /\ RS SK1 M1 S1 (t + fst (fst x)) (snd x) /\ RS SK2 M2 S2 (t + fst (fst x)) (snd y))
    (l_ts_sign cfg m1 dest1 sz c) (l_ts_sign cfg m2 dest2 sz d).
Proof.
  intros R1 R2 K1 K2 Hsz HV.
  destruct (RS_env _ _ _ _ _ _ R1 K1) as (E1 & b & B1 & o & Ec1 & Ep1 & Epk1 & Em1 & EP1 & En1 & Nb & Es1 & HE1 & Hsk1 & HR1 & Ht1 & Hz1).
  destruct (RS_env _ _ _ _ _ _ R2 K2) as (E2 & b2 & B2 & o2 & Ec2 & Ep2 & Epk2 & Em2 & EP2 & En2 & _ & Es2 & HE2 & Hsk2 & HR2 & Ht2 & Hz2).
  destruct R1 as (BK1 & LK1 & LM1 & HT1 & HL1 & _). destruct R2 as (BK2 & LK2 & LM2 & HT2 & HL2 & _). cbv zeta in *.
  set (D1 := digest_of P (skipn (Z.to_nat (2 * n)) SK1) M1 S1) in *. set (D2 := digest_of P (skipn (Z.to_nat (2 * n)) SK2) M2 S2) in *.
  pose proof (r_rng _ _ _ _ _ _ _ _ _ HR1) as O1. pose proof (r_rng _ _ _ _ _ _ _ _ _ HR2) as O2. rewrite En1 in O1. rewrite En2 in O2.
  destruct (pos_inj b b2 o o2) as [<- <-]; [lia|exact O1|exact O2|exact Hz1|exact Hz2|congruence|]. clear Ht2 Hz2 O2.
  assert (Est : forall k, st E2 k = st E1 k).
  { intros k. unfold st. induction k as [|k IH]; [reflexivity|].
    change (nxt E2 (Nat.iter k (nxt E2) (FL 0)) = nxt E1 (Nat.iter k (nxt E1) (FL 0))). rewrite IH. unfold nxt. rewrite EP1, EP2. reflexivity. }
  rewrite Est in HR2.
  pose proof (state_range _ _ _ _ _ _ _ (r_inv _ _ _ _ _ _ _ _ _ HR1)) as Q1. pose proof (state_range _ _ _ _ _ _ _ (r_inv _ _ _ _ _ _ _ _ _ HR2)) as Q2.
  unfold l_ts_sign. apply sim_if.
  { destruct (Z.leb_spec (c_state c) ts_sign_state), (Z.leb_spec ts_verify_state (c_state c)), (Z.leb_spec (c_state d) ts_sign_state), (Z.leb_spec ts_verify_state (c_state d)); reflexivity || lia. }
  { intros X. destruct (Z.leb_spec (c_state c) ts_sign_state), (Z.leb_spec ts_verify_state (c_state c)); cbn in X; discriminate || lia. }
  intros _.
  assert (Hv : forall b', e_n E1 * Z.of_nat b + o <= e_n E1 * (Z.of_nat b' + 1) < e_n E1 * Z.of_nat b + o + sz ->
     vw E1 (slice SK1 0 n) (md_of P D1) (idx_tree_of P D1) (idx_leaf_of P D1) (st E1 b') =
     vw E2 (slice SK2 0 n) (md_of P D2) (idx_tree_of P D2) (idx_leaf_of P D2) (st E1 b')).
  { intros b' Hb'. rewrite En1, Ht1 in Hb'.
    specialize (HV (S b')). replace (Z.of_nat (S b')) with (Z.of_nat b' + 1) in HV by lia. specialize (HV Hb').
    pose proof (nth_view E1 (slice SK1 0 n) D1 (pk_of SK1) M1 S1 b') as V1. pose proof (nth_view E2 (slice SK2 0 n) D2 (pk_of SK2) M2 S2 b') as V2.
    rewrite EP1, Es1 in V1. rewrite EP2, Es2, Est in V2. rewrite <- V1, <- V2; [exact HV|reflexivity|exact LM2|reflexivity|exact LM1]. }
  assert (Hc : e_cfg E1 = e_cfg E2) by congruence. assert (Hp : e_p E1 = e_p E2) by congruence. assert (Hpk : e_pk E1 = e_pk E2) by congruence.
  assert (HL1' : 0 <= idx_leaf_of P D1 < 2 ^ p_h' (e_P E1)) by (rewrite EP1; exact HL1).
  assert (HL2' : 0 <= idx_leaf_of P D2 < 2 ^ p_h' (e_P E2)) by (rewrite EP2; exact HL2).
  pose proof (pair_loop E1 E2 Hc Hp Hpk _ _ _ _ _ _ _ _ Hsk1 Hsk2 HT1 HT2 HL1' HL2' (2 * Z.to_nat sz + 2) dest1 dest2 0 sz b o B1 B2 c d HR1 HR2 Hsz) as PL.
  rewrite Ec1, Em1, Em2 in PL.
  eapply sim_bind; [apply PL; [intros E0 Nz; elim Nz; apply Hz1, E0|exact Hv]|].
  intros [[u1 e1] c1] [[u2 e2] c2] _ _ (b' & o' & Y1 & Y2 & A1 & A2 & A3 & A4 & A5 & A6). cbn [fst snd] in *. subst u2. apply sim_ret.
  cbn [fst snd]. unfold u32. rewrite Z.mod_small by lia. split; [reflexivity|]. split; [lia|].
  assert (Hz' : o' = 0 -> b' = 0%nat) by (intros E0; destruct A6 as [A6|(-> & -> & _)]; [lia|apply Hz1, E0]).
  rewrite En1, Ht1 in A4. split.
  - split; [exact BK1|]. split; [exact LK1|]. cbv zeta. split; [exact LM1|]. split; [exact HT1|]. split; [exact HL1|].
    exists E1. split; [exact HE1|]. exists b', Y1, o'. split; [exact A2|]. split; [exact A4|exact Hz'].
  - split; [exact BK2|]. split; [exact LK2|]. cbv zeta. split; [exact LM2|]. split; [exact HT2|]. split; [exact HL2|].
    exists E2. split; [exact HE2|]. exists b', Y2, o'. rewrite Est. split; [exact A3|]. split; [exact A4|exact Hz'].
Qed.

Lemma same_view_sub t u t' u' PK1 M1 S1 PK2 M2 S2 : same_view P t u PK1 M1 S1 PK2 M2 S2 -> t <= t' -> u' <= u ->
  same_view P t' u' PK1 M1 S1 PK2 M2 S2.
Proof. intros H A B b Hb. apply H. lia. Qed.
Lemma asked_nonneg SK rqs : Forall (request_ok sk SK) rqs -> 0 <= asked rqs.
Proof. induction 1 as [|r rqs (_ & H & _) _ IH]; [cbn; lia|]. cbn [asked fold_right]. fold (asked rqs). lia. Qed.
Lemma sizes_asked (rqs1 : list request) : forall rqs2, map rq_size rqs1 = map rq_size rqs2 -> asked rqs1 = asked rqs2.
Proof.
  induction rqs1 as [|r rqs1 IH]; intros [|r2 rqs2] H; try discriminate; [reflexivity|]. cbn [map] in H. injection H as H1 H2.
  cbn [asked fold_right]. fold (asked rqs1). fold (asked rqs2). rewrite (IH _ H2), H1. reflexivity.
Qed.
Lemma RS_requests SK1 M1 S1 SK2 M2 S2 rqs1 : forall rqs2 t c d, RS SK1 M1 S1 t c -> RS SK2 M2 S2 t d ->
  Forall (request_ok sk SK1) rqs1 -> Forall (request_ok sk SK2) rqs2 -> map rq_size rqs1 = map rq_size rqs2 ->
  same_view P t (t + asked rqs1) (pk_of SK1) M1 S1 (pk_of SK2) M2 S2 ->
  sim any (l_requests cfg rqs1 c) (l_requests cfg rqs2 d).
Proof.
  induction rqs1 as [|r1 rqs1 IH]; intros [|r2 rqs2] t c d R1 R2 F1 F2 Hs HV; try discriminate; cbn [l_requests].
  { apply sim_ret. exact I. }
  cbn [map] in Hs. injection Hs as Hz Hs. pose proof (Forall_inv F1) as (K1 & Z1 & L1). pose proof (Forall_inv F2) as (K2 & Z2 & L2).
  apply Forall_inv_tail in F1. apply Forall_inv_tail in F2. pose proof (asked_nonneg _ _ F1) as A1.
  cbn [asked fold_right] in HV. fold (asked rqs1) in HV. rewrite <- Hz.
  eapply sim_bind; [apply (RS_sign SK1 M1 S1 SK2 M2 S2 t); try assumption; eapply same_view_sub; [exact HV|lia|lia]|].
  intros [[u1 e1] c1] [[u2 e2] c2] _ _ (X1 & X2 & X3 & X4). cbn [fst snd] in *. subst u2.
  eapply sim_bind; [apply (IH rqs2 (t + u1)); try assumption; eapply same_view_sub; [exact HV|lia|lia]|].
  intros [os1 f1] [os2 f2] _ _ _. apply sim_ret. exact I.
Qed.
(** One session alone: how far it has come *)
Definition got (o : obs) : Z := match o with Signed k _ => k | _ => 0 end.
Definition gots (os : list obs) : Z := fold_right (fun o t => got o + t) 0 os.
Lemma RS_calls SK M SIG rqs : forall t c os c', RS SK M SIG t c -> Forall (request_ok sk SK) rqs ->
  calls cfg (map (fun r => (rq_mem r, Sign (rq_dest r) (rq_size r))) rqs) c = Ok (os, c') -> RS SK M SIG (t + gots os) c'.
Proof.
  induction rqs as [|r rqs IH]; intros t c os c' R F; cbn [map calls call].
  { intros Q. apply ok_inj in Q. injection Q as <- <-. cbn [gots fold_right]. rewrite Z.add_0_r. exact R. }
  pose proof (Forall_inv F) as (K & Hz & L). apply Forall_inv_tail in F.
  destruct (ts_sign cfg (rq_mem r) (rq_dest r) (rq_size r) c) as [[[k d] c1]|] eqn:ES; [|discriminate]. cbn [bind].
  destruct (calls cfg _ c1) as [[os2 c2]|] eqn:EC; [|discriminate]. cbn [bind]. intros Q. apply ok_inj in Q. injection Q as <- <-.
  assert (V : same_view P t (t + rq_size r) (pk_of SK) M SIG (pk_of SK) M SIG) by (intros b _; reflexivity).
  rewrite <- er_sign in ES.
  destruct (RS_sign SK M SIG SK M SIG t c c _ _ _ _ _ R R K K Hz V _ _ ES ES) as [_ (_ & _ & X & _)]. cbn [fst snd] in X.
  cbn [gots fold_right got]. fold (gots os2). rewrite Z.add_assoc. exact (IH _ _ _ _ X F EC).
Qed.
Lemma gots_answers SK rqs : forall SIG, Forall (request_ok sk SK) rqs -> gots (sign_answers SIG rqs) = Z.min (asked rqs) (len SIG).
Proof.
  induction rqs as [|r rqs IH]; intros SIG F; cbn [sign_answers gots asked fold_right].
  { unfold len. lia. }
  pose proof (Forall_inv F) as (K & Hz & L). apply Forall_inv_tail in F. cbn [got]. fold (gots (sign_answers (skipn (Z.to_nat (Z.min (rq_size r) (len SIG))) SIG) rqs)).
  fold (asked rqs). rewrite IH by exact F. pose proof (asked_nonneg _ _ F). unfold len in *. rewrite skipn_length. lia.
Qed.
End Session.
