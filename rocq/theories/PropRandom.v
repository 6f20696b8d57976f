(** * What is asked of the random generator (C41)

    The random function of ts_init_sign and ts_gen_key is the caller's; behind it there
    is a generator with a state, which each call changes.  Histories here run over any
    number of contexts, generate keys and sign, all with the same generator. *)
From Verif Require Import Arr SpecSLH SpecApi SpecMap SpecSessions CSem ModelParams ModelCtx ModelKeygen ModelSphincs ModelVerify ModelApi PfApi PfApi2 PfSign PfKeygen PfComplete PfSession PropSign PropVerify PropApi PropCopy PropLifetimes.
Ltac Zify.zify_post_hook ::= idtac.

Section Generator.
(** Any state, any generator: given a state and the number of bytes wanted, it returns
    a result code (nonzero: success), the bytes delivered and the new state. *)
Variable R : Type.
Variable gen : R -> Z -> Z * list Z * R.

Inductive event :=
| Plain (i : nat) (m : memory) (act : action)      (* a call on context i that is not given the generator *)
| NewSignature (i : nat) (m : memory) (msg l : Z) (p : ps_name) (sk : Z)     (* ts_init_sign that is *)
| NewKey (priv : option (Z * list Z)) (pub : option (list Z)) (p : option ps_name).   (* ts_gen_key that is *)
Inductive answer :=
| Result (o : obs)
| Keys (ret : Z) (priv pub : option (list Z)).

(** The library *)
Fixpoint run (cfg : config) (h : list event) (w : world ts_context) (r : R) : outcome (list answer * world ts_context * R) :=
  match h with
  | [] => Ok ([], w, r)
  | Plain i m act :: h =>
    '(o, c) <- call cfg m act (w i) ;; '(os, w, r) <- run cfg h (set i c w) r ;; Ok (Result o :: os, w, r)
  | NewSignature i m msg l p sk :: h =>
    '(c, r) <- ts_init_sign_gen cfg m (w i) msg l (the_ps cfg p) sk (Some gen) r ;;
    '(os, w, r) <- run cfg h (set i c w) r ;; Ok (Result Started :: os, w, r)
  | NewKey priv pub p :: h =>
    '(ret, priv, pub, r) <- ts_gen_key_gen cfg priv pub (option_map (the_ps cfg) p) (Some gen) r ;;
    '(os, w, r) <- run cfg h w r ;; Ok (Keys ret priv pub :: os, w, r)
  end.

(** The requests that the generator should get: n bytes for a signature, 3 n for a key
    (if the arguments that must not be NULL are not NULL), and no others. *)
Definition requested (e : event) : list Z :=
  match e with
  | NewSignature _ _ _ _ p _ => [p_n (slh_of p)]
  | NewKey (Some _) _ (Some p) => [3 * p_n (slh_of p)]
  | _ => []
  end.
Definition state_after (r : R) (requests : list Z) : R := fold_left (fun r k => snd (gen r k)) requests r.

(** C41: these requests, in this order, are all. *)
Theorem C41_requests : forall cfg h w r os w' r', run cfg h w r = Ok (os, w', r') ->
  r' = state_after r (flat_map requested h).
Proof.
  assert (EN : forall cfg p, ps_n (the_ps cfg p) = p_n (slh_of p)) by (intros cfg p; destruct p; reflexivity).
  intros cfg h. induction h as [|e h IH]; intros w r os w' r' H.
  - cbn [run] in H. injection H as _ _ <-. reflexivity.
  - cbn [flat_map]. unfold state_after. rewrite fold_left_app. destruct e as [i m act|i m msg l p sk|priv pub p]; cbn [run] in H.
    + destruct (call cfg m act (w i)) as [[o c]|]; cbn [bind] in H; [|discriminate].
      destruct (run cfg h (set i c w) r) as [[[os1 w1] r1]|] eqn:E; cbn [bind] in H; [|discriminate].
      injection H as _ _ <-. exact (IH _ _ _ _ _ E).
    + rewrite init_sign_gen_eq in H.
      destruct (ts_init_sign cfg m (w i) msg l (the_ps cfg p) sk (frozen (Some gen) r)) as [c|]; cbn [bind] in H; [|discriminate].
      destruct (run cfg h (set i c w) _) as [[[os1 w1] r1]|] eqn:E; cbn [bind] in H; [|discriminate].
      injection H as _ _ <-. apply IH in E. cbn [after] in E. rewrite EN in E. exact E.
    + destruct (ts_gen_key_gen cfg priv pub (option_map (the_ps cfg) p) (Some gen) r) as [[[[ret priv1] pub1] r0]|] eqn:EG; cbn [bind] in H; [|discriminate].
      destruct (run cfg h w r0) as [[[os1 w1] r1]|] eqn:E; cbn [bind] in H; [|discriminate].
      injection H as _ _ <-. apply IH in E. rewrite E. unfold state_after. f_equal.
      unfold ts_gen_key_gen in EG. destruct priv as [[addr priv]|], p as [p|]; cbn [option_map requested fold_left] in *; try (injection EG as _ _ _ <-; reflexivity).
      rewrite EN in EG. destruct (gen r (3 * p_n (slh_of p))) as [[ret' data] r2]. cbn [snd]. 
      destruct (wr_range priv 0 data) as [priv2|]; cbn [bind] in EG; [|discriminate].
      destruct (ret' =? 0); [injection EG as _ _ _ <-; reflexivity|].
      destruct (gen_root cfg (mem_of addr priv2) addr (the_ps cfg p)) as [root|]; cbn [bind] in EG; [|discriminate].
      match type of EG with bind ?x _ = _ => destruct x as [priv3|]; cbn [bind] in EG; [|discriminate] end.
      destruct pub as [b|]; [|injection EG as _ _ _ <-; reflexivity].
      match type of EG with bind ?x _ = _ => destruct x as [pp|]; cbn [bind] in EG; [|discriminate] end.
      match type of EG with bind ?x _ = _ => destruct x as [pb|]; cbn [bind] in EG; [|discriminate] end.
      injection EG as _ _ _ <-. reflexivity.
Qed.

(** The machine, with the generator's state: each signature and each key is made from
    what the generator delivers in the state it is in when it is asked. *)
Definition now (r : R) (k : Z) : Z * list Z := fst (gen r k).
Definition keys_made (p : ps_name) (priv : list Z) (pub : option (list Z)) (ret : Z) (data : list Z) : answer :=
  let n := p_n (slh_of p) in
  if ret =? 0 then Keys 0 (Some (data ++ skipn (length data) priv)) pub
  else let '(SK, PK) := slh_keygen_internal (slh_of p) (slice data 0 n) (slice data n n) (slice data (2 * n) n) in
    Keys 1 (Some (SK ++ skipn (Z.to_nat (4 * n)) priv)) (option_map (fun b => PK ++ skipn (Z.to_nat (2 * n)) b) pub).
Inductive rsteps (pf : platform) : world astate -> R -> list event -> list answer -> world astate -> R -> Prop :=
| rs_nil w r : rsteps pf w r [] [] w r
| rs_plain w r i m act o a h os w2 r2 :
    step pf (w i) m act o a -> rsteps pf (set i a w) r h os w2 r2 ->
    rsteps pf w r (Plain i m act :: h) (Result o :: os) w2 r2
| rs_signature w r i m msg l p sk o a h os w2 r2 :
    step pf (w i) m (InitSign msg l p sk (Some (now r))) o a ->
    rsteps pf (set i a w) (snd (gen r (p_n (slh_of p)))) h os w2 r2 ->
    rsteps pf w r (NewSignature i m msg l p sk :: h) (Result o :: os) w2 r2
| rs_key w r addr priv pub p h os w2 r2 :
    enabled pf p -> genkey_ok p priv pub (now r) ->
    rsteps pf w (snd (gen r (3 * p_n (slh_of p)))) h os w2 r2 ->
    rsteps pf w r (NewKey (Some (addr, priv)) pub (Some p) :: h)
      (keys_made p priv pub (fst (now r (3 * p_n (slh_of p)))) (snd (now r (3 * p_n (slh_of p)))) :: os) w2 r2
| rs_key_null w r priv pub p h os w2 r2 :
    priv = None \/ p = None -> rsteps pf w r h os w2 r2 ->
    rsteps pf w r (NewKey priv pub p :: h) (Keys 0 (option_map snd priv) pub :: os) w2 r2.

Lemma gen_key_gen_eq cfg p addr priv pub r :
  ts_gen_key_gen cfg (Some (addr, priv)) pub (Some (the_ps cfg p)) (Some gen) r =
  ('(x, _) <- ts_gen_key_gen cfg (Some (addr, priv)) pub (Some (the_ps cfg p)) (Some (fun (_ : unit) k => (now r k, tt))) tt ;;
   Ok (x, snd (gen r (3 * ps_n (the_ps cfg p))))).
Proof.
  unfold ts_gen_key_gen, now. destruct (gen r (3 * ps_n (the_ps cfg p))) as [[ret data] r2]. cbn [fst snd].
  rewrite !bind_bind. apply bind_ext. intros priv2 _. destruct (ret =? 0); [reflexivity|].
  rewrite !bind_bind. apply bind_ext. intros root _. rewrite !bind_bind. apply bind_ext. intros priv3 _.
  destruct pub as [b|]; [|reflexivity]. rewrite !bind_bind. apply bind_ext. intros pp _. rewrite !bind_bind. apply bind_ext. intros pb _. reflexivity.
Qed.

Theorem C41_histories : forall cfg h cw r os w' r',
  (forall i, wf_ctx cfg (cw i)) -> rsteps (platform_of cfg) (fun _ => Fresh) r h os w' r' ->
  exists cw', run cfg h cw r = Ok (os, cw', r').
Proof.
  intros cfg h cw r os w' r' W S.
  assert (G : forall w r h os w' r', rsteps (platform_of cfg) w r h os w' r' -> forall cw, (forall i, Rel cfg (w i) (cw i)) ->
    exists cw', run cfg h cw r = Ok (os, cw', r')).
  { clear. intros w r h os w' r' S.
    induction S as [w r|w r i m act o a h os w2 r2 H S IH|w r i m msg l p sk o a h os w2 r2 H S IH|w r addr priv pub p h os w2 r2 on HG S IH|w r priv pub p h os w2 r2 HN S IH]; intros cw RL.
    - exists cw. reflexivity.
    - destruct (simulation cfg _ _ _ _ _ _ H (RL i)) as (c & E & Rc).
      destruct (IH (set i c cw)) as (cw' & E'). { intros k. unfold set. destruct (Nat.eqb_spec k i); [exact Rc|apply RL]. }
      exists cw'. cbn [run]. rewrite E. cbn [bind]. rewrite E'. reflexivity.
    - destruct (simulation cfg _ _ _ _ _ _ H (RL i)) as (c & E & Rc).
      destruct (IH (set i c cw)) as (cw' & E'). { intros k. unfold set. destruct (Nat.eqb_spec k i); [exact Rc|apply RL]. }
      exists cw'. cbn [run]. rewrite init_sign_gen_eq. cbn [call] in E. change (frozen (Some gen) r) with (Some (now r)).
      destruct (ts_init_sign cfg m (cw i) msg l (the_ps cfg p) sk (Some (now r))) as [c0|]; cbn [bind] in E; [|discriminate].
      injection E as <- <-. cbn [bind after]. assert (EN : ps_n (the_ps cfg p) = p_n (slh_of p)) by (destruct p; reflexivity).
      rewrite EN, E'. reflexivity.
    - destruct (IH cw RL) as (cw' & E'). exists cw'. cbn [run option_map].
      pose proof (gen_key_cases cfg p addr priv pub (now r) on HG) as X. cbv zeta in X.
      rewrite gen_key_gen_eq. unfold ts_gen_key in X. cbn [option_map] in X.
      destruct (ts_gen_key_gen cfg (Some (addr, priv)) pub (Some (the_ps cfg p)) (Some (fun (_ : unit) k => (now r k, tt))) tt) as [[x u]|] eqn:EG; cbn [bind] in X; [|discriminate].
      assert (EN : ps_n (the_ps cfg p) = p_n (slh_of p)) by (destruct p; reflexivity). cbn [bind]. rewrite EN.
      assert (EX : x = if fst (now r (3 * p_n (slh_of p))) =? 0 then (0, Some (snd (now r (3 * p_n (slh_of p))) ++ skipn (length (snd (now r (3 * p_n (slh_of p))))) priv), pub)
        else let '(SK, PK) := slh_keygen_internal (slh_of p) (slice (snd (now r (3 * p_n (slh_of p)))) 0 (p_n (slh_of p))) (slice (snd (now r (3 * p_n (slh_of p)))) (p_n (slh_of p)) (p_n (slh_of p))) (slice (snd (now r (3 * p_n (slh_of p)))) (2 * p_n (slh_of p)) (p_n (slh_of p))) in
        (1, Some (SK ++ skipn (Z.to_nat (4 * p_n (slh_of p))) priv), option_map (fun b => PK ++ skipn (Z.to_nat (2 * p_n (slh_of p))) b) pub)) by congruence.
      unfold keys_made. rewrite EX. clear EX X EG.
      destruct (fst (now r (3 * p_n (slh_of p))) =? 0); [rewrite E'; reflexivity|].
      destruct (slh_keygen_internal _ _ _ _) as [SK PK]. rewrite E'. reflexivity.
    - destruct (IH cw RL) as (cw' & E'). exists cw'. cbn [run].
      assert (EG : ts_gen_key_gen cfg priv pub (option_map (the_ps cfg) p) (Some gen) r = Ok (0, option_map snd priv, pub, r)).
      { unfold ts_gen_key_gen. destruct HN as [->| ->]; [reflexivity|]. destruct priv as [[? ?]|]; reflexivity. }
      rewrite EG. cbn [bind]. rewrite E'. reflexivity. }
  exact (G _ _ _ _ _ _ S cw W).
Qed.

(** C41, the randomness of a signature: whatever happened before, a signature is made
    from the bytes that the generator delivers after all the earlier requests. *)
Lemma rsteps_app pf w r h1 os1 w1 r1 h2 os2 w2 r2 : rsteps pf w r h1 os1 w1 r1 -> rsteps pf w1 r1 h2 os2 w2 r2 ->
  rsteps pf w r (h1 ++ h2) (os1 ++ os2) w2 r2.
Proof. induction 1; intros H2; cbn [app]; [exact H2|eapply rs_plain; eauto|eapply rs_signature; eauto|apply rs_key; auto|apply rs_key_null; auto]. Qed.
Lemma rsteps_on pf i r h a os a' : steps pf a h os a' -> forall w, w i = a ->
  exists w', rsteps pf w r (map (fun '(m, act) => Plain i m act) h) (map Result os) w' r /\ w' i = a'.
Proof.
  induction 1 as [a|a m act o a1 h os a2 H S IH]; intros w E.
  - exists w. split; [apply rs_nil|exact E].
  - destruct (IH (set i a1 w)) as (w' & S' & E'). { unfold set. rewrite Nat.eqb_refl. reflexivity. }
    exists w'. split; [|exact E']. cbn [map]. eapply rs_plain; [rewrite E; exact H|exact S'].
Qed.
Theorem C41_randomness_of_a_signature : forall cfg h cw r os w1 r1 i p m0 msg M sk SK rqs,
  (forall i, wf_ctx cfg (cw i)) -> rsteps (platform_of cfg) (fun _ => Fresh) r h os w1 r1 ->
  ps_enabled cfg p = true ->
  let st := state_after r (flat_map requested h) in
  sign_init_ok m0 msg M p sk SK (Some (now st)) -> Forall (request_ok sk SK) rqs ->
  let n := p_n (slh_of p) in
  let addrnd := if fst (now st n) =? 0 then slice SK (2 * n) n else snd (now st n) in
  exists cw', run cfg (h ++ NewSignature i m0 msg (len M) p sk :: map (fun q => Plain i (rq_mem q) (Sign (rq_dest q) (rq_size q))) rqs) cw r
    = Ok (os ++ Result Started :: map Result (sign_answers (slh_sign_internal (slh_of p) M SK addrnd) rqs), cw', snd (gen st n)).
Proof.
  intros cfg h cw r os w1 r1 i p m0 msg M sk SK rqs W S on st HI HR n addrnd.
  destruct (C41_histories cfg h cw r os w1 r1 W S) as (cw1 & E1). pose proof (C41_requests _ _ _ _ _ _ _ E1) as Er. fold st in Er. subst r1.
  destruct HI as (H1 & H2 & H3 & H4 & H5).
  pose proof (s_init_sign (platform_of cfg) (w1 i) m0 msg (len M) p sk (Some (now st)) SK M on H1 H2 H3 eq_refl H4 H5) as SI.
  assert (EA : randomness (Some (now st)) (p_n (slh_of p)) (slice SK (2 * p_n (slh_of p)) (p_n (slh_of p))) = addrnd).
  { unfold randomness, addrnd. fold n. destruct (now st n) as [ret data]. reflexivity. }
  rewrite EA in SI.
  set (S0 := slh_sign_internal (slh_of p) M SK addrnd) in *. set (w2 := set i (Signing p sk SK S0) w1).
  destruct (rsteps_on (platform_of cfg) i (snd (gen st n)) _ _ _ _ (requests_left (platform_of cfg) p sk SK rqs S0 HR) w2) as (w3 & S3 & _).
  { unfold w2, set. rewrite Nat.eqb_refl. reflexivity. }
  unfold sign_calls in S3. rewrite map_map in S3.
  apply (C41_histories cfg _ cw r _ w3 (snd (gen st n)) W). eapply rsteps_app; [exact S|]. eapply rs_signature; [exact SI|exact S3].
Qed.
End Generator.

(** C41, for a generator that hands out the bytes of a stream one after the other (its
    state is the position in it): with [before] the number of bytes asked for earlier,
    the signature is made from the bytes before, ..., before + n - 1 of the stream.  No
    two signatures or keys share a byte of it. *)
Definition stream_bytes (s : Z -> Z) (pos k : Z) : list Z := map (fun i => s (pos + Z.of_nat i)) (seq 0 (Z.to_nat k)).
Definition stream (s : Z -> Z) (pos k : Z) : Z * list Z * Z := (1, stream_bytes s pos k, pos + k).
Theorem C41_stream : forall cfg s h cw pos os w1 r1 i p m0 msg M sk SK rqs,
  (forall i, 0 <= s i < 256) ->
  (forall i, wf_ctx cfg (cw i)) -> rsteps Z (stream s) (platform_of cfg) (fun _ => Fresh) pos h os w1 r1 ->
  ps_enabled cfg p = true -> holds m0 sk SK -> len SK = 4 * p_n (slh_of p) -> holds m0 msg M -> len M < 2 ^ 60 ->
  Forall (request_ok sk SK) rqs ->
  let before := pos + fold_right Z.add 0 (flat_map requested h) in
  exists cw', run Z (stream s) cfg (h ++ NewSignature i m0 msg (len M) p sk :: map (fun q => Plain i (rq_mem q) (Sign (rq_dest q) (rq_size q))) rqs) cw pos
    = Ok (os ++ Result Started :: map Result (sign_answers (slh_sign_internal (slh_of p) M SK (stream_bytes s before (p_n (slh_of p)))) rqs), cw', before + p_n (slh_of p)).
Proof.
  intros cfg s h cw pos os w1 r1 i p m0 msg M sk SK rqs Hs W S on H1 H2 H3 H4 HR before.
  assert (ES : forall l r, state_after Z (stream s) r l = r + fold_right Z.add 0 l).
  { induction l as [|k l IH]; intros r; unfold state_after in *; cbn [fold_left fold_right]; [lia|]. rewrite IH. cbn [stream snd]. lia. }
  pose proof (C41_randomness_of_a_signature Z (stream s) cfg h cw pos os w1 r1 i p m0 msg M sk SK rqs W S on) as X. cbv zeta in X. rewrite ES in X. fold before in X.
  apply X; [|exact HR]. split; [exact H1|]. split; [exact H2|]. split; [exact H3|]. split; [exact H4|].
  assert (Np : 0 <= p_n (slh_of p)) by (destruct p; cbn; lia).
  cbn [random_ok now stream fst]. split; [|unfold len, stream_bytes; rewrite map_length, seq_length; split; [lia|intros _; lia]].
  apply Forall_forall. intros x Hx. apply in_map_iff in Hx. destruct Hx as (j & <- & _). apply Hs.
Qed.

(** ** A case that meets the hypotheses: a key is generated, a signature with that
    generator started, then a second one *)
Definition exr_s (i : Z) : Z := (7 * i + 3) mod 256.
Definition exr_h : list event := [NewKey (Some (1000, repeat 0 64)) None (Some SHA2_128f); NewSignature 0 ex_mem 1064 5 SHA2_128f 1000; Plain 0 (mem_of 0 []) Verify].
Example ex_random : exists os w r, rsteps Z (stream exr_s) (platform_of full_cfg) (fun _ => Fresh) 5 exr_h os w r /\ length os = 3%nat /\
  fold_right Z.add 0 (flat_map requested exr_h) = 64.
Proof.
  destruct ex_sign_hypotheses as (on0 & _ & (A1 & A2 & A3 & A4 & A5) & _).
  assert (RO : forall pos, random_ok (Some (now Z (stream exr_s) pos)) 16).
  { intros pos. cbn [random_ok now stream fst]. split; [|split; [unfold len, stream_bytes; rewrite map_length, seq_length; lia|intros _; unfold len, stream_bytes; rewrite map_length, seq_length; reflexivity]].
    apply Forall_forall. intros x Hx. apply in_map_iff in Hx. destruct Hx as (j & <- & _). apply Z.mod_pos_bound. lia. }
  assert (RO3 : forall pos, random_ok (Some (now Z (stream exr_s) pos)) 48).
  { intros pos. cbn [random_ok now stream fst]. split; [|split; [unfold len, stream_bytes; rewrite map_length, seq_length; lia|intros _; unfold len, stream_bytes; rewrite map_length, seq_length; reflexivity]].
    apply Forall_forall. intros x Hx. apply in_map_iff in Hx. destruct Hx as (j & <- & _). apply Z.mod_pos_bound. lia. }
  eexists _, _, _. split; [|split; [|reflexivity]].
  - unfold exr_h. apply rs_key; [exact on0|..].
    + split; [apply bytes_dec; reflexivity|]. split; [cbv; discriminate|]. split; [exact I|apply RO3].
    + eapply rs_signature; [eapply s_init_sign; [exact on0|exact A1|exact A2|exact A3|reflexivity|reflexivity|apply RO]|].
      eapply rs_plain; [apply s_verify_signing|]. apply rs_nil.
  - reflexivity.
Qed.

Print Assumptions C41_requests.
Print Assumptions C41_histories.
Print Assumptions C41_randomness_of_a_signature.
Print Assumptions C41_stream.
