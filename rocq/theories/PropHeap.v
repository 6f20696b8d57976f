(** * Programs with all their buffers in one address space (C54)

    SpecHeap.v: the calls of a program, the contract, what each call returns and writes.
    ModelHeap.v: the library's functions in one address space.  Proofs: PfHeap.v. *)
From Verif Require Import Arr SpecSLH SpecMap SpecApi SpecSessions SpecHeap ModelParams ModelCtx ModelKeygen ModelApi ModelHeap.
From Verif Require Import PfSpec PfApi PfComplete PfHeap PropSign.
Ltac Zify.zify_post_hook ::= idtac.

(** C54: every program that keeps to the contract runs without undefined behaviour,
    whatever its contexts contain at the start; each call returns what the machine says,
    and the memory is in the end the machine's. *)
Theorem C54_every_history : forall cfg h m rs m' w',
  hsteps (platform_of cfg) m (fun _ => Fresh) h rs m' w' ->
  forall cw, (forall i, wf_ctx cfg (cw i)) ->
  exists mm cw', h_run cfg h m cw = Ok (rs, mm, cw') /\ forall x, mm x = m' x.
Proof.
  intros cfg h m rs m' w' H cw W.
  destruct (h_simulation_steps cfg _ _ _ _ _ _ H m cw (same_refl m) W) as (mm & cw' & E & S & _). exists mm, cw'. split; [exact E|exact S].
Qed.
Print Assumptions C54_every_history.

(** Whether or not the contract is kept, a run that has a defined meaning writes only the
    destinations of ts_sign and the two keys of ts_gen_key. *)
Theorem C54_writes_nothing_else : forall cfg h m cw rs m' cw' x,
  h_run cfg h m cw = Ok (rs, m', cw') -> Forall sane h ->
  (forall c, In c h -> ~ may_write c x) -> m' x = m x.
Proof.
  intros cfg h. induction h as [|c h IH]; intros m cw rs m' cw' x H HS Hx; cbn [h_run] in H; [congruence|].
  destruct (h_call cfg c m cw) as [[[r m1] cw1]|] eqn:E1; cbn [bind] in H; [|discriminate].
  destruct (h_run cfg h m1 cw1) as [[[rs1 m2] cw2]|] eqn:E2; cbn [bind] in H; [|discriminate].
  assert (m2 = m') by congruence. subst m2.
  rewrite (IH _ _ _ _ _ x E2 (Forall_inv_tail HS)) by (intros d Hd; apply Hx; right; exact Hd).
  apply (h_frame cfg c m cw r m1 cw1 x E1 (Forall_inv HS)). apply Hx. left. reflexivity.
Qed.
Print Assumptions C54_writes_nothing_else.

Lemma set_eq {A} i (a : A) w : set i a w i = a.
Proof. unfold set. rewrite Nat.eqb_refl. reflexivity. Qed.

(** The signature may be written over the message, or anywhere else but over the private
    key: what is in memory afterwards is the signature of the message that was there. *)
Theorem C54_destination_may_overlap_the_message : forall cfg p m cw i msg M sk SK f dest,
  let L := slh_sig_length (slh_of p) in
  ps_enabled cfg p = true -> wf_ctx cfg (cw i) ->
  sign_init_ok m msg M p sk SK f ->
  mapped m dest L -> apart dest L sk (len SK) ->
  exists m' cw', h_run cfg [OpInitSign i msg (len M) p sk f; OpSign i dest L] m cw = Ok ([0; L], m', cw') /\
    forall x, m' x = written m dest (signature p M SK f) x.
Proof.
  intros cfg p m cw i msg M sk SK f dest L on W HI Hm Ha.
  destruct (signature_len _ _ _ _ _ _ _ HI) as [LS _]. fold L in LS.
  assert (HL : 0 <= L < 2 ^ 32) by (unfold L; destruct p; (split; [cbv; discriminate|reflexivity])).
  pose proof HI as (H1 & H2 & H3 & H4 & H5).
  set (w0 := fun j => if Nat.eqb j i then Fresh else Fresh).
  assert (HS : hsteps (platform_of cfg) m (fun _ => Fresh) [OpInitSign i msg (len M) p sk f; OpSign i dest L] [0; L]
    (written m dest (firstn (Z.to_nat L) (signature p M SK f)))
    (set i (Signing p sk SK (skipn (Z.to_nat L) (signature p M SK f))) (set i (Signing p sk SK (signature p M SK f)) (fun _ => Fresh)))).
  { econstructor.
    - apply h_init_sign. eapply s_init_sign; try eassumption. reflexivity.
    - pose proof (h_sign (platform_of cfg) m (set i (Signing p sk SK (signature p M SK f)) (fun _ => Fresh)) i p sk SK (signature p M SK f) dest L (set_eq _ _ _)) as X.
      cbv zeta in X. rewrite LS, Z.min_id in X. econstructor; [apply X; [exact HL|exact Hm|auto]|constructor]. }
  (* the other contexts do not matter *)
  set (cw0 := fun _ : nat => cw i).
  destruct (C54_every_history cfg _ _ _ _ _ HS cw0 (fun _ => W)) as (m' & cw' & E & S).
  cbn [h_run h_call] in E |- *. change (cw0 i) with (cw i) in E. 
  destruct (ModelSphincs.ts_init_sign cfg m (cw i) msg (len M) (the_ps cfg p) sk f) as [c1|]; cbn [bind] in E |- *; [|discriminate].
  rewrite !set_eq in E |- *.
  destruct (h_ts_sign cfg m dest L c1) as [[[r m1] c2]|]; cbn [bind] in E |- *; [|discriminate].
  exists m1, (set i c2 (set i c1 cw)). assert (m1 = m' /\ [0; r] = [0; L]) as [-> ->] by (split; congruence). split; [reflexivity|].
  intros x. rewrite S. f_equal. rewrite firstn_all2 by (unfold len in LS; lia). reflexivity.
Qed.
Print Assumptions C54_destination_may_overlap_the_message.

(** A key pair, its parts *)
Lemma keypair_facts cfg p d SK PK : ps_enabled cfg p = true -> is_bytes d -> len d = 3 * p_n (slh_of p) ->
  (let n := p_n (slh_of p) in slh_keygen_internal (slh_of p) (slice d 0 n) (slice d n n) (slice d (2 * n) n) = (SK, PK)) ->
  let n := p_n (slh_of p) in
  is_bytes SK /\ len SK = 4 * n /\ PK = skipn (Z.to_nat (2 * n)) SK /\ len PK = 2 * n /\
  slice SK (3 * n) n = slh_root (slh_of p) (slice SK (2 * n) n) (slice SK 0 n).
Proof.
  intros on Bd Ld HK n. cbv zeta in HK. fold n in HK, Ld. assert (Nb : 16 <= n <= 32) by (unfold n; destruct p; cbn; lia).
  destruct (gen_root_held cfg p on (mem_of 0 d) 0 d (mem_of_holds 0 d Bd) Ld) as (_ & LR & BR). fold n in LR, BR.
  unfold slh_keygen_internal in HK. set (rt := slh_root (slh_of p) (slice d (2 * n) n) (slice d 0 n)) in *.
  assert (LS : forall o, 0 <= o -> o + n <= 3 * n -> len (slice d o n) = n).
  { intros o H1 H2. unfold len in *. unfold slice. rewrite firstn_length, skipn_length. lia. }
  pose proof (LS 0 ltac:(lia) ltac:(lia)) as L0. pose proof (LS n ltac:(lia) ltac:(lia)) as L1. pose proof (LS (2 * n) ltac:(lia) ltac:(lia)) as L2.
  set (a := slice d 0 n) in *. set (b := slice d n n) in *. set (c := slice d (2 * n) n) in *.
  assert (SK = a ++ b ++ c ++ rt /\ PK = c ++ rt) as [-> ->] by (split; congruence). clear HK.
  assert (Ba : is_bytes a) by apply slice_bytes, Bd. assert (Bb : is_bytes b) by apply slice_bytes, Bd. assert (Bc : is_bytes c) by apply slice_bytes, Bd.
  unfold len in L0, L1, L2, LR. 
  assert (C0 : slice (a ++ b ++ c ++ rt) 0 n = a).
  { unfold slice. cbn [skipn Z.to_nat]. apply firstn_app_exact. lia. }
  assert (C2 : skipn (Z.to_nat (2 * n)) (a ++ b ++ c ++ rt) = c ++ rt).
  { rewrite app_assoc. apply skipn_app_exact. rewrite app_length. lia. }
  assert (C2' : slice (a ++ b ++ c ++ rt) (2 * n) n = c) by (unfold slice; rewrite C2; apply firstn_app_exact; lia).
  assert (C3 : slice (a ++ b ++ c ++ rt) (3 * n) n = rt).
  { unfold slice. replace (a ++ b ++ c ++ rt) with ((a ++ b ++ c) ++ rt) by (rewrite <- !app_assoc; reflexivity).
    rewrite skipn_app_exact by (rewrite !app_length; lia). apply firstn_all2. lia. }
  split; [repeat apply PfIter.bytes_app; assumption|]. split; [unfold len; rewrite !app_length; lia|].
  split; [symmetry; exact C2|]. split; [unfold len; rewrite app_length; lia|].
  rewrite C3, C2', C0. reflexivity.
Qed.

(** Generate a key pair, sign, verify: all in memory. *)
Theorem C54_round_trip : forall cfg p m cw i j sk pk msg M sig f g,
  let n := p_n (slh_of p) in let L := slh_sig_length (slh_of p) in
  ps_enabled cfg p = true -> (forall k, wf_ctx cfg (cw k)) ->
  random_ok (Some g) (3 * n) -> fst (g (3 * n)) <> 0 -> random_ok f n ->
  holds m msg M -> len M < 2 ^ 60 -> 0 <= msg < addresses (platform_of cfg) -> len M < addresses (platform_of cfg) ->
  mapped m sk (4 * n) -> mapped m pk (2 * n) -> mapped m sig L ->
  apart pk (2 * n) sk (4 * n) -> apart msg (len M) sk (4 * n) -> apart msg (len M) pk (2 * n) ->
  apart sig L sk (4 * n) -> apart sig L pk (2 * n) -> apart sig L msg (len M) ->
  exists m' cw',
    h_run cfg [OpGenKey (Some sk) (Some pk) (Some p) (Some g);
               OpInitSign i msg (len M) p sk f; OpSign i sig L;
               OpInitVerify j msg (len M) p pk; OpUpdateVerify j sig L; OpVerify j] m cw
      = Ok ([1; 0; L; 0; 1; 1], m', cw') /\
    forall x, ~ sk <= x < sk + 4 * n -> ~ pk <= x < pk + 2 * n -> ~ sig <= x < sig + L -> m' x = m x.
Proof.
  intros cfg p m cw i j sk pk msg M sig f g n L on W HG Hr HF HM LM Am Al Ms Mp Mg A1 A2 A3 A4 A5 A6.
  set (d := snd (g (3 * n))).
  assert (Bd : is_bytes d /\ len d = 3 * n).
  { unfold d. cbn [random_ok] in HG. destruct (g (3 * n)) as [r0 d0]. cbn [fst snd] in *. destruct HG as (B & _ & Ld). split; [exact B|exact (Ld Hr)]. }
  destruct Bd as [Bd Ld].
  destruct (slh_keygen_internal (slh_of p) (slice d 0 n) (slice d n n) (slice d (2 * n) n)) as [SK PK] eqn:EK.
  pose proof (keypair_facts cfg p d SK PK on Bd Ld EK) as X. cbv zeta in X. fold n in X. destruct X as (BK & LK & EP & LP & ROOT).
  assert (BP : is_bytes PK) by (rewrite EP; apply Forall_skipn', BK).
  set (m1 := written (written m sk SK) pk PK).
  set (rnd := randomness f n (slice SK (2 * n) n)).
  assert (BR : is_bytes rnd) by (apply randomness_bytes; [exact HF|apply slice_bytes, BK]).
  set (S := slh_sign_internal (slh_of p) M SK rnd).
  destruct (sig_shape p SK BK LK M rnd (proj1 HM) BR) as [LS BS]. fold S L in LS, BS.
  assert (HV : slh_verify_internal (slh_of p) M S PK = true).
  { rewrite EP. exact (complete p SK BK LK M rnd (proj1 HM) BR ROOT). }
  assert (HL : n <= L < 2 ^ 32 /\ 0 < n) by (unfold L, n; destruct p; cbv; repeat split; try discriminate; reflexivity).
  set (m2 := written m1 sig S).
  assert (K1 : holds m1 sk SK) by (apply holds_written; [rewrite LP, LK; exact A1|apply written_holds, BK]).
  assert (P1 : holds m1 pk PK) by (apply written_holds, BP).
  assert (G1 : holds m1 msg M).
  { apply holds_written; [rewrite LP; apply apart_sym, A3|]. apply holds_written; [rewrite LK; apply apart_sym, A2|exact HM]. }
  assert (P2 : holds m2 pk PK) by (apply holds_written; [rewrite LS, LP; exact A5|exact P1]).
  assert (G2 : holds m2 msg M) by (apply holds_written; [rewrite LS; exact A6|exact G1]).
  assert (S2 : holds m2 sig S) by (apply written_holds, BS).
  set (w0 := fun _ : nat => Fresh).
  set (w1 := set i (Signing p sk SK S) w0).
  set (w2 := set i (Signing p sk SK (skipn (Z.to_nat L) S)) w1).
  set (w3 := set j (Verifying p pk PK msg (len M) [] [] true) w2).
  set (w4 := set j (Verifying p pk PK msg (len M) M ([] ++ S) true) w3).
  assert (HS : hsteps (platform_of cfg) m w0
     [OpGenKey (Some sk) (Some pk) (Some p) (Some g); OpInitSign i msg (len M) p sk f; OpSign i sig L;
      OpInitVerify j msg (len M) p pk; OpUpdateVerify j sig L; OpVerify j] [1; 0; L; 0; 1; 1] m2
     (set j (Verifying p pk PK msg (len M) M ([] ++ S) true) w4)).
  { eapply hsteps_cons with (m1 := m1) (w1 := w0).
    { apply (h_gen_key (platform_of cfg) m w0 sk (Some pk) p g SK PK); [exact EK|exact on|exact HG|exact Hr|exact Ms|split; [exact Mp|exact A1]]. }
    eapply hsteps_cons with (m1 := m1) (w1 := w1).
    { apply h_init_sign. eapply s_init_sign; try eassumption; reflexivity. }
    eapply hsteps_cons with (m1 := m2) (w1 := w2).
    { pose proof (h_sign (platform_of cfg) m1 w1 i p sk SK S sig L (set_eq _ _ _)) as X. cbv zeta in X. rewrite LS, Z.min_id in X.
      rewrite (firstn_all2 S) in X by (unfold len in LS; lia). apply X; [lia| |].
      - unfold m1. apply mapped_written, mapped_written, Mg.
      - intros _. split; [exact K1|rewrite LK; exact A4]. }
    eapply hsteps_cons with (m1 := m2) (w1 := w3).
    { apply h_init_verify. apply s_init_verify; [exact on|exact P2|exact LP|exact Am|split; [unfold len; lia|exact Al]|exact LM]. }
    eapply hsteps_cons with (m1 := m2) (w1 := w4).
    { rewrite <- LS at 1. apply h_update_verify; [exact S2|].
      assert (HU : update_result (slh_of p) M PK [] ([] ++ S) = true).
      { unfold update_result. cbn [app]. fold L. rewrite LS. change (len []) with 0. destruct (Z.ltb_spec L L); [lia|]. destruct (Z.ltb_spec 0 L); [|lia]. exact HV. }
      pose proof (s_update (platform_of cfg) m2 p pk PK msg (len M) [] M [] S) as X. cbv zeta in X. rewrite HU in X. cbn [b2z] in X.
      unfold w3 at 1. rewrite set_eq. apply X; [intros _; exact P2|exact BS|lia|].
      unfold message_read. cbn [app]. fold n. rewrite LS. change (len []) with 0. destruct (Z.ltb_spec 0 n); [|lia]. destruct (Z.leb_spec n L); [|lia].
      cbn [andb]. split; [exact G2|reflexivity]. }
    eapply hsteps_cons; [|constructor].
    apply h_verify. unfold w4 at 1. rewrite set_eq.
    pose proof (s_verify (platform_of cfg) m2 p pk PK msg (len M) M ([] ++ S) true) as X. cbn [app] in X |- *. fold L in X. rewrite LS, Z.eqb_refl in X. exact X. }
  destruct (C54_every_history cfg _ _ _ _ _ HS cw W) as (m' & cw' & E & SM). exists m', cw'. split; [exact E|].
  intros x X1 X2 X3. rewrite SM. unfold m2, m1. rewrite !written_out by (rewrite ?LS, ?LP, ?LK; assumption). reflexivity.
Qed.
Print Assumptions C54_round_trip.

(** The second half of the private key serves as the public key where it is: no copy is
    needed (public_key NULL). *)
Theorem C54_public_key_inside_the_private_key : forall cfg p m cw i j sk msg M sig f g,
  let n := p_n (slh_of p) in let L := slh_sig_length (slh_of p) in
  ps_enabled cfg p = true -> (forall k, wf_ctx cfg (cw k)) ->
  random_ok (Some g) (3 * n) -> fst (g (3 * n)) <> 0 -> random_ok f n ->
  holds m msg M -> len M < 2 ^ 60 -> 0 <= msg < addresses (platform_of cfg) -> len M < addresses (platform_of cfg) ->
  mapped m sk (4 * n) -> mapped m sig L ->
  apart msg (len M) sk (4 * n) -> apart sig L sk (4 * n) -> apart sig L msg (len M) ->
  exists m' cw',
    h_run cfg [OpGenKey (Some sk) None (Some p) (Some g);
               OpInitSign i msg (len M) p sk f; OpSign i sig L;
               OpInitVerify j msg (len M) p (sk + 2 * n); OpUpdateVerify j sig L; OpVerify j] m cw
      = Ok ([1; 0; L; 0; 1; 1], m', cw') /\
    forall x, ~ sk <= x < sk + 4 * n -> ~ sig <= x < sig + L -> m' x = m x.
Proof.
  intros cfg p m cw i j sk msg M sig f g n L on W HG Hr HF HM LM Am Al Ms Mg A2 A4 A6.
  set (d := snd (g (3 * n))).
  assert (Bd : is_bytes d /\ len d = 3 * n).
  { unfold d. cbn [random_ok] in HG. destruct (g (3 * n)) as [r0 d0]. cbn [fst snd] in *. destruct HG as (B & _ & Ld). split; [exact B|exact (Ld Hr)]. }
  destruct Bd as [Bd Ld].
  destruct (slh_keygen_internal (slh_of p) (slice d 0 n) (slice d n n) (slice d (2 * n) n)) as [SK PK] eqn:EK.
  pose proof (keypair_facts cfg p d SK PK on Bd Ld EK) as X. cbv zeta in X. fold n in X. destruct X as (BK & LK & EP & LP & ROOT).
  assert (BP : is_bytes PK) by (rewrite EP; apply Forall_skipn', BK).
  set (m1 := written m sk SK).
  set (rnd := randomness f n (slice SK (2 * n) n)).
  assert (BR : is_bytes rnd) by (apply randomness_bytes; [exact HF|apply slice_bytes, BK]).
  set (S := slh_sign_internal (slh_of p) M SK rnd).
  destruct (sig_shape p SK BK LK M rnd (proj1 HM) BR) as [LS BS]. fold S L in LS, BS.
  assert (HV : slh_verify_internal (slh_of p) M S PK = true).
  { rewrite EP. exact (complete p SK BK LK M rnd (proj1 HM) BR ROOT). }
  assert (HL : n <= L < 2 ^ 32 /\ 0 < n) by (unfold L, n; destruct p; cbv; repeat split; try discriminate; reflexivity).
  set (m2 := written m1 sig S).
  assert (K1 : holds m1 sk SK) by (apply written_holds, BK).
  assert (G1 : holds m1 msg M) by (apply holds_written; [rewrite LK; apply apart_sym, A2|exact HM]).
  assert (K2 : holds m2 sk SK) by (apply holds_written; [rewrite LS, LK; exact A4|exact K1]).
  assert (P2 : holds m2 (sk + 2 * n) PK).
  { pose proof (holds_slice m2 sk SK (2 * n) (2 * n) K2 ltac:(lia) ltac:(lia) ltac:(lia)) as X.
    replace (slice SK (2 * n) (2 * n)) with PK in X; [exact X|]. rewrite EP. unfold slice. symmetry. apply firstn_all2. rewrite skipn_length. unfold len in LK. lia. }
  assert (G2 : holds m2 msg M) by (apply holds_written; [rewrite LS; exact A6|exact G1]).
  assert (S2 : holds m2 sig S) by (apply written_holds, BS).
  set (pk := sk + 2 * n) in *.
  set (w0 := fun _ : nat => Fresh).
  set (w1 := set i (Signing p sk SK S) w0).
  set (w2 := set i (Signing p sk SK (skipn (Z.to_nat L) S)) w1).
  set (w3 := set j (Verifying p pk PK msg (len M) [] [] true) w2).
  set (w4 := set j (Verifying p pk PK msg (len M) M ([] ++ S) true) w3).
  assert (HS : hsteps (platform_of cfg) m w0
     [OpGenKey (Some sk) None (Some p) (Some g); OpInitSign i msg (len M) p sk f; OpSign i sig L;
      OpInitVerify j msg (len M) p pk; OpUpdateVerify j sig L; OpVerify j] [1; 0; L; 0; 1; 1] m2
     (set j (Verifying p pk PK msg (len M) M ([] ++ S) true) w4)).
  { eapply hsteps_cons with (m1 := m1) (w1 := w0).
    { apply (h_gen_key (platform_of cfg) m w0 sk None p g SK PK); [exact EK|exact on|exact HG|exact Hr|exact Ms|exact I]. }
    eapply hsteps_cons with (m1 := m1) (w1 := w1).
    { apply h_init_sign. eapply s_init_sign; try eassumption; reflexivity. }
    eapply hsteps_cons with (m1 := m2) (w1 := w2).
    { pose proof (h_sign (platform_of cfg) m1 w1 i p sk SK S sig L (set_eq _ _ _)) as X. cbv zeta in X. rewrite LS, Z.min_id in X.
      rewrite (firstn_all2 S) in X by (unfold len in LS; lia). apply X; [lia| |].
      - unfold m1. apply mapped_written, Mg.
      - intros _. split; [exact K1|rewrite LK; exact A4]. }
    eapply hsteps_cons with (m1 := m2) (w1 := w3).
    { apply h_init_verify. apply s_init_verify; [exact on|exact P2|exact LP|exact Am|split; [unfold len; lia|exact Al]|exact LM]. }
    eapply hsteps_cons with (m1 := m2) (w1 := w4).
    { rewrite <- LS at 1. apply h_update_verify; [exact S2|].
      assert (HU : update_result (slh_of p) M PK [] ([] ++ S) = true).
      { unfold update_result. cbn [app]. fold L. rewrite LS. change (len []) with 0. destruct (Z.ltb_spec L L); [lia|]. destruct (Z.ltb_spec 0 L); [|lia]. exact HV. }
      pose proof (s_update (platform_of cfg) m2 p pk PK msg (len M) [] M [] S) as X. cbv zeta in X. rewrite HU in X. cbn [b2z] in X.
      unfold w3 at 1. rewrite set_eq. apply X; [intros _; exact P2|exact BS|lia|].
      unfold message_read. cbn [app]. fold n. rewrite LS. change (len []) with 0. destruct (Z.ltb_spec 0 n); [|lia]. destruct (Z.leb_spec n L); [|lia].
      cbn [andb]. split; [exact G2|reflexivity]. }
    eapply hsteps_cons; [|constructor].
    apply h_verify. unfold w4 at 1. rewrite set_eq.
    pose proof (s_verify (platform_of cfg) m2 p pk PK msg (len M) M ([] ++ S) true) as X. cbn [app] in X |- *. fold L in X. rewrite LS, Z.eqb_refl in X. exact X. }
  destruct (C54_every_history cfg _ _ _ _ _ HS cw W) as (m' & cw' & E & SM). exists m', cw'. split; [exact E|].
  intros x X1 X3. rewrite SM. unfold m2, m1. rewrite !written_out by (rewrite ?LS, ?LP, ?LK; assumption). reflexivity.
Qed.
Print Assumptions C54_public_key_inside_the_private_key.

(** ** Cases that meet the hypotheses *)
(** A memory of zeros: the message is five of them, at address 20000 *)
Example ex_heap : let g := fun k => (1, repeat 7 (Z.to_nat k)) in
  exists m' cw',
    h_run full_cfg [OpGenKey (Some 0) (Some 64) (Some SHA2_128f) (Some g);
               OpInitSign 0 20000 5 SHA2_128f 0 None; OpSign 0 100 17088;
               OpInitVerify 1 20000 5 SHA2_128f 64; OpUpdateVerify 1 100 17088; OpVerify 1]
      (fun x => Some 0) (fun _ => zero_ctx full_cfg (the_ps full_cfg SHA2_128f))
      = Ok ([1; 0; 17088; 0; 1; 1], m', cw') /\ m' 20000 = Some 0.
Proof.
  intros g.
  assert (HM : holds (fun _ => Some 0) 20000 (repeat 0 5)).
  { split; [apply bytes_dec; reflexivity|]. intros i Hi. rewrite nth_repeat. reflexivity. }
  destruct (C54_round_trip full_cfg SHA2_128f (fun _ => Some 0) (fun _ => zero_ctx full_cfg (the_ps full_cfg SHA2_128f)) 0 1 0 64 20000 (repeat 0 5) 100 None g)
    as (m' & cw' & E & H).
  - reflexivity.
  - intros _. apply PfKeygen.zero_wf.
  - cbn [random_ok g]. split; [apply bytes_dec; reflexivity|]. split; [cbv; discriminate|intros _; reflexivity].
  - discriminate.
  - exact I.
  - exact HM.
  - reflexivity.
  - cbv. split; [discriminate|reflexivity].
  - reflexivity.
  - intros x _. discriminate.
  - intros x _. discriminate.
  - intros x _. discriminate.
  - intros x. change (p_n (slh_of SHA2_128f)) with 16. lia.
  - intros x. change (p_n (slh_of SHA2_128f)) with 16. change (len (repeat 0 5)) with 5. lia.
  - intros x. change (p_n (slh_of SHA2_128f)) with 16. change (len (repeat 0 5)) with 5. lia.
  - intros x. change (p_n (slh_of SHA2_128f)) with 16. change (slh_sig_length (slh_of SHA2_128f)) with 17088. lia.
  - intros x. change (p_n (slh_of SHA2_128f)) with 16. change (slh_sig_length (slh_of SHA2_128f)) with 17088. lia.
  - intros x. change (len (repeat 0 5)) with 5. change (slh_sig_length (slh_of SHA2_128f)) with 17088. lia.
  - exists m', cw'. split; [exact E|]. apply H.
    + change (p_n (slh_of SHA2_128f)) with 16. lia.
    + change (p_n (slh_of SHA2_128f)) with 16. lia.
    + change (slh_sig_length (slh_of SHA2_128f)) with 17088. lia.
Qed.
(** The signature written over the message (of PropSign, at address 1064, just behind the
    private key) *)
Example ex_over : exists m' cw',
  h_run full_cfg [OpInitSign 0 1064 (len ex_M) SHA2_128f 1000 ex_rng; OpSign 0 1064 17088]
    (fun x => if x <? 1069 then ex_mem x else Some 0) (fun _ => zero_ctx full_cfg (the_ps full_cfg SHA2_128f)) = Ok ([0; 17088], m', cw') /\
  m' 1000 = Some 1.
Proof.
  set (m := fun x => if x <? 1069 then ex_mem x else Some 0).
  assert (T : forall a l, a + len l <= 1069 -> holds ex_mem a l -> holds m a l).
  { intros a l Ha [H1 H2]. split; [exact H1|]. intros i Hi. unfold m. destruct (Z.ltb_spec (a + Z.of_nat i) 1069); [apply H2, Hi|unfold len in Ha; lia]. }
  destruct ex_sign_hypotheses as (on & W & (A1 & A2 & A3 & A4 & A5) & _).
  destruct (C54_destination_may_overlap_the_message full_cfg SHA2_128f m (fun _ => zero_ctx full_cfg (the_ps full_cfg SHA2_128f)) 0 1064 ex_M 1000 ex_SK ex_rng 1064 on W)
    as (m' & cw' & E & H).
  - split; [apply T; [cbv; discriminate|exact A1]|]. split; [exact A2|]. split; [apply T; [cbv; discriminate|exact A3]|]. split; [exact A4|exact A5].
  - intros x Hx. unfold m. destruct (Z.ltb_spec x 1069); [|discriminate].
    pose proof (proj2 A3 (Z.to_nat (x - 1064))) as X. change (length ex_M) with 5%nat in X.
    replace (1064 + Z.of_nat (Z.to_nat (x - 1064))) with x in X by lia. rewrite X by lia. discriminate.
  - intros x. change (len ex_SK) with 64. lia.
  - exists m', cw'. split; [exact E|]. rewrite H. rewrite written_out by lia. reflexivity.
Qed.
(** Copying the public key onto the one inside the private key is undefined in C. *)
Example ex_memcpy_overlap : forall m a n, 0 < n -> h_memcpy m a a n = UB Overlap.
Proof. intros m a n H. unfold h_memcpy. destruct (Z.ltb_spec a (a + n)); [reflexivity|lia]. Qed.
