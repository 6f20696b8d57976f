(** * How much automatic storage the library needs (C52)

    The library allocates nothing and has no writable static objects (C34): beside the
    context, the keys and the buffers of the caller it uses its parameters and automatic
    variables.  The theorems bound the bytes that they take together at any moment of a
    call, for every message, key, signature, random function, chunk size and context; the
    figures (SpecStack.v) are constants of the build.

    The storage is measured in the Stk files: the model once more, with the declarations of
    every C function.  The first part of each theorem says that the outcome is that of the
    model.  Statements and examples; proofs are in the PfStack files. *)
From Verif Require Import CSem CStack SpecApi ModelParams ModelCtx ModelSphincs ModelVerify ModelKeygen ModelApi
  StkSphincs StkVerify StkApi SpecStack PfStkErase3 PfStkErase4 PfStack PfStackApi PropParams PfApi.
Ltac Zify.zify_post_hook ::= idtac.

(** ** One call *)
(** On any context with the parameter set [p], in any state and with any contents, or, for
    the two functions that begin a session, on any context whatever.  No hypothesis about
    the arguments: the bound also holds up to the point where a call that breaks the
    contract of the API goes wrong. *)
Theorem C52_one_call : forall cfg p m act c, c_ps c = the_ps cfg p \/ is_init act ->
  let run := k_api_call cfg m act c in
  answer run = call cfg m act c /\ space run <= action_storage cfg p act.
Proof. intros cfg p m act c H run. split; [apply ke_api_call|exact (proj1 (fit_call cfg p m act c H))]. Qed.

(** ** Any history of calls on a context *)
Theorem C52_every_history : forall cfg p h c,
  c_ps c = the_ps cfg p \/ match h with (_, act) :: _ => is_init act | [] => True end ->
  let run := k_calls cfg h c in
  answer run = calls cfg h c /\ space run <= history_storage cfg p h.
Proof. intros cfg p h c H run. split; [apply ke_calls|exact (proj1 (fit_calls cfg h p c H))]. Qed.

(** A signature: ts_init_sign and any number of calls of ts_sign of any sizes; *)
Theorem C52_signing : forall cfg p m msg l sk f rqs c,
  (forall r, In r rqs -> match snd r with Sign _ _ => True | _ => False end) ->
  let h := (m, InitSign msg l p sk f) :: rqs in
  let run := k_calls cfg h c in
  answer run = calls cfg h c /\ space run <= signing_storage cfg p.
Proof.
  intros cfg p m msg l sk f rqs c H h run. split; [apply ke_calls|].
  apply (Z.le_trans _ (history_storage cfg p h)); [exact (proj1 (fit_calls cfg h p c (or_intror I)))|].
  unfold h, signing_storage. cbn [history_storage action_storage next_set].
  pose proof (action_storage_pos cfg p (Sign [] 0)) as N. cbn [action_storage] in N.
  enough (history_storage cfg p rqs <= sign_storage cfg p) by lia.
  clear - H N. induction rqs as [|[m' act] rqs IH]; cbn [history_storage]; [exact N|].
  pose proof (H (m', act) (or_introl eq_refl)) as A. cbn [snd] in A. destruct act; try contradiction A.
  cbn [action_storage next_set]. pose proof (IH (fun r Hr => H r (or_intror Hr))). lia.
Qed.
(** a verification: ts_init_verify, the signature in any pieces, and ts_verify any number
    of times in between and at the end. *)
Theorem C52_verification : forall cfg p m msg l pk rqs c,
  (forall r, In r rqs -> match snd r with UpdateVerify _ | Verify => True | _ => False end) ->
  let h := (m, InitVerify msg l p pk) :: rqs in
  let run := k_calls cfg h c in
  answer run = calls cfg h c /\ space run <= verification_storage cfg p.
Proof.
  intros cfg p m msg l pk rqs c H h run. split; [apply ke_calls|].
  apply (Z.le_trans _ (history_storage cfg p h)); [exact (proj1 (fit_calls cfg h p c (or_intror I)))|].
  unfold h, verification_storage. cbn [history_storage action_storage next_set].
  assert (N : w cfg <= update_verify_storage cfg p).
  { unfold update_verify_storage, w, largest, keccak. destruct (family_of p), (cfg_ptr64 cfg), (cfg_L5 cfg), (cfg_L3 cfg), (cfg_shake_opt cfg =? 2), (cfg_shake_opt cfg =? 1); lia. }
  assert (0 <= w cfg) by (unfold w; destruct (cfg_ptr64 cfg); lia).
  enough (history_storage cfg p rqs <= update_verify_storage cfg p) by lia.
  clear - H N H0. induction rqs as [|[m' act] rqs IH]; cbn [history_storage]; [lia|].
  pose proof (H (m', act) (or_introl eq_refl)) as A. cbn [snd] in A.
  pose proof (IH (fun r Hr => H r (or_intror Hr))). destruct act; try contradiction A; cbn [action_storage next_set]; lia.
Qed.

(** ** Key generation *)
(** With any keys, random function and parameter set, NULL pointers included: the context
    that it works on is an automatic variable, the rest is [keygen_storage]. *)
Theorem C52_keygen : forall cfg priv pub p g,
  let run := k_ts_gen_key cfg priv pub (option_map (the_ps cfg) p) g in
  answer run = ts_gen_key cfg priv pub (option_map (the_ps cfg) p) g /\
  space run <= SIZEOF_TS_CONTEXT cfg + match p with Some p => keygen_storage cfg p | None => 5 * w cfg + 8 end.
Proof.
  intros cfg priv pub p g run. split; [apply ke_gen_key|].
  assert (C : 0 <= SIZEOF_TS_CONTEXT cfg).
  { destruct cfg as [sh s2 L5 L3 S so ko le p64 a64]. destruct sh, s2, L5, L3, S, so, p64, a64; cbv; discriminate. }
  pose proof (perm_space_pos (cfg_shake_opt cfg)) as HK. pose proof (ptr_size cfg) as HP.
  enough (F : fits (SIZEOF_TS_CONTEXT cfg + match p with Some p => keygen_storage cfg p | None => 5 * w cfg + 8 end) anything
     (k_ts_gen_key_gen cfg priv pub (option_map (the_ps cfg) p) (option_map (fun f (_ : unit) len => (f len, tt)) g) tt)).
  { refine (proj1 (fits_bind _ anything anything _ _ F _)). intros [x u] _ _. apply fits_ret; [|exact I].
    destruct p as [p|]; [unfold keygen_storage; destruct (family_of p)|]; rewrite ?w_ptr, ?keccak_perm; lia. }
  destruct p as [p|]; [exact (fit_gen_key cfg p _ _ _ _)|].
  unfold k_ts_gen_key_gen. cbn [option_map]. apply fits_call.
  destruct g as [g|], priv as [[a pr]|]; (apply fits_ret; [rewrite w_ptr; lia|exact I]).
Qed.

(** ** What that means *)
(** Whatever the build and the parameter set, on machines with pointers of up to 8 bytes:
    less than 800 bytes beside the context for any call, and 800 again in key generation. *)
Theorem C52_constant : forall cfg p act, action_storage cfg p act <= 797 /\ keygen_storage cfg p <= 796.
Proof.
  intros cfg p act. destruct act as [? ? q ? ?|? ?|? ? q ?|?|]; cbn [action_storage];
    unfold init_sign_storage, sign_storage, init_verify_storage, update_verify_storage, keygen_storage, w, largest, keccak;
    [destruct (family_of q)|idtac|destruct (family_of q)|idtac|idtac];
    destruct (family_of p), (cfg_ptr64 cfg), (cfg_L5 cfg), (cfg_L3 cfg), (cfg_shake_opt cfg =? 2), (cfg_shake_opt cfg =? 1), (cfg_sha2_opt cfg); lia.
Qed.
(** README.md:2-3, read.me:3-4: "it can generate or verify a Sphincs+ signature, or generate
    a public/private keypair (SHA2-128F-SIMPLE) with just 1k of RAM": the context and all
    automatic variables are at most 1024 bytes in each of the three. *)
Theorem C52_one_kilobyte : forall le, let cfg := minimal SHA2_128f le in
  SIZEOF_TS_CONTEXT cfg + signing_storage cfg SHA2_128f = 961 /\
  SIZEOF_TS_CONTEXT cfg + verification_storage cfg SHA2_128f = 884 /\
  SIZEOF_TS_CONTEXT cfg + keygen_storage cfg SHA2_128f = 852.
Proof. intros le. repeat split; reflexivity. Qed.
(** ramspace.out: the columns "Keygen size", "Sig size" and "Ver size", measured by its
    authors on compiled programs.  A compiler adds return addresses and saved registers and
    keeps some variables in registers only: the sums of the declared objects are less than
    the measured figures, except that they are up to 24 bytes more for verification with
    SHAKE. *)
Definition documented_ram (p : ps_name) : Z * Z * Z :=
  match p with
  | SHA2_128f => (976, 1024, 992) | SHA2_128s => (1072, 1120, 1088) | SHA2_192f => (1296, 1456, 1408)
  | SHA2_192s => (1440, 1600, 1552) | SHA2_256f => (1408, 1568, 1536) | SHA2_256s => (1568, 1728, 1696)
  | SHAKE_128f => (1104, 1120, 928) | SHAKE_128s => (1200, 1216, 1024) | SHAKE_192f => (1216, 1232, 1040)
  | SHAKE_192s => (1360, 1376, 1184) | SHAKE_256f => (1312, 1328, 1136) | SHAKE_256s => (1472, 1488, 1296)
  end.
Theorem C52_documented : forall p le, let cfg := minimal p le in let '(keygen, sig, ver) := documented_ram p in
  SIZEOF_TS_CONTEXT cfg + keygen_storage cfg p <= keygen /\
  SIZEOF_TS_CONTEXT cfg + signing_storage cfg p <= sig /\
  SIZEOF_TS_CONTEXT cfg + verification_storage cfg p <= ver + (if is_sha2 p then 0 else 24).
Proof. intros p le. destruct p; cbv; intuition discriminate. Qed.
(** tune.h:50-58: with SHAKE the implementation 1 of Keccak saves 200 bytes and 2 saves
    another 224; with SHA-2 the option makes no difference. *)
Definition with_shake_opt (cfg : config) (o : Z) : config :=
  mkConfig (cfg_shake cfg) (cfg_sha2 cfg) (cfg_L5 cfg) (cfg_L3 cfg) (cfg_S cfg) (cfg_sha2_opt cfg) o (cfg_le cfg) (cfg_ptr64 cfg) (cfg_al64 cfg).
Theorem C52_shake_option : forall cfg p, let at_ o := with_shake_opt cfg o in let saved x := if is_sha2 p then 0 else x in
  forall figure, In figure [signing_storage; update_verify_storage; keygen_storage] ->
  figure (at_ 1) p = figure (at_ 0) p - saved 200 /\ figure (at_ 2) p = figure (at_ 1) p - saved 224.
Proof.
  intros cfg p at_ saved figure H. subst at_ saved.
  destruct H as [<-|[<-|[<-|[]]]]; unfold signing_storage, init_sign_storage, sign_storage, update_verify_storage, keygen_storage,
    with_shake_opt, w, largest, keccak;
    cbn [cfg_shake cfg_sha2 cfg_L5 cfg_L3 cfg_S cfg_sha2_opt cfg_shake_opt cfg_le cfg_ptr64 cfg_al64 Z.eqb Pos.eqb];
    destruct p; cbn [family_of is_sha2]; destruct (cfg_ptr64 cfg), (cfg_L5 cfg), (cfg_L3 cfg); lia.
Qed.
(** tune.h:38-41: the SHA-2 optimisation costs no automatic storage in signing and
    verifying. *)
Theorem C52_sha2_optimisation : forall cfg p b,
  signing_storage (with_sha2_opt cfg b) p = signing_storage cfg p /\
  verification_storage (with_sha2_opt cfg b) p = verification_storage cfg p /\
  keygen_storage (with_sha2_opt cfg b) p = keygen_storage cfg p.
Proof.
  intros cfg p b. repeat split; try reflexivity.
  unfold verification_storage, init_verify_storage, update_verify_storage, with_sha2_opt, w, largest, keccak.
  cbn [cfg_shake cfg_sha2 cfg_L5 cfg_L3 cfg_S cfg_sha2_opt cfg_shake_opt cfg_le cfg_ptr64 cfg_al64].
  destruct (family_of p), b, (cfg_sha2_opt cfg), (cfg_ptr64 cfg), (cfg_L5 cfg), (cfg_L3 cfg), (cfg_shake_opt cfg =? 2), (cfg_shake_opt cfg =? 1); lia.
Qed.

(** read.me, "Suggestions for parameter sets": "an F parameter set [...] a bit less RAM",
    "L1 SHA-2 parameter sets tend to use a bit less RAM than SHAKE ones", "L3 and L5 SHA-2
    parameter sets use rather more RAM than SHAKE ones".  In the builds for one parameter
    set, on machines of both pointer sizes and byte orders, this holds of key generation,
    signing and verification, context included. *)
Definition build_for (p : ps_name) (le p64 a64 : bool) : config :=
  let m := minimal p le in mkConfig (cfg_shake m) (cfg_sha2 m) (cfg_L5 m) (cfg_L3 m) (cfg_S m) (cfg_sha2_opt m) (cfg_shake_opt m) le p64 a64.
Definition ram (figure : config -> ps_name -> Z) (p : ps_name) (le p64 a64 : bool) : Z :=
  let cfg := build_for p le p64 a64 in SIZEOF_TS_CONTEXT cfg + figure cfg p.
Theorem C52_advice : forall le p64 a64 figure, In figure [keygen_storage; signing_storage; verification_storage] ->
  let uses p := ram figure p le p64 a64 in
  Forall (fun '(f, s) => uses f < uses s)
    [(SHA2_128f, SHA2_128s); (SHA2_192f, SHA2_192s); (SHA2_256f, SHA2_256s); (SHAKE_128f, SHAKE_128s); (SHAKE_192f, SHAKE_192s); (SHAKE_256f, SHAKE_256s)] /\
  Forall (fun '(two, k) => uses two < uses k) [(SHA2_128f, SHAKE_128f); (SHA2_128s, SHAKE_128s)] /\
  Forall (fun '(two, k) => uses two > uses k)
    [(SHA2_192f, SHAKE_192f); (SHA2_192s, SHAKE_192s); (SHA2_256f, SHAKE_256f); (SHA2_256s, SHAKE_256s)].
Proof.
  intros le p64 a64 figure H uses. subst uses.
  destruct H as [<-|[<-|[<-|[]]]]; destruct le, p64, a64; repeat split; repeat constructor.
Qed.
(** ... and to support less never takes more automatic storage (C34 says so of the context) *)
Theorem C52_less_support_less_memory : forall c d p, supports_less c d -> cfg_sha2_opt c = cfg_sha2_opt d -> cfg_shake_opt c = cfg_shake_opt d ->
  keygen_storage c p <= keygen_storage d p /\ signing_storage c p <= signing_storage d p /\ verification_storage c p <= verification_storage d p.
Proof.
  intros [sh s2 l5 l3 ss so ko le p64 a64] [sh' s2' l5' l3' ss' so' ko' le' p64' a64'] p (H1 & H2 & H3 & H4 & H5 & H6 & H7 & H8) HO HK.
  cbn [cfg_shake cfg_sha2 cfg_L5 cfg_L3 cfg_S cfg_sha2_opt cfg_ptr64 cfg_al64 cfg_shake_opt] in *. subst p64' a64' so' ko'.
  unfold keygen_storage, signing_storage, verification_storage, init_sign_storage, sign_storage, init_verify_storage, update_verify_storage, w, largest, keccak.
  cbn [cfg_shake cfg_sha2 cfg_L5 cfg_L3 cfg_S cfg_sha2_opt cfg_ptr64 cfg_al64 cfg_shake_opt].
  destruct l5, l5'; cbn [Bool.le] in H3; try discriminate H3; clear -H4;
  destruct l3, l3'; cbn [Bool.le] in H4; try discriminate H4; clear H4;
  destruct (family_of p), so, p64, (ko =? 2), (ko =? 1); lia.
Qed.

(** ** The figures are reached: they could not be less *)
Definition ex_stack_mem : memory := mem_of 0 (repeat 7 200).
Definition ex_fresh (cfg : config) (p : ps_name) : ts_context := zero_ctx cfg (the_ps cfg p).
Example ex_init_sign : forall p, In p [SHA2_128f; SHA2_192f; SHA2_256f; SHAKE_128f] -> let cfg := minimal p true in
  space (k_api_call cfg ex_stack_mem (InitSign 128 3 p 0 None) (ex_fresh cfg p)) = init_sign_storage cfg p.
Proof. intros p H. repeat (destruct H as [<-|H]; [vm_compute; reflexivity|]). destruct H. Qed.
Definition ex_verifying (cfg : config) (p : ps_name) : outcome (obs * ts_context) :=
  call cfg ex_stack_mem (InitVerify 128 3 p 0) (ex_fresh cfg p).
Example ex_update_verify : forall p, In p [SHA2_128f; SHA2_256s; SHAKE_128f] -> let cfg := minimal p true in
  exists o c, ex_verifying cfg p = Ok (o, c) /\
  space (k_api_call cfg ex_stack_mem (UpdateVerify (repeat 1 (Z.to_nat (ps_n (the_ps cfg p))))) c) = update_verify_storage cfg p.
Proof.
  intros p H cfg.
  assert (E : match ex_verifying cfg p with Ok (o, c) => space (k_api_call cfg ex_stack_mem (UpdateVerify (repeat 1 (Z.to_nat (ps_n (the_ps cfg p))))) c)
    | UB _ => -1 end = update_verify_storage cfg p).
  { subst cfg. repeat (destruct H as [<-|H]; [vm_compute; reflexivity|]). destruct H. }
  assert (N : update_verify_storage cfg p <> -1) by (subst cfg; repeat (destruct H as [<-|H]; [vm_compute; discriminate|]); destruct H).
  destruct (ex_verifying cfg p) as [[o c]|]; [|congruence]. exists o, c. split; [reflexivity|exact E].
Qed.
(** ts_sign in the middle of an authentication path *)
Definition ex_in_path (p : ps_name) : ts_context :=
  let n := ps_n (the_ps (minimal p true) p) in
  set_public_key (2 * n) (set_state ts_merkle (set_buffer_offset n (ex_fresh (minimal p true) p))).
Example ex_sign : let cfg := minimal SHA2_128f true in
  c_ps (ex_in_path SHA2_128f) = the_ps cfg SHA2_128f /\
  space (k_api_call cfg ex_stack_mem (Sign [0] 1) (ex_in_path SHA2_128f)) = sign_storage cfg SHA2_128f.
Proof. split; [reflexivity|]. vm_cast_no_check (eq_refl (sign_storage (minimal SHA2_128f true) SHA2_128f)). Qed.
Print Assumptions C52_one_call.
Print Assumptions C52_every_history.
Print Assumptions C52_signing.
Print Assumptions C52_verification.
Print Assumptions C52_keygen.
Print Assumptions C52_constant.
Print Assumptions C52_one_kilobyte.
Print Assumptions C52_documented.
Print Assumptions C52_shake_option.
Print Assumptions C52_sha2_optimisation.
Print Assumptions C52_advice.
Print Assumptions C52_less_support_less_memory.
