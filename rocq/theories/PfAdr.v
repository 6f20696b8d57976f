(** * Addresses *)
From Verif Require Import Arr SpecSha2 SpecSLH ModelEndian ModelSha256 ModelSha512 ModelFips202
  ModelParams ModelCtx ModelHash ModelSphincs SpecMap PfEndian PfIter PfEnv.

Section Adr.
Variable E : env.
Local Notation cfg := (e_cfg E).
Local Notation n := (e_n E).
Local Notation P := (e_P E).

(** ** Preservation of [good] by member updates *)
Definition bytes_of (k : Z) (l : list Z) : Prop := zlen l = k /\ is_bytes l.

Local Ltac gd := intros [W Hps Hpk Hpre]; split; [|assumption|assumption|
  destruct Hpre as [P1 P2]; split; [exact P1|exact P2]]; destruct W; split; try assumption.
Lemma good_adr a c : bytes_of (ADR_SIZE cfg) a -> good E c -> good E (set_adr a c).
Proof. intros H. gd. Qed.
Lemma good_small a c : bytes_of (SIZEOF_T_ITERATOR cfg) a -> good E c -> good E (set_small_iter a c).
Proof. intros H. gd. Qed.
Lemma good_big a c : bytes_of (SIZEOF_T_ITERATOR cfg) a -> good E c -> good E (set_big_iter a c).
Proof. intros H. gd. Qed.
Lemma good_buffer a c : bytes_of (TS_MAX_HASH cfg) a -> good E c -> good E (set_buffer a c).
Proof. intros H. gd. Qed.
Lemma good_auth a c : bytes_of (TS_MAX_HASH cfg) a -> good E c -> good E (set_auth_path_buffer a c).
Proof. intros H. gd. Qed.
Lemma good_x a c : bytes_of (SIZEOF_X cfg) a -> good E c -> good E (set_x a c).
Proof. intros H. gd. Qed.
Lemma good_offset a c : 0 <= a < 256 -> good E c -> good E (set_buffer_offset a c).
Proof. intros H. gd. Qed.
Lemma good_level a c : 0 <= a < 256 -> good E c -> good E (set_hypertree_level a c).
Proof. intros H. gd. Qed.
Lemma good_fors_tree a c : 0 <= a < 256 -> good E c -> good E (set_fors_tree a c).
Proof. intros H. gd. Qed.
Lemma good_merkle_level a c : 0 <= a < 256 -> good E c -> good E (set_merkle_level a c).
Proof. intros H. gd. Qed.
Lemma good_state a c : 0 <= a < 2 ^ 32 -> good E c -> good E (set_state a c).
Proof. intros H. gd. Qed.
Lemma good_auth_path_node a c : 0 <= a < 2 ^ 16 -> good E c -> good E (set_auth_path_node a c).
Proof. intros H. gd. Qed.
Lemma good_keypair a c : 0 <= a < 2 ^ 16 -> good E c -> good E (set_fors_keypair_addr a c).
Proof. intros H. gd. Qed.
Lemma good_tree a c : 0 <= a < 2 ^ 64 -> good E c -> good E (set_tree_address a c).
Proof. intros H. gd. Qed.

(** ** The address bytes *)
Definition adr_string (A : ADRS) : list Z :=
  match e_fam E with FShake => adrs_bytes A | _ => adrs_compressed A end.
Definition adr_len : Z := match e_fam E with FShake => 32 | _ => 22 end.
Definition adr_rep (a : list Z) (A : ADRS) : Prop :=
  bytes_of (ADR_SIZE cfg) a /\ rd_range a 0 adr_len = Ok (adr_string A).

Lemma adr_string_len A : zlen (adr_string A) = adr_len.
Proof. unfold adr_string, adr_len. destruct (e_fam E); reflexivity. Qed.

Definition w0 : nat := match e_fam E with FShake => 4 | _ => 1 end.
Definition w1 : nat := match e_fam E with FShake => 12 | _ => 8 end.
Definition w2 : nat := match e_fam E with FShake => 4 | _ => 1 end.

Lemma toByte_app_mod x a b : toByte x (a + b) = toByte (x / 256 ^ Z.of_nat b) a ++ toByte x b.
Proof.
  revert x a; induction b as [|b IH]; intros x a.
  - rewrite Nat.add_0_r. cbn [toByte]. rewrite app_nil_r, Z.pow_0_r, Z.div_1_r. reflexivity.
  - rewrite Nat.add_succ_r. cbn [toByte]. rewrite IH, <- app_assoc.
    rewrite Z.div_div by (try lia; apply Z.pow_pos_nonneg; lia).
    rewrite Nat2Z.inj_succ, Z.pow_succ_r by lia. reflexivity.
Qed.
Lemma adr_string_fields L T Y K H I :
  adr_string (mkADRS L T Y K H I)
  = toByte L w0 ++ toByte T w1 ++ toByte Y w2 ++ toByte K 4 ++ toByte H 4 ++ toByte I 4.
Proof.
  unfold adr_string, w0, w1, w2. destruct (e_fam E); [reflexivity| |];
  unfold adrs_compressed, adrs_bytes; cbn [a_layer a_tree a_type a_word1 a_word2 a_word3]; reflexivity.
Qed.

Lemma adr_string_bytes A : is_bytes (adr_string A).
Proof.
  destruct A as [L T Y K H I]. rewrite adr_string_fields.
  do 5 (apply bytes_app; [apply toByte_bytes|]). apply toByte_bytes.
Qed.

Record adrp (a l0 l1 l2 l3 l4 l5 : list Z) : Prop := mkAdrp {
  ap_ok : bytes_of (ADR_SIZE cfg) a;
  ap_eq : exists tl, a = l0 ++ l1 ++ l2 ++ l3 ++ l4 ++ l5 ++ tl;
  ap_l0 : zlen l0 = Z.of_nat w0; ap_l1 : zlen l1 = Z.of_nat w1; ap_l2 : zlen l2 = Z.of_nat w2;
  ap_l3 : zlen l3 = 4; ap_l4 : zlen l4 = 4; ap_l5 : zlen l5 = 4
}.
Lemma adr_size_ge : adr_len <= ADR_SIZE cfg.
Proof.
  unfold adr_len, ADR_SIZE. pose proof (fam_on E) as H. destruct (e_fam E).
  - rewrite H. lia.
  - destruct (cfg_shake cfg); lia.
  - destruct (cfg_shake cfg); lia.
Qed.
Lemma w_sum : Z.of_nat w0 + Z.of_nat w1 + Z.of_nat w2 + 12 = adr_len.
Proof. unfold w0, w1, w2, adr_len. destruct (e_fam E); reflexivity. Qed.
Lemma adrp_any a : bytes_of (ADR_SIZE cfg) a -> exists l0 l1 l2 l3 l4 l5, adrp a l0 l1 l2 l3 l4 l5.
Proof.
  intros [La Ba]. pose proof adr_size_ge. pose proof w_sum.
  destruct (split_at a (Z.of_nat w0)) as (l0 & t0 & E0 & L0 & R0); [lia|].
  destruct (split_at t0 (Z.of_nat w1)) as (l1 & t1 & E1 & L1 & R1); [lia|].
  destruct (split_at t1 (Z.of_nat w2)) as (l2 & t2 & E2 & L2 & R2); [lia|].
  destruct (split_at t2 4) as (l3 & t3 & E3 & L3 & R3); [lia|].
  destruct (split_at t3 4) as (l4 & t4 & E4 & L4 & R4); [lia|].
  destruct (split_at t4 4) as (l5 & t5 & E5 & L5 & R5); [lia|].
  exists l0, l1, l2, l3, l4, l5. split; auto; [split; auto|]. exists t5. subst. reflexivity.
Qed.
Lemma adrp_rep a L T Y K H I :
  adrp a (toByte L w0) (toByte T w1) (toByte Y w2) (toByte K 4) (toByte H 4) (toByte I 4) ->
  adr_rep a (mkADRS L T Y K H I).
Proof.
  intros [Ok0 (tl & Eq) _ _ _ _ _ _]. split; [exact Ok0|].
  rewrite Eq, adr_string_fields.
  match goal with |- rd_range ?x _ _ = Ok ?y =>
    replace x with (y ++ tl) by (rewrite <- !app_assoc; reflexivity) end.
  apply rd_range_0. rewrite <- adr_string_fields. apply adr_string_len.
Qed.
Lemma adr_rep_p a L T Y K H I : adr_rep a (mkADRS L T Y K H I) ->
  adrp a (toByte L w0) (toByte T w1) (toByte Y w2) (toByte K 4) (toByte H 4) (toByte I 4).
Proof.
  intros [[La Ba] R]. pose proof adr_size_ge. pose proof w_sum.
  assert (Z : forall x k, zlen (toByte x k) = Z.of_nat k) by (intros; unfold zlen; rewrite toByte_length; reflexivity).
  split; rewrite ?Z; auto; [split; auto|].
  rewrite rd_range_ok in R; [|lia|lia|lia]. cbn [Z.to_nat skipn] in R. injection R as R.
  rewrite adr_string_fields in R. exists (skipn (Z.to_nat adr_len) a).
  rewrite <- (firstn_skipn (Z.to_nat adr_len) a) at 1. rewrite R, <- !app_assoc. reflexivity.
Qed.

Lemma use_sha2 c : good E c -> use_sha2_adr cfg c = match e_fam E with FShake => false | _ => true end.
Proof.
  intros G. unfold use_sha2_adr. rewrite (g_ps E c G), ps_sha2_eq. pose proof (fam_on E) as H.
  destruct (e_fam E); [rewrite H; reflexivity| |]; apply orb_true_r.
Qed.

Lemma toByte_mod x k j : (k <= j)%nat -> toByte (x mod 256 ^ Z.of_nat j) k = toByte x k.
Proof.
  revert x j; induction k as [|k IH]; intros x j Hj; [reflexivity|].
  destruct j as [|j]; [lia|]. cbn [toByte].
  assert (H : 0 < 256 ^ Z.of_nat j) by (apply Z.pow_pos_nonneg; lia).
  rewrite Nat2Z.inj_succ, Z.pow_succ_r by lia.
  assert (Ediv : x mod (256 * 256 ^ Z.of_nat j) / 256 = (x / 256) mod 256 ^ Z.of_nat j).
  { rewrite Z.rem_mul_r by lia. rewrite Z.mul_comm, Z.div_add by lia.
    rewrite (Z.div_small (x mod 256)) by (apply Z.mod_pos_bound; lia). lia. }
  rewrite Ediv, IH by lia. f_equal. f_equal.
  rewrite Z.rem_mul_r by lia. rewrite Z.mul_comm, Z.mod_add by lia. apply Z.mod_mod; lia.
Qed.
Lemma ull4 v : ts_ull_to_bytes (u32 v) 4 = toByte v 4.
Proof.
  rewrite ts_ull_to_bytes_small.
  - unfold u32. change (2 ^ 32) with (256 ^ Z.of_nat 4). apply toByte_mod. lia.
  - unfold u32. pose proof (Z.mod_pos_bound v (2 ^ 32)). lia.
Qed.
Lemma ull8 v : [u8 v] = toByte v 1.
Proof. reflexivity. Qed.
Lemma ull_tree v k : 0 <= v < 2 ^ 64 -> ts_ull_to_bytes v (Z.of_nat k) = toByte v k.
Proof. intros H. rewrite ts_ull_to_bytes_small by exact H. rewrite Nat2Z.id. reflexivity. Qed.

Lemma zlen_toByte x k : zlen (toByte x k) = Z.of_nat k.
Proof. unfold zlen; rewrite toByte_length; reflexivity. Qed.
Lemma wr_piece (a pre mid post src : list Z) off :
  a = pre ++ mid ++ post -> zlen pre = off -> zlen mid = zlen src -> is_bytes src -> is_bytes a ->
  exists a', wr_range a off src = Ok a' /\ a' = pre ++ src ++ post /\ zlen a' = zlen a /\ is_bytes a'.
Proof.
  intros -> Hp Hm Hs Ha. exists (pre ++ src ++ post). split; [apply wr_range_mid; auto|].
  split; [reflexivity|]. rewrite !zlen_app. split; [lia|].
  apply bytes_split in Ha as [A1 A2]. apply bytes_split in A2 as [A2 A3]. repeat apply bytes_app; auto.
Qed.

Local Ltac piece pre mid post :=
  match goal with |- context [wr_range ?a ?off ?src] =>
    destruct (wr_piece a pre mid post src off) as (a' & Ea & Eq' & La' & Ba');
    [ rewrite <- ?app_assoc; assumption
    | rewrite ?zlen_app, ?zlen_nil; lia
    | rewrite zlen_toByte; lia
    | apply toByte_bytes
    | assumption
    | rewrite Ea; exists a'; split; [reflexivity|];
      split; rewrite ?zlen_toByte; try assumption; try (split; [lia|assumption]); try lia;
      try (eexists; rewrite Eq', <- ?app_assoc; reflexivity) ] end.
Lemma set_layer_ok v c l0 l1 l2 l3 l4 l5 : good E c -> adrp (c_adr c) l0 l1 l2 l3 l4 l5 ->
  exists a, set_layer_adr cfg v c = Ok (set_adr a c) /\ adrp a (toByte v w0) l1 l2 l3 l4 l5.
Proof.
  intros G [[La Ba] (tl & Eq) L0 L1 L2 L3 L4 L5]. unfold set_layer_adr, wr_adr. rewrite (use_sha2 c G).
  unfold w0 in *. destruct (e_fam E) eqn:F; rewrite ?F in *; cbn iota in *; rewrite ?ull4, ?ull8; unfold LAYER_OFFSET, LAYER_SHA2_OFFSET;
  piece (@nil Z) l0 (l1 ++ l2 ++ l3 ++ l4 ++ l5 ++ tl); unfold w0; rewrite F; reflexivity.
Qed.
Lemma set_tree_ok v c l0 l1 l2 l3 l4 l5 : good E c -> 0 <= v < 2 ^ 64 -> adrp (c_adr c) l0 l1 l2 l3 l4 l5 ->
  exists a, set_tree_adr cfg v c = Ok (set_adr a c) /\ adrp a l0 (toByte v w1) l2 l3 l4 l5.
Proof.
  intros G Hv [[La Ba] (tl & Eq) L0 L1 L2 L3 L4 L5]. unfold set_tree_adr, wr_adr. rewrite (use_sha2 c G).
  unfold w0, w1 in *. pose proof (ull_tree v 12 Hv) as T12. pose proof (ull_tree v 8 Hv) as T8.
  change (Z.of_nat 12) with 12 in T12. change (Z.of_nat 8) with 8 in T8.
  destruct (e_fam E) eqn:F; rewrite ?F in *; cbn iota in *; rewrite ?T12, ?T8; unfold TREE_OFFSET, TREE_SHA2_OFFSET;
  piece l0 l1 (l2 ++ l3 ++ l4 ++ l5 ++ tl); unfold w0, w1; rewrite F; try reflexivity; assumption.
Qed.
Lemma set_type_ok v c l0 l1 l2 l3 l4 l5 : good E c -> adrp (c_adr c) l0 l1 l2 l3 l4 l5 ->
  exists a, set_type_adr cfg v c = Ok (set_adr a c) /\ adrp a l0 l1 (toByte v w2) l3 l4 l5.
Proof.
  intros G [[La Ba] (tl & Eq) L0 L1 L2 L3 L4 L5]. unfold set_type_adr, wr_adr. rewrite (use_sha2 c G).
  unfold w0, w1, w2 in *. destruct (e_fam E) eqn:F; rewrite ?F in *; cbn iota in *; rewrite ?ull4, ?ull8; unfold TYPE_OFFSET, TYPE_SHA2_OFFSET;
  piece (l0 ++ l1) l2 (l3 ++ l4 ++ l5 ++ tl); unfold w0, w1, w2; rewrite F; try reflexivity; assumption.
Qed.
Lemma set_keypair_ok v c l0 l1 l2 l3 l4 l5 : good E c -> adrp (c_adr c) l0 l1 l2 l3 l4 l5 ->
  exists a, set_keypair_adr cfg v c = Ok (set_adr a c) /\ adrp a l0 l1 l2 (toByte v 4) l4 l5.
Proof.
  intros G [[La Ba] (tl & Eq) L0 L1 L2 L3 L4 L5]. unfold set_keypair_adr, wr_adr. rewrite (use_sha2 c G).
  unfold w0, w1, w2 in *. destruct (e_fam E) eqn:F; rewrite ?F in *; cbn iota in *; rewrite ?ull4; unfold KEYPAIR_OFFSET, KEYPAIR_SHA2_OFFSET;
  piece (l0 ++ l1 ++ l2) l3 (l4 ++ l5 ++ tl); unfold w0, w1, w2; rewrite F; try reflexivity; assumption.
Qed.
Lemma set_height_ok v c l0 l1 l2 l3 l4 l5 : good E c -> adrp (c_adr c) l0 l1 l2 l3 l4 l5 ->
  exists a, set_tree_height_adr cfg v c = Ok (set_adr a c) /\ adrp a l0 l1 l2 l3 (toByte v 4) l5.
Proof.
  intros G [[La Ba] (tl & Eq) L0 L1 L2 L3 L4 L5]. unfold set_tree_height_adr, wr_adr. rewrite (use_sha2 c G).
  unfold w0, w1, w2 in *. destruct (e_fam E) eqn:F; rewrite ?F in *; cbn iota in *; rewrite ?ull4; unfold TREEHEIGHT_OFFSET, TREEHEIGHT_SHA2_OFFSET;
  piece (l0 ++ l1 ++ l2 ++ l3) l4 (l5 ++ tl); unfold w0, w1, w2; rewrite F; try reflexivity; assumption.
Qed.
Lemma set_index_ok v c l0 l1 l2 l3 l4 l5 : good E c -> adrp (c_adr c) l0 l1 l2 l3 l4 l5 ->
  exists a, set_tree_index_adr cfg v c = Ok (set_adr a c) /\ adrp a l0 l1 l2 l3 l4 (toByte v 4).
Proof.
  intros G [[La Ba] (tl & Eq) L0 L1 L2 L3 L4 L5]. unfold set_tree_index_adr, wr_adr. rewrite (use_sha2 c G).
  unfold w0, w1, w2 in *. destruct (e_fam E) eqn:F; rewrite ?F in *; cbn iota in *; rewrite ?ull4; unfold TREEINDEX_OFFSET, TREEINDEX_SHA2_OFFSET;
  piece (l0 ++ l1 ++ l2 ++ l3 ++ l4) l5 tl; unfold w0, w1, w2; rewrite F; try reflexivity; assumption.
Qed.

Lemma adrp_ok a l0 l1 l2 l3 l4 l5 : adrp a l0 l1 l2 l3 l4 l5 -> bytes_of (ADR_SIZE cfg) a.
Proof. intros H; apply H. Qed.

(** ** The composite setters *)
Lemma good_adr_bytes c : good E c -> bytes_of (ADR_SIZE cfg) (c_adr c).
Proof. intros G. exact (wf_adr _ _ (g_wf E c G)). Qed.
Lemma good_tree_range c : good E c -> 0 <= c_tree_address c < 2 ^ 64.
Proof. intros G. exact (wf_tree_address _ _ (g_wf E c G)). Qed.

Ltac adr_start c G :=
  let l0 := fresh in let l1 := fresh in let l2 := fresh in let l3 := fresh in
  let l4 := fresh in let l5 := fresh in
  destruct (adrp_any (c_adr c) (good_adr_bytes c G)) as (l0 & l1 & l2 & l3 & l4 & l5 & HA).
Ltac adr_step lem :=
  match goal with HA : adrp _ _ _ _ _ _ _ |- _ =>
    let a := fresh "a" in let Ea := fresh "Ea" in let HA' := fresh "HA" in
    edestruct lem as (a & Ea & HA');
    [ | | rewrite Ea; clear Ea; cbn [bind];
        let Hb := fresh in pose proof (adrp_ok _ _ _ _ _ _ _ HA') as Hb ] end.

Lemma step6 L T Y K c : good E c -> 0 <= T < 2 ^ 64 ->
  exists a, (c <- set_layer_adr cfg L c ;; c <- set_tree_adr cfg T c ;;
             c <- set_type_adr cfg Y c ;; set_keypair_adr cfg K c) = Ok (set_adr a c) /\
    exists l4 l5, adrp a (toByte L w0) (toByte T w1) (toByte Y w2) (toByte K 4) l4 l5.
Proof.
  intros G HT. destruct (adrp_any (c_adr c) (good_adr_bytes c G)) as (l0 & l1 & l2 & l3 & l4 & l5 & HA).
  destruct (set_layer_ok L c _ _ _ _ _ _ G HA) as (a0 & -> & HA0); cbn [bind].
  assert (G0 : good E (set_adr a0 c)) by (apply good_adr; [apply HA0|exact G]).
  destruct (set_tree_ok T (set_adr a0 c) _ _ _ _ _ _ G0 HT HA0) as (a1 & -> & HA1); cbn [bind].
  assert (G1 : good E (set_adr a1 c)) by (apply good_adr; [apply HA1|exact G]).
  change (set_adr a1 (set_adr a0 c)) with (set_adr a1 c).
  destruct (set_type_ok Y (set_adr a1 c) _ _ _ _ _ _ G1 HA1) as (a2 & -> & HA2); cbn [bind].
  assert (G2 : good E (set_adr a2 c)) by (apply good_adr; [apply HA2|exact G]).
  change (set_adr a2 (set_adr a1 c)) with (set_adr a2 c).
  destruct (set_keypair_ok K (set_adr a2 c) _ _ _ _ _ _ G2 HA2) as (a3 & -> & HA3).
  exists a3. split; [reflexivity|]. eauto.
Qed.
Lemma step_hi H I c L T Y K l4 l5 : good E c ->
  adrp (c_adr c) (toByte L w0) (toByte T w1) (toByte Y w2) (toByte K 4) l4 l5 ->
  exists a, (c <- set_tree_height_adr cfg H c ;; set_tree_index_adr cfg I c) = Ok (set_adr a c) /\
    adr_rep a (mkADRS L T Y K H I).
Proof.
  intros G HA.
  destruct (set_height_ok H c _ _ _ _ _ _ G HA) as (a0 & -> & HA0); cbn [bind].
  assert (G0 : good E (set_adr a0 c)) by (apply good_adr; [apply HA0|exact G]).
  destruct (set_index_ok I (set_adr a0 c) _ _ _ _ _ _ G0 HA0) as (a1 & -> & HA1).
  exists a1. split; [reflexivity|]. apply adrp_rep, HA1.
Qed.
Lemma step_all L T Y K H I c : good E c -> 0 <= T < 2 ^ 64 ->
  exists a, (c <- set_layer_adr cfg L c ;; c <- set_tree_adr cfg T c ;;
             c <- set_type_adr cfg Y c ;; c <- set_keypair_adr cfg K c ;;
             c <- set_tree_height_adr cfg H c ;; set_tree_index_adr cfg I c) = Ok (set_adr a c) /\
    adr_rep a (mkADRS L T Y K H I).
Proof.
  intros G HT. destruct (step6 L T Y K c G HT) as (a & Ea & l4 & l5 & HA).
  assert (Ga : good E (set_adr a c)) by (apply good_adr; [apply HA|exact G]).
  destruct (step_hi H I (set_adr a c) _ _ _ _ _ _ Ga HA) as (a' & Ea' & HA').
  exists a'. split; [|exact HA'].
  change (set_adr a' c) with (set_adr a' (set_adr a c)). rewrite <- Ea'.
  pose proof (f_equal (fun o => c <- o ;; c <- set_tree_height_adr cfg H c ;; set_tree_index_adr cfg I c) Ea) as F.
  cbn beta in F. rewrite !bind_assoc in F. etransitivity; [|exact F].
  clear. destruct (set_layer_adr cfg L c) as [c0|]; cbn [bind]; [|reflexivity].
  destruct (set_tree_adr cfg T c0) as [c1|]; cbn [bind]; [|reflexivity].
  destruct (set_type_adr cfg Y c1) as [c2|]; cbn [bind]; reflexivity.
Qed.

(** Members that [set_*_adr] does not touch. *)
Definition same_but_adr (c c' : ts_context) : Prop := exists a, c' = set_adr a c.
Lemma wr_adr_same off v c c' : wr_adr off v c = Ok c' -> exists a, c' = set_adr a c.
Proof. unfold wr_adr. destruct (wr_range _ _ _); cbn [bind]; [intros [= <-]; eauto|discriminate]. Qed.
Lemma set_layer_same v c c' : set_layer_adr cfg v c = Ok c' -> exists a, c' = set_adr a c.
Proof. unfold set_layer_adr. destruct (use_sha2_adr cfg c); apply wr_adr_same. Qed.
Lemma set_tree_same v c c' : set_tree_adr cfg v c = Ok c' -> exists a, c' = set_adr a c.
Proof. unfold set_tree_adr. destruct (use_sha2_adr cfg c); apply wr_adr_same. Qed.
Lemma set_type_same v c c' : set_type_adr cfg v c = Ok c' -> exists a, c' = set_adr a c.
Proof. unfold set_type_adr. destruct (use_sha2_adr cfg c); apply wr_adr_same. Qed.
Lemma set_keypair_same v c c' : set_keypair_adr cfg v c = Ok c' -> exists a, c' = set_adr a c.
Proof. unfold set_keypair_adr. destruct (use_sha2_adr cfg c); apply wr_adr_same. Qed.
Lemma set_height_same v c c' : set_tree_height_adr cfg v c = Ok c' -> exists a, c' = set_adr a c.
Proof. unfold set_tree_height_adr. destruct (use_sha2_adr cfg c); apply wr_adr_same. Qed.

Lemma t_ps c : good E c -> ps_t (c_ps c) = p_a P.
Proof. intros G. rewrite (g_ps E c G). apply ps_t_eq. Qed.
Lemma int_val_ok x : - 2 ^ 31 <= x < 2 ^ 31 -> int_val x = Ok x.
Proof.
  intros H. unfold int_val. destruct (Z.leb_spec (- 2 ^ 31) x), (Z.ltb_spec x (2 ^ 31)); try lia. reflexivity.
Qed.
Lemma shift_count_ok wd k : 0 <= k < wd -> shift_count wd k = Ok k.
Proof. intros H. unfold shift_count. destruct (Z.leb_spec 0 k), (Z.ltb_spec k wd); try lia. reflexivity. Qed.
Lemma pow_a : 2 ^ p_a P <= 2 ^ 14 /\ 0 < 2 ^ p_a P.
Proof.
  pose proof (t_bounds E) as [H _]. split; [apply Z.pow_le_mono_r; lia|apply Z.pow_pos_nonneg; lia].
Qed.
Lemma fors_index_ok c i : good E c -> 0 <= i < 2 ^ 24 ->
  fors_index c i = Ok (c_fors_tree c * 2 ^ p_a P + i).
Proof.
  intros G Hi. pose proof (t_bounds E) as [Ht _]. pose proof pow_a as [Hp Hp'].
  pose proof (wf_fors_tree _ _ (g_wf E c G)) as Hf. unfold byte in Hf.
  unfold fors_index. rewrite t_ps by exact G. rewrite shift_count_ok by lia. cbn [bind].
  rewrite Z.shiftl_mul_pow2 by lia.
  rewrite int_val_ok by nia. cbn [bind]. apply int_val_ok. nia.
Qed.

(** The statement of a composite setter: it succeeds and only the address changes. *)
Definition sets_adr (f : ts_context -> outcome ts_context) (c : ts_context) (A : ADRS) : Prop :=
  exists a, f c = Ok (set_adr a c) /\ adr_rep a A.

Local Ltac inv1 lem c :=
  match goal with |- context [bind ?x _] =>
    let c' := fresh "c'" in let Ec := fresh "Ec" in
    destruct x as [c'|] eqn:Ec; cbn [bind]; [apply lem in Ec; destruct Ec as (? & ->)|reflexivity] end;
  repeat match goal with
  | |- context [c_tree_address (set_adr ?a ?d)] => change (c_tree_address (set_adr a d)) with (c_tree_address d)
  | |- context [c_fors_keypair_addr (set_adr ?a ?d)] => change (c_fors_keypair_addr (set_adr a d)) with (c_fors_keypair_addr d)
  end.

(** A setter of the form: layer, tree, type, keypair, height, index, with arguments
    that are read from the context on the way. *)
Lemma sets_const L T Y K H I c f : good E c -> 0 <= T < 2 ^ 64 ->
  f = (c <- set_layer_adr cfg L c ;; c <- set_tree_adr cfg T c ;;
       c <- set_type_adr cfg Y c ;; c <- set_keypair_adr cfg K c ;;
       c <- set_tree_height_adr cfg H c ;; set_tree_index_adr cfg I c) ->
  exists a, f = Ok (set_adr a c) /\ adr_rep a (mkADRS L T Y K H I).
Proof. intros G HT ->. apply step_all; auto. Qed.

Local Ltac chainit lems :=
  match goal with |- bind ?x _ = bind ?x _ =>
    let c' := fresh "c'" in let Ec := fresh "Ec" in
    destruct x as [c'|] eqn:Ec; cbn [bind]; [|reflexivity] end.

Lemma ts_set_wots_header_ok l c : good E c ->
  exists a, ts_set_wots_header_adr cfg l c = Ok (set_adr a c) /\
    adr_rep a (mkADRS (c_hypertree_level c) (c_tree_address c) WOTS_PK l 0 0).
Proof.
  intros G. apply sets_const; [exact G|apply good_tree_range, G|]. unfold ts_set_wots_header_adr. change ADR_TYPE_WOTSPK with WOTS_PK.
  inv1 set_layer_same c. reflexivity.
Qed.
Lemma set_wots_prf_ok i j c : good E c ->
  exists a, set_wots_prf_adr cfg i j c = Ok (set_adr a c) /\
    adr_rep a (mkADRS (c_hypertree_level c) (c_tree_address c) WOTS_PRF i j 0).
Proof.
  intros G. apply sets_const; [exact G|apply good_tree_range, G|]. unfold set_wots_prf_adr. change ADR_TYPE_WOTS_PRF with WOTS_PRF.
  inv1 set_layer_same c. reflexivity.
Qed.
Lemma ts_set_wots_f_ok i j h c : good E c ->
  exists a, ts_set_wots_f_adr cfg i j h c = Ok (set_adr a c) /\
    adr_rep a (mkADRS (c_hypertree_level c) (c_tree_address c) WOTS_HASH i j h).
Proof.
  intros G. apply sets_const; [exact G|apply good_tree_range, G|]. unfold ts_set_wots_f_adr. change ADR_TYPE_WOTS with WOTS_HASH.
  inv1 set_layer_same c. reflexivity.
Qed.
Lemma ts_set_fors_root_ok c : good E c ->
  exists a, ts_set_fors_root_adr cfg c = Ok (set_adr a c) /\
    adr_rep a (mkADRS 0 (c_tree_address c) FORS_ROOTS (c_fors_keypair_addr c) 0 0).
Proof.
  intros G. apply sets_const; [exact G|apply good_tree_range, G|]. unfold ts_set_fors_root_adr. change ADR_TYPE_FORSPK with FORS_ROOTS.
  inv1 set_layer_same c. inv1 set_tree_same c. inv1 set_type_same c. reflexivity.
Qed.
Lemma set_fors_prf_ok i c : good E c -> 0 <= i < 2 ^ 24 ->
  exists a, set_fors_prf_adr cfg i c = Ok (set_adr a c) /\
    adr_rep a (mkADRS 0 (c_tree_address c) FORS_PRF (c_fors_keypair_addr c) 0
                 (c_fors_tree c * 2 ^ p_a P + i)).
Proof.
  intros G Hi. apply sets_const; [exact G|apply good_tree_range, G|]. unfold set_fors_prf_adr. change ADR_TYPE_FORS_PRF with FORS_PRF.
  pose proof (fors_index_ok c i G Hi) as F.
  inv1 set_layer_same c. inv1 set_tree_same c. inv1 set_type_same c.
  inv1 set_keypair_same c. inv1 set_height_same c.
  match goal with |- bind (fors_index ?c' i) _ = _ => change (fors_index c' i) with (fors_index c i) end.
  rewrite F. reflexivity.
Qed.
Lemma ts_set_fors_leaf_ok i c : good E c -> 0 <= i < 2 ^ 24 ->
  exists a, ts_set_fors_leaf_adr cfg i c = Ok (set_adr a c) /\
    adr_rep a (mkADRS 0 (c_tree_address c) FORS_TREE (c_fors_keypair_addr c) 0
                 (c_fors_tree c * 2 ^ p_a P + i)).
Proof.
  intros G Hi. apply sets_const; [exact G|apply good_tree_range, G|]. unfold ts_set_fors_leaf_adr. change ADR_TYPE_FORSTREE with FORS_TREE.
  pose proof (fors_index_ok c i G Hi) as F.
  inv1 set_layer_same c. inv1 set_tree_same c. inv1 set_type_same c.
  inv1 set_keypair_same c. inv1 set_height_same c.
  match goal with |- bind (fors_index ?c' i) _ = _ => change (fors_index c' i) with (fors_index c i) end.
  rewrite F. reflexivity.
Qed.
Lemma ts_set_merkle_ok node level Y c : good E c -> 0 <= node < 2 ^ 24 -> 0 <= level < 30 ->
  exists a, ts_set_merkle_adr cfg node level Y c = Ok (set_adr a c) /\
    adr_rep a (mkADRS (c_hypertree_level c) (c_tree_address c) Y (c_fors_keypair_addr c) (level + 1)
                 ((c_fors_tree c * 2 ^ p_a P + node) / 2 ^ (level + 1))).
Proof.
  intros G Hn Hl. pose proof (t_bounds E) as [Ht _]. pose proof pow_a as [Hp Hp'].
  pose proof (wf_fors_tree _ _ (g_wf E c G)) as Hf. unfold byte in Hf.
  apply sets_const; [exact G|apply good_tree_range, G|]. unfold ts_set_merkle_adr.
  assert (EL : u32 (level + 1) = level + 1) by (unfold u32; apply Z.mod_small; lia). rewrite EL.
  inv1 set_layer_same c. inv1 set_tree_same c. inv1 set_type_same c.
  inv1 set_keypair_same c. inv1 set_height_same c.
  cbn [c_ps set_adr c_fors_tree]. rewrite t_ps by exact G. rewrite shift_count_ok by lia. cbn [bind].
  rewrite Z.shiftl_mul_pow2 by lia. rewrite int_val_ok by nia. cbn [bind].
  rewrite shift_count_ok by lia. cbn [bind].
  rewrite Z.shiftr_div_pow2 by lia. f_equal. f_equal. unfold u32. apply Z.mod_small. nia.
Qed.
Lemma set_type_rep Y c L T Y0 K H I : good E c -> adr_rep (c_adr c) (mkADRS L T Y0 K H I) ->
  exists a, set_type_adr cfg Y c = Ok (set_adr a c) /\ adr_rep a (mkADRS L T Y K H I).
Proof.
  intros G HA. apply adr_rep_p in HA.
  destruct (set_type_ok Y c _ _ _ _ _ _ G HA) as (a & -> & HA'). exists a; split; [reflexivity|].
  apply adrp_rep, HA'.
Qed.
End Adr.
