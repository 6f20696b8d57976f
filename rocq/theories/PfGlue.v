(** * The hash calls of the code compute the functions of FIPS 205, section 11 *)
From Verif Require Import Arr SpecSha2 SpecKeccak SpecSLH ModelEndian ModelSha256 ModelSha512 ModelFips202
  ModelParams ModelCtx ModelHash ModelSphincs SpecMap PfEndian PfIter PfEnv PfAdr PfGlueSha SpecResidue PfResidue.
From Verif Require PfShake.

Ltac ok_step lem c' H' :=
  let Hx := fresh in
  edestruct lem as (c' & Hx & H'); [.. | rewrite Hx; clear Hx; cbn [bind]].

Section Glue.
Variable E : env.
Local Notation cfg := (e_cfg E).
Local Notation mem := (e_mem E).
Local Notation n := (e_n E).
Local Notation P := (e_P E).
Local Notation hs := (e_hs E).
Local Notation le := (cfg_le cfg).
Local Notation seed := (e_seed E).

Definition iter_ok (it : list Z) : Prop := bytes_of (SIZEOF_T_ITERATOR cfg) it.
Definition str_ok (l : list Z) : Prop := bytes_of n l.

Lemma size256_ge c : 108 <= SIZEOF_SHA256_CTX c.
Proof. unfold SIZEOF_SHA256_CTX, ALIGN_64. destruct (cfg_al64 c); vm_compute; discriminate. Qed.
Lemma iter_size256 it : e_fam E <> FShake -> iter_ok it -> is_bytes it /\ 108 <= zlen it.
Proof.
  intros F [L B]. split; [exact B|]. rewrite L. unfold SIZEOF_T_ITERATOR.
  pose proof (fam_on E) as H. destruct (e_fam E); [congruence| |]; [|destruct H as [H _]]; rewrite H;
  pose proof (size256_ge cfg); lia.
Qed.
Lemma iter_size512 it : e_fam E = F35 -> iter_ok it -> is_bytes it /\ SIZEOF_SHA512_CTX cfg <= zlen it.
Proof.
  intros F [L B]. split; [exact B|]. rewrite L. unfold SIZEOF_T_ITERATOR.
  pose proof (fam_on E) as H. rewrite F in H. destruct H as [-> H].
  assert (X : cfg_L3 cfg || cfg_L5 cfg = true) by (destruct H as [-> | ->]; [apply orb_true_r|reflexivity]).
  rewrite X. cbn [andb]. lia.
Qed.
Lemma iter_sizeK it : e_fam E = FShake -> iter_ok it -> is_bytes it /\ 208 <= zlen it.
Proof.
  intros F [L B]. split; [exact B|]. rewrite L. unfold SIZEOF_T_ITERATOR.
  pose proof (fam_on E) as H. rewrite F in H. rewrite H. unfold SIZEOF_SHAKE256_CTX; lia.
Qed.

Lemma small_ok c : good E c -> iter_ok (c_small_iter c).
Proof. intros G. exact (wf_small _ _ (g_wf E c G)). Qed.
Lemma big_ok c : good E c -> iter_ok (c_big_iter c).
Proof. intros G. exact (wf_big _ _ (g_wf E c G)). Qed.
Lemma ps_n_c c : good E c -> ps_n (c_ps c) = n.
Proof. intros G. rewrite (g_ps E c G). apply ps_n_eq. Qed.

Lemma seed_load c : good E c -> load mem (CONVERT_PUBLIC_KEY_TO_PUB_SEED (c_public_key c) n) n = Ok seed.
Proof. intros G. unfold CONVERT_PUBLIC_KEY_TO_PUB_SEED. rewrite (g_pk E c G). apply (e_seed_ld E). Qed.

Lemma seed_block_len b : n <= b -> zlen (sha_seed_block E b) = b.
Proof. intros H. unfold sha_seed_block. rewrite zlen_app, seed_len, zlen_repeat. lia. Qed.
Lemma seed_block_bytes b : is_bytes (sha_seed_block E b).
Proof. apply bytes_app; [apply (e_seed_bytes E)|apply zeros_bytes']. Qed.
Lemma seed_block_spec b X : sha_seed_block E b ++ X = seed ++ zero_bytes (b - n) ++ X.
Proof. unfold sha_seed_block, zero_bytes. rewrite toByte_zero, <- app_assoc. reflexivity. Qed.

Lemma init_ctx256 ctx c : good E c -> e_fam E <> FShake -> shape256 ctx ->
  exists ctx', ts_sha256_init_ctx cfg mem ctx c = Ok ctx' /\ R256 ctx' (sha_seed_block E 64).
Proof.
  intros G F S. pose proof (n_bounds E) as Hn. unfold ts_sha256_init_ctx.
  destruct (cfg_sha2_opt cfg) eqn:O.
  - rewrite (pre256 E c (g_pre E c G) O F).
    apply R256_restore; [exact S|apply seed_block_bytes|].
    pose proof (seed_block_len 64). unfold zlen in *; lia.
  - rewrite ps_n_c, seed_load by exact G. cbn [bind].
    pose proof (R256_init ctx S) as R0.
    destruct (R256_update le _ _ seed R0 (e_seed_bytes E)) as (c1 & -> & R1). cbn [bind].
    destruct (pad256 cfg c1 _ n R1) as (c2 & -> & R2). exists c2. split; [reflexivity|]. exact R2.
Qed.
Lemma init_ctx512 ctx c : good E c -> e_fam E = F35 -> shape512 ctx ->
  exists ctx', ts_sha512_init_ctx cfg mem ctx c = Ok ctx' /\ R512 ctx' (sha_seed_block E 128).
Proof.
  intros G F S. pose proof (n_bounds E) as Hn. unfold ts_sha512_init_ctx.
  destruct (cfg_sha2_opt cfg) eqn:O.
  - rewrite (pre512 E c (g_pre E c G) O F).
    apply R512_restore; [exact S|apply seed_block_bytes|].
    pose proof (seed_block_len 128). unfold zlen in *; lia.
  - rewrite ps_n_c, seed_load by exact G. cbn [bind].
    pose proof (R512_init ctx S) as R0.
    destruct (R512_update le _ _ seed R0 (e_seed_bytes E)) as (c1 & -> & R1). cbn [bind].
    destruct (pad512 cfg c1 _ n R1) as (c2 & -> & R2). exists c2. split; [reflexivity|]. exact R2.
Qed.

Lemma adr_read22 c A : e_fam E <> FShake -> adr_rep E (c_adr c) A ->
  rd_range (c_adr c) 0 SHA2_ADR_SIZE = Ok (adr_string E A).
Proof. intros F [_ R]. unfold adr_len in R. destruct (e_fam E); [congruence|exact R|exact R]. Qed.
Lemma adr_read32 c A : e_fam E = FShake -> adr_rep E (c_adr c) A ->
  rd_range (c_adr c) 0 (ADR_SIZE cfg) = Ok (adr_string E A).
Proof.
  intros F [[L _] R]. unfold adr_len in R. pose proof (fam_on E) as H. rewrite F in *.
  unfold ADR_SIZE in *. rewrite H in *. exact R.
Qed.
Lemma adr_string_zlen A : zlen (adr_string E A) <= 32.
Proof. rewrite adr_string_len. unfold adr_len. destruct (e_fam E); lia. Qed.

(** ** The multi-part tweakable hash *)
Definition irep (it : list Z) (A : ADRS) (D : list Z) : Prop :=
  iter_ok it /\ is_bytes D /\
  match e_fam E with
  | FShake => exists s, get_shake le it = Ok s /\ RK s (seed ++ adr_string E A ++ D)
  | F1 => exists s, get_sha256 le it = Ok s /\ R256 s (sha_seed_block E 64 ++ adr_string E A ++ D)
  | F35 => exists s, get_sha512 cfg it = Ok s /\ R512 s (sha_seed_block E 128 ++ adr_string E A ++ D)
  end.
Definition hash_out (A : ADRS) (D : list Z) : list Z := hT hs seed A D.
Lemma hH_hT : hH hs = hT hs.
Proof. rewrite hs_eq. destruct (e_fam E); reflexivity. Qed.

Lemma put256_iter it s : e_fam E <> FShake -> iter_ok it -> shape256 s ->
  exists it', put_sha256 le it s = Ok it' /\ (iter_ok it' /\ (ranged256 s -> get_sha256 le it' = Ok s)).
Proof.
  intros F I S. destruct (iter_size256 it F I) as [B L].
  destruct (put256 le it s B L S) as (it' & -> & B' & L' & G). exists it'. split; [reflexivity|].
  split; [|exact G]. split; [rewrite L'; apply I|exact B'].
Qed.
Lemma put512_iter it s : e_fam E = F35 -> iter_ok it -> shape512 s ->
  exists it', put_sha512 cfg it s = Ok it' /\ (iter_ok it' /\ (ranged512 s -> get_sha512 cfg it' = Ok s)).
Proof.
  intros F I S. destruct (iter_size512 it F I) as [B L].
  destruct (put512 cfg it s B L S) as (it' & -> & B' & L' & G). exists it'. split; [reflexivity|].
  split; [|exact G]. split; [rewrite L'; apply I|exact B'].
Qed.
Lemma putK_iter it s : e_fam E = FShake -> iter_ok it -> length s = 26%nat ->
  exists it', put_shake le it s = Ok it' /\ (iter_ok it' /\ (words_ok 8 s -> get_shake le it' = Ok s)).
Proof.
  intros F I S. destruct (iter_sizeK it F I) as [B L].
  destruct (putshake le it s B L S) as (it' & -> & B' & L' & G). exists it'. split; [reflexivity|].
  split; [|exact G]. split; [rewrite L'; apply I|exact B'].
Qed.

Lemma init_t_ok it A c : good E c -> iter_ok it -> adr_rep E (c_adr c) A ->
  exists it', call_init_t cfg mem it c = Ok it' /\ irep it' A [].
Proof.
  intros G I HA. unfold call_init_t. rewrite (g_ps E c G), ps_init_eq. unfold irep.
  destruct (e_fam E) eqn:F.
  - unfold ts_shake256_init_t_simple. destruct (iter_sizeK it F I) as [B L].
    destruct (getshake_any le it B L) as (s0 & -> & L0). cbn [bind].
    ok_step RK_init s1 R1; [exact L0|].
    rewrite ps_n_c, seed_load by exact G. cbn [bind].
    ok_step RK_absorb s2 R2; [exact R1|apply (e_seed_bytes E)|rewrite seed_len; pose proof (n_bounds E); lia|].
    rewrite (adr_read32 c A F HA). cbn [bind].
    ok_step RK_absorb s3 R3; [exact R2|apply adr_string_bytes|pose proof (adr_string_zlen A); lia|].
    destruct (RK_shape _ _ R3) as [S3 W3].
    destruct (putK_iter it s3 F I S3) as (it' & -> & I' & G'). exists it'. split; [reflexivity|].
    split; [exact I'|]. split; [constructor|]. exists s3. split; [apply G', W3|].
    rewrite app_nil_r. exact R3.
  - unfold ts_sha2_L1_init_t_simple. assert (F' : e_fam E <> FShake) by congruence.
    destruct (iter_size256 it F' I) as [B L].
    destruct (get256_any le it B L) as (s0 & -> & S0). cbn [bind].
    ok_step init_ctx256 s1 R1; [exact G|exact F'|exact S0|].
    rewrite (adr_read22 c A F' HA). cbn [bind].
    ok_step R256_update s2 R2; [exact R1|apply adr_string_bytes|].
    destruct (put256_iter it s2 F' I (R256_shape _ _ R2)) as (it' & -> & I' & G').
    exists it'. split; [reflexivity|]. split; [exact I'|]. split; [constructor|].
    exists s2. split; [apply G', (R256_ranged _ _ R2)|]. rewrite app_nil_r. exact R2.
  - unfold ts_sha2_L35_init_t_simple. assert (F' : e_fam E <> FShake) by congruence.
    destruct (iter_size512 it F I) as [B L].
    destruct (get512_any cfg it B L) as (s0 & -> & S0). cbn [bind].
    ok_step init_ctx512 s1 R1; [exact G|exact F|exact S0|].
    rewrite (adr_read22 c A F' HA). cbn [bind].
    ok_step R512_update s2 R2; [exact R1|apply adr_string_bytes|].
    destruct (put512_iter it s2 F I (R512_shape _ _ R2)) as (it' & -> & I' & G').
    exists it'. split; [reflexivity|]. split; [exact I'|]. split; [constructor|].
    exists s2. split; [apply G', (R512_ranged _ _ R2)|]. rewrite app_nil_r. exact R2.
Qed.

Lemma next_t_ok it A D input X c : good E c -> irep it A D ->
  rd_range input 0 n = Ok X -> str_ok X ->
  exists it', call_next_t cfg it input c = Ok it' /\ irep it' A (D ++ X).
Proof.
  intros G (I & BD & R) EX [LX BX]. unfold call_next_t. rewrite (g_ps E c G), ps_next_eq. unfold irep.
  destruct (e_fam E) eqn:F; destruct R as (s & Es & R).
  - unfold ts_shake256_next_t_simple. rewrite Es, ps_n_c, EX by exact G. cbn [bind].
    ok_step RK_absorb s2 R2; [exact R|exact BX|rewrite LX; pose proof (n_bounds E); lia|].
    destruct (RK_shape _ _ R2) as [S2 W2].
    destruct (putK_iter it s2 F I S2) as (it' & -> & I' & G'). exists it'. split; [reflexivity|].
    split; [exact I'|]. split; [apply bytes_app; auto|]. exists s2. split; [apply G', W2|].
    rewrite !app_assoc in *. exact R2.
  - unfold ts_sha2_L1_next_t_simple. assert (F' : e_fam E <> FShake) by congruence.
    rewrite Es, ps_n_c, EX by exact G. cbn [bind].
    ok_step R256_update s2 R2; [exact R|exact BX|].
    destruct (put256_iter it s2 F' I (R256_shape _ _ R2)) as (it' & -> & I' & G').
    exists it'. split; [reflexivity|]. split; [exact I'|]. split; [apply bytes_app; auto|].
    exists s2. split; [apply G', (R256_ranged _ _ R2)|]. rewrite !app_assoc in *. exact R2.
  - unfold ts_sha2_L35_next_t_simple.
    rewrite Es, ps_n_c, EX by exact G. cbn [bind].
    ok_step R512_update s2 R2; [exact R|exact BX|].
    destruct (put512_iter it s2 F I (R512_shape _ _ R2)) as (it' & -> & I' & G').
    exists it'. split; [reflexivity|]. split; [exact I'|]. split; [apply bytes_app; auto|].
    exists s2. split; [apply G', (R512_ranged _ _ R2)|]. rewrite !app_assoc in *. exact R2.
Qed.

Lemma trunc256_n m c : R256 c m -> zlen m < 2 ^ 61 ->
  exists c', ts_SHA256_final_trunc le c n = Ok (Trunc n (D256 m), c') /\ shape256 c'.
Proof.
  intros R L. destruct (n_words E) as (k & Hk & ->). apply R256_final; auto.
Qed.
Lemma trunc512_n m c : R512 c m -> zlen m < 2 ^ 61 ->
  exists c', ts_SHA512_final_trunc le c n = Ok (Trunc n (D512 m), c') /\ shape512 c'.
Proof.
  intros R L. destruct (n_words8 E) as (k & Hk & ->). apply R512_final; auto.
Qed.
Lemma trunc256_left m c : R256 c m -> zlen m < 2 ^ 61 ->
  exists c', ts_SHA256_final_trunc le c n = Ok (Trunc n (D256 m), c') /\ (shape256 c' /\ ranged256 c' /\ sha256_leaves le m n c').
Proof.
  intros R L. destruct (n_words E) as (k & Hk & ->). apply left256; auto.
Qed.
Lemma trunc512_left m c : R512 c m -> zlen m < 2 ^ 61 ->
  exists c', ts_SHA512_final_trunc le c n = Ok (Trunc n (D512 m), c') /\ (shape512 c' /\ ranged512 c' /\ sha512_leaves le m n c').
Proof.
  intros R L. destruct (n_words8 E) as (k & Hk & ->). apply left512; auto.
Qed.

(** The iterator holds what computing T_l(seed, A, D) leaves. *)
Definition spent (it : list Z) (A : ADRS) (D : list Z) : Prop := T_leaves cfg (e_p E) seed A D it.
Lemma T_base_fam : T_base (e_p E) = match e_fam E with FShake => on_shake256 | F1 => on_sha256 | F35 => on_sha512 end.
Proof. unfold e_fam. destruct (e_p E); reflexivity. Qed.

Lemma final_t_left it A D c : good E c -> irep it A D -> zlen D < 2 ^ 60 ->
  exists it', call_final_t cfg it c = Ok (hT hs seed A D, it') /\ iter_ok it' /\ spent it' A D.
Proof.
  intros G (I & BD & R) LD. unfold call_final_t, spent, T_leaves. rewrite (g_ps E c G), ps_final_eq, hs_eq, T_base_fam.
  pose proof (n_bounds E) as Hn. pose proof (adr_string_zlen A) as LA.
  change (p_n (slh_of (e_p E))) with n. cbv zeta.
  unfold adr_string in *.
  destruct (e_fam E) eqn:F; destruct R as (s & Es & R); cbn [hT shake_hashes sha2_cat1_hashes sha2_cat35_hashes].
  - unfold ts_shake256_final_t_simple. rewrite Es, ps_n_c by exact G. cbn [bind].
    destruct (leftK (cfg_shake_opt cfg) s _ n R) as (s1 & -> & s2 & E2 & L2 & W2 & V2).
    + apply bytes_app; [apply (e_seed_bytes E)|]. apply bytes_app; [|exact BD].
      pose proof (adr_string_bytes E A) as X. unfold adr_string in X. rewrite F in X. exact X.
    + rewrite !zlen_app, seed_len. lia.
    + lia.
    + cbn [bind]. rewrite E2. cbn [bind].
      destruct (putK_iter it s2 F I L2) as (it' & -> & I' & G'). exists it'. cbn [bind]. split; [reflexivity|].
      split; [exact I'|]. exists s2. split; [apply G', W2|exact V2].
  - unfold ts_sha2_L1_final_t_simple. assert (F' : e_fam E <> FShake) by congruence.
    rewrite Es, ps_n_c by exact G. cbn [bind].
    ok_step trunc256_left s2 R2; [exact R|rewrite !zlen_app, seed_block_len by lia; lia|].
    destruct R2 as (S2 & W2 & V2).
    destruct (put256_iter it s2 F' I S2) as (it' & -> & I' & G').
    exists it'. cbn [bind]. split; [rewrite seed_block_spec; reflexivity|]. split; [exact I'|].
    exists s2. split; [apply G', W2|]. rewrite seed_block_spec in V2. exact V2.
  - unfold ts_sha2_L35_final_t_simple.
    rewrite Es, ps_n_c by exact G. cbn [bind].
    ok_step trunc512_left s2 R2; [exact R|rewrite !zlen_app, seed_block_len by lia; lia|].
    destruct R2 as (S2 & W2 & V2).
    destruct (put512_iter it s2 F I S2) as (it' & -> & I' & G').
    exists it'. cbn [bind]. split; [rewrite seed_block_spec; reflexivity|]. split; [exact I'|].
    exists s2. split; [apply G', W2|]. rewrite seed_block_spec in V2. exact V2.
Qed.
Lemma final_t_ok it A D c : good E c -> irep it A D -> zlen D < 2 ^ 60 ->
  exists it', call_final_t cfg it c = Ok (hT hs seed A D, it') /\ iter_ok it'.
Proof. intros G R LD. destruct (final_t_left it A D c G R LD) as (it' & E' & I' & _). eauto. Qed.

(** ** PRF and F *)
Definition sk_at (sk : list Z) : Prop := load mem (e_pk E - 2 * n) n = Ok sk /\ str_ok sk.

Lemma sha2_one ctx0 c A X : good E c -> e_fam E <> FShake -> shape256 ctx0 -> adr_rep E (c_adr c) A ->
  str_ok X ->
  exists c1, ts_sha256_init_ctx cfg mem ctx0 c = Ok c1 /\
  exists c2, ts_SHA256_update le c1 (adr_string E A) = Ok c2 /\
  exists c3, ts_SHA256_update le c2 X = Ok c3 /\
  exists c4, ts_SHA256_final_trunc le c3 n
    = Ok (Trunc n (sha2 SHA256 (seed ++ zero_bytes (64 - n) ++ adr_string E A ++ X)), c4) /\ shape256 c4.
Proof.
  intros G F S HA [LX BX]. pose proof (n_bounds E) as Hn. pose proof (adr_string_zlen A) as LA.
  destruct (init_ctx256 ctx0 c G F S) as (c1 & E1 & R1). exists c1; split; [exact E1|].
  destruct (R256_update le c1 _ _ R1 (adr_string_bytes E A)) as (c2 & E2 & R2). exists c2; split; [exact E2|].
  destruct (R256_update le c2 _ _ R2 BX) as (c3 & E3 & R3). exists c3; split; [exact E3|].
  destruct (trunc256_n _ c3 R3) as (c4 & E4 & S4).
  { rewrite !zlen_app, seed_block_len by lia. lia. }
  exists c4; split; [|exact S4]. rewrite E4, <- !app_assoc, seed_block_spec. reflexivity.
Qed.

Lemma prf_ok sk c A : good E c -> sk_at sk -> adr_rep E (c_adr c) A ->
  exists it, call_prf cfg mem c = Ok (PRF hs seed sk A, set_small_iter it c) /\ iter_ok it.
Proof.
  intros G [Hsk [Lsk Bsk]] HA. unfold call_prf. rewrite (g_ps E c G), ps_prf_eq, hs_eq.
  assert (LD : load mem (CONVERT_PUBLIC_KEY_TO_SEC_SEED (c_public_key c) n) n = Ok sk).
  { unfold CONVERT_PUBLIC_KEY_TO_SEC_SEED. rewrite (g_pk E c G). exact Hsk. }
  pose proof (small_ok c G) as I.
  assert (K : e_fam E <> FShake -> exists it, ts_sha2_prf cfg mem c =
     Ok (Trunc n (sha2 SHA256 (seed ++ zero_bytes (64 - n) ++ adr_string E A ++ sk)), set_small_iter it c)
     /\ iter_ok it).
  { intros F. unfold ts_sha2_prf. destruct (iter_size256 _ F I) as [B L].
    destruct (get256_any le _ B L) as (s0 & -> & S0). cbn [bind].
    destruct (sha2_one s0 c A sk G F S0 HA (conj Lsk Bsk)) as (c1 & -> & c2 & E2 & c3 & E3 & c4 & E4 & S4).
    cbn [bind]. rewrite (adr_read22 c A F HA). cbn [bind]. rewrite E2, ps_n_c by exact G. cbn [bind].
    rewrite LD. cbn [bind]. rewrite E3. cbn [bind]. rewrite E4. cbn [bind].
    destruct (put256_iter _ c4 F I S4) as (it' & -> & I' & _). cbn [bind]. eauto. }
  unfold adr_string in K. destruct (e_fam E) eqn:F; [|apply K; discriminate|apply K; discriminate].
  clear K. cbn [PRF shake_hashes].
  unfold ts_shake256_prf. destruct (iter_sizeK _ F I) as [B L]. pose proof (n_bounds E) as Hn.
  destruct (getshake_any le _ B L) as (s0 & -> & L0). cbn [bind].
  ok_step RK_init s1 R1; [exact L0|].
  rewrite ps_n_c, seed_load by exact G. cbn [bind].
  ok_step RK_absorb s2 R2; [exact R1|apply (e_seed_bytes E)|rewrite seed_len; lia|].
  rewrite (adr_read32 c A F HA). cbn [bind].
  ok_step RK_absorb s3 R3; [exact R2|apply adr_string_bytes|pose proof (adr_string_zlen A); lia|].
  rewrite LD. cbn [bind].
  ok_step RK_absorb s4 R4; [exact R3|exact Bsk|rewrite Lsk; lia|].
  edestruct (RK_final (cfg_shake_opt cfg) s4 _ n R4) as (s5 & E5 & s6 & E6 & L6).
  { apply bytes_app; [|exact Bsk]. apply bytes_app; [exact (e_seed_bytes E)|apply adr_string_bytes]. }
  { lia. }
  rewrite E5. cbn [bind]. rewrite E6. cbn [bind].
  destruct (putK_iter _ s6 F I L6) as (it' & -> & I' & _). cbn [bind]. exists it'. split; [|exact I'].
  unfold adr_string. rewrite F. cbn [app]. rewrite <- app_assoc. reflexivity.
Qed.

Lemma f_ok inb X c A : good E c -> adr_rep E (c_adr c) A -> rd_range inb 0 n = Ok X -> str_ok X ->
  exists it, call_f cfg mem inb c = Ok (hF hs seed A X, set_small_iter it c) /\ iter_ok it.
Proof.
  intros G HA HX [LX BX]. unfold call_f. rewrite (g_ps E c G), ps_f_eq.
  pose proof (small_ok c G) as I. pose proof (n_bounds E) as Hn.
  assert (K : e_fam E <> FShake -> exists it, ts_sha2_f_simple cfg mem inb c =
     Ok (Trunc n (sha2 SHA256 (seed ++ zero_bytes (64 - n) ++ adr_string E A ++ X)), set_small_iter it c)
     /\ iter_ok it).
  { intros F. unfold ts_sha2_f_simple. destruct (iter_size256 _ F I) as [B L].
    destruct (get256_any le _ B L) as (s0 & -> & S0). cbn [bind].
    destruct (sha2_one s0 c A X G F S0 HA (conj LX BX)) as (c1 & -> & c2 & E2 & c3 & E3 & c4 & E4 & S4).
    cbn [bind]. rewrite (adr_read22 c A F HA). cbn [bind]. rewrite E2, ps_n_c by exact G. cbn [bind].
    rewrite HX. cbn [bind]. rewrite E3. cbn [bind]. rewrite E4. cbn [bind].
    destruct (put256_iter _ c4 F I S4) as (it' & -> & I' & _). cbn [bind]. eauto. }
  pose proof (init_t_ok (c_small_iter c) A c G I HA) as T1. unfold call_init_t in T1.
  rewrite (g_ps E c G), ps_init_eq in T1.
  pose proof (fun it D => next_t_ok it A D inb X c G) as T2. unfold call_next_t in T2.
  rewrite (g_ps E c G), ps_next_eq in T2.
  pose proof (fun it D => final_t_ok it A D c G) as T3. unfold call_final_t in T3.
  rewrite (g_ps E c G), ps_final_eq in T3.
  rewrite hs_eq. rewrite hs_eq in T3.
  unfold adr_string in K. destruct (e_fam E) eqn:F; [|apply K; discriminate|apply K; discriminate].
  unfold ts_shake256_f_simple.
  destruct T1 as (it1 & -> & I1). cbn [bind].
  destruct (T2 it1 [] I1 HX (conj LX BX)) as (it2 & -> & I2). cbn [bind]. cbn [app] in I2.
  destruct (T3 it2 X I2) as (it3 & -> & I3); [lia|]. cbn [bind]. exists it3. split; [reflexivity|exact I3].
Qed.

(** ** Results have n bytes *)
Lemma Trunc_ok (l : list Z) : n <= zlen l -> is_bytes l -> str_ok (Trunc n l).
Proof.
  intros L B. pose proof (n_bounds E). unfold Trunc. split; [|apply Forall_firstn', B].
  unfold zlen in *. rewrite firstn_length. lia.
Qed.
Lemma D256_ok m : str_ok (Trunc n (sha2 SHA256 m)).
Proof.
  pose proof (n_bounds E). apply Trunc_ok; [|apply D256_bytes].
  pose proof (D256_len m) as L. unfold D256 in L. unfold zlen. rewrite L. lia.
Qed.
Lemma D512_ok m : str_ok (Trunc n (sha2 SHA512 m)).
Proof.
  pose proof (n_bounds E). apply Trunc_ok; [|apply D512_bytes].
  pose proof (D512_len m) as L. unfold D512 in L. unfold zlen. rewrite L. lia.
Qed.
Lemma shake_ok m : is_bytes m -> str_ok (shake256 m n).
Proof.
  intros H. pose proof (n_bounds E). split; [|apply PfShake.shake256_bytes, H].
  unfold zlen. rewrite PfShake.shake256_length by exact H. lia.
Qed.
Lemma adrs_bytes_bytes A : is_bytes (adrs_bytes A).
Proof.
  unfold adrs_bytes. do 5 (apply bytes_app; [apply toByte_bytes|]). apply toByte_bytes.
Qed.
Lemma hF_ok A X : is_bytes X -> str_ok (hF hs seed A X).
Proof.
  intros B. rewrite hs_eq. destruct (e_fam E); [|apply D256_ok|apply D256_ok].
  apply shake_ok. apply bytes_app; [apply (e_seed_bytes E)|]. apply bytes_app; [apply adrs_bytes_bytes|exact B].
Qed.
Lemma hT_ok A X : is_bytes X -> str_ok (hT hs seed A X).
Proof.
  intros B. rewrite hs_eq. destruct (e_fam E); [|apply D256_ok|apply D512_ok].
  apply shake_ok. apply bytes_app; [apply (e_seed_bytes E)|]. apply bytes_app; [apply adrs_bytes_bytes|exact B].
Qed.
Lemma hH_ok A X : is_bytes X -> str_ok (hH hs seed A X).
Proof. rewrite hH_hT. apply hT_ok. Qed.
Lemma PRF_ok A sk : is_bytes sk -> str_ok (PRF hs seed sk A).
Proof.
  intros B. rewrite hs_eq. destruct (e_fam E); [|apply D256_ok|apply D256_ok].
  apply shake_ok. apply bytes_app; [apply (e_seed_bytes E)|]. apply bytes_app; [apply adrs_bytes_bytes|exact B].
Qed.
End Glue.
