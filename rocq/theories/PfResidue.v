(** * What a hash object holds after its digest was taken

    Two objects that have absorbed the same string are left the same by the
    finalisation, whatever else they contained before. *)
From Verif Require Import Arr SpecSha2 SpecSLH SpecKeccak ModelEndian ModelSha256 ModelSha512 ModelFips202
  ModelParams ModelCtx PfEndian PfIter PfGlueSha SpecResidue.
From Verif Require PfSha256 PfSha512 PfShake PfKeccakBits PfBlocks PfSha2Common.
Ltac Zify.zify_post_hook ::= idtac.

(** ** SHA-256 *)
Lemma upd256 le c m p : PfSha256.repx SHA256 c m -> is_bytes p ->
  exists c', ts_SHA256_update le c p = Ok c' /\ PfSha256.repx SHA256 c' (m ++ p) /\
    s256_count c' = u64 (s256_count c + u64 (8 * zlen p)).
Proof.
  intros Hx Hp. unfold ts_SHA256_update.
  destruct (PfSha256.update_loop_spec SHA256 PfSha256.SHA256_is le (S (S (length p)))
    (mkSha256 (s256_h c) (u64 (s256_count c + u64 (8 * zlen p))) (s256_num c) (s256_x c)) m p)
    as (c' & E & Hr & Ec).
  - destruct Hx; split; assumption.
  - exact Hp.
  - lia.
  - exists c'. auto.
Qed.
Lemma last256 le h k x1 x2 p : length x1 = 64%nat -> length x2 = 64%nat -> firstn 56 x1 = firstn 56 x2 -> length p = 8%nat ->
  ts_SHA256_update le (mkSha256 h k 56 x1) p = ts_SHA256_update le (mkSha256 h k 56 x2) p.
Proof.
  intros L1 L2 HF Lp. unfold ts_SHA256_update. cbn [s256_h s256_count s256_num s256_x].
  generalize (S (length p)) as fuel. intros fuel. cbn [sha256_update_loop s256_num s256_x s256_h s256_count].
  assert (Zp : zlen p = 8) by (unfold zlen; lia). rewrite Zp. cbn [Z.eqb].
  change (8 <? u32 (64 - 56)) with false. change (u32 (64 - 56)) with 8. cbv iota. change (8 =? 64) with false. cbv iota.
  assert (R : rd_range p 0 8 = Ok p) by (apply rd_range_all, Zp). rewrite R. cbn [bind].
  rewrite !wr_range_ok by (unfold zlen in *; lia). cbn [bind].
  change (Z.to_nat 56) with 56%nat. rewrite HF, Lp, !skipn_all2 by lia. reflexivity.
Qed.
Lemma memset256 c1 c2 (k : nat) : s256_num c1 = Z.of_nat k -> s256_num c2 = Z.of_nat k -> (k <= 56)%nat ->
  length (s256_x c1) = 64%nat -> length (s256_x c2) = 64%nat -> firstn k (s256_x c1) = firstn k (s256_x c2) ->
  exists x1 x2, memset (s256_x c1) (s256_num c1) 0 (u32 (56 - s256_num c1)) = Ok x1 /\
    memset (s256_x c2) (s256_num c2) 0 (u32 (56 - s256_num c2)) = Ok x2 /\
    length x1 = 64%nat /\ length x2 = 64%nat /\ firstn 56 x1 = firstn 56 x2.
Proof.
  intros N1 N2 Hk L1 L2 HF. rewrite N1, N2.
  assert (Eu : u32 (56 - Z.of_nat k) = 56 - Z.of_nat k) by (unfold u32; apply Z.mod_small; lia). rewrite Eu.
  rewrite !memset_ok by (unfold zlen; lia). do 2 eexists. split; [reflexivity|]. split; [reflexivity|].
  rewrite Nat2Z.id. set (z := Z.to_nat (56 - Z.of_nat k)). assert (Ez : (k + z = 56)%nat) by (unfold z; lia).
  rewrite !app_length, !firstn_length, repeat_length, !skipn_length.
  split; [lia|]. split; [lia|]. rewrite HF.
  rewrite !(app_assoc (firstn k (s256_x c2))).
  assert (Ln : length (firstn k (s256_x c2) ++ repeat 0 z) = 56%nat) by (rewrite app_length, firstn_length, repeat_length; lia).
  rewrite !firstn_app_exact by (first [exact Ln|symmetry; exact Ln]). reflexivity.
Qed.
(** the digest and the object left do not depend on which object absorbed the string *)
Lemma final256_same le c1 c2 m k : R256 c1 m -> R256 c2 m -> ts_SHA256_final_trunc le c1 k = ts_SHA256_final_trunc le c2 k.
Proof.
  intros [X1 K1] [X2 K2]. unfold ts_SHA256_final_trunc. rewrite K1, K2.
  assert (B1 : is_bytes [128]) by (constructor; [unfold is_byte; lia|constructor]).
  destruct (upd256 le c1 m [128] X1 B1) as (d1 & -> & Y1 & C1). destruct (upd256 le c2 m [128] X2 B1) as (d2 & -> & Y2 & C2).
  cbn [bind]. rewrite K1 in C1. rewrite K2 in C2.
  assert (HC : exists e1 e2 mm, (if 56 <? s256_num d1 then ts_SHA256_update le d1 [0;0;0;0;0;0;0;0] else Ok d1) = Ok e1 /\
    (if 56 <? s256_num d2 then ts_SHA256_update le d2 [0;0;0;0;0;0;0;0] else Ok d2) = Ok e2 /\
    PfSha256.repx SHA256 e1 mm /\ PfSha256.repx SHA256 e2 mm /\ s256_count e1 = s256_count e2 /\ s256_num e1 <= 56).
  { assert (En : s256_num d1 = s256_num d2) by (rewrite (PfSha256.rx_num _ _ _ Y1), (PfSha256.rx_num _ _ _ Y2); reflexivity).
    rewrite <- En. destruct (Z.ltb_spec 56 (s256_num d1)) as [Hgt|Hle].
    - destruct (upd256 le d1 _ (repeat 0 8) Y1 (zeros_bytes' 8)) as (e1 & E1 & Z1 & D1).
      destruct (upd256 le d2 _ (repeat 0 8) Y2 (zeros_bytes' 8)) as (e2 & E2 & Z2 & D2).
      exists e1, e2, ((m ++ [128]) ++ repeat 0 8). split; [exact E1|]. split; [exact E2|]. split; [exact Z1|]. split; [exact Z2|].
      split; [congruence|]. rewrite (PfSha256.rx_num _ _ _ Z1). rewrite (PfSha256.rx_num _ _ _ Y1) in Hgt. unfold zlen in *.
      rewrite PfBlocks.rest_length in * by lia. rewrite !app_length in *. rewrite repeat_length. cbn [length] in *. clear - Hgt.
      Z.to_euclidean_division_equations; lia.
    - exists d1, d2, (m ++ [128]). split; [reflexivity|]. split; [reflexivity|]. split; [exact Y1|]. split; [exact Y2|]. split; [congruence|exact Hle]. }
  destruct HC as (e1 & e2 & mm & -> & -> & Z1 & Z2 & EC & Hn). cbn [bind].
  assert (N1 : s256_num e1 = Z.of_nat (length (PfBlocks.rest 64 mm))) by exact (PfSha256.rx_num _ _ _ Z1).
  assert (N2 : s256_num e2 = Z.of_nat (length (PfBlocks.rest 64 mm))) by exact (PfSha256.rx_num _ _ _ Z2).
  destruct (memset256 e1 e2 _ N1 N2) as (x1 & x2 & -> & -> & L1 & L2 & HF).
  - lia.
  - exact (PfSha256.rx_len _ _ _ Z1).
  - exact (PfSha256.rx_len _ _ _ Z2).
  - rewrite (PfSha256.rx_tail _ _ _ Z1), (PfSha256.rx_tail _ _ _ Z2). reflexivity.
  - cbn [bind]. rewrite (PfSha256.rx_h _ _ _ Z1), (PfSha256.rx_h _ _ _ Z2), EC.
    rewrite (last256 le _ _ x1 x2 (ts_ull_to_bytes (u64 (8 * zlen m)) 8) L1 L2 HF); [reflexivity|].
    rewrite ts_ull_to_bytes_small by (unfold u64; apply Z.mod_pos_bound; lia). apply toByte_length.
Qed.
(** ** SHA-512 *)
Lemma upd512 le c m p : PfSha512.repx SHA512 c m -> is_bytes p ->
  exists c', ts_SHA512_update le c p = Ok c' /\ PfSha512.repx SHA512 c' (m ++ p) /\
    s512_count c' = u64 (s512_count c + u64 (8 * zlen p)).
Proof.
  intros Hx Hp. unfold ts_SHA512_update.
  destruct (PfSha512.update_loop_spec SHA512 PfSha512.SHA512_is le (S (S (length p)))
    (mkSha512 (s512_h c) (u64 (s512_count c + u64 (8 * zlen p))) (s512_num c) (s512_x c)) m p)
    as (c' & E & Hr & Ec).
  - destruct Hx; split; assumption.
  - exact Hp.
  - lia.
  - exists c'. auto.
Qed.
Lemma last512 le h k x1 x2 p : length x1 = 128%nat -> length x2 = 128%nat -> firstn 112 x1 = firstn 112 x2 -> length p = 16%nat ->
  ts_SHA512_update le (mkSha512 h k 112 x1) p = ts_SHA512_update le (mkSha512 h k 112 x2) p.
Proof.
  intros L1 L2 HF Lp. unfold ts_SHA512_update. cbn [s512_h s512_count s512_num s512_x].
  generalize (S (length p)) as fuel. intros fuel. cbn [sha512_update_loop s512_num s512_x s512_h s512_count].
  assert (Zp : zlen p = 16) by (unfold zlen; lia). rewrite Zp. cbn [Z.eqb].
  change (16 <? u32 (128 - 112)) with false. change (u32 (128 - 112)) with 16. cbv iota. change (16 =? 128) with false. cbv iota.
  assert (R : rd_range p 0 16 = Ok p) by (apply rd_range_all, Zp). rewrite R. cbn [bind].
  rewrite !wr_range_ok by (unfold zlen in *; lia). cbn [bind].
  change (Z.to_nat 112) with 112%nat. rewrite HF, Lp, !skipn_all2 by lia. reflexivity.
Qed.
Lemma memset512 c1 c2 (k : nat) : s512_num c1 = Z.of_nat k -> s512_num c2 = Z.of_nat k -> (k <= 112)%nat ->
  length (s512_x c1) = 128%nat -> length (s512_x c2) = 128%nat -> firstn k (s512_x c1) = firstn k (s512_x c2) ->
  exists x1 x2, memset (s512_x c1) (s512_num c1) 0 (u32 (112 - s512_num c1)) = Ok x1 /\
    memset (s512_x c2) (s512_num c2) 0 (u32 (112 - s512_num c2)) = Ok x2 /\
    length x1 = 128%nat /\ length x2 = 128%nat /\ firstn 112 x1 = firstn 112 x2.
Proof.
  intros N1 N2 Hk L1 L2 HF. rewrite N1, N2.
  assert (Eu : u32 (112 - Z.of_nat k) = 112 - Z.of_nat k) by (unfold u32; apply Z.mod_small; lia). rewrite Eu.
  rewrite !memset_ok by (unfold zlen; lia). do 2 eexists. split; [reflexivity|]. split; [reflexivity|].
  rewrite Nat2Z.id. set (z := Z.to_nat (112 - Z.of_nat k)). assert (Ez : (k + z = 112)%nat) by (unfold z; lia).
  rewrite !app_length, !firstn_length, repeat_length, !skipn_length.
  split; [lia|]. split; [lia|]. rewrite HF.
  rewrite !(app_assoc (firstn k (s512_x c2))).
  assert (Ln : length (firstn k (s512_x c2) ++ repeat 0 z) = 112%nat) by (rewrite app_length, firstn_length, repeat_length; lia).
  rewrite !firstn_app_exact by (first [exact Ln|symmetry; exact Ln]). reflexivity.
Qed.
(** the digest and the object left do not depend on which object absorbed the string *)
Lemma final512_same le c1 c2 m k : R512 c1 m -> R512 c2 m -> ts_SHA512_final_trunc le c1 k = ts_SHA512_final_trunc le c2 k.
Proof.
  intros [X1 K1] [X2 K2]. unfold ts_SHA512_final_trunc. rewrite K1, K2.
  assert (B1 : is_bytes [128]) by (constructor; [unfold is_byte; lia|constructor]).
  destruct (upd512 le c1 m [128] X1 B1) as (d1 & -> & Y1 & C1). destruct (upd512 le c2 m [128] X2 B1) as (d2 & -> & Y2 & C2).
  cbn [bind]. rewrite K1 in C1. rewrite K2 in C2.
  assert (HC : exists e1 e2 mm, (if 112 <? s512_num d1 then ts_SHA512_update le d1 [0;0;0;0;0;0;0;0;0;0;0;0;0;0;0;0] else Ok d1) = Ok e1 /\
    (if 112 <? s512_num d2 then ts_SHA512_update le d2 [0;0;0;0;0;0;0;0;0;0;0;0;0;0;0;0] else Ok d2) = Ok e2 /\
    PfSha512.repx SHA512 e1 mm /\ PfSha512.repx SHA512 e2 mm /\ s512_count e1 = s512_count e2 /\ s512_num e1 <= 112).
  { assert (En : s512_num d1 = s512_num d2) by (rewrite (PfSha512.rx_num _ _ _ Y1), (PfSha512.rx_num _ _ _ Y2); reflexivity).
    rewrite <- En. destruct (Z.ltb_spec 112 (s512_num d1)) as [Hgt|Hle].
    - destruct (upd512 le d1 _ (repeat 0 16) Y1 (zeros_bytes' 16)) as (e1 & E1 & Z1 & D1).
      destruct (upd512 le d2 _ (repeat 0 16) Y2 (zeros_bytes' 16)) as (e2 & E2 & Z2 & D2).
      exists e1, e2, ((m ++ [128]) ++ repeat 0 16). split; [exact E1|]. split; [exact E2|]. split; [exact Z1|]. split; [exact Z2|].
      split; [congruence|]. rewrite (PfSha512.rx_num _ _ _ Z1). rewrite (PfSha512.rx_num _ _ _ Y1) in Hgt. unfold zlen in *.
      rewrite PfBlocks.rest_length in * by lia. rewrite !app_length in *. rewrite repeat_length. cbn [length] in *. clear - Hgt.
      Z.to_euclidean_division_equations; lia.
    - exists d1, d2, (m ++ [128]). split; [reflexivity|]. split; [reflexivity|]. split; [exact Y1|]. split; [exact Y2|]. split; [congruence|exact Hle]. }
  destruct HC as (e1 & e2 & mm & -> & -> & Z1 & Z2 & EC & Hn). cbn [bind].
  assert (N1 : s512_num e1 = Z.of_nat (length (PfBlocks.rest 128 mm))) by exact (PfSha512.rx_num _ _ _ Z1).
  assert (N2 : s512_num e2 = Z.of_nat (length (PfBlocks.rest 128 mm))) by exact (PfSha512.rx_num _ _ _ Z2).
  destruct (memset512 e1 e2 _ N1 N2) as (x1 & x2 & -> & -> & L1 & L2 & HF).
  - lia.
  - exact (PfSha512.rx_len _ _ _ Z1).
  - exact (PfSha512.rx_len _ _ _ Z2).
  - rewrite (PfSha512.rx_tail _ _ _ Z1), (PfSha512.rx_tail _ _ _ Z2). reflexivity.
  - cbn [bind]. rewrite (PfSha512.rx_h _ _ _ Z1), (PfSha512.rx_h _ _ _ Z2), EC.
    rewrite (last512 le _ _ x1 x2 (ts_ull_to_bytes (u64 (8 * zlen m)) 16) L1 L2 HF); [reflexivity|].
    rewrite ts_ull_to_bytes_small by (unfold u64; apply Z.mod_pos_bound; lia). apply toByte_length.
Qed.

(** ** The object left: it can be stored and read again, and only depends on the string *)
Lemma ok_inj_ {A} (a b : A) : Ok a = Ok b -> a = b.
Proof. congruence. Qed.

Lemma compress256_count le c b c' : ModelSha256.compress le c b = Ok c' -> s256_count c' = s256_count c.
Proof.
  unfold ModelSha256.compress. intros H. do 9 (apply bind_ok in H as (? & _ & H)).
  apply bind_ok in H as ([xx rr] & _ & H). apply ok_inj_ in H. rewrite <- H. reflexivity.
Qed.
Lemma loop256_count le fuel : forall c p c', sha256_update_loop le fuel c p = Ok c' -> s256_count c' = s256_count c.
Proof.
  induction fuel as [|fuel IH]; intros c p c' H; cbn [sha256_update_loop] in H; [discriminate|].
  destruct (zlen p =? 0); [apply ok_inj_ in H; rewrite <- H; reflexivity|].
  match type of H with context [if ?b =? 64 then _ else _] => destruct (b =? 64) end.
  - apply bind_ok in H as (blk & _ & H). apply bind_ok in H as (d & Ed & H). apply IH in H. rewrite H.
    exact (compress256_count _ _ _ _ Ed).
  - apply bind_ok in H as (src & _ & H). apply bind_ok in H as (x & _ & H).
    match type of H with context [if ?b <? 64 then _ else _] => destruct (b <? 64) end.
    + apply ok_inj_ in H. rewrite <- H. reflexivity.
    + apply bind_ok in H as (d & Ed & H). apply IH in H. rewrite H. exact (compress256_count _ _ _ _ Ed).
Qed.
Lemma final256_count le c k d c' : ts_SHA256_final_trunc le c k = Ok (d, c') -> 0 <= s256_count c' < 2 ^ 64.
Proof.
  unfold ts_SHA256_final_trunc. cbv zeta. intros H. do 3 (apply bind_ok in H as (? & _ & H)).
  apply bind_ok in H as (e & Ee & H). apply bind_ok in H as (? & _ & H). apply ok_inj_ in H.
  assert (Ec : e = c') by congruence. subst e. unfold ts_SHA256_update in Ee. apply loop256_count in Ee. rewrite Ee.
  unfold s256_count, u64. apply Z.mod_pos_bound. lia.
Qed.
Lemma left256 le c m k : R256 c m -> zlen m < 2 ^ 61 -> (k <= 8)%nat ->
  exists c', ts_SHA256_final_trunc le c (4 * Z.of_nat k) = Ok (Trunc (4 * Z.of_nat k) (D256 m), c') /\ shape256 c' /\ ranged256 c' /\
    sha256_leaves le m (4 * Z.of_nat k) c'.
Proof.
  intros H Hl Hk.
  destruct (PfSha256.final_trunc_spec SHA256 PfSha256.SHA256_is le c m k H) as (c' & Ec & m' & Hx).
  - change (len m) with (zlen m). lia.
  - exact Hk.
  - assert (Ec' : ts_SHA256_final_trunc le c (4 * Z.of_nat k) = Ok (Trunc (4 * Z.of_nat k) (D256 m), c')).
    { rewrite Ec. unfold Trunc, D256. do 3 f_equal. clear; lia. }
    exists c'. split; [exact Ec'|]. split; [eapply X256_shape, Hx|]. split.
    + destruct (PfSha256.repx_ctx_ok SHA256 PfSha256.SHA256_is c' m' Hx) as ([_ A] & B & _).
      split; [exact A|]. split; [exact (final256_count _ _ _ _ _ Ec)|lia].
    + intros o0 A0 B0 C0. assert (R0 : R256 (ts_SHA256_init o0) []) by (apply R256_init; split; [exact A0|split; assumption]).
      destruct (R256_update le _ _ m R0) as (o1 & E1 & R1); [apply (PfSha256.rx_msg _ _ _ (PfSha256.rep_x _ _ _ H))|].
      exists o1, (Trunc (4 * Z.of_nat k) (D256 m)). split; [exact E1|].
      rewrite (final256_same le o1 c m _ R1 H). exact Ec'.
Qed.

Lemma compress512_count le c b c' : sha512_compress le c b = Ok c' -> s512_count c' = s512_count c.
Proof.
  unfold sha512_compress. intros H. do 9 (apply bind_ok in H as (? & _ & H)).
  apply bind_ok in H as ([xx rr] & _ & H). apply ok_inj_ in H. rewrite <- H. reflexivity.
Qed.
Lemma loop512_count le fuel : forall c p c', sha512_update_loop le fuel c p = Ok c' -> s512_count c' = s512_count c.
Proof.
  induction fuel as [|fuel IH]; intros c p c' H; cbn [sha512_update_loop] in H; [discriminate|].
  destruct (zlen p =? 0); [apply ok_inj_ in H; rewrite <- H; reflexivity|].
  match type of H with context [if ?b =? 128 then _ else _] => destruct (b =? 128) end.
  - apply bind_ok in H as (blk & _ & H). apply bind_ok in H as (d & Ed & H). apply IH in H. rewrite H.
    exact (compress512_count _ _ _ _ Ed).
  - apply bind_ok in H as (src & _ & H). apply bind_ok in H as (x & _ & H).
    match type of H with context [if ?b <? 128 then _ else _] => destruct (b <? 128) end.
    + apply ok_inj_ in H. rewrite <- H. reflexivity.
    + apply bind_ok in H as (d & Ed & H). apply IH in H. rewrite H. exact (compress512_count _ _ _ _ Ed).
Qed.
Lemma final512_count le c k d c' : ts_SHA512_final_trunc le c k = Ok (d, c') -> 0 <= s512_count c' < 2 ^ 64.
Proof.
  unfold ts_SHA512_final_trunc. cbv zeta. intros H. do 3 (apply bind_ok in H as (? & _ & H)).
  apply bind_ok in H as (e & Ee & H). apply bind_ok in H as (? & _ & H). apply ok_inj_ in H.
  assert (Ec : e = c') by congruence. subst e. unfold ts_SHA512_update in Ee. apply loop512_count in Ee. rewrite Ee.
  unfold s512_count, u64. apply Z.mod_pos_bound. lia.
Qed.
Lemma left512 le c m k : R512 c m -> zlen m < 2 ^ 61 -> (k <= 8)%nat ->
  exists c', ts_SHA512_final_trunc le c (8 * Z.of_nat k) = Ok (Trunc (8 * Z.of_nat k) (D512 m), c') /\ shape512 c' /\ ranged512 c' /\
    sha512_leaves le m (8 * Z.of_nat k) c'.
Proof.
  intros H Hl Hk.
  destruct (PfSha512.final_trunc_spec SHA512 PfSha512.SHA512_is le c m k H) as (c' & Ec & m' & Hx).
  - change (len m) with (zlen m). lia.
  - exact Hk.
  - assert (Ec' : ts_SHA512_final_trunc le c (8 * Z.of_nat k) = Ok (Trunc (8 * Z.of_nat k) (D512 m), c')).
    { rewrite Ec. unfold Trunc, D512. do 3 f_equal. clear; lia. }
    exists c'. split; [exact Ec'|]. split; [eapply X512_shape, Hx|]. split.
    + destruct (PfSha512.repx_ctx_ok SHA512 PfSha512.SHA512_is c' m' Hx) as ([_ A] & B & _).
      split; [exact A|]. split; [exact (final512_count _ _ _ _ _ Ec)|lia].
    + intros o0 A0 B0 C0. assert (R0 : R512 (ts_SHA512_init o0) []) by (apply R512_init; split; [exact A0|split; assumption]).
      destruct (R512_update le _ _ m R0) as (o1 & E1 & R1); [apply (PfSha512.rx_msg _ _ _ (PfSha512.rep_x _ _ _ H))|].
      exists o1, (Trunc (8 * Z.of_nat k) (D512 m)). split; [exact E1|].
      rewrite (final512_same le o1 c m _ R1 H). exact Ec'.
Qed.

(** ** SHAKE256 *)
Lemma sbit_inj L1 L2 : PfKeccakBits.lanes_ok L1 -> PfKeccakBits.lanes_ok L2 ->
  (forall i, (i < 1600)%nat -> PfShake.sbit L1 i = PfShake.sbit L2 i) -> L1 = L2.
Proof.
  intros [O1 N1] [O2 N2] H. apply (nth_ext' 0); [congruence|]. intros i Hi.
  apply Z.bits_inj'. intros z Hz.
  pose proof (Forall_nth' _ L1 0 i O1 Hi) as R1.
  assert (Hi2 : (i < length L2)%nat) by lia. pose proof (Forall_nth' _ L2 0 i O2 Hi2) as R2.
  destruct (Z.lt_ge_cases z 64) as [Hl|Hg].
  - specialize (H (64 * i + Z.to_nat z)%nat). unfold PfShake.sbit in H.
    assert (D : ((64 * i + Z.to_nat z) / 64 = i)%nat).
    { rewrite Nat.mul_comm, Nat.div_add_l by lia. rewrite Nat.div_small by lia. lia. }
    assert (M : ((64 * i + Z.to_nat z) mod 64 = Z.to_nat z)%nat).
    { rewrite Nat.add_comm, Nat.mul_comm, Nat.mod_add by lia. apply Nat.mod_small. lia. }
    rewrite D, M, Z2Nat.id in H by lia. apply H. lia.
  - rewrite !(PfSha2Common.testbit_high 64) by (assumption || lia). reflexivity.
Qed.
Lemma RK_unique s1 s2 m : RK s1 m -> RK s2 m -> s1 = s2.
Proof.
  intros (L1 & K1 & -> & O1 & P1 & S1 & X1) (L2 & K2 & -> & O2 & P2 & S2 & X2). f_equal.
  apply sbit_inj; [exact O1|exact O2|]. intros i Hi. rewrite X1, X2 by exact Hi.
  rewrite <- !PfShake.str_bits by (try apply P1; try apply P2; exact Hi). rewrite S1, S2. reflexivity.
Qed.
Lemma leftK opt s m n : RK s m -> is_bytes m -> zlen m < 2 ^ 61 -> 0 <= n ->
  exists s1, ts_shake256_inc_finalize s = Ok s1 /\
  exists s2, ts_shake256_inc_squeeze opt n s1 = Ok (shake256 m n, s2) /\ length s2 = 26%nat /\ words_ok 8 s2 /\
    shake256_leaves opt m n s2.
Proof.
  intros H Hm Hz Hn. destruct (PfShake.shake_finalize_ok s m H) as (s1 & E1 & F1).
  exists s1; split; [exact E1|]. apply PfShake.frep_srep in F1.
  destruct (PfShake.shake_squeeze_ok opt s1 _ n F1 Hn) as (s2 & E2 & R2).
  exists s2. rewrite <- PfShake.shake256_stream in E2 by exact Hm. split; [exact E2|].
  destruct R2 as (L & k & Es & [OL HL] & Hk & _). split; [rewrite Es, app_length, HL; reflexivity|]. split.
  - rewrite Es. apply Forall_app. split; [exact OL|]. constructor; [|constructor].
    change (2 ^ (8 * Z.of_nat 8)) with 18446744073709551616. lia.
  - intros o0 L0. destruct (RK_init o0 L0) as (o1 & A1 & B1). destruct (RK_absorb opt o1 [] m B1 Hm Hz) as (o2 & A2 & B2).
    cbn [app] in B2. rewrite (RK_unique _ _ _ B2 H) in A2. exists o1, s, s1, (shake256 m n). auto.
Qed.
