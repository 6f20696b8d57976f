(** * SHA-2 sessions *)
From Verif Require Import Arr SpecSha2 ModelEndian ModelSha256 ModelSha512 Sessions PfEndian.
From Verif Require PfSha256 PfSha512.

Lemma feed_nil {S C} (f : S -> C -> outcome S) s : feed f s [] = Ok s.
Proof. reflexivity. Qed.
Lemma fold_UB {S C} (f : S -> C -> outcome S) l r :
  fold_left (fun o p => s <- o ;; f s p) l (UB r) = UB r.
Proof. induction l; cbn; auto. Qed.
Lemma feed_cons {S C} (f : S -> C -> outcome S) s p l :
  feed f s (p :: l) = (s' <- f s p ;; feed f s' l).
Proof.
  unfold feed; cbn [fold_left bind]. destruct (f s p); cbn [bind]; [reflexivity|apply fold_UB].
Qed.
Lemma feed_app {S C} (f : S -> C -> outcome S) s a b :
  feed f s (a ++ b) = (s' <- feed f s a ;; feed f s' b).
Proof.
  revert s; induction a as [|p a IH]; intros s; [reflexivity|].
  rewrite <- app_comm_cons, !feed_cons. destruct (f s p); cbn [bind]; [apply IH|reflexivity].
Qed.

Lemma feed256 le c msg chunks : PfSha256.rep SHA256 c msg -> Forall is_bytes chunks ->
  exists c', feed (ts_SHA256_update le) c chunks = Ok c'
    /\ PfSha256.rep SHA256 c' (msg ++ concat chunks).
Proof.
  revert c msg; induction chunks as [|p l IH]; intros c msg Hc Hl.
  - exists c; split; [reflexivity|]. cbn [concat]; rewrite app_nil_r; exact Hc.
  - inversion Hl; subst.
    destruct (PfSha256.update_spec SHA256 PfSha256.SHA256_is le c msg p) as (c1 & E1 & R1); auto.
    rewrite feed_cons, E1; cbn [bind].
    destruct (IH c1 _ R1) as (c' & E & R); auto. exists c'; split; [exact E|].
    cbn [concat]. rewrite app_assoc. exact R.
Qed.
Lemma feed512 le c msg chunks : PfSha512.rep SHA512 c msg -> Forall is_bytes chunks ->
  exists c', feed (ts_SHA512_update le) c chunks = Ok c'
    /\ PfSha512.rep SHA512 c' (msg ++ concat chunks).
Proof.
  revert c msg; induction chunks as [|p l IH]; intros c msg Hc Hl.
  - exists c; split; [reflexivity|]. cbn [concat]; rewrite app_nil_r; exact Hc.
  - inversion Hl; subst.
    destruct (PfSha512.update_spec SHA512 PfSha512.SHA512_is le c msg p) as (c1 & E1 & R1); auto.
    rewrite feed_cons, E1; cbn [bind].
    destruct (IH c1 _ R1) as (c' & E & R); auto. exists c'; split; [exact E|].
    cbn [concat]. rewrite app_assoc. exact R.
Qed.

Lemma sha256_session_spec le c0 chunks k :
  is_bytes (s256_x c0) -> length (s256_x c0) = 64%nat ->
  Forall is_bytes chunks -> 8 * len (concat chunks) < 2 ^ 64 -> 0 <= k <= 8 ->
  exists c', sha256_session le c0 chunks (4 * k)
    = Ok (firstn (Z.to_nat (4 * k)) (sha2 SHA256 (concat chunks)), c').
Proof.
  intros Hx Lx Hl Hlen Hk. unfold sha256_session.
  destruct (feed256 le (ts_SHA256_init c0) [] chunks) as (c1 & E1 & R1); auto.
  { apply PfSha256.repx_init; auto using PfSha256.SHA256_is. }
  rewrite E1; cbn [bind].
  destruct (PfSha256.final_trunc_spec SHA256 PfSha256.SHA256_is le c1 _ (Z.to_nat k) R1)
    as (c' & E & _); [exact Hlen|lia|].
  replace (4 * k) with (4 * Z.of_nat (Z.to_nat k)) by lia. rewrite E. exists c'.
  do 3 f_equal. lia.
Qed.
Lemma sha512_session_spec le c0 chunks k :
  is_bytes (s512_x c0) -> length (s512_x c0) = 128%nat ->
  Forall is_bytes chunks -> 8 * len (concat chunks) < 2 ^ 64 -> 0 <= k <= 8 ->
  exists c', sha512_session le c0 chunks (8 * k)
    = Ok (firstn (Z.to_nat (8 * k)) (sha2 SHA512 (concat chunks)), c').
Proof.
  intros Hx Lx Hl Hlen Hk. unfold sha512_session.
  destruct (feed512 le (ts_SHA512_init c0) [] chunks) as (c1 & E1 & R1); auto.
  { apply PfSha512.repx_init; auto using PfSha512.SHA512_is. }
  rewrite E1; cbn [bind].
  destruct (PfSha512.final_trunc_spec SHA512 PfSha512.SHA512_is le c1 _ (Z.to_nat k) R1)
    as (c' & E & _); [exact Hlen|lia|].
  replace (8 * k) with (8 * Z.of_nat (Z.to_nat k)) by lia. rewrite E. exists c'.
  do 3 f_equal. lia.
Qed.
Lemma sha2_length v m : (forall H b, length (hash_block v H b) = 8%nat) ->
  length (v_H0 v) = 8%nat ->
  length (sha2 v m) = (8 * Z.to_nat (v_w v / 8))%nat.
Proof.
  intros Hb H0. unfold sha2. set (l := blocks _ _). clearbody l.
  assert (E : forall H, length H = 8%nat -> length (fold_left (hash_block v) l H) = 8%nat).
  { induction l as [|b l IH]; intros H HH; [exact HH|]. cbn [fold_left]. apply IH, Hb. }
  specialize (E _ H0). set (h := fold_left _ _ _) in *. clearbody h. rewrite <- E. clear.
  induction h as [|x h IH]; [reflexivity|]. cbn [flat_map length].
  rewrite app_length, toByte_length, IH. reflexivity.
Qed.
Lemma hash_block_length v H b : length (hash_block v H b) = 8%nat.
Proof. unfold hash_block. destruct (fold_left _ _ _) as [[[[[[[? ?] ?] ?] ?] ?] ?] ?]. reflexivity. Qed.
Lemma sha256_length m : length (sha2 SHA256 m) = 32%nat.
Proof.
  rewrite (sha2_length SHA256 m (hash_block_length _)).
  - rewrite PfSha256.wb256; [reflexivity|apply PfSha256.SHA256_is].
  - rewrite PfSha256.H256_spec; reflexivity.
Qed.
Lemma sha512_length m : length (sha2 SHA512 m) = 64%nat.
Proof.
  rewrite (sha2_length SHA512 m (hash_block_length _)).
  - rewrite PfSha512.wb512; [reflexivity|apply PfSha512.SHA512_is].
  - rewrite PfSha512.H512_spec; reflexivity.
Qed.
