(** * Hash addresses separate all uses of the hash functions (C28) *)
From Verif Require Import Arr SpecSLH SpecMap SpecUses ModelParams PropParams SpecApi SpecParts PfUses.
Ltac Zify.zify_post_hook ::= idtac.

(** Different uses have different addresses, also in the bytes that are hashed (22 for
    SHA-2, 32 for SHAKE). *)
Theorem C28_addresses_separate : forall p u v,
  use_in (slh_of p) u -> use_in (slh_of p) v ->
  address_bytes p (use_address u) = address_bytes p (use_address v) -> u = v.
Proof.
  intros p u v Hu Hv E. apply use_address_inj.
  pose proof (use_small _ (par_slh p) u Hu) as Su. pose proof (use_small _ (par_slh p) v Hv) as Sv.
  unfold address_bytes in E. destruct (is_sha2 p); [apply compressed_inj|apply bytes_inj]; assumption.
Qed.

(** And these are all: whatever the hash functions are replaced by, key generation,
    signing and verifying give the same results if the replacement agrees on the uses
    listed, each asked of the function it is for. *)
Theorem C28_only_these_uses : forall p PKseed hs hs', let P := slh_of p in
  agree_on_uses P PKseed hs hs' ->
  (forall SKseed SKprf, slh_keygen_internal (with_hash P hs) SKseed SKprf PKseed
                      = slh_keygen_internal (with_hash P hs') SKseed SKprf PKseed) /\
  (forall M SK addrnd, slice SK (2 * p_n P) (p_n P) = PKseed ->
     slh_sign_internal (with_hash P hs) M SK addrnd = slh_sign_internal (with_hash P hs') M SK addrnd) /\
  (forall M SIG PK, slice PK 0 (p_n P) = PKseed ->
     slh_verify_internal (with_hash P hs) M SIG PK = slh_verify_internal (with_hash P hs') M SIG PK).
Proof.
  intros p PKseed hs hs' P AG. pose proof (par_slh p) as OK. fold P in OK.
  split; [intros; apply ag_keygen; assumption|]. split; [intros; apply (ag_sign P OK PKseed); assumption|].
  intros. apply (ag_verify P OK PKseed); assumption.
Qed.
(** The scheme's own functions are an instance. *)
Lemma own_hashes p : with_hash (slh_of p) (p_hash (slh_of p)) = slh_of p.
Proof. destruct p; reflexivity. Qed.

(** Cases that meet the hypotheses: two uses that differ only in the last byte of their
    address; the scheme's own hashes against ones that answer nothing when F is asked at
    an address of a tree node. *)
Example two_uses :
  use_in (slh_of SHA2_128f) (WotsStep 3 7 5 34 2) /\ use_in (slh_of SHA2_128f) (WotsStep 3 7 5 34 14) /\
  use_in (slh_of SHA2_128f) (ForsNode (2 ^ 63 - 1) 7 2 500) /\ use_in (slh_of SHAKE_256s) (TreeNode 7 0 8 0).
Proof. cbv; intuition discriminate. Qed.
Example other_hashes : forall p PKseed,
  agree_on_uses (slh_of p) PKseed (p_hash (slh_of p))
    (let hs := p_hash (slh_of p) in
     mkHashes (H_msg hs) (PRF hs) (PRF_msg hs) (fun s A X => if a_type A =? TREE then [] else hF hs s A X) (hH hs) (hT hs)).
Proof.
  intros p PKseed. generalize (p_hash (slh_of p)). intros hs. split; [reflexivity|]. split; [reflexivity|].
  intros u Hu. destruct u; cbn [hF hH hT PRF use_address a_type]; intros; try reflexivity.
  destruct (_ =? 0); reflexivity.
Qed.
Print Assumptions C28_addresses_separate.
Print Assumptions C28_only_these_uses.
