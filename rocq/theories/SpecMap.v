(** * Which FIPS 205 parameter set each parameter set constant of the API stands for *)
From Verif Require Import SpecSLH ModelParams.

Definition slh_of (p : ps_name) : params :=
  match p with
  | SHAKE_128f => SLH_DSA_SHAKE_128f
  | SHAKE_128s => SLH_DSA_SHAKE_128s
  | SHAKE_192f => SLH_DSA_SHAKE_192f
  | SHAKE_192s => SLH_DSA_SHAKE_192s
  | SHAKE_256f => SLH_DSA_SHAKE_256f
  | SHAKE_256s => SLH_DSA_SHAKE_256s
  | SHA2_128f => SLH_DSA_SHA2_128f
  | SHA2_128s => SLH_DSA_SHA2_128s
  | SHA2_192f => SLH_DSA_SHA2_192f
  | SHA2_192s => SLH_DSA_SHA2_192s
  | SHA2_256f => SLH_DSA_SHA2_256f
  | SHA2_256s => SLH_DSA_SHA2_256s
  end.
