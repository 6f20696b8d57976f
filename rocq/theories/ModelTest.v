(** * Model of the programs of /repo that use the library: test_verify.c, get_space.c,
      get_space2.c

    Not modelled here: what they print, the percentages (floating point), and the measurement
    of the stack in stack.c, for which see ModelMeasure.v. *)
From Verif Require Import CSem ModelParams ModelCtx ModelSphincs ModelVerify ModelKeygen.

(** test_verify.c:8-15 [local_rand]: r is an unsigned int; 32 bits here *)
Fixpoint local_rand_bytes (n : nat) (r : Z) : list Z :=
  match n with
  | O => []
  | S n' => let r := u32 (r + Z.lor (u32 (r * r)) 5) in u8 (Z.shiftr r 8) :: local_rand_bytes n' r
  end.
(** test_verify.c:8-15 *)
Definition local_rand (n : Z) : Z * list Z := (1, local_rand_bytes (Z.to_nat n) 0x1234).

(** get_space2.c:26-31 [fake_rand]: n-1, n-2, ..., 0 *)
Definition fake_rand2 (n : Z) : Z * list Z := (1, map (fun i => u8 (n - 1 - Z.of_nat i)) (seq 0 (Z.to_nat n))).
(** get_space.c:27-32 [fake_rand]: n, n-1, ..., 1 *)
Definition fake_rand1 (n : Z) : Z * list Z := (1, map (fun i => u8 (n - Z.of_nat i)) (seq 0 (Z.to_nat n))).

(** test_verify.c:51-67, 76: what the compiler and the C library decide: contents of the
    uninitialised arrays and context, addresses, the context after memset, the block
    from malloc, and what the library can read when the two key arrays have given contents *)
Record surroundings := Surroundings {
  e_private_key : list Z;                  (* before ts_gen_key *)
  e_public_key : list Z;
  e_sk : Z; e_pk : Z;                      (* addresses of the key arrays *)
  e_message : Z; e_wrong_message : Z;      (* addresses of the messages *)
  e_view : list Z -> list Z -> memory;
  e_ctx : ts_context;
  e_filled : Z -> ts_context;              (* after memset( &ctx, b, sizeof ctx ) *)
  e_malloc : option (list Z)
}.

Section Test.
Variable cfg : config.

(** test_verify.c:60: the message "abc" *)
Definition message : list Z := [97; 98; 99].
(** test_verify.c:174: the wrong message "def" *)
Definition wrong_message : list Z := [100; 101; 102].

(** test_verify.c:77-79 and the same pattern at 87-89, 97-99, 150-154, 165-167, 176-178:
    ts_init_verify, then [u] is expected from ts_update_verify for the first [k] bytes of
    [s], and [v] from ts_verify, which is called only if the first was right. *)
Definition check (m : memory) (ps : parameter_set) (pk msg len : Z) (s : list Z) (k u v : Z) (ctx : ts_context) : outcome (bool * ts_context) :=
  ctx <- ts_init_verify cfg m ctx msg len ps pk ;;
  chunk <- rd_range s 0 k ;;
  '(r, ctx) <- ts_update_verify cfg m chunk k ctx ;;
  if negb (u =? r) then Ok (false, ctx) else
  Ok (v =? ts_verify ctx, ctx).

(** test_verify.c:111-119: the chunks of one size; false: an update failed *)
Fixpoint feed_chunks (fuel : nat) (m : memory) (s : list Z) (len_signature a i : Z) (ctx : ts_context) : outcome (bool * ts_context) :=
  match fuel with
  | O => UB NonTermination
  | S fuel =>
    if i <? len_signature then
      let chunk := u32 (len_signature - i) in
      let chunk := if a <? chunk then a else chunk in
      bytes <- rd_range s i chunk ;;
      '(r, ctx) <- ts_update_verify cfg m bytes chunk ctx ;;
      if negb (1 =? r) then Ok (false, ctx) else
      feed_chunks fuel m s len_signature a (u32 (i + a)) ctx
    else Ok (true, ctx)
  end.

(** test_verify.c:106-126: the sizes of the chunks are Fibonacci numbers *)
Fixpoint all_chunk_sizes (fuel : nat) (filled : Z -> ts_context) (m : memory) (ps : parameter_set) (pk msg len : Z) (s : list Z) (len_signature a b : Z)
    (ctx : ts_context) : outcome (bool * ts_context) :=
  match fuel with
  | O => UB NonTermination
  | S fuel =>
    if a <? len_signature then
      let ctx := filled b in
      ctx <- ts_init_verify cfg m ctx msg len ps pk ;;
      '(ok, ctx) <- feed_chunks (S (Z.to_nat len_signature)) m s len_signature a 0 ctx ;;
      if negb ok then Ok (false, ctx) else
      if negb (1 =? ts_verify ctx) then Ok (false, ctx) else
      all_chunk_sizes fuel filled m ps pk msg len s len_signature (u32 (a + b)) a ctx
    else Ok (true, ctx)
  end.

(** test_verify.c:146-161: the bits of one byte; the array, which is restored *)
Fixpoint flip_bits (fuel : nat) (filled : Z -> ts_context) (m : memory) (ps : parameter_set) (pk msg len : Z) (len_signature bit_increment offset bit : Z)
    (s : list Z) (ctx : ts_context) : outcome (bool * list Z * ts_context) :=
  match fuel with
  | O => UB NonTermination
  | S fuel =>
    if bit <? 8 then
      x <- rd s offset ;;
      s <- wr s offset (u8 (Z.lxor x (Z.shiftl 1 bit))) ;;
      let ctx := filled (offset + bit) in
      '(ok, ctx) <- check m ps pk msg len s len_signature 0 0 ctx ;;
      if negb ok then Ok (false, s, ctx) else
      x <- rd s offset ;;
      s <- wr s offset (u8 (Z.lxor x (Z.shiftl 1 bit))) ;;
      flip_bits fuel filled m ps pk msg len len_signature bit_increment offset (u32 (bit + bit_increment)) s ctx
    else Ok (true, s, ctx)
  end.

(** test_verify.c:133-162: all bytes; the percentages are left out *)
Fixpoint flip_bytes (fuel : nat) (filled : Z -> ts_context) (m : memory) (ps : parameter_set) (pk msg len : Z) (len_signature increment bit_increment offset : Z)
    (s : list Z) (ctx : ts_context) : outcome (bool * list Z * ts_context) :=
  match fuel with
  | O => UB NonTermination
  | S fuel =>
    if offset <? len_signature then
      '(ok, s, ctx) <- flip_bits 9 filled m ps pk msg len len_signature bit_increment offset 0 s ctx ;;
      if negb ok then Ok (false, s, ctx) else
      flip_bytes fuel filled m ps pk msg len len_signature increment bit_increment (offset + increment) s ctx
    else Ok (true, s, ctx)
  end.

(** test_verify.c:20-186 [do_test], for a parameter set of the library *)
Definition do_test (e : surroundings) (p : ps_name) (always fast_flag : bool) (iter : Z) : outcome Z :=
  if fast_flag && negb always then Ok 1 else
  let ps := the_ps cfg p in
  let len_signature := ts_size_signature ps in
  if iter =? 0 then Ok 1 else
  '(ret, priv, pub) <- ts_gen_key cfg (Some (e_sk e, e_private_key e)) (Some (e_public_key e)) (Some ps) (Some local_rand) ;;
  if ret =? 0 then Ok 0 else
  match priv, pub, e_malloc e with
  | Some priv, Some pub, Some s =>
    let m := e_view e priv pub in
    let len_message := zlen message in
    ctx <- ts_init_sign cfg m (e_ctx e) (e_message e) len_message ps (e_sk e) None ;;
    '(r, s, ctx) <- ts_sign cfg m s (len_signature + 1) ctx ;;
    if negb (len_signature =? r) then Ok 0 else
    (* it verifies *)
    '(ok, ctx) <- check m ps (e_pk e) (e_message e) len_message s len_signature 1 1 (e_filled e 63) ;;
    if negb ok then Ok 0 else
    (* too short *)
    '(ok, ctx) <- check m ps (e_pk e) (e_message e) len_message s (len_signature - 1) 1 0 (e_filled e 33) ;;
    if negb ok then Ok 0 else
    (* too long *)
    '(ok, ctx) <- check m ps (e_pk e) (e_message e) len_message s (len_signature + 1) 0 0 (e_filled e 64) ;;
    if negb ok then Ok 0 else
    (* chunks *)
    '(ok, ctx) <- all_chunk_sizes (S (Z.to_nat len_signature)) (e_filled e) m ps (e_pk e) (e_message e) len_message s len_signature 1 1 ctx ;;
    if negb ok then Ok 0 else
    (* flipped bits *)
    let increment := if fast_flag then 5 else 1 in
    let bit_increment := if fast_flag then 8 else 1 in
    '(ok, s, ctx) <- flip_bytes (S (Z.to_nat len_signature)) (e_filled e) m ps (e_pk e) (e_message e) len_message len_signature increment bit_increment 0 s ctx ;;
    if negb ok then Ok 0 else
    (* back to how it was *)
    '(ok, ctx) <- check m ps (e_pk e) (e_message e) len_message s len_signature 1 1 ctx ;;
    if negb ok then Ok 0 else
    (* an incorrect message *)
    '(ok, ctx) <- check m ps (e_pk e) (e_wrong_message e) (zlen wrong_message) s len_signature 0 0 ctx ;;
    if negb ok then Ok 0 else
    Ok 1
  | _, _, _ => Ok 0   (* malloc failed *)
  end.

(** test_verify.c:209-224: the parameter sets and whether they are always tested *)
Definition tests : list (ps_name * bool) :=
  [(SHA2_128s, true); (SHA2_128f, true); (SHAKE_128s, true); (SHAKE_128f, false);
   (SHA2_192s, true); (SHA2_192f, false); (SHAKE_192s, true); (SHAKE_192f, false);
   (SHA2_256s, true); (SHA2_256f, false); (SHAKE_256s, true); (SHAKE_256f, false)].
(** test_verify.c:189-194, 209-224: RUN_TEST one after the other *)
Fixpoint run_tests (es : ps_name -> surroundings) (fast_flag : bool) (iter : Z) (ts : list (ps_name * bool)) : outcome Z :=
  match ts with
  | [] => Ok 1
  | (p, always) :: ts =>
    r <- do_test (es p) p always fast_flag iter ;;
    if r =? 0 then Ok 0 else run_tests es fast_flag iter ts
  end.
(** test_verify.c:196-228 [test_verify] *)
Definition test_verify (es : ps_name -> surroundings) (fast_flag : bool) : outcome Z :=
  r <- run_tests es fast_flag 0 tests ;;
  if r =? 0 then Ok 0 else
  r <- run_tests es fast_flag 1 tests ;;
  if r =? 0 then Ok 0 else Ok 1.

(** get_space2.c:50-54: the loop of [run_sign]; the bytes that were in c after each call
    that returned 1 *)
Fixpoint sign_bytewise (fuel : nat) (m : memory) (c : Z) (ctx : ts_context) : outcome (list Z) :=
  match fuel with
  | O => UB NonTermination
  | S fuel =>
    '(r, d, ctx) <- ts_sign cfg m [c] 1 ctx ;;
    c <- rd d 0 ;;
    if negb (1 =? r) then Ok [] else
    rest <- sign_bytewise fuel m c ctx ;;
    Ok (c :: rest)
  end.
(** get_space2.c:47-55 [run_sign]: the library sees memory [m], with "abc" at [msg] *)
Definition run_sign (fuel : nat) (m : memory) (ctx : ts_context) (msg : Z) (c : Z) (ps : parameter_set) (private_key : Z) : outcome (list Z) :=
  ctx <- ts_init_sign cfg m ctx msg 3 ps private_key None ;;
  sign_bytewise fuel m c ctx.

(** get_space2.c:61-71 [run_verify] *)
Definition run_verify (m : memory) (ctx : ts_context) (ps : parameter_set) (public_key msg len_message : Z) (sig : list Z) (len_sig : Z) : outcome Z :=
  ctx <- ts_init_verify cfg m ctx msg len_message ps public_key ;;
  bytes <- rd_range sig 0 len_sig ;;
  '(_, ctx) <- ts_update_verify cfg m bytes len_sig ctx ;;
  Ok (ts_verify ctx).

(** get_space2.c:82-97 [get_sig_and_public_key]: the signature (None: malloc failed) and
    the public key array.  The arrays as in [surroundings]; the results of the library
    functions are not looked at. *)
Definition get_sig_and_public_key (e : surroundings) (ps : parameter_set) (msg len_message : Z) : outcome (option (list Z) * list Z) :=
  '(_, priv, pub) <- ts_gen_key cfg (Some (e_sk e, e_private_key e)) (Some (e_public_key e)) (Some ps) (Some fake_rand2) ;;
  match priv, pub with
  | Some priv, Some pub =>
    let sig_len := ts_size_signature ps in
    match e_malloc e with
    | None => Ok (None, pub)
    | Some sig =>
      let m := e_view e priv pub in
      ctx <- ts_init_sign cfg m (e_ctx e) msg len_message ps (e_sk e) (Some fake_rand2) ;;
      '(_, sig, _) <- ts_sign cfg m sig sig_len ctx ;;
      Ok (Some sig, pub)
    end
  | _, _ => Ok (None, e_public_key e)
  end.

(** get_space.c:60-79 [get_ver_space], without the measurement: is the signature verified
    successfully?  None: malloc failed.  [ctx] is the uninitialised context of [run_verify]. *)
Definition get_ver_space (e : surroundings) (ps : parameter_set) (ctx : ts_context) : outcome (option Z) :=
  '(sig, pub) <- get_sig_and_public_key e ps (e_message e) 3 ;;
  match sig with
  | None => Ok None
  | Some sig =>
    let sig_len := ts_size_signature ps in
    success <- run_verify (e_view e [] pub) ctx ps (e_pk e) (e_message e) 3 sig sig_len ;;
    Ok (Some success)
  end.

(** get_space.c:46-55 [get_sig_space], without the measurement *)
Definition get_sig_space (fuel : nat) (e : surroundings) (ps : parameter_set) (ctx : ts_context) (c : Z) : outcome (list Z) :=
  '(_, priv, _) <- ts_gen_key cfg (Some (e_sk e, e_private_key e)) None (Some ps) (Some fake_rand1) ;;
  match priv with
  | Some priv => run_sign fuel (e_view e priv []) ctx (e_message e) c ps (e_sk e)
  | None => Ok []
  end.

(** get_space2.c:38-42 [run_keygen]: the private key afterwards.  private_key is static, so
    zero before the first call *)
Definition run_keygen (sk : Z) (ps : parameter_set) : outcome (list Z) :=
  '(_, priv, _) <- ts_gen_key cfg (Some (sk, repeat 0 128)) None (Some ps) (Some fake_rand2) ;;
  match priv with Some priv => Ok priv | None => Ok [] end.
End Test.
