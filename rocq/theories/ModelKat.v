(** * Model of the known answer tests of /repo: test_sha512.c, test_shake.c,
      test_testvector.c (what they print is left out) *)
From Coq Require Import String.
From Verif Require Import CSem ModelParams ModelCtx ModelSha256 ModelSha512 ModelFips202 ModelSphincs ModelVerify ModelKeygen ModelTest.

Local Open Scope string_scope.
Local Open Scope list_scope.
Local Open Scope Z_scope.

(** test_sha512.c:39,52,77, test_shake.c:51, test_testvector.c:131,180: memcmp( a, b, n ) == 0 *)
Definition same (a b : list Z) (n : Z) : outcome bool :=
  x <- rd_range a 0 n ;;
  y <- rd_range b 0 n ;;
  Ok (if list_eq_dec Z.eq_dec x y then true else false).

(** ** test_sha512.c *)
Section Sha512.
Variable le : bool.
(** test_sha512.c:31-35: the message in pieces of [n] bytes, from byte [j] on *)
Fixpoint pieces_512 (fuel : nat) (message : list Z) (len_message n j : Z) (ctx : sha512_ctx) : outcome sha512_ctx :=
  match fuel with
  | O => UB NonTermination
  | S fuel =>
    if j <? len_message then
      let this_len := u32 (len_message - j) in
      let this_len := if n <? this_len then n else this_len in
      src <- rd_range message j this_len ;;
      ctx <- ts_SHA512_update le ctx src ;;
      pieces_512 fuel message len_message n (u32 (j + n)) ctx
    else Ok ctx
  end.
(** test_sha512.c:28-43: all sizes of the pieces; false: mismatch *)
Fixpoint sizes_512 (fuel : nat) (expected_result message : list Z) (len_message n : Z) (ctx : sha512_ctx) : outcome (bool * sha512_ctx) :=
  match fuel with
  | O => UB NonTermination
  | S fuel =>
    if n <=? len_message then
      let ctx := ts_SHA512_init ctx in
      ctx <- pieces_512 (S (Z.to_nat len_message)) message len_message n 0 ctx ;;
      '(digest, ctx) <- ts_SHA512_final le ctx ;;
      actual_result <- wr_range (repeat 0 64) 0 digest ;;
      eq <- same expected_result actual_result 64 ;;
      if negb eq then Ok (false, ctx) else
      sizes_512 fuel expected_result message len_message (u32 (n + 1)) ctx
    else Ok (true, ctx)
  end.
(** test_sha512.c:56-61: are the bytes from [i] on zero? *)
Fixpoint untouched (fuel : nat) (actual_result : list Z) (i : Z) : outcome bool :=
  match fuel with
  | O => UB NonTermination
  | S fuel =>
    if i <? 64 then
      x <- rd actual_result i ;;
      if negb (x =? 0) then Ok false else untouched fuel actual_result (i + 1)
    else Ok true
  end.
(** test_sha512.c:45-62: shorter digests; [filled n] is the context after memset *)
Fixpoint trunc_512 (fuel : nat) (filled : Z -> sha512_ctx) (expected_result message : list Z) (len_message n : Z) (ctx : sha512_ctx) : outcome (bool * sha512_ctx) :=
  match fuel with
  | O => UB NonTermination
  | S fuel =>
    if n <=? 64 then
      let ctx := filled n in
      let ctx := ts_SHA512_init ctx in
      src <- rd_range message 0 len_message ;;
      ctx <- ts_SHA512_update le ctx src ;;
      '(digest, ctx) <- ts_SHA512_final_trunc le ctx n ;;
      actual_result <- wr_range (repeat 0 64) 0 digest ;;
      eq <- same expected_result actual_result n ;;
      if negb eq then Ok (false, ctx) else
      ok <- untouched 65 actual_result n ;;
      if negb ok then Ok (false, ctx) else
      trunc_512 fuel filled expected_result message len_message (n + 8) ctx
    else Ok (true, ctx)
  end.
(** test_sha512.c:23-84 [test]; [ctx] is the uninitialised context *)
Definition test_one_512 (ctx : sha512_ctx) (filled : Z -> sha512_ctx) (expected_result message : list Z) (len_message : Z) : outcome Z :=
  '(ok, ctx) <- sizes_512 (S (S (Z.to_nat len_message))) expected_result message len_message 1 ctx ;;
  if negb ok then Ok 0 else
  '(ok, ctx) <- trunc_512 9 filled expected_result message len_message 8 ctx ;;
  if negb ok then Ok 0 else
  (* save and restore *)
  if 128 <=? len_message then
    let ctx := ts_SHA512_init ctx in
    src <- rd_range message 0 128 ;;
    ctx <- ts_SHA512_update le ctx src ;;
    save_state <- ts_SHA512_save_state ctx ;;
    let restore_ctx := filled 42 in
    restore_ctx <- ts_SHA512_restore_state_after_128 restore_ctx save_state ;;
    src <- rd_range message 128 (len_message - 128) ;;
    restore_ctx <- ts_SHA512_update le restore_ctx src ;;
    '(digest, restore_ctx) <- ts_SHA512_final le restore_ctx ;;
    actual_result <- wr_range (repeat 0 64) 0 digest ;;
    eq <- same expected_result actual_result 64 ;;
    if negb eq then Ok 0 else Ok 1
  else Ok 1.
(** test_sha512.c:86-180 [test_sha512]: one vector after the other; each has its own
    context *)
Fixpoint run_512 (ctx : nat -> sha512_ctx) (filled : Z -> sha512_ctx) (vectors : list (list Z * list Z)) : outcome Z :=
  match vectors with
  | [] => Ok 1
  | (message, output) :: rest =>
    r <- test_one_512 (ctx (List.length rest)) filled output message (zlen message) ;;
    if r =? 0 then Ok 0 else run_512 ctx filled rest
  end.
End Sha512.

(** test_sha512.c:92-175: the messages and outputs *)
Definition vectors_512 : list (list Z * list Z) := [
  ([97; 98; 99],
   [221; 175; 53; 161; 147; 97; 122; 186; 204; 65; 115; 73; 174; 32; 65; 49; 18; 230; 250; 78; 137; 169;
     126; 162; 10; 158; 238; 230; 75; 85; 211; 154; 33; 146; 153; 42; 39; 79; 193; 168; 54; 186; 60; 35;
     163; 254; 235; 189; 69; 77; 68; 35; 100; 60; 232; 14; 42; 154; 201; 79; 165; 76; 164; 159]);
  ([97; 98; 99; 100; 101; 102; 103; 104; 98; 99; 100; 101; 102; 103; 104; 105; 99; 100; 101; 102; 103;
     104; 105; 106; 100; 101; 102; 103; 104; 105; 106; 107; 101; 102; 103; 104; 105; 106; 107; 108; 102;
     103; 104; 105; 106; 107; 108; 109; 103; 104; 105; 106; 107; 108; 109; 110; 104; 105; 106; 107; 108;
     109; 110; 111; 105; 106; 107; 108; 109; 110; 111; 112; 106; 107; 108; 109; 110; 111; 112; 113; 107;
     108; 109; 110; 111; 112; 113; 114; 108; 109; 110; 111; 112; 113; 114; 115; 109; 110; 111; 112; 113;
     114; 115; 116; 110; 111; 112; 113; 114; 115; 116; 117],
   [142; 149; 155; 117; 218; 227; 19; 218; 140; 244; 247; 40; 20; 252; 20; 63; 143; 119; 121; 198; 235;
     159; 127; 161; 114; 153; 174; 173; 182; 136; 144; 24; 80; 29; 40; 158; 73; 0; 247; 228; 51; 27; 153;
     222; 196; 181; 67; 58; 199; 211; 41; 238; 182; 221; 38; 84; 94; 150; 229; 91; 135; 75; 233; 9]);
  (repeat 0 111,
   [119; 221; 211; 165; 66; 229; 48; 253; 4; 123; 137; 119; 198; 87; 186; 108; 231; 47; 20; 146; 227;
     96; 178; 178; 33; 44; 210; 100; 231; 94; 192; 56; 130; 228; 255; 5; 37; 81; 122; 180; 32; 125; 20;
     199; 12; 34; 89; 186; 136; 212; 211; 53; 238; 14; 126; 32; 84; 61; 34; 16; 42; 177; 120; 140]);
  (repeat 0 112,
   [43; 226; 231; 136; 200; 168; 173; 234; 169; 200; 154; 127; 120; 144; 76; 172; 234; 110; 57; 41; 125;
     117; 224; 87; 58; 115; 199; 86; 35; 69; 52; 214; 98; 122; 180; 21; 107; 72; 166; 101; 123; 41; 171;
     139; 235; 115; 51; 64; 64; 173; 57; 234; 216; 20; 70; 187; 9; 199; 7; 4; 236; 112; 121; 82]);
  (repeat 0 113,
   [14; 103; 145; 11; 207; 15; 156; 205; 229; 70; 76; 99; 185; 200; 80; 161; 42; 117; 146; 39; 209; 107;
     4; 13; 152; 152; 109; 84; 37; 63; 159; 52; 50; 35; 24; 229; 107; 143; 235; 134; 197; 251; 34; 112;
     237; 135; 243; 18; 82; 247; 246; 132; 147; 238; 117; 151; 67; 144; 155; 215; 94; 75; 181; 68]);
  (repeat 0 1000,
   [202; 61; 255; 97; 187; 35; 71; 122; 166; 8; 123; 39; 80; 130; 100; 166; 249; 18; 110; 227; 160; 4;
     245; 60; 184; 219; 148; 46; 211; 69; 242; 242; 210; 41; 180; 181; 156; 133; 146; 32; 161; 207; 25;
     19; 243; 66; 72; 227; 128; 59; 171; 101; 14; 132; 154; 61; 154; 112; 158; 220; 9; 174; 74; 118])].

(** ** test_shake.c *)
Section Shake.
Variable opt : Z.   (* TS_SHAKE256_OPT *)
(** test_shake.c:35-39: the message in pieces of [n] bytes, from byte [j] on *)
Fixpoint pieces_shake (fuel : nat) (message : list Z) (len_message n j : Z) (ctx : list Z) : outcome (list Z) :=
  match fuel with
  | O => UB NonTermination
  | S fuel =>
    if j <? len_message then
      let this_len := u32 (len_message - j) in
      let this_len := if n <? this_len then n else this_len in
      src <- rd_range message j this_len ;;
      ctx <- ts_shake256_inc_absorb opt ctx src ;;
      pieces_shake fuel message len_message n (u32 (j + n)) ctx
    else Ok ctx
  end.
(** test_shake.c:47-55: the output in pieces of at most [max_out_len] bytes, from byte [j]
    on; false: mismatch *)
Fixpoint outputs_shake (fuel : nat) (expected_result actual_result : list Z) (len_expected_result max_out_len j : Z) (ctx : list Z) : outcome (bool * list Z) :=
  match fuel with
  | O => UB NonTermination
  | S fuel =>
    if j <? len_expected_result then
      let this_len := u32 (len_expected_result - j) in
      let this_len := if max_out_len <? this_len then max_out_len else this_len in
      '(out, ctx) <- ts_shake256_inc_squeeze opt this_len ctx ;;
      actual_result <- wr_range actual_result 0 out ;;
      rest <- rd_range expected_result j (zlen expected_result - j) ;;
      eq <- same rest actual_result this_len ;;
      if negb eq then Ok (false, ctx) else
      outputs_shake fuel expected_result actual_result len_expected_result max_out_len (u32 (j + this_len)) ctx
    else Ok (true, ctx)
  end.
(** test_shake.c:32-56: all sizes of the pieces *)
Fixpoint sizes_shake (fuel : nat) (expected_result : list Z) (len_expected_result : Z) (message : list Z) (len_message n : Z) (ctx : list Z) : outcome Z :=
  match fuel with
  | O => UB NonTermination
  | S fuel =>
    if n <=? len_message then
      ctx <- ts_shake256_inc_init ctx ;;
      ctx <- pieces_shake (S (Z.to_nat len_message)) message len_message n 0 ctx ;;
      ctx <- ts_shake256_inc_finalize ctx ;;
      let max_out_len := if 128 <? n then 128 else n in
      '(eq, ctx) <- outputs_shake (S (Z.to_nat len_expected_result)) expected_result (repeat 0 128) len_expected_result max_out_len 0 ctx ;;
      if negb eq then Ok 0 else
      sizes_shake fuel expected_result len_expected_result message len_message (u32 (n + 1)) ctx
    else Ok 1
  end.
(** test_shake.c:26-59 [test]; [ctx] is the uninitialised context *)
Definition test_one_shake (ctx : list Z) (expected_result : list Z) (len_expected_result : Z) (message : list Z) (len_message : Z) : outcome Z :=
  sizes_shake (S (S (Z.to_nat len_message))) expected_result len_expected_result message len_message 1 ctx.
(** test_shake.c:61-200 [test_shake256]: one vector after the other *)
Fixpoint run_shake (ctx : nat -> list Z) (vectors : list (list Z * list Z)) : outcome Z :=
  match vectors with
  | [] => Ok 1
  | (message, output) :: rest =>
    r <- test_one_shake (ctx (List.length rest)) output (zlen output) message (zlen message) ;;
    if r =? 0 then Ok 0 else run_shake ctx rest
  end.
End Shake.
(** test_shake.c:71-195: the messages and outputs *)
Definition vectors_shake : list (list Z * list Z) := [
  ([33; 237; 166],
   [247; 208; 43; 69; 18; 190; 93; 220; 194; 93; 20; 140; 113; 102; 77; 253; 52; 225; 106; 190; 162;
     109; 110; 114; 135; 244; 94; 8; 237; 111; 205; 135]);
  ([54; 47; 30; 176; 11; 55; 169; 97; 59; 26; 232; 43; 144; 69; 37; 121; 212; 47; 139; 31; 158; 222;
     149; 248; 107; 173; 198; 205; 240; 76; 155; 121; 175; 8; 190; 75; 201; 77; 124; 172; 19; 105; 121;
     2; 107; 146; 162; 212; 77; 43; 100; 46; 161; 67; 27; 71; 215; 95; 206; 97; 54; 121; 25; 241; 113;
     72; 106; 0; 124; 194; 113; 209; 157; 224; 209; 196; 198; 161; 28; 122; 34; 81; 254; 58; 238; 11;
     184; 147; 138; 125; 208; 67; 208; 235; 7; 88; 164; 118; 140; 149; 204; 159; 111; 23; 3; 7; 88; 57;
     72; 120; 121; 180; 124; 41; 193; 11; 44; 62; 83; 38; 172; 143; 54; 60; 101; 170; 78; 247; 111; 27;
     139; 211; 99; 235; 96],
   [198; 206; 96; 193; 133; 46; 167; 128; 237; 132; 90; 172; 76; 166; 163; 14; 9; 245; 192; 6; 76; 150;
     117; 134; 81; 120; 113; 124; 254; 177; 220; 151]);
  ([216; 241; 43; 151; 248; 29; 71; 174; 187; 251; 115; 20; 255; 4; 23; 44; 242; 190; 113; 195; 119;
     142; 35; 139; 204; 205; 238; 203; 105; 31; 189; 84; 43; 0; 229; 183; 177; 160; 171; 181; 7; 241; 7;
     247; 129; 254; 167; 0; 234; 126; 55; 95; 222; 169; 224; 41; 117; 74; 14; 166; 34; 22; 119; 75; 218;
     60; 89; 232; 120; 61; 2; 35; 96; 254; 150; 37; 98; 28; 13; 147; 226; 127; 123; 192; 54; 50; 148; 33;
     80; 113; 111; 1; 157; 4; 138; 117; 44; 204; 15; 147; 19; 156; 85; 223; 15; 74; 170; 6; 106; 5; 80;
     207; 34; 232; 197; 78; 71; 208; 71; 91; 165; 107; 152; 66; 163; 146; 255; 188; 107; 217; 143; 30;
     75; 100; 171; 209],
   [226; 225; 196; 50; 221; 7; 194; 238; 137; 167; 143; 49; 33; 28; 146; 238; 181; 48; 108; 79; 164;
     219; 147; 196; 229; 205; 67; 8; 13; 96; 121; 228]);
  ([161; 13; 5; 215; 229; 30; 117; 220; 21; 15; 100; 14; 196; 114; 40; 55; 34; 11; 134; 223; 42; 53;
     128; 202; 28; 130; 110; 194; 46; 162; 80; 151; 126; 134; 99; 99; 76; 196; 242; 18; 102; 62; 111; 34;
     227; 255; 194; 168; 20; 101; 225; 148; 184; 133; 161; 53; 111; 203; 204; 0; 114; 225; 115; 141; 128;
     210; 133; 226; 28; 112; 161; 244; 245; 243; 41; 107; 166; 226; 152; 166; 159; 55; 21; 255; 99; 190;
     72; 80; 245; 190; 108; 182; 140; 219; 165; 148; 142; 59; 148; 219; 188; 232; 41; 137; 170; 117; 185;
     112; 115; 229; 81; 57; 170; 200; 73; 168; 148; 167; 28; 34; 148; 162; 119; 108; 230; 88; 143; 181;
     144; 7; 184; 215; 150; 244; 52; 218; 110],
   [2; 241; 123; 248; 109; 199; 183; 249; 195; 251; 150; 228; 179; 161; 12; 165; 116; 205; 15; 141; 237;
     218; 80; 243; 221; 168; 0; 140; 233; 232; 254; 201]);
  ([141; 128; 1; 226; 192; 150; 241; 184; 142; 124; 146; 36; 160; 134; 239; 212; 121; 127; 191; 116;
     168; 3; 58; 45; 66; 42; 43; 107; 143; 103; 71; 228],
   [46; 151; 95; 106; 138; 20; 240; 112; 77; 81; 177; 54; 103; 216; 25; 92; 33; 159; 113; 230; 52; 86;
     150; 196; 159; 164; 185; 208; 142; 146; 37; 211; 211; 147; 147; 66; 81; 82; 201; 126; 113; 221; 36;
     96; 28; 17; 171; 207; 160; 241; 47; 83; 198; 128; 189; 58; 231; 87; 184; 19; 74; 156; 16; 212; 41;
     97; 88; 105; 33; 127; 221; 88; 133; 196; 219; 23; 73; 133; 112; 58; 109; 109; 233; 74; 102; 126;
     172; 48; 35; 68; 58; 131; 55; 174; 27; 198; 1; 183; 109; 125; 56; 236; 60; 52; 70; 49; 5; 240; 211;
     148; 157; 120; 229; 98; 160; 57; 228; 70; 149; 72; 182; 9; 57; 93; 229; 164; 253; 67; 196; 108; 169;
     253; 110; 226; 154; 218; 94; 252; 7])].

(** ** test_testvector.c *)
(** test_testvector.c:38-49: a vector *)
Record kat := Kat { kat_name : string; kat_public_key : list Z; kat_optrand : list Z; kat_hash_sig : list Z }.

(** test_testvector.c:51-82 [lookup_parameter_set] *)
Definition lookup_parameter_set (name : string) : option ps_name :=
  if String.eqb name "sha2_128f_simple" then Some SHA2_128f else
  if String.eqb name "shake_128f_simple" then Some SHAKE_128f else
  if String.eqb name "sha2_128s_simple" then Some SHA2_128s else
  if String.eqb name "shake_128s_simple" then Some SHAKE_128s else
  if String.eqb name "sha2_192f_simple" then Some SHA2_192f else
  if String.eqb name "shake_192f_simple" then Some SHAKE_192f else
  if String.eqb name "sha2_192s_simple" then Some SHA2_192s else
  if String.eqb name "shake_192s_simple" then Some SHAKE_192s else
  if String.eqb name "sha2_256f_simple" then Some SHA2_256f else
  if String.eqb name "shake_256f_simple" then Some SHAKE_256f else
  if String.eqb name "sha2_256s_simple" then Some SHA2_256s else
  if String.eqb name "shake_256s_simple" then Some SHAKE_256s else
  None.

(** test_testvector.c:86-91 [fixed_rand] *)
Definition fixed_rand (n : Z) : Z * list Z := (1, map (fun i => u8 (Z.of_nat i)) (seq 0 (Z.to_nat n))).
(** test_testvector.c:95-99 [optrand_rng], with the contents of optrand_buffer; it is
    called for at most 32 bytes *)
Definition optrand_rng (optrand_buffer : list Z) (n : Z) : Z * list Z := (1, firstn (Z.to_nat n) optrand_buffer).

(** test_testvector.c:122-160: what is not initialised, beside [surroundings]: the context of
    the hash and of the verification, and the array, in each pass of the loop *)
Record locals := Locals { l_hash_ctx : sha256_ctx; l_verify_ctx : ts_context; l_buffers : nat -> list Z }.

Section Vectors.
Variable cfg : config.
(** test_testvector.c:157-173: the loop; [buffers] are the contents of the uninitialised
    array, in each pass *)
Fixpoint kat_loop (fuel : nat) (buffers : nat -> list Z) (m : memory) (ctx : ts_context) (hash_ctx : sha256_ctx) (verify_ctx : ts_context)
  : outcome (bool * sha256_ctx * ts_context) :=
  match fuel with
  | O => UB NonTermination
  | S fuel =>
    '(n, buffer, ctx) <- ts_sign cfg m (buffers fuel) 42 ctx ;;
    if n =? 0 then Ok (true, hash_ctx, verify_ctx) else
    src <- rd_range buffer 0 n ;;
    hash_ctx <- ts_SHA256_update (cfg_le cfg) hash_ctx src ;;
    '(r, verify_ctx) <- ts_update_verify cfg m src n verify_ctx ;;
    if negb (1 =? r) then Ok (false, hash_ctx, verify_ctx) else
    kat_loop fuel buffers m ctx hash_ctx verify_ctx
  end.
(** test_testvector.c:109-193: one vector.  [e] gives the uninitialised arrays and
    addresses as in ModelTest.v (the message is a static array). *)
Definition kat_one (e : surroundings) (u : locals) (v : kat) : outcome Z :=
  match lookup_parameter_set (kat_name v) with
  | None => Ok 0
  | Some p =>
  let ps := the_ps cfg p in
  '(ret, priv, pub) <- ts_gen_key cfg (Some (e_sk e, e_private_key e)) (Some (e_public_key e)) (Some ps) (Some fixed_rand) ;;
  if ret =? 0 then Ok 0 else
  match priv, pub with
  | Some priv, Some pub =>
    let len_public_key := ts_size_public_key ps in
    eq <- same (kat_public_key v) pub len_public_key ;;
    if negb eq then Ok 0 else
    let optrand_buffer := kat_optrand v in
    let m := e_view e priv pub in
    ctx <- ts_init_sign cfg m (e_ctx e) (e_message e) 3 ps (e_sk e) (Some (optrand_rng optrand_buffer)) ;;
    let hash_ctx := ts_SHA256_init (l_hash_ctx u) in
    verify_ctx <- ts_init_verify cfg m (l_verify_ctx u) (e_message e) 3 ps (e_pk e) ;;
    '(ok, hash_ctx, verify_ctx) <- kat_loop (S (Z.to_nat (ts_size_signature ps))) (l_buffers u) m ctx hash_ctx verify_ctx ;;
    if negb ok then Ok 0 else
    '(hash, hash_ctx) <- ts_SHA256_final (cfg_le cfg) hash_ctx ;;
    eq <- same (kat_hash_sig v) hash 32 ;;
    if negb eq then Ok 0 else
    if negb (1 =? ts_verify verify_ctx) then Ok 0 else
    Ok 1
  | _, _ => Ok 0
  end
  end.
(** test_testvector.c:105-197 [test_testvector], for any table of vectors *)
Fixpoint test_testvector (es : nat -> surroundings) (us : nat -> locals) (vectors : list kat) : outcome Z :=
  match vectors with
  | [] => Ok 1
  | v :: rest =>
    r <- kat_one (es (List.length rest)) (us (List.length rest)) v ;;
    if r =? 0 then Ok 0 else test_testvector es us rest
  end.
End Vectors.
(** testvector.h:627-1211: the table, without the parts that the preprocessor leaves out; the
    rest of each array is zero *)
Definition testvectors : list kat := [
  Kat "shake_128f_simple"
    [32; 33; 34; 35; 36; 37; 38; 39; 40; 41; 42; 43; 44; 45; 46; 47; 169; 14; 71; 21; 185; 169; 37; 195;
     50; 128; 23; 103; 253; 120; 99; 113; 0; 0; 0; 0; 0; 0; 0; 0; 0; 0; 0; 0; 0; 0; 0; 0; 0; 0; 0; 0; 0;
     0; 0; 0; 0; 0; 0; 0; 0; 0; 0; 0]
    [181; 186; 114; 211; 160; 186; 194; 45; 240; 189; 230; 188; 250; 158; 65; 161; 0; 0; 0; 0; 0; 0; 0;
     0; 0; 0; 0; 0; 0; 0; 0; 0]
    [211; 191; 40; 70; 200; 153; 70; 132; 55; 111; 89; 86; 153; 11; 145; 176; 117; 135; 99; 138; 112;
     209; 28; 36; 29; 60; 218; 223; 122; 44; 191; 92];
  Kat "shake_192f_simple"
    [48; 49; 50; 51; 52; 53; 54; 55; 56; 57; 58; 59; 60; 61; 62; 63; 64; 65; 66; 67; 68; 69; 70; 71; 63;
     1; 176; 107; 235; 237; 2; 10; 69; 150; 150; 134; 141; 17; 95; 232; 80; 125; 237; 141; 192; 142; 130;
     93; 0; 0; 0; 0; 0; 0; 0; 0; 0; 0; 0; 0; 0; 0; 0; 0]
    [126; 157; 79; 195; 39; 21; 78; 37; 145; 69; 129; 233; 221; 57; 14; 164; 54; 162; 147; 70; 249; 45;
     115; 84; 0; 0; 0; 0; 0; 0; 0; 0]
    [63; 57; 238; 80; 176; 204; 97; 234; 244; 195; 95; 196; 168; 118; 1; 30; 94; 164; 21; 176; 215; 34;
     242; 176; 48; 246; 100; 198; 167; 138; 7; 76];
  Kat "shake_256f_simple"
    [64; 65; 66; 67; 68; 69; 70; 71; 72; 73; 74; 75; 76; 77; 78; 79; 80; 81; 82; 83; 84; 85; 86; 87; 88;
     89; 90; 91; 92; 93; 94; 95; 129; 141; 126; 118; 190; 239; 151; 155; 91; 191; 145; 97; 253; 239; 162;
     27; 208; 254; 11; 254; 25; 21; 122; 87; 17; 168; 222; 138; 143; 104; 120; 230]
    [23; 218; 226; 195; 206; 9; 60; 25; 8; 227; 133; 113; 158; 187; 250; 38; 184; 61; 69; 6; 57; 128;
     194; 28; 242; 241; 203; 184; 114; 108; 112; 89]
    [204; 191; 236; 54; 128; 110; 6; 220; 211; 4; 104; 110; 252; 16; 186; 157; 174; 202; 237; 171; 249;
     56; 51; 227; 133; 191; 193; 213; 43; 195; 197; 20];
  Kat "shake_128s_simple"
    [32; 33; 34; 35; 36; 37; 38; 39; 40; 41; 42; 43; 44; 45; 46; 47; 137; 253; 129; 253; 187; 91; 148;
     18; 155; 20; 118; 27; 220; 107; 246; 130; 0; 0; 0; 0; 0; 0; 0; 0; 0; 0; 0; 0; 0; 0; 0; 0; 0; 0; 0; 0;
     0; 0; 0; 0; 0; 0; 0; 0; 0; 0; 0; 0]
    [180; 132; 39; 98; 9; 5; 212; 21; 20; 203; 69; 241; 229; 143; 32; 192; 0; 0; 0; 0; 0; 0; 0; 0; 0; 0;
     0; 0; 0; 0; 0; 0]
    [31; 100; 196; 9; 91; 74; 86; 237; 162; 123; 245; 133; 9; 55; 87; 126; 86; 13; 198; 72; 83; 156; 115;
     173; 83; 145; 218; 41; 28; 176; 7; 39];
  Kat "shake_192s_simple"
    [48; 49; 50; 51; 52; 53; 54; 55; 56; 57; 58; 59; 60; 61; 62; 63; 64; 65; 66; 67; 68; 69; 70; 71; 235;
     36; 127; 149; 93; 142; 202; 36; 165; 134; 5; 54; 197; 107; 44; 77; 30; 141; 142; 131; 94; 178; 125;
     45; 0; 0; 0; 0; 0; 0; 0; 0; 0; 0; 0; 0; 0; 0; 0; 0]
    [180; 117; 200; 196; 128; 219; 83; 132; 32; 208; 242; 186; 2; 244; 233; 67; 39; 16; 144; 122; 29; 28;
     130; 107; 0; 0; 0; 0; 0; 0; 0; 0]
    [205; 125; 22; 26; 145; 252; 196; 150; 76; 8; 199; 66; 205; 75; 106; 189; 191; 129; 56; 199; 126;
     111; 60; 142; 117; 163; 135; 57; 74; 119; 146; 235];
  Kat "shake_256s_simple"
    [64; 65; 66; 67; 68; 69; 70; 71; 72; 73; 74; 75; 76; 77; 78; 79; 80; 81; 82; 83; 84; 85; 86; 87; 88;
     89; 90; 91; 92; 93; 94; 95; 39; 234; 68; 77; 188; 140; 169; 193; 105; 253; 72; 75; 158; 151; 126;
     183; 122; 79; 35; 53; 80; 117; 126; 2; 92; 241; 128; 237; 231; 232; 131; 159]
    [120; 176; 36; 83; 20; 87; 182; 8; 92; 1; 12; 54; 40; 43; 17; 56; 222; 155; 180; 17; 206; 30; 55;
     101; 153; 68; 65; 144; 237; 77; 159; 174]
    [94; 75; 208; 196; 98; 79; 53; 49; 68; 253; 228; 154; 152; 171; 168; 186; 134; 0; 197; 102; 200; 97;
     130; 21; 161; 27; 65; 113; 236; 44; 127; 185];
  Kat "sha2_128f_simple"
    [32; 33; 34; 35; 36; 37; 38; 39; 40; 41; 42; 43; 44; 45; 46; 47; 59; 86; 232; 22; 132; 127; 0; 3;
     134; 174; 236; 46; 43; 185; 225; 181; 0; 0; 0; 0; 0; 0; 0; 0; 0; 0; 0; 0; 0; 0; 0; 0; 0; 0; 0; 0; 0;
     0; 0; 0; 0; 0; 0; 0; 0; 0; 0; 0]
    [158; 156; 136; 1; 187; 16; 49; 131; 191; 214; 42; 201; 237; 18; 101; 31; 0; 0; 0; 0; 0; 0; 0; 0; 0;
     0; 0; 0; 0; 0; 0; 0]
    [100; 24; 64; 251; 174; 80; 82; 41; 49; 198; 121; 203; 194; 113; 197; 146; 44; 84; 239; 208; 171;
     216; 10; 163; 225; 30; 212; 234; 79; 78; 16; 138];
  Kat "sha2_192f_simple"
    [48; 49; 50; 51; 52; 53; 54; 55; 56; 57; 58; 59; 60; 61; 62; 63; 64; 65; 66; 67; 68; 69; 70; 71; 146;
     54; 204; 235; 187; 58; 144; 172; 36; 82; 221; 137; 222; 73; 218; 177; 52; 14; 192; 36; 25; 162; 135;
     14; 0; 0; 0; 0; 0; 0; 0; 0; 0; 0; 0; 0; 0; 0; 0; 0]
    [197; 1; 32; 159; 35; 202; 154; 139; 219; 110; 199; 177; 76; 134; 123; 202; 34; 186; 143; 66; 230;
     68; 145; 239; 0; 0; 0; 0; 0; 0; 0; 0]
    [25; 132; 234; 206; 230; 38; 4; 247; 14; 160; 217; 129; 96; 37; 104; 155; 80; 147; 8; 92; 69; 171;
     145; 126; 73; 132; 177; 121; 198; 134; 221; 92];
  Kat "sha2_256f_simple"
    [64; 65; 66; 67; 68; 69; 70; 71; 72; 73; 74; 75; 76; 77; 78; 79; 80; 81; 82; 83; 84; 85; 86; 87; 88;
     89; 90; 91; 92; 93; 94; 95; 66; 207; 254; 100; 221; 189; 103; 49; 6; 55; 82; 104; 77; 247; 124; 139;
     88; 194; 37; 220; 107; 73; 18; 8; 145; 107; 101; 78; 161; 57; 49; 118]
    [199; 242; 146; 127; 2; 244; 129; 0; 79; 13; 189; 5; 102; 234; 39; 44; 222; 44; 40; 84; 181; 149;
     227; 179; 211; 193; 162; 35; 80; 195; 148; 170]
    [152; 15; 5; 87; 28; 208; 35; 221; 207; 5; 236; 185; 207; 152; 119; 237; 232; 138; 55; 112; 141; 172;
     238; 32; 15; 218; 101; 212; 75; 59; 225; 186];
  Kat "sha2_128s_simple"
    [32; 33; 34; 35; 36; 37; 38; 39; 40; 41; 42; 43; 44; 45; 46; 47; 153; 12; 230; 41; 135; 146; 177; 40;
     132; 106; 142; 74; 58; 104; 149; 76; 0; 0; 0; 0; 0; 0; 0; 0; 0; 0; 0; 0; 0; 0; 0; 0; 0; 0; 0; 0; 0;
     0; 0; 0; 0; 0; 0; 0; 0; 0; 0; 0]
    [47; 93; 17; 120; 188; 143; 171; 120; 68; 161; 60; 37; 134; 142; 239; 125; 0; 0; 0; 0; 0; 0; 0; 0; 0;
     0; 0; 0; 0; 0; 0; 0]
    [33; 241; 8; 15; 70; 153; 171; 109; 191; 119; 161; 61; 57; 66; 167; 10; 75; 234; 231; 76; 180; 172;
     231; 84; 48; 199; 56; 62; 10; 219; 47; 161];
  Kat "sha2_192s_simple"
    [48; 49; 50; 51; 52; 53; 54; 55; 56; 57; 58; 59; 60; 61; 62; 63; 64; 65; 66; 67; 68; 69; 70; 71; 182;
     242; 130; 206; 17; 111; 245; 155; 206; 45; 159; 196; 166; 124; 96; 49; 218; 189; 206; 50; 108; 52;
     245; 65; 0; 0; 0; 0; 0; 0; 0; 0; 0; 0; 0; 0; 0; 0; 0; 0]
    [133; 11; 227; 206; 88; 98; 164; 101; 127; 14; 242; 52; 201; 26; 71; 43; 244; 48; 44; 17; 254; 79;
     59; 91; 0; 0; 0; 0; 0; 0; 0; 0]
    [88; 187; 48; 14; 162; 237; 220; 159; 77; 55; 145; 147; 28; 172; 107; 145; 193; 118; 46; 101; 19; 30;
     90; 102; 28; 2; 184; 26; 220; 239; 11; 163];
  Kat "sha2_256s_simple"
    [64; 65; 66; 67; 68; 69; 70; 71; 72; 73; 74; 75; 76; 77; 78; 79; 80; 81; 82; 83; 84; 85; 86; 87; 88;
     89; 90; 91; 92; 93; 94; 95; 218; 113; 99; 230; 1; 53; 37; 21; 188; 15; 6; 249; 244; 244; 75; 231; 26;
     90; 101; 238; 157; 202; 85; 117; 207; 74; 123; 109; 74; 135; 214; 226]
    [231; 65; 120; 14; 189; 9; 251; 170; 155; 4; 253; 186; 216; 241; 86; 25; 111; 168; 164; 230; 234; 81;
     76; 25; 190; 1; 106; 48; 225; 2; 56; 42]
    [54; 27; 8; 87; 22; 171; 14; 147; 15; 137; 211; 126; 140; 10; 1; 77; 116; 113; 69; 208; 122; 126; 24;
     37; 255; 198; 125; 128; 198; 41; 207; 38]].
