#!/bin/bash
# Known answers: extract the model to OCaml (zarith) and run it on the reference vectors of
# /repo/testvector.h, as test_testvector.c does.  A test of the model, not a proof.
#   tools/kat.sh [parameter set | all-f | keys] [sha2_opt shake_opt le|be 32|64 (pointers) 4|8 (alignment of uint64_t)]
# Needs compiled theories in rocq/.  A fast set takes minutes, a slow (s) one up to hours.
set -e
D=${KATDIR:-/tmp/katrun}; mkdir -p $D; cd $D
cat > Ex.v <<'EOF'
Require Import ExtrOcamlBasic ExtrOcamlZBigInt ExtrOcamlNatInt ZArith.
From Verif Require Import CSem ModelParams ModelCtx ModelSphincs ModelVerify ModelKeygen ModelSha256.
Extract Constant Z.land => "Z.logand".
Extract Constant Z.lor => "Z.logor".
Extract Constant Z.lxor => "Z.logxor".
Extract Constant Z.lnot => "Z.lognot".
Extract Constant Z.shiftl => "(fun x y -> let y = Z.to_int y in if y >= 0 then Z.shift_left x y else Z.shift_right x (-y))".
Extract Constant Z.shiftr => "(fun x y -> let y = Z.to_int y in if y >= 0 then Z.shift_right x y else Z.shift_left x (-y))".
Extract Constant Z.modulo => "(fun a b -> if Z.equal b Z.zero then a else let r = Z.rem a b in if Z.sign r <> 0 && Z.sign r <> Z.sign b then Z.add r b else r)".
Extract Constant Z.div => "(fun a b -> if Z.equal b Z.zero then Z.zero else Z.fdiv a b)".
Extract Constant Z.leb => "Z.leq".
Extract Constant Z.ltb => "Z.lt".
Extract Constant Z.geb => "Z.geq".
Extract Constant Z.gtb => "Z.gt".
Extract Constant Z.pow => "(fun a b -> if Z.sign b < 0 then Z.zero else Z.pow a (Z.to_int b))".
Extract Constant Z.to_nat => "(fun z -> if Z.sign z <= 0 then 0 else Z.to_int z)".
Extract Constant Z.of_nat => "Z.of_int".
Extract Constant Z.testbit => "(fun a i -> Z.sign i >= 0 && Z.testbit a (Z.to_int i))".
Extract Constant nth_error => "(fun l n -> List.nth_opt l n)".
Extract Constant length => "List.length".
Extraction Blacklist Z List.
Extraction "kat.ml" ts_gen_key ts_init_sign ts_sign ts_init_verify ts_update_verify ts_verify the_ps zero_ctx mem_of
  ts_SHA256_init ts_SHA256_update ts_SHA256_final load ts_size_signature.
EOF
cat > main.ml <<'EOF'
module Z0 = Z
open Kat
module Z = Z0
let z = Z.of_int
let zl = List.map z
let name = Sys.argv.(1)
let ps_of = function
 | "shake_128f_simple" -> SHAKE_128f | "shake_128s_simple" -> SHAKE_128s
 | "shake_192f_simple" -> SHAKE_192f | "shake_192s_simple" -> SHAKE_192s
 | "shake_256f_simple" -> SHAKE_256f | "shake_256s_simple" -> SHAKE_256s
 | "sha2_128f_simple" -> SHA2_128f | "sha2_128s_simple" -> SHA2_128s
 | "sha2_192f_simple" -> SHA2_192f | "sha2_192s_simple" -> SHA2_192s
 | "sha2_256f_simple" -> SHA2_256f | "sha2_256s_simple" -> SHA2_256s | _ -> failwith "?"
let cfg = { cfg_shake=true; cfg_sha2=true; cfg_L5=true; cfg_L3=true; cfg_S=true; cfg_sha2_opt=(Sys.argv.(2)="1");
  cfg_shake_opt = z (int_of_string Sys.argv.(3)); cfg_le = (Sys.argv.(4)="le");
  cfg_ptr64 = (Sys.argv.(5)="64"); cfg_al64 = (Sys.argv.(6)="8") }
let ok = function Ok a -> a | UB _ -> failwith "UB"
let rec upto a b = if a >= b then [] else a :: upto (a+1) b
let rec take n l = if n = 0 then [] else match l with [] -> [] | a::r -> a :: take (n-1) r
let () =
  let (_,pk,opt,hash) = List.find (fun (n,_,_,_) -> n = name) Vec.vectors in
  let ps = the_ps cfg (ps_of name) in
  let n = Z.to_int ps.ps_n in
  let fixed = Some (fun k -> (z 1, zl (upto 0 (Z.to_int k)))) in
  let priv0 = List.init (4*n) (fun _ -> z 0) and pub0 = List.init (2*n) (fun _ -> z 0) in
  let ((r,priv),pub) = ok (ts_gen_key cfg (Some (z 4096, priv0)) (Some pub0) (Some ps) fixed) in
  assert (Z.equal r Z.one);
  let priv = Option.get priv and pub = Option.get pub in
  Printf.printf "%s key %b\n%!" name (pub = zl (take (2*n) pk));
  let privarr = Array.of_list priv and pubarr = Array.of_list pub in
  let mem a = let a = Z.to_int a in
    if a >= 4096 && a < 4096+4*n then Some privarr.(a-4096)
    else if a >= 8192 && a < 8192+2*n then Some pubarr.(a-8192)
    else if a >= 16384 && a < 16387 then Some (z (97+a-16384)) else None in
  if Array.length Sys.argv > 7 then exit 0;
  let ctx0 = zero_ctx cfg ps in
  let rng = Some (fun k -> (z 1, zl (take (Z.to_int k) opt))) in
  let ctx = ref (ok (ts_init_sign cfg mem ctx0 (z 16384) (z 3) ps (z 4096) rng)) in
  let v = ref (ok (ts_init_verify cfg mem ctx0 (z 16384) (z 3) ps (z 8192))) in
  let h0 = ts_SHA256_init { s256_h = zl [0;0;0;0;0;0;0;0]; s256_count = z 0; s256_num = z 0; s256_x = List.init 64 (fun _ -> z 0)} in
  let h = ref h0 in
  let total = ref 0 in
  (try while true do
    let ((k,buf),c) = ok (ts_sign cfg mem (List.init 42 (fun _ -> z 0)) (z 42) !ctx) in
    ctx := c;
    let k = Z.to_int k in
    if k = 0 then raise Exit;
    total := !total + k;
    let b = take k buf in
    h := ok (ts_SHA256_update cfg.cfg_le !h b);
    let (r,v') = ok (ts_update_verify cfg mem b (z k) !v) in
    if not (Z.equal r Z.one) then (print_endline "update failed"; exit 1);
    v := v'
  done with Exit -> ());
  let (d,_) = ok (ts_SHA256_final cfg.cfg_le !h) in
  Printf.printf "%s len %d (%d) hash %b verify %d\n%!" name !total (Z.to_int (ts_size_signature ps)) (d = zl hash) (Z.to_int (ts_verify !v))
EOF
cpp -P /repo/testvector.h | python3 -c '
import re,sys
t=sys.stdin.read()
print("let vectors = [")
for n,a,b,c in re.findall(r"\"(\w+)\",\s*\{([^}]*)\},\s*\{([^}]*)\},\s*\{([^}]*)\}",t):
    f=lambda x:"["+";".join(re.findall(r"0x..",x))+"]"
    print("(\"%s\",%s,%s,%s);"%(n,f(a),f(b),f(c)))
print("]")' > vec.ml
coqc -Q ${ROCQ:-/verif/rocq/theories} Verif Ex.v > /dev/null 2>&1
ocamlfind ocamlopt -O3 -package zarith -linkpkg kat.mli kat.ml vec.ml main.ml -o kat 2>/dev/null
S=${1:-all-f}; [ $# -gt 0 ] && shift
O=${*:-1 2 le 64 8}
case $S in
all-f) for s in sha2_128f sha2_192f sha2_256f shake_128f shake_192f shake_256f; do ./kat ${s}_simple $O; done;;
keys) for h in sha2 shake; do for s in 128f 128s 192f 192s 256f 256s; do ./kat ${h}_${s}_simple $O keyonly; done; done;;
*) ./kat $S $O;;
esac
