(** * Model: the calls in one address space

    In the other files a destination is a separate array.  Here the caller's memory is one
    address space: what a call writes can be read by later calls, and by the rest of the
    same call; buffers may overlap.  Contexts are objects of their own (nothing else
    overlaps them; the library only sees pointers to the caller's buffers).

    Only the functions that write to the caller's memory need another model: ts_sign and
    ts_gen_key.  The other ones (ts_init_sign, ts_init_verify, ts_update_verify,
    ts_verify) write to the context only; their models read the memory as it is.  One
    simplification: ts_update_verify's chunk is read when the call starts, while the
    program copies it piece by piece.  As nothing is written to the memory in between
    this makes no difference, if the whole chunk is readable. *)
From Verif Require Import SpecApi SpecHeap CSem ModelParams ModelCtx ModelHash ModelSphincs ModelVerify ModelKeygen.

(** ** Writing to the caller's memory (no function of /repo: C semantics as in CSem.v) *)
Definition store_byte (m : memory) (a v : Z) : outcome memory :=
  match m a with
  | None => UB BadPointer
  | Some _ => Ok (fun x => if x =? a then Some v else m x)
  end.
Fixpoint store (m : memory) (a : Z) (l : list Z) : outcome memory :=
  match l with
  | [] => Ok m
  | v :: l => m <- store_byte m a v ;; store m (a + 1) l
  end.
(** memcpy within the caller's memory *)
Definition h_memcpy (m : memory) (dst src n : Z) : outcome memory :=
  if (dst <? src + n) && (src <? dst + n) then UB Overlap else
  l <- load m src n ;; store m dst l.

Section Heap.
Variable cfg : config.

(** tiny_sphincs.c:452-539: the loop of [ts_sign] *)
Fixpoint h_sign_loop (fuel : nat) (mem : memory) (dest m : Z) (ctx : ts_context)
  : outcome (Z * memory * ts_context) :=
  match fuel with
  | O => UB NonTermination
  | S fuel' =>
    if m =? 0 then Ok (m, mem, ctx) else
    let n := ps_n (c_ps ctx) in
    let remain := u32 (n - c_buffer_offset ctx) in
    if 0 <? remain then
      let remain := if m <? remain then m else remain in
      src <- rd_range (c_buffer ctx) (c_buffer_offset ctx) remain ;;
      mem <- store mem dest src ;;
      let ctx := set_buffer_offset (u8 (c_buffer_offset ctx + remain)) ctx in
      h_sign_loop fuel' mem (dest + remain) (m - remain) ctx
    else
      o <- sign_switch cfg mem ctx ;;
      match o with
      | Some ctx => h_sign_loop fuel' mem dest m ctx
      | None => Ok (m, mem, ctx)
      end
  end.

(** tiny_sphincs.c:441-542 [ts_sign]: result, memory, context. *)
Definition h_ts_sign (mem : memory) (dest m : Z) (ctx : ts_context)
  : outcome (Z * memory * ts_context) :=
  if (c_state ctx <=? ts_sign_state) || (ts_verify_state <=? c_state ctx) then
    Ok (0, mem, ctx)
  else
    '(m', mem, ctx) <- h_sign_loop (2 * Z.to_nat m + 2) mem dest m ctx ;;
    Ok (u32 (m - m'), mem, ctx).

(** key_gen.c:9-68 [ts_gen_key]: result and memory; NULL is [None]. *)
Definition h_ts_gen_key (mem : memory) (private_key public_key : option Z)
    (ps : option parameter_set) (rng : random_function) : outcome (Z * memory) :=
  match rng, private_key, ps with
  | Some random, Some private_key, Some ps =>
    let n := ps_n ps in
    let '(ret, data) := random (3 * n) in
    mem <- store mem private_key data ;;
    if ret =? 0 then Ok (0, mem) else
    root <- gen_root cfg mem private_key ps ;;
    let pub := CONVERT_PRIVATE_KEY_TO_PUBLIC private_key n in
    mem <- store mem (CONVERT_PUBLIC_KEY_TO_ROOT pub n) root ;;
    match public_key with
    | None => Ok (1, mem)
    | Some public_key =>
      mem <- h_memcpy mem public_key pub (2 * n) ;;
      Ok (1, mem)
    end
  | _, _, _ => Ok (0, mem)
  end.

(** verify.c:101-237 [ts_update_verify] with the chunk in the caller's memory *)
Definition h_ts_update_verify (mem : memory) (sig len : Z) (ctx : ts_context)
  : outcome (Z * ts_context) :=
  chunk <- load mem sig len ;; ts_update_verify cfg mem chunk len ctx.

(** One call: tiny_sphincs.h:187-267; the contexts of a program are numbered. *)
Definition h_call (c : op) (mem : memory) (w : world ts_context)
  : outcome (Z * memory * world ts_context) :=
  match c with
  | OpGenKey sk pk p f =>
    '(r, mem) <- h_ts_gen_key mem sk pk (option_map (the_ps cfg) p) f ;; Ok (r, mem, w)
  | OpInitSign i msg l p sk f =>
    c <- ts_init_sign cfg mem (w i) msg l (the_ps cfg p) sk f ;; Ok (0, mem, set i c w)
  | OpSign i dest m =>
    '(r, mem, c) <- h_ts_sign mem dest m (w i) ;; Ok (r, mem, set i c w)
  | OpInitVerify i msg l p pk =>
    c <- ts_init_verify cfg mem (w i) msg l (the_ps cfg p) pk ;; Ok (0, mem, set i c w)
  | OpUpdateVerify i sig l =>
    '(r, c) <- h_ts_update_verify mem sig l (w i) ;; Ok (r, mem, set i c w)
  | OpVerify i => Ok (ts_verify (w i), mem, w)
  end.

(** A program: tiny_sphincs.h:187-267 *)
Fixpoint h_run (h : list op) (mem : memory) (w : world ts_context)
  : outcome (list Z * memory * world ts_context) :=
  match h with
  | [] => Ok ([], mem, w)
  | c :: h =>
    '(r, mem, w) <- h_call c mem w ;;
    '(rs, mem, w) <- h_run h mem w ;;
    Ok (r :: rs, mem, w)
  end.
End Heap.
