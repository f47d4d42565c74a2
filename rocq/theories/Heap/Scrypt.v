(** The text of Model/Scrypt.v with the recording operations of Ops.v: where the
    Rust code asks for memory or drops an owner of memory, the record says so.

    The drops follow Rust's rules: a local is dropped at the end of its block
    unless it was moved, in reverse order of declaration; an assignment drops
    the old value after the new one has been computed; [into_iter] frees the
    buffer when the loop is over, after handing out the elements. *)
From Coq Require Import NArith List Bool.
From Verif Require Import Rust.
From Verif.Model Require Import Pbkdf2 Salsa20 Scrypt.
From Verif.Heap Require Import Ops.
Import ListNotations.
Local Open Scope N_scope.

(** src/scrypt.rs:73-75 *)
Definition block_xor (a b : Block) : res Block := new_bytes (Model.Scrypt.block_xor a b).

(** Dropping a [Vec<Block>]: its blocks, then its buffer.  Every such vector of
    this file has room for exactly the blocks it holds: it was collected from an
    iterator of known length, or it is a result of [block_mix] on [2r] blocks. *)
Definition drop_lane (T : target) (l : list Block) : res unit :=
  let* _ := for_each l (fun b _ => drop_bytes b) tt in
  give (vec_size T * len l).

(** src/scrypt.rs:107-160 *)
Definition block_mix (T : target) (s : Scrypt) (b : list Block) : res (list Block) :=
  let* r2 := lift (umul T 2 (sr s)) in
  let* j := lift (usub T r2 1) in
  let* x := lift (idx b j) in
  let* x := new_bytes x in
  let* _ := with_capacity T (vec_size T) r2 in
  let* (x, y) := for_each b (fun b_elem xy =>
    let '(x, y) := xy in
    let* t := block_xor x b_elem in
    let* x := lift (salsa20 t SALSA_ROUNDS x) in
    let* y_elem := new_bytes x in
    let* _ := drop_bytes t in
    Ret (x, y ++ [y_elem])) (x, []) in
  let* _ := with_capacity T (vec_size T) r2 in
  let* _ := with_capacity T (vec_size T) (sr s) in
  let '(bs_head, bs_tail) := split_parity 0 y in
  (* the buffer of [y], at the end of the loop that consumes it *)
  let* _ := give (vec_size T * r2) in
  (* [bs_tail], emptied by [append] within the capacity of [bs_head], then [x] *)
  let* _ := give (vec_size T * sr s) in
  let* _ := drop_bytes x in
  Ret (bs_head ++ bs_tail).

(** src/scrypt.rs:210-214 *)
Fixpoint xor_blocks (x v : list Block) : res (list Block) :=
  match x, v with
  | a :: x', b :: v' =>
      let* c := block_xor a b in
      let* cs := xor_blocks x' v' in
      Ret (c :: cs)
  | _, _ => Ret []
  end.

(** src/scrypt.rs:162-219 *)
Definition ro_mix (T : target) (s : Scrypt) (b : list Block) : res (list Block) :=
  let x := b in
  let* _ := with_capacity T (vec_size T) (sn s) in
  let* (x, v) := for_range 0 (sn s) (fun _i xv =>
    let '(x, v) := xv in
    let* t := block_mix T s x in
    Ret (t, v ++ [x])) (x, []) in
  let* x := for_range 0 (sn s) (fun _i x =>
    let* k := lift (integerify T x) in
    let* j := lift (urem (as_usize T k) (sn s)) in
    let* vj := lift (idx v j) in
    let* _ := take (vec_size T * N.min (len x) (len vj)) in
    let* t := xor_blocks x vj in
    let* x' := block_mix T s t in
    let* _ := drop_lane T x in
    let* _ := drop_lane T t in
    Ret x') x in
  (* [v], at the end of the function *)
  let* _ := for_each v (fun l _ => drop_lane T l) tt in
  let* _ := give (vec_size T * sn s) in
  Ret x.

(** src/scrypt.rs:282-290 *)
Definition split_blocks (T : target) (s : Scrypt) (raw_b : list N) : res (list (list Block)) :=
  let* n := lift (umul T (2 * BLOCK_SIZE) (sr s)) in
  let* cs := lift (chunks_exact raw_b n) in
  let* _ := take (vec_size T * len cs) in
  map_res (fun chunk =>
    let* bs := lift (chunks_exact chunk BLOCK_SIZE) in
    let* _ := take (vec_size T * len bs) in
    map_res new_bytes bs) cs.

(** src/scrypt.rs:224-300, recorded up to the end of step 2 (line 293).  How the
    vector of line 296 grows is a matter of the standard library and is not
    recorded.  [reuse] says whether the [collect] of line 293 reuses the buffer
    of the vector it consumes (standard libraries since 2020) or asks for
    another.  [pbkdf2_sha256] and [salsa20] work on the stack. *)
Definition scrypt_derive (reuse : bool) (T : target) (s : Scrypt) (passphrase salt out : list N)
  : res (result unit ScryptError * list N) :=
  if sr s <? 1 then Ret (Err RIsTooSmall, out) else
  if sn s <? 1 then Ret (Err NIsTooSmall, out) else
  let* n1 := lift (usub T (sn s) 1) in
  if negb (N.land n1 (sn s) =? 0) then Ret (Err NIsNotAPowerOfTwo, out) else
  if sp s <? 1 then Ret (Err PIsTooSmall, out) else
  (* Step 1 *)
  let* m := lift (umul T (sp s) 2) in
  let* m := lift (umul T m BLOCK_SIZE) in
  let* m := lift (umul T m (sr s)) in
  let* _ := with_capacity T 1 m in
  let raw_b := repeat 0 (N.to_nat m) in
  let* raw_b := lift (pbkdf2_sha256 T passphrase salt PBKDF2_ROUNDS raw_b) in
  let* b := split_blocks T s raw_b in
  (* Step 2 *)
  let* _ := (if reuse then Ret tt else take (vec_size T * len b)) in
  let* b' := map_res (ro_mix T s) b in
  let* _ := (if reuse then Ret tt else give (vec_size T * len b)) in
  (* Step 3 *)
  let b_salt := List.concat (List.concat b') in
  let* out := lift (pbkdf2_sha256 T passphrase b_salt PBKDF2_ROUNDS out) in
  Ret (Ok tt, out).
