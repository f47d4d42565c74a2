(** Model of /repo/src/scrypt.rs. *)
From Coq Require Import NArith List String.
From Verif Require Import Rust.
From Verif.Model Require Import Pbkdf2 Salsa20.
Import ListNotations.
Local Open Scope N_scope.

(** src/scrypt.rs:12-14 and the import of salsa20::BLOCK_SIZE at line 10 *)
Definition SALSA_ROUNDS : N := 4.
Definition PBKDF2_ROUNDS : N := 1.
Definition BLOCK_SIZE : N := 64.
Definition SALSA_BLOCK_SIZE : N := Salsa20.BLOCK_SIZE.

(** src/scrypt.rs:23-28 *)
Inductive ScryptError : Type :=
| RIsTooSmall | NIsTooSmall | NIsNotAPowerOfTwo | PIsTooSmall.

(** src/scrypt.rs:36-45 *)
Definition scrypt_error_description (e : ScryptError) : string :=
  match e with
  | RIsTooSmall => "`r` must be larger than 1"
  | NIsTooSmall => "`n` must be larger than 1"
  | NIsNotAPowerOfTwo => "`n` must be a power of two"
  | PIsTooSmall => "`p` must be larger than 1"
  end.

(** src/scrypt.rs:30-34 *)
Definition scrypt_error_display (e : ScryptError) : string :=
  "ScryptError: " ++ scrypt_error_description e.

(** src/scrypt.rs:67-71 *)
Record Scrypt : Type := mkScrypt { sr : N; sn : N; sp : N }.

(** src/scrypt.rs:103-105 *)
Definition scrypt_new (r n p : N) : Scrypt := mkScrypt r n p.

(** src/scrypt.rs:20: a Block is a Vec<u8> *)
Definition Block : Type := list N.

(** src/scrypt.rs:73-75 *)
Definition block_xor (a b : Block) : Block := zip_xor a b.

(** src/scrypt.rs:77-89 *)
Definition integerify (T : target) (x : list Block) : res N :=
  let* i := usub T (len x) 1 in
  let* last := idx x i in
  let* o := usub T (len last) SALSA_BLOCK_SIZE in
  let* tail := slice_from last o in
  let* t0 := idx tail 0 in let* t1 := idx tail 1 in
  let* t2 := idx tail 2 in let* t3 := idx tail 3 in
  let* t4 := idx tail 4 in let* t5 := idx tail 5 in
  let* t6 := idx tail 6 in let* t7 := idx tail 7 in
  Ret (N.lor (N.lor (N.lor (N.lor (N.lor (N.lor (N.lor t0
        (shl64 t1 8)) (shl64 t2 16)) (shl64 t3 24)) (shl64 t4 32))
        (shl64 t5 40)) (shl64 t6 48)) (shl64 t7 56)).

(** src/scrypt.rs:149-157: splitting [y] by parity of the index; the head vector
    starts at an even index. *)
Fixpoint split_parity (i : N) (y : list Block) : list Block * list Block :=
  match y with
  | [] => ([], [])
  | e :: y' =>
      let '(hd, tl) := split_parity (N.succ i) y' in
      if i mod 2 =? 0 then (e :: hd, tl) else (hd, e :: tl)
  end.

(** src/scrypt.rs:107-160 *)
Definition block_mix (T : target) (s : Scrypt) (b : list Block) : res (list Block) :=
  let* r2 := umul T 2 (sr s) in
  let* j := usub T r2 1 in
  let* x := idx b j in
  let* _ := alloc T (vec_size T) r2 in
  let* (_, y) := for_each b (fun b_elem xy =>
    let '(x, y) := xy in
    let t := block_xor x b_elem in
    let* x := salsa20 t SALSA_ROUNDS x in
    Ret (x, y ++ [x])) (x, []) in
  let* _ := alloc T (vec_size T) r2 in
  let* _ := alloc T (vec_size T) (sr s) in
  let '(bs_head, bs_tail) := split_parity 0 y in
  Ret (bs_head ++ bs_tail).

(** src/scrypt.rs:210-214 *)
Fixpoint xor_blocks (x v : list Block) : list Block :=
  match x, v with
  | a :: x', b :: v' => block_xor a b :: xor_blocks x' v'
  | _, _ => []
  end.

(** src/scrypt.rs:162-219 *)
Definition ro_mix (T : target) (s : Scrypt) (b : list Block) : res (list Block) :=
  let x := b in
  let* _ := alloc T (vec_size T) (sn s) in
  let* (x, v) := for_range 0 (sn s) (fun _i xv =>
    let '(x, v) := xv in
    let* t := block_mix T s x in
    Ret (t, v ++ [x])) (x, []) in
  for_range 0 (sn s) (fun _i x =>
    let* k := integerify T x in
    let* j := urem (as_usize T k) (sn s) in
    let* vj := idx v j in
    let t := xor_blocks x vj in
    block_mix T s t) x.

(** src/scrypt.rs:282-290: cutting [raw_b] into chunks of chunks. *)
Definition split_blocks (T : target) (s : Scrypt) (raw_b : list N) : res (list (list Block)) :=
  let* n := umul T (2 * BLOCK_SIZE) (sr s) in
  let* cs := chunks_exact raw_b n in
  map_res (fun chunk => chunks_exact chunk BLOCK_SIZE) cs.

(** src/scrypt.rs:224-300.  Returns the result and the contents of [out]. *)
Definition scrypt_derive (T : target) (s : Scrypt) (passphrase salt out : list N)
  : res (result unit ScryptError * list N) :=
  if sr s <? 1 then Ret (Err RIsTooSmall, out) else
  if sn s <? 1 then Ret (Err NIsTooSmall, out) else
  let* n1 := usub T (sn s) 1 in
  if negb (N.land n1 (sn s) =? 0) then Ret (Err NIsNotAPowerOfTwo, out) else
  if sp s <? 1 then Ret (Err PIsTooSmall, out) else
  (* Step 1 *)
  let* m := umul T (sp s) 2 in
  let* m := umul T m BLOCK_SIZE in
  let* m := umul T m (sr s) in
  let* _ := alloc T 1 m in
  let raw_b := repeat 0 (N.to_nat m) in
  let* raw_b := pbkdf2_sha256 T passphrase salt PBKDF2_ROUNDS raw_b in
  let* b := split_blocks T s raw_b in
  (* Step 2 *)
  let* b := map_res (ro_mix T s) b in
  (* Step 3 *)
  let b_salt := List.concat (List.concat b) in
  let* out := pbkdf2_sha256 T passphrase b_salt PBKDF2_ROUNDS out in
  Ret (Ok tt, out).
