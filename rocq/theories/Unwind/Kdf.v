(** The functions that write to a buffer of the caller, again; see Unwind/Mem.v: the
    visible memory is that buffer. *)
From Coq Require Import NArith List.
From Verif Require Import Rust.
From Verif.Model Require Import Sha256 Pbkdf2 Salsa20 Scrypt.
From Verif.Unwind Require Import Mem.
Import ListNotations.
Local Open Scope N_scope.

(** src/pbkdf2.rs:32-113 *)
Definition pbkdf2_sha256 (T : target) (password salt : list N) (c : N) : prog (list N) unit :=
  let! out := get in
  let! a := lift (uadd T (len out) DIGEST_SIZE) in
  let! a := lift (usub T a 1) in
  let! l := lift (udiv a DIGEST_SIZE) in
  for_range_incl 1 l (fun i =>
    let! t := lift (pbkdf2_block T password salt c i) in
    let! i1 := lift (usub T i 1) in
    let! start := lift (umul T i1 DIGEST_SIZE) in
    let! e := lift (umul T i DIGEST_SIZE) in
    let! out := get in
    let end_ := N.min e (len out) in
    let! n := lift (usub T end_ start) in
    let! src := lift (slice_to t n) in
    on_slice start end_ (copy_from_slice src)).

(** src/salsa20.rs:133-138 *)
Definition littleendian_inv (x : N) : prog (list N) unit :=
  let! _ := assign 0 (as_u8 x) in
  let! _ := assign 1 (as_u8 (shr x 8)) in
  let! _ := assign 2 (as_u8 (shr x 16)) in
  assign 3 (as_u8 (shr x 24)).

(** src/salsa20.rs:202-206 *)
Definition write_words (x z : list N) : prog (list N) unit :=
  for_range 0 16 (fun i =>
    let from := i * 4 in
    let to := from + 4 in
    let! x_elem := lift (idx x i) in
    let! z_elem := lift (idx z i) in
    on_slice from to (littleendian_inv (wrapping_add32 x_elem z_elem))).

(** src/salsa20.rs:164-207 *)
Definition salsa20 (input : list N) (rounds : N) : prog (list N) unit :=
  let! x := lift (read_words input) in
  let! z := lift (mix rounds x) in
  write_words x z.

(** src/scrypt.rs:224-300 *)
Definition scrypt_derive (T : target) (s : Scrypt) (passphrase salt : list N)
  : prog (list N) (result unit ScryptError) :=
  if sr s <? 1 then ret (Err RIsTooSmall) else
  if sn s <? 1 then ret (Err NIsTooSmall) else
  let! n1 := lift (usub T (sn s) 1) in
  if negb (N.land n1 (sn s) =? 0) then ret (Err NIsNotAPowerOfTwo) else
  if sp s <? 1 then ret (Err PIsTooSmall) else
  let! m := lift (umul T (sp s) 2) in
  let! m := lift (umul T m BLOCK_SIZE) in
  let! m := lift (umul T m (sr s)) in
  let! _ := lift (alloc T 1 m) in
  let raw_b := repeat 0 (N.to_nat m) in
  let! raw_b := lift (Model.Pbkdf2.pbkdf2_sha256 T passphrase salt PBKDF2_ROUNDS raw_b) in
  let! b := lift (split_blocks T s raw_b) in
  let! b := lift (map_res (ro_mix T s) b) in
  let b_salt := List.concat (List.concat b) in
  let! _ := pbkdf2_sha256 T passphrase b_salt PBKDF2_ROUNDS in
  ret (Ok tt).
