(** Model of /repo/src/pbkdf2.rs. *)
From Coq Require Import NArith List.
From Verif Require Import Rust.
From Verif.Model Require Import Sha256 Hmac.
Import ListNotations.
Local Open Scope N_scope.

(** src/pbkdf2.rs:87 *)
Definition ctr_bytes (i : N) : list N :=
  [as_u8 (shr i 24); as_u8 (shr i 16); as_u8 (shr i 8); as_u8 i].

(** src/pbkdf2.rs:103-105 *)
Definition xor_us (t u : list N) : res (list N) :=
  for_range 0 (len u) (fun k t =>
    let* a := idx t k in
    let* b := idx u k in
    upd t k (N.lxor a b)) t.

(** src/pbkdf2.rs:89-106: the value of [t] at the end of one outer iteration. *)
Definition pbkdf2_block (T : target) (password salt : list N) (c i : N) : res (list N) :=
  let* hmac := hmac_new T password in
  let* hmac := hmac_update T hmac salt in
  let* hmac := hmac_update T hmac (ctr_bytes i) in
  let* (u, _) := hmac_digest T hmac in
  let t := u in
  let* (_, t) := for_range_incl 2 c (fun _j ut =>
    let '(u, t) := ut in
    let* hmac := hmac_new T password in
    let* hmac := hmac_update T hmac u in
    let* (u, _) := hmac_digest T hmac in
    let* t := xor_us t u in
    Ret (u, t)) (u, t) in
  Ret t.

(** src/pbkdf2.rs:32-113.  Returns the contents of [out] afterwards. *)
Definition pbkdf2_sha256 (T : target) (password salt : list N) (c : N) (out : list N)
  : res (list N) :=
  let* a := uadd T (len out) DIGEST_SIZE in
  let* a := usub T a 1 in
  let* l := udiv a DIGEST_SIZE in
  for_range_incl 1 l (fun i out =>
    let* t := pbkdf2_block T password salt c i in
    let* i1 := usub T i 1 in
    let* start := umul T i1 DIGEST_SIZE in
    let* e := umul T i DIGEST_SIZE in
    let end_ := N.min e (len out) in
    let* n := usub T end_ start in
    let* src := slice_to t n in
    with_slice out start end_ (fun d => copy_from_slice d src)) out.
