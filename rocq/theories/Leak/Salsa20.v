(** The text of Model/Salsa20.v with the recording operations of Ops.v: [if] is [if*],
    and traversals written with pure list functions in the model record their
    length.  Constants, records and functions that neither branch nor index
    (word operations) are the model's own. *)
From Coq Require Import NArith List Bool.
From Verif Require Import Rust.
From Verif.Model Require Import Salsa20.
From Verif.Leak Require Import Ops.
Import ListNotations.
Local Open Scope N_scope.

(** src/salsa20.rs:16-29 *)
Definition quarterround (y z : list N) : res (list N) :=
  let* y1 := idx y 1 in let* y0 := idx y 0 in let* y3 := idx y 3 in
  let* z := upd z 1 (N.lxor y1 (rotl (wrapping_add32 y0 y3) 7)) in
  let* y2 := idx y 2 in let* z1 := idx z 1 in let* y0 := idx y 0 in
  let* z := upd z 2 (N.lxor y2 (rotl (wrapping_add32 z1 y0) 9)) in
  let* y3 := idx y 3 in let* z2 := idx z 2 in let* z1 := idx z 1 in
  let* z := upd z 3 (N.lxor y3 (rotl (wrapping_add32 z2 z1) 13)) in
  let* y0 := idx y 0 in let* z3 := idx z 3 in let* z2 := idx z 2 in
  upd z 0 (N.lxor y0 (rotl (wrapping_add32 z3 z2) 18)).

(** The array literal [[y[i0], y[i1], y[i2], y[i3]]]. *)
Definition gather (y : list N) (i0 i1 i2 i3 : N) : res (list N) :=
  let* a := idx y i0 in let* b := idx y i1 in
  let* c := idx y i2 in let* d := idx y i3 in
  Ret [a; b; c; d].

(** The statements [z[i0] = t[0]; z[i1] = t[1]; z[i2] = t[2]; z[i3] = t[3];]. *)
Definition scatter (z t : list N) (i0 i1 i2 i3 : N) : res (list N) :=
  let* t0 := idx t 0 in let* z := upd z i0 t0 in
  let* t1 := idx t 1 in let* z := upd z i1 t1 in
  let* t2 := idx t 2 in let* z := upd z i2 t2 in
  let* t3 := idx t 3 in upd z i3 t3.

(** src/salsa20.rs:31-71 *)
Definition rowround (y z : list N) : res (list N) :=
  let* s0 := gather y 0 1 2 3 in
  let* s1 := gather y 5 6 7 4 in
  let* s2 := gather y 10 11 8 9 in
  let* s3 := gather y 15 12 13 14 in
  let t := repeat 0 4 in
  let* t := quarterround s0 t in let* z := scatter z t 0 1 2 3 in
  let* t := quarterround s1 t in let* z := scatter z t 5 6 7 4 in
  let* t := quarterround s2 t in let* z := scatter z t 10 11 8 9 in
  let* t := quarterround s3 t in scatter z t 15 12 13 14.

(** src/salsa20.rs:73-113 *)
Definition columnround (x y : list N) : res (list N) :=
  let* s0 := gather x 0 4 8 12 in
  let* s1 := gather x 5 9 13 1 in
  let* s2 := gather x 10 14 2 6 in
  let* s3 := gather x 15 3 7 11 in
  let t := repeat 0 4 in
  let* t := quarterround s0 t in let* y := scatter y t 0 4 8 12 in
  let* t := quarterround s1 t in let* y := scatter y t 5 9 13 1 in
  let* t := quarterround s2 t in let* y := scatter y t 10 14 2 6 in
  let* t := quarterround s3 t in scatter y t 15 3 7 11.

(** src/salsa20.rs:115-123 *)
Definition doubleround (x y : list N) : res (list N) :=
  let t := repeat 0 16 in
  let* t := columnround x t in
  rowround t y.

(** src/salsa20.rs:125-131 *)
Definition littleendian (b : list N) : res N :=
  let* b0 := idx b 0 in let* b1 := idx b 1 in
  let* b2 := idx b 2 in let* b3 := idx b 3 in
  Ret (N.lor (N.lor (N.lor b0 (shl32 b1 8)) (shl32 b2 16)) (shl32 b3 24)).

(** src/salsa20.rs:133-138 *)
Definition littleendian_inv (x : N) (y : list N) : res (list N) :=
  let* y := upd y 0 (as_u8 x) in
  let* y := upd y 1 (as_u8 (shr x 8)) in
  let* y := upd y 2 (as_u8 (shr x 16)) in
  upd y 3 (as_u8 (shr x 24)).

(** src/salsa20.rs:186-192: reading the 16 input words. *)
Definition read_words (input : list N) : res (list N) :=
  for_range 0 16 (fun i x =>
    let from := i * 4 in
    let to := from + 4 in
    let* s := slice input from to in
    let* w := littleendian s in
    upd x i w) (repeat 0 16).

(** src/salsa20.rs:196-200: the round loop. *)
Definition mix (rounds : N) (z : list N) : res (list N) :=
  for_range 0 rounds (fun _ z =>
    let t := repeat 0 16 in
    doubleround z t) z.

(** src/salsa20.rs:202-206: writing the 16 output words. *)
Definition write_words (x z output : list N) : res (list N) :=
  for_range 0 16 (fun i output =>
    let from := i * 4 in
    let to := from + 4 in
    let* x_elem := idx x i in
    let* z_elem := idx z i in
    with_slice output from to
      (littleendian_inv (wrapping_add32 x_elem z_elem))) output.

(** src/salsa20.rs:164-207.  Returns the contents of [output] afterwards. *)
Definition salsa20 (input : list N) (rounds : N) (output : list N) : res (list N) :=
  let* x := read_words input in
  let* z := mix rounds x in
  write_words x z output.
