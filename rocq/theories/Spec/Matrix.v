(** Rearrangements of four-by-four matrices written as lists of sixteen, row by row.
    Independent of the model. *)
From Coq Require Import NArith List Arith.
From Verif.Spec Require Import Octets.
Import ListNotations.

(** The four-by-four matrix moved up and left by one place, cyclically: what was at
    row r+1, column c+1 comes to row r, column c. *)
Definition diagonal {A : Type} (x : list A) : list A :=
  match x with
  | [x0; x1; x2; x3; x4; x5; x6; x7; x8; x9; x10; x11; x12; x13; x14; x15] =>
      [x5; x6; x7; x4;  x9; x10; x11; x8;  x13; x14; x15; x12;  x1; x2; x3; x0]
  | _ => []
  end.
(** Rows and columns exchanged. *)
Definition transpose {A : Type} (x : list A) : list A :=
  match x with
  | [x0; x1; x2; x3; x4; x5; x6; x7; x8; x9; x10; x11; x12; x13; x14; x15] =>
      [x0; x4; x8; x12;  x1; x5; x9; x13;  x2; x6; x10; x14;  x3; x7; x11; x15]
  | _ => []
  end.
(** The same move on 64 octets, whole words of four moving together. *)
Definition diagonal_octets (x : list N) : list N := concat (diagonal (blocks 4 x)).
(** The matrix with this first row in which every row is the one above it moved
    right by one place. *)
Definition circulant {A : Type} (a b c d : A) : list A :=
  [a; b; c; d;  d; a; b; c;  c; d; a; b;  b; c; d; a].
