(** The Salsa20 core as in D. J. Bernstein, "Salsa20 specification".
    Independent of the model. *)
From Coq Require Import NArith List Arith.
From Verif.Spec Require Import Octets.
Import ListNotations.
Local Open Scope N_scope.

(** Section 2: words. *)
Definition sum (u v : N) : N := (u + v) mod 2 ^ 32.
Definition rotl (c : N) (b : N) : N := (2 ^ b * c) mod 2 ^ 32 + c / 2 ^ (32 - b).

(** Section 3. *)
Definition quarterround (y : N * N * N * N) : N * N * N * N :=
  let '(y0, y1, y2, y3) := y in
  let z1 := N.lxor y1 (rotl (sum y0 y3) 7) in
  let z2 := N.lxor y2 (rotl (sum z1 y0) 9) in
  let z3 := N.lxor y3 (rotl (sum z2 z1) 13) in
  let z0 := N.lxor y0 (rotl (sum z3 z2) 18) in
  (z0, z1, z2, z3).

(** Section 4. *)
Definition rowround (y : list N) : list N :=
  match y with
  | [y0; y1; y2; y3; y4; y5; y6; y7; y8; y9; y10; y11; y12; y13; y14; y15] =>
      let '(z0, z1, z2, z3) := quarterround (y0, y1, y2, y3) in
      let '(z5, z6, z7, z4) := quarterround (y5, y6, y7, y4) in
      let '(z10, z11, z8, z9) := quarterround (y10, y11, y8, y9) in
      let '(z15, z12, z13, z14) := quarterround (y15, y12, y13, y14) in
      [z0; z1; z2; z3; z4; z5; z6; z7; z8; z9; z10; z11; z12; z13; z14; z15]
  | _ => []
  end.

(** Section 5. *)
Definition columnround (x : list N) : list N :=
  match x with
  | [x0; x1; x2; x3; x4; x5; x6; x7; x8; x9; x10; x11; x12; x13; x14; x15] =>
      let '(y0, y4, y8, y12) := quarterround (x0, x4, x8, x12) in
      let '(y5, y9, y13, y1) := quarterround (x5, x9, x13, x1) in
      let '(y10, y14, y2, y6) := quarterround (x10, x14, x2, x6) in
      let '(y15, y3, y7, y11) := quarterround (x15, x3, x7, x11) in
      [y0; y1; y2; y3; y4; y5; y6; y7; y8; y9; y10; y11; y12; y13; y14; y15]
  | _ => []
  end.

(** Section 6. *)
Definition doubleround (x : list N) : list N := rowround (columnround x).

(** Section 7: littleendian is [le_num], its inverse [le_octets 4].
    Section 8: Salsa20(x) = x + doubleround^10(x); [k] double rounds here. *)
Definition words (x : list N) : list N := map le_num (blocks 4 x).
Fixpoint add_words (a b : list N) : list N :=
  match a, b with
  | u :: a', v :: b' => sum u v :: add_words a' b'
  | _, _ => []
  end.
Definition rounds (k : N) (w : list N) : list N := N.iter k doubleround w.
Definition salsa20 (k : N) (x : list N) : list N :=
  flat_map (le_octets 4) (add_words (words x) (rounds k (words x))).

(** Word-by-word difference modulo 2^32: what the mixing contributed to an
    output, given the input. *)
Fixpoint sub_words (a b : list N) : list N :=
  match a, b with
  | u :: a', v :: b' => (u + (2 ^ 32 - v)) mod 2 ^ 32 :: sub_words a' b'
  | _, _ => []
  end.
(** An octet string with the top bit of every little-endian word flipped. *)
Definition flip_top_bits (x : list N) : list N :=
  xor x (concat (repeat [0; 0; 0; 128] (length x / 4))).
(** The state [a, -a, a, -a] in rows of alternating sign, and twice it. *)
Definition neg (a : N) : N := (2 ^ 32 - a) mod 2 ^ 32.
Definition checkered (a : N) : list N :=
  let b := neg a in
  [a; b; a; b;  b; a; b; a;  a; b; a; b;  b; a; b; a].
