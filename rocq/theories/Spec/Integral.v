(** Families of strings that differ in one octet, and their sums.  Independent of the
    model. *)
From Coq Require Import NArith List.
From Verif.Spec Require Import Octets.
Import ListNotations.
Local Open Scope N_scope.

(** The string with its octet at [i] replaced. *)
Definition put (l : list N) (i : nat) (x : N) : list N := firstn i l ++ x :: skipn (S i) l.

(** A function of an octet that takes every octet exactly once as its value. *)
Definition every_value_once (g : N -> N) : Prop :=
  forall y, y < 256 -> exists x, x < 256 /\ g x = y /\ forall x', x' < 256 -> g x' = y -> x' = x.
(** A function of an octet that takes one value. *)
Definition one_value (g : N -> N) : Prop := forall x x', x < 256 -> x' < 256 -> g x = g x'.

(** The sum of 256 strings of 16 octets. *)
Definition sum256 (f : N -> list N) : list N :=
  fold_right xor (repeat 0 16) (map (fun i => f (N.of_nat i)) (seq 0 256)).
