(** How many inputs carry a difference through a map of octet strings.  Independent of
    the model. *)
From Coq Require Import NArith List.
From Verif.Spec Require Import Octets Counting.
Import ListNotations.
Local Open Scope N_scope.

(** The number of octets of a string that are not zero. *)
Definition active (a : list N) : N := N.of_nat (length (filter (fun x => negb (x =? 0)) a)).

(** [f x y]: the input [x] has the output [y].  The inputs for which a change by [a]
    changes the output by [b]. *)
Definition carries (f : list N -> list N -> Prop) (a b x : list N) : Prop :=
  exists y, f x y /\ f (xor x a) (xor y b).

(** Of the inputs of 16 octets, exactly [n] carry [a] to [b]. *)
Definition carried (f : list N -> list N -> Prop) (a b : list N) (n : N) : Prop :=
  counted 16 (carries f a b) n.
