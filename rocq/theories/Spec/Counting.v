(** Counting strings of octets.  Independent of the model. *)
From Coq Require Import NArith List.
From Verif.Spec Require Import Octets.
Import ListNotations.
Local Open Scope N_scope.

(** Of the 256^k strings of [k] octets exactly [n] satisfy [P]. *)
Definition counted (k : nat) (P : list N -> Prop) (n : N) : Prop :=
  exists L, NoDup L /\ (forall b, In b L <-> length b = k /\ octets b /\ P b) /\ N.of_nat (length L) = n.
