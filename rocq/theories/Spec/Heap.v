(** What a record of allocations says about the memory in use, independently of
    any program: the level of the heap after it, relative to the level before,
    and the highest level reached on the way. *)
From Coq Require Import ZArith NArith List.
Import ListNotations.
Local Open Scope Z_scope.

Inductive event : Type :=
| Take (bytes : N)
| Give (bytes : N).

Definition change (e : event) : Z :=
  match e with Take b => Z.of_N b | Give b => - Z.of_N b end.

Definition level (t : list event) : Z := fold_right (fun e z => change e + z) 0 t.

(** [h] is the highest level reached: some moment has it, none exceeds it. *)
Definition highest (t : list event) (h : Z) : Prop :=
  (exists k, level (firstn k t) = h) /\ (forall k, level (firstn k t) <= h).
