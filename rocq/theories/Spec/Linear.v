(** How often a sum of input bits equals a sum of output bits.  Independent of the model. *)
From Coq Require Import NArith List Bool.
From Verif.Spec Require Import Octets Counting.
Import ListNotations.
Local Open Scope N_scope.

(** The sum of the bits of a number. *)
Fixpoint parity_pos (p : positive) : bool :=
  match p with xH => true | xO p => parity_pos p | xI p => negb (parity_pos p) end.
Definition parity (n : N) : bool := match n with N0 => false | Npos p => parity_pos p end.

(** The sum of the bits of a string that a mask selects. *)
Fixpoint dot (u x : list N) : bool :=
  match u, x with
  | a :: u, b :: x => xorb (parity (N.land a b)) (dot u x)
  | _, _ => false
  end.

(** [f x y]: the input [x] has the output [y].  Of the inputs of 16 octets, exactly [n]
    have the same sum under [u] as their output has under [v]. *)
Definition agreeing (f : list N -> list N -> Prop) (u v : list N) (n : N) : Prop :=
  counted 16 (fun x => exists y, f x y /\ dot u x = dot v y) n.
