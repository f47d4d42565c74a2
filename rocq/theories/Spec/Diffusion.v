(** How far a difference between two AES states spreads.  Independent of the model. *)
From Coq Require Import NArith List Arith.
Import ListNotations.
Local Open Scope N_scope.

(** The number of places in which two arrays of bytes differ. *)
Definition differing (s s' : list (list N)) : nat :=
  length (filter (fun p => negb (fst p =? snd p)) (combine (concat s) (concat s'))).

(** Four columns of four octets. *)
Definition octet_square (s : list (list N)) : Prop :=
  length s = 4%nat /\ Forall (fun col => length col = 4%nat /\ Forall (fun b => b < 256) col) s.
