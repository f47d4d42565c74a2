(** What is public about calls: the statements on leakage compare runs that share
    it.  Independent of the model. *)
From Coq Require Import NArith List Arith.
From Verif.Spec Require Import Octets Hasher Stream.
Import ListNotations.
Local Open Scope N_scope.

(** Histories of calls on a hasher that differ only in the octets passed. *)
Definition same_call (c c' : Hasher.call) : Prop :=
  match c, c' with
  | Hasher.Update d, Hasher.Update d' => length d = length d'
  | Hasher.Digest, Hasher.Digest => True
  | _, _ => False
  end.
Definition same_shape : list Hasher.call -> list Hasher.call -> Prop := Forall2 same_call.

(** Sequences of writes that differ only in the octets passed. *)
Definition same_lengths (a b : list (list N)) : Prop :=
  Forall2 (fun x y : list N => length x = length y) a b.

(** What flushing an unpadder for blocks of [k] octets that holds [b] gives away:
    that it does not hold a block; that the last octet is larger than [k]; the
    last octet and that another one does not match it; the number of octets
    removed. *)
Inductive flush_view : Type :=
| Short
| TooLarge
| Mismatch (n : N)
| Removed (n : N).
Definition view_of (k : nat) (b : list N) : flush_view :=
  match strip k b with
  | Incomplete => Short
  | Stripped _ => Removed (last b 256)
  | Invalid => if Nat.leb (N.to_nat (last b 256)) k then Mismatch (last b 256) else TooLarge
  end.
