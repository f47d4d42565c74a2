(** Toggling blocks of 64 octets: flipping the top bit of every 32-bit word of some of them.
    Independent of the model. *)
From Coq Require Import NArith List Arith.
From Verif.Spec Require Import Octets Pbkdf2 Salsa20.
Import ListNotations.
Local Open Scope N_scope.

(** One choice per block: [true] toggles it. *)
Fixpoint toggle (ds : list bool) (b : list (list N)) : list (list N) :=
  match ds, b with
  | d :: ds', x :: b' => (if d then flip_top_bits x else x) :: toggle ds' b'
  | _, _ => b
  end.

(** All choices for [k] blocks. *)
Fixpoint choices (k : nat) : list (list bool) :=
  match k with
  | O => [[]]
  | S k' => map (cons false) (choices k') ++ map (cons true) (choices k')
  end.

(** The lanes of scrypt before they are mixed, as vectors of blocks. *)
Definition unmixed (P Salt : list N) (r p : nat) : list (list (list N)) :=
  map (blocks 64) (blocks (128 * r) (pbkdf2 P Salt 1 (p * 128 * r))).
(** Lane by lane the second vectors are the first ones with some blocks toggled. *)
Definition lanes_toggled (r : nat) (l l' : list (list (list N))) : Prop :=
  Forall2 (fun b b' => exists ds, length ds = (2 * r)%nat /\ b' = toggle ds b) l l'.
