(** Many messages with one digest from few collisions of the compression function.
    Independent of the model. *)
From Coq Require Import NArith List Arith.
From Verif.Spec Require Import Octets Sha256 Collision.
Import ListNotations.
Local Open Scope N_scope.

(** A block of 64 octets as sixteen words, and the chaining value behind a message
    of whole blocks. *)
Definition sixteen (b : list N) : list N := map be_num (blocks 4 b).
Definition behind (m : list N) : list N :=
  fold_left (fun h b => compress h (sixteen b)) (blocks 64 m) H0.

Definition is_block64 (b : list N) : Prop := length b = 64%nat /\ octets b.

(** [find] is a way to find, for every chaining value, two different blocks that
    lead from it to the same value. *)
Definition finds (find : list N -> list N * list N) : Prop :=
  forall h, chaining h ->
    is_block64 (fst (find h)) /\ is_block64 (snd (find h)) /\ fst (find h) <> snd (find h) /\
    compress h (sixteen (fst (find h))) = compress h (sixteen (snd (find h))).

(** [k] uses of it, one behind the other, from the chaining value [h]. *)
Fixpoint pairs (find : list N -> list N * list N) (h : list N) (k : nat) {struct k}
  : list (list N * list N) :=
  match k with
  | O => []
  | S k' => find h :: pairs find (compress h (sixteen (fst (find h)))) k'
  end.

(** One block out of each pair. *)
Fixpoint choose (c : list bool) (ps : list (list N * list N)) {struct c} : list N :=
  match c, ps with
  | x :: c', p :: ps' => (if x then fst p else snd p) ++ choose c' ps'
  | _, _ => []
  end.
