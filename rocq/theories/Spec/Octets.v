(** Vocabulary shared by the specifications: octet strings, numbers and their
    big- and little-endian encodings, cutting strings into blocks.
    Independent of the model. *)
From Coq Require Import NArith List Arith.
Import ListNotations.
Local Open Scope N_scope.

(** An octet string is a list of numbers below 256. *)
Definition octets (l : list N) : Prop := Forall (fun b => b < 256) l.

(** The [k] consecutive groups of [n] elements at the front of [l]. *)
Fixpoint groups {A : Type} (k n : nat) (l : list A) : list (list A) :=
  match k with
  | O => []
  | S k' => firstn n l :: groups k' n (skipn n l)
  end.

(** The consecutive complete blocks of [n] elements of [l]. *)
Definition blocks {A : Type} (n : nat) (l : list A) : list (list A) :=
  groups (length l / n) n l.

(** Exclusive or of octet strings. *)
Fixpoint xor (a b : list N) : list N :=
  match a, b with
  | x :: a', y :: b' => N.lxor x y :: xor a' b'
  | _, _ => []
  end.

(** The number with the given octets, least significant first. *)
Fixpoint le_num (l : list N) : N :=
  match l with
  | [] => 0
  | b :: l' => b + 256 * le_num l'
  end.

(** The [k] low octets of [x], least significant first. *)
Fixpoint le_octets (k : nat) (x : N) : list N :=
  match k with
  | O => []
  | S k' => x mod 256 :: le_octets k' (x / 256)
  end.

(** The [k] low octets of [x], most significant first. *)
Definition be_octets (k : nat) (x : N) : list N := rev (le_octets k x).

(** The number with the given octets, most significant first. *)
Definition be_num (l : list N) : N := le_num (rev l).

(** The eight bits of an octet, most significant first. *)
Definition bits_of_octet (b : N) : list bool :=
  map (N.testbit b) [7; 6; 5; 4; 3; 2; 1; 0].

(** The bits of an octet string. *)
Definition bits_of_octets (l : list N) : list bool := flat_map bits_of_octet l.

(** The number with the given bits, most significant first. *)
Definition num_of_bits (l : list bool) : N :=
  fold_left (fun acc b => 2 * acc + (if b : bool then 1 else 0)) l 0.

(** The [k] low bits of [x], most significant first. *)
Definition bits_of_num (k : nat) (x : N) : list bool :=
  rev (map (fun i => N.testbit x (N.of_nat i)) (seq 0 k)).
