(** scrypt with a smaller table: only every [k]-th entry is kept, the others are computed
    again when they are wanted.  Beside the table the machine holds two blocks: the running
    value and the entry that is wanted.  Independent of the model. *)
From Coq Require Import NArith List Arith.
From Verif.Spec Require Import Octets Pbkdf2 Scrypt.
Import ListNotations.
Local Open Scope N_scope.

(** [m] more entries, the first one being number [i]; [kept] is the table so far. *)
Fixpoint fill (r : nat) (k : N) (m : nat) (i : N) (X : list N) (kept : list (list N))
  : list N * list (list N) :=
  match m with
  | O => (X, kept)
  | S m' => fill r k m' (i + 1) (BlockMix r X) (if i mod k =? 0 then kept ++ [X] else kept)
  end.

(** Entry number [j]: [j mod k] mixings away from one that is kept. *)
Definition fetch (r : nat) (k : N) (kept : list (list N)) (j : N) : list N :=
  N.iter (j mod k) (BlockMix r) (nth (N.to_nat (j / k)) kept []).

(** The second loop of scryptROMix; [work] counts the mixings. *)
Fixpoint wander (r : nat) (k n : N) (kept : list (list N)) (m : nat) (X : list N) (work : N)
  : list N * N :=
  match m with
  | O => (X, work)
  | S m' =>
      let j := Integerify r X mod n in
      wander r k n kept m' (BlockMix r (xor X (fetch r k kept j))) (work + j mod k + 1)
  end.

Record lane := mkLane { result : list N; entries : nat; mixings : N }.
Definition frugal_ROMix (r : nat) (k : N) (B : list N) (n : N) : lane :=
  let (X, kept) := fill r k (N.to_nat n) 0 B [] in
  let (X', work) := wander r k n kept (N.to_nat n) X n in
  mkLane X' (length kept) work.

(** The lanes can be computed one after the other, with one table. *)
Definition lanes (k : N) (P Salt : list N) (n : N) (r p : nat) : list lane :=
  map (fun Bi => frugal_ROMix r k Bi n) (blocks (128 * r) (pbkdf2 P Salt 1 (p * 128 * r))).
Definition frugal_scrypt (k : N) (P Salt : list N) (n : N) (r p : nat) (dkLen : nat) : list N :=
  pbkdf2 P (concat (map result (lanes k P Salt n r p))) 1 dkLen.

Definition sum (l : list N) : N := fold_right N.add 0 l.

(** The first table position of the first lane, without a table: [n] mixings. *)
Definition first_position (P Salt : list N) (n : N) (r p : nat) : N :=
  let B := nth 0 (blocks (128 * r) (pbkdf2 P Salt 1 (p * 128 * r))) [] in
  Integerify r (N.iter n (BlockMix r) B) mod n.
