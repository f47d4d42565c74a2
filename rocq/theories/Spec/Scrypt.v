(** scrypt as in draft-josefsson-scrypt-kdf-03 / RFC 7914, on octet strings.
    Independent of the model. *)
From Coq Require Import NArith List Arith.
From Verif.Spec Require Import Octets Pbkdf2 Salsa20.
Import ListNotations.
Local Open Scope N_scope.

(** Section 3: Salsa20/8 Core: 8 rounds = 4 double rounds. *)
Definition Salsa (x : list N) : list N := salsa20 4 x.

(** Section 4: scryptBlockMix.  [Ys X B] is the list Y[0], Y[1], ... obtained from
    the running value [X] and the blocks [B]. *)
Fixpoint Ys (X : list N) (B : list (list N)) : list (list N) :=
  match B with
  | [] => []
  | Bi :: B' => let X' := Salsa (xor X Bi) in X' :: Ys X' B'
  end.
(** Input and output are 128 * r octets, viewed as 2 * r blocks of 64 octets. *)
Definition BlockMix (r : nat) (B : list N) : list N :=
  let Bs := blocks 64 B in
  let X := nth (2 * r - 1) Bs [] in
  let Y := Ys X Bs in
  concat (map (fun i => nth (2 * i) Y []) (seq 0 r)) ++
  concat (map (fun i => nth (2 * i + 1) Y []) (seq 0 r)).

(** Section 5: scryptROMix.  Integerify interprets the last 64-octet block as a
    little-endian integer.  V[i] is the i-th iterate of scryptBlockMix. *)
Definition Integerify (r : nat) (B : list N) : N :=
  le_num (nth (2 * r - 1) (blocks 64 B) []).
Definition V (r : nat) (B : list N) (i : N) : list N := N.iter i (BlockMix r) B.
Definition ROMix_step (r : nat) (B : list N) (n : N) (X : list N) : list N :=
  let j := Integerify r X mod n in
  BlockMix r (xor X (V r B j)).
Definition ROMix (r : nat) (B : list N) (n : N) : list N :=
  N.iter n (ROMix_step r B n) (V r B n).

(** Section 6: scrypt. *)
Definition scrypt (P S : list N) (n : N) (r p : nat) (dkLen : nat) : list N :=
  let B := blocks (128 * r) (pbkdf2 P S 1 (p * 128 * r)) in
  let B' := map (fun Bi => ROMix r Bi n) B in
  pbkdf2 P (concat B') 1 dkLen.

(** The table positions scryptROMix reads (step 3), in order, and those of all
    lanes of scrypt. *)
Definition ROMix_index (r : nat) (B : list N) (n i : N) : N :=
  Integerify r (N.iter i (ROMix_step r B n) (V r B n)) mod n.
Definition ROMix_indices (r : nat) (B : list N) (n : N) : list N :=
  map (fun i => ROMix_index r B n (N.of_nat i)) (seq 0 (N.to_nat n)).
Definition scrypt_indices (P S : list N) (n : N) (r p : nat) : list (list N) :=
  map (fun Bi => ROMix_indices r Bi n) (blocks (128 * r) (pbkdf2 P S 1 (p * 128 * r))).
