(** PBKDF2 by somebody who computes the chaining values behind the two pads of the password
    once and keeps them.  Each function also counts the compressions it takes.  Independent of
    the model. *)
From Coq Require Import NArith List Arith.
From Verif.Spec Require Import Octets Sha256 Hasher Hmac.
Import ListNotations.
Local Open Scope N_scope.

(** [m] and its padding, as the end of a message of [64 + length m] octets ... *)
Definition stretch (before : nat) (m : list N) : list N :=
  m ++ [128] ++ repeat 0 ((119 - length m mod 64) mod 64) ++ be_octets 8 (8 * N.of_nat (before + length m)).
(** ... hashed from the chaining value [h] behind the octets before it. *)
Definition hash_from (h : list N) (before : nat) (m : list N) : list N * N :=
  let l := stretch before m in
  (flat_map (be_octets 4) (absorb h l), N.of_nat (length l / 64)).

(** The two chaining values of a password. *)
Definition pads (P : list N) : list N * list N * N :=
  let (P', k) := if Nat.ltb 64 (length P) then hash_from H0 0 P else (P, 0) in
  let B := P' ++ repeat 0 (64 - length P') in
  (absorb_block H0 (xor B ipad), absorb_block H0 (xor B opad), k + 2).

Definition prf (hi ho m : list N) : list N * N :=
  let (i, a) := hash_from hi 64 m in
  let (o, b) := hash_from ho 64 i in
  (o, a + b).

Fixpoint iterate (n : nat) (hi ho u t : list N) : list N * N :=
  match n with
  | O => (t, 0)
  | S n' =>
      let (u', a) := prf hi ho u in
      let (r, b) := iterate n' hi ho u' (xor t u') in
      (r, a + b)
  end.
Definition block (hi ho Salt : list N) (c i : N) : list N * N :=
  let (u, a) := prf hi ho (Salt ++ be_octets 4 i) in
  let (t, b) := iterate (N.to_nat (c - 1)) hi ho u u in
  (t, a + b).
Fixpoint all_blocks (hi ho Salt : list N) (c : N) (is : list nat) : list N * N :=
  match is with
  | [] => ([], 0)
  | i :: is' =>
      let (t, a) := block hi ho Salt c (N.of_nat i) in
      let (r, b) := all_blocks hi ho Salt c is' in
      (t ++ r, a + b)
  end.
Definition derive (P Salt : list N) (c : N) (n : nat) : list N * N :=
  let '(hi, ho, a) := pads P in
  let (r, b) := all_blocks hi ho Salt c (seq 1 ((n + 31) / 32)) in
  (firstn n r, a + b).
