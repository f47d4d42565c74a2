(** SHA-256 as in RFC 6234, on bit strings.  Independent of the model. *)
From Coq Require Import NArith List Arith.
From Verif.Spec Require Import Octets.
Import ListNotations.
Local Open Scope N_scope.

(** Section 3: operations on 32-bit words. *)
Definition add32 (a b : N) : N := (a + b) mod 2 ^ 32.
Definition NOT (x : N) : N := 2 ^ 32 - 1 - x.
Definition SHR (n x : N) : N := x / 2 ^ n.
Definition ROTR (n x : N) : N := x / 2 ^ n + (x mod 2 ^ n) * 2 ^ (32 - n).
Definition sum32 (l : list N) : N := fold_right add32 0 l.
Definition XOR3 (a b c : N) : N := N.lxor a (N.lxor b c).

(** Section 5.1: functions. *)
Definition CH (x y z : N) : N := N.lxor (N.land x y) (N.land (NOT x) z).
Definition MAJ (x y z : N) : N := XOR3 (N.land x y) (N.land x z) (N.land y z).
Definition BSIG0 (x : N) : N := XOR3 (ROTR 2 x) (ROTR 13 x) (ROTR 22 x).
Definition BSIG1 (x : N) : N := XOR3 (ROTR 6 x) (ROTR 11 x) (ROTR 25 x).
Definition SSIG0 (x : N) : N := XOR3 (ROTR 7 x) (ROTR 18 x) (SHR 3 x).
Definition SSIG1 (x : N) : N := XOR3 (ROTR 17 x) (ROTR 19 x) (SHR 10 x).

(** Section 5.1: "These words represent the first 32 bits of the fractional
    parts of the cube roots of the first sixty-four prime numbers", and section
    6.1: the initial hash value, "the first 32 bits of the fractional parts of
    the square roots of the first eight prime numbers". *)
Definition is_prime (n : nat) : bool :=
  forallb (fun d => negb (Nat.eqb (Nat.modulo n d) 0)) (seq 2 (n - 2)).
Definition primes : list N := map N.of_nat (filter is_prime (seq 2 310)).

(** Integer cube root of numbers below 2^120. *)
Definition cbrt (n : N) : N :=
  fold_left (fun acc b => let c := acc + 2 ^ N.of_nat b in
                          if c ^ 3 <=? n then c else acc) (rev (seq 0 40)) 0.

Definition Kt : list N := map (fun p => cbrt (p * 2 ^ 96) mod 2 ^ 32) primes.
Definition H0 : list N := map (fun p => N.sqrt (p * 2 ^ 64) mod 2 ^ 32) (firstn 8 primes).

(** Section 4.1: padding.  The number of zero bits is the smallest K >= 0 with
    (L + 1 + K) mod 512 = 448. *)
Definition pad_zeros (L : nat) : nat := ((960 - (L + 1) mod 512) mod 512)%nat.
Definition pad (m : list bool) : list bool :=
  m ++ [true] ++ repeat false (pad_zeros (length m))
    ++ bits_of_num 64 (N.of_nat (length m)).

(** Section 6.2, step 1: the message schedule. *)
Fixpoint schedule (n : nat) (M : list N) : list N :=
  match n with
  | O => M
  | S n' =>
      let W := schedule n' M in
      let t := length W in
      W ++ [sum32 [SSIG1 (nth (t - 2) W 0); nth (t - 7) W 0;
                   SSIG0 (nth (t - 15) W 0); nth (t - 16) W 0]]
  end.

(** Steps 2 and 3. *)
Definition vars : Type := (N * N * N * N * N * N * N * N)%type.
Definition round (v : vars) (kw : N * N) : vars :=
  let '(a, b, c, d, e, f, g, h) := v in
  let '(k, w) := kw in
  let T1 := sum32 [h; BSIG1 e; CH e f g; k; w] in
  let T2 := add32 (BSIG0 a) (MAJ a b c) in
  (add32 T1 T2, a, b, c, add32 d T1, e, f, g).

(** Section 6.2: one message block M (16 words). *)
Definition compress (Hprev M : list N) : list N :=
  match Hprev with
  | [a; b; c; d; e; f; g; h] =>
      let '(a', b', c', d', e', f', g', h') :=
        fold_left round (combine Kt (schedule 48 M)) (a, b, c, d, e, f, g, h) in
      [add32 a' a; add32 b' b; add32 c' c; add32 d' d;
       add32 e' e; add32 f' f; add32 g' g; add32 h' h]
  | _ => []
  end.

(** Parsing a 512-bit block into sixteen 32-bit words. *)
Definition words_of_bits (b : list bool) : list N := map num_of_bits (blocks 32 b).

Definition hash_bits (m : list bool) : list N :=
  fold_left (fun Hprev b => compress Hprev (words_of_bits b)) (blocks 512 (pad m)) H0.

(** SHA-256 of an octet string, as 32 octets. *)
Definition sha256 (m : list N) : list N :=
  flat_map (be_octets 4) (hash_bits (bits_of_octets m)).
