(** AES as in FIPS-197.  Independent of the model. *)
From Coq Require Import NArith List Arith.
From Verif.Spec Require Import Octets.
Import ListNotations.
Local Open Scope N_scope.

(** * Section 4: the field GF(2^8).
    A polynomial over GF(2) is the number whose bit [i] is the coefficient of
    x^i; addition is [N.lxor]. *)

(** Product of polynomials: sum of [a * x^i] over the terms x^i of [b]. *)
Definition poly_mul (a b : N) : N :=
  fold_left (fun acc i => if N.testbit b (N.of_nat i)
                          then N.lxor acc (N.shiftl a (N.of_nat i)) else acc)
            (seq 0 (N.size_nat b)) 0.

(** m(x) = x^8 + x^4 + x^3 + x + 1 *)
Definition m_poly : N := 0x11b.

(** Remainder modulo m(x) by long division, from the highest power down. *)
Definition poly_mod (a : N) : N :=
  fold_left (fun acc i => if N.testbit acc (N.of_nat (8 + i))
                          then N.lxor acc (N.shiftl m_poly (N.of_nat i)) else acc)
            (rev (seq 0 (N.size_nat a - 8)%nat)) a.

Definition gf_mul (a b : N) : N := poly_mod (poly_mul a b).

Definition all_octets : list N := map N.of_nat (seq 0 256).

(** Multiplicative inverse, with {00} mapped to itself. *)
Definition gf_inv (b : N) : N :=
  match find (fun c => gf_mul b c =? 1) all_octets with
  | Some c => c
  | None => 0
  end.

(** * Section 5.1.1: SubBytes. *)
Definition affine_bit (b : N) (i : N) : bool :=
  xorb (N.testbit b i)
  (xorb (N.testbit b ((i + 4) mod 8))
  (xorb (N.testbit b ((i + 5) mod 8))
  (xorb (N.testbit b ((i + 6) mod 8))
  (xorb (N.testbit b ((i + 7) mod 8))
        (N.testbit 0x63 i))))).
Definition SubByte (b : N) : N :=
  let b' := gf_inv b in
  num_of_bits (map (affine_bit b') [7; 6; 5; 4; 3; 2; 1; 0]).
(** The inverse substitution: the octet whose substitution is [b]. *)
Definition InvSubByte (b : N) : N :=
  match find (fun c => SubByte c =? b) all_octets with
  | Some c => c
  | None => 0
  end.

(** * Section 3.4: the state, a matrix of 4 rows and 4 columns. *)
Definition state : Type := list (list N).
Definition matrix (f : nat -> nat -> N) : state :=
  map (fun r => map (fun c => f r c) [0; 1; 2; 3]%nat) [0; 1; 2; 3]%nat.
Definition entry (s : state) (r c : nat) : N := nth c (nth r s []) 0.

(** s[r, c] = in[r + 4c] and out[r + 4c] = s[r, c]. *)
Definition state_of_input (inp : list N) : state :=
  matrix (fun r c => nth (r + 4 * c) inp 0).
Definition output_of_state (s : state) : list N :=
  map (fun i => entry s (i mod 4) (i / 4)) (seq 0 16).

(** * Section 5.1: transformations. *)
Definition SubBytes (s : state) : state := matrix (fun r c => SubByte (entry s r c)).
Definition ShiftRows (s : state) : state := matrix (fun r c => entry s r ((c + r) mod 4)).
(** A column times a circulant matrix whose first row is given. *)
Definition mix_with (row : list N) (s : state) : state :=
  matrix (fun r c =>
    fold_right N.lxor 0
      (map (fun k => gf_mul (nth ((k + 4 - r) mod 4) row 0) (entry s k c)) [0; 1; 2; 3]%nat)).
Definition MixColumns (s : state) : state := mix_with [2; 3; 1; 1] s.
(** Round key words are lists of four octets. *)
Definition AddRoundKey (w : list (list N)) (round : nat) (s : state) : state :=
  matrix (fun r c => N.lxor (entry s r c) (nth r (nth (round * 4 + c) w []) 0)).

(** * Section 5.2: key expansion. *)
Definition RotWord (w : list N) : list N :=
  match w with
  | [a0; a1; a2; a3] => [a1; a2; a3; a0]
  | _ => w
  end.
Definition SubWord (w : list N) : list N := map SubByte w.
(** Rcon[i] = [x^(i-1), {00}, {00}, {00}] *)
Definition Rcon (i : nat) : list N := [Nat.iter (i - 1) (gf_mul 2) 1; 0; 0; 0].

(** The first [n + length w] words, the list [w] of the first ones being given. *)
Fixpoint KeyExpansion_from (Nk : nat) (n : nat) (w : list (list N)) : list (list N) :=
  match n with
  | O => w
  | S n' =>
      let w := KeyExpansion_from Nk n' w in
      let i := length w in
      let temp := nth (i - 1) w [] in
      let temp :=
        if Nat.eqb (i mod Nk) 0 then xor (SubWord (RotWord temp)) (Rcon (i / Nk))
        else if andb (Nat.ltb 6 Nk) (Nat.eqb (i mod Nk) 4) then SubWord temp
        else temp in
      w ++ [xor (nth (i - Nk) w []) temp]
  end.
Definition Nk (key : list N) : nat := length key / 4.
Definition Nr (key : list N) : nat := Nk key + 6.
Definition KeyExpansion (key : list N) : list (list N) :=
  KeyExpansion_from (Nk key) (4 * (Nr key + 1) - Nk key) (blocks 4 key).

(** * Section 5.1: Cipher. *)
Definition Cipher (key inp : list N) : list N :=
  let w := KeyExpansion key in
  let s := AddRoundKey w 0 (state_of_input inp) in
  let s := fold_left (fun s round =>
             AddRoundKey w round (MixColumns (ShiftRows (SubBytes s))))
             (seq 1 (Nr key - 1)) s in
  output_of_state (AddRoundKey w (Nr key) (ShiftRows (SubBytes s))).

(** * Section 5.3: InvCipher. *)
Definition InvShiftRows (s : state) : state :=
  matrix (fun r c => entry s r ((c + 4 - r) mod 4)).
Definition InvSubBytes (s : state) : state := matrix (fun r c => InvSubByte (entry s r c)).
Definition InvMixColumns (s : state) : state := mix_with [0x0e; 0x0b; 0x0d; 0x09] s.
Definition InvCipher (key inp : list N) : list N :=
  let w := KeyExpansion key in
  let s := AddRoundKey w (Nr key) (state_of_input inp) in
  let s := fold_left (fun s round =>
             InvMixColumns (AddRoundKey w round (InvSubBytes (InvShiftRows s))))
             (rev (seq 1 (Nr key - 1))) s in
  output_of_state (AddRoundKey w 0 (InvSubBytes (InvShiftRows s))).

(** Key sizes: 128, 192, 256 bits. *)
Definition valid_key_size (key : list N) : Prop :=
  length key = 16%nat \/ length key = 24%nat \/ length key = 32%nat.
