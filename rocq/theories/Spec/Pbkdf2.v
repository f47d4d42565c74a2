(** PBKDF2 with HMAC-SHA256 as in RFC 2898, section 5.2.  Independent of the model. *)
From Coq Require Import NArith List Arith.
From Verif.Spec Require Import Octets Hmac.
Import ListNotations.
Local Open Scope N_scope.

Definition hLen : nat := 32.

(** INT (i): four octets, most significant first. *)
Definition INT (i : N) : list N := be_octets 4 i.

(** [U P S i j] is U_{j+1}: U_1 = PRF (P, S || INT (i)), U_{j+1} = PRF (P, U_j). *)
Fixpoint U (P S : list N) (i : N) (j : nat) : list N :=
  match j with
  | O => hmac P (S ++ INT i)
  | Datatypes.S j' => hmac P (U P S i j')
  end.

(** F (P, S, c, i) = U_1 xor U_2 xor ... xor U_c, for c >= 1; [n] is c - 1. *)
Fixpoint F_upto (P S : list N) (i : N) (n : nat) : list N :=
  match n with
  | O => U P S i 0
  | Datatypes.S n' => xor (F_upto P S i n') (U P S i n)
  end.
Definition F (P S : list N) (c : N) (i : N) : list N := F_upto P S i (N.to_nat (c - 1)).

(** DK = T_1 || T_2 || ... || T_l<0..r-1>, l = CEIL (dkLen / hLen). *)
Definition pbkdf2 (P S : list N) (c : N) (dkLen : nat) : list N :=
  let l := Nat.div (dkLen + (hLen - 1)) hLen in
  firstn dkLen (flat_map (fun i => F P S c (N.of_nat i)) (seq 1 l)).
