(** Ciphertexts made to be read under several keys.  Independent of the model. *)
From Coq Require Import NArith List Arith.
From Verif.Spec Require Import Octets Aes.
Import ListNotations.
Local Open Scope N_scope.

(** For each block the key under which it is to be read and what is to be read there; from
    the last ciphertext block [z] backwards, the initialisation vector and the ciphertext. *)
Fixpoint steer (W : list (list N * list N)) (z : list N) : list N * list (list N) :=
  match W with
  | [] => (z, [])
  | (key, w) :: W' =>
      let (c, C) := steer W' z in
      (xor (InvCipher key c) w, c :: C)
  end.

(** The sum of two blocks that the decipher takes for padded: it ends in an octet x below 32,
    which is repeated x - 16 times if that is more than once. *)
Definition compatible (d : list N) : Prop :=
  exists (m : list N) (x : nat), (x < 32)%nat /\ d = m ++ repeat (N.of_nat x) (Nat.max (x - 16) 1).
