(** What one AES object returns over a whole history of calls: an abstract
    machine that holds the key in force, if any.  Independent of the model. *)
From Coq Require Import NArith List Arith.
From Verif.Spec Require Import Octets Aes.
Import ListNotations.
Local Open Scope N_scope.

Inductive call : Type :=
| Init (key : list N)
| Encrypt (block : list N)
| Decrypt (block : list N).

Inductive reply : Type :=
| Accepted               (** a key of a valid size was installed *)
| Result (block : list N)
| BadKeySize
| NoKey.

Definition key_size_ok (key : list N) : bool :=
  existsb (Nat.eqb (length key)) [16; 24; 32]%nat.

Definition step (k : option (list N)) (c : call) : reply * option (list N) :=
  match c, k with
  | Init key, _ => if key_size_ok key then (Accepted, Some key) else (BadKeySize, k)
  | Encrypt b, Some key => (Result (Cipher key b), k)
  | Decrypt b, Some key => (Result (InvCipher key b), k)
  | _, None => (NoKey, k)
  end.

Fixpoint replies (k : option (list N)) (calls : list call) : list reply :=
  match calls with
  | [] => []
  | c :: cs => let (r, k') := step k c in r :: replies k' cs
  end.
