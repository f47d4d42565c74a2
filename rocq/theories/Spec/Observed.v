(** What an observer may learn from the calls on an AES-CBC cipher or decipher.
    Independent of the model. *)
From Coq Require Import NArith List Arith.
From Verif.Spec Require Import Octets Aes Cbc BlockCipher Stream Leakage.
Import ListNotations.
Local Open Scope N_scope.

(** Histories of calls that differ only in the octets passed. *)
Definition same_call (c c' : call) : Prop :=
  match c, c' with
  | Init k, Init k' => length k = length k'
  | Write d, Write d' => length d = length d'
  | Flush, Flush => True
  | _, _ => False
  end.

(** The octets that a call on a cipher gives away: a key that is accepted, and the
    ciphertext returned. *)
Definition cipher_sight (s : cipher) (c : call) : list N :=
  match c with
  | Init key => if key_size_ok key then key else []
  | _ => match fst (cipher_step s c) with Data d => d | _ => [] end
  end.

(** The same for a decipher: a key that is accepted; the blocks of ciphertext that are
    completed by the call; of the plaintext that is held back, what [view_of] keeps of it
    when it is flushed. *)
Inductive glimpse : Type :=
| Octets (l : list N)
| Verdict (v : flush_view).
Definition decipher_sight (s : decipher) (c : call) : glimpse :=
  match c with
  | Init key => Octets (if key_size_ok key then key else [])
  | Write d => Octets (match d_key s with Some _ => whole 16 (d_fragment s ++ d) | None => [] end)
  | Flush => Verdict (view_of 16 (d_held s))
  end.

(** Over a history. *)
Fixpoint sights {St Seen : Type} (step : St -> call -> reply * St) (sight : St -> call -> Seen)
    (s : St) (calls : list call) : list Seen :=
  match calls with
  | [] => []
  | c :: cs => sight s c :: sights step sight (snd (step s c)) cs
  end.
