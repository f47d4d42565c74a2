(** Building a ciphertext backwards from a chosen plaintext with a way to decrypt
    single blocks.  Independent of the model. *)
From Coq Require Import NArith List.
From Verif.Spec Require Import Octets.
Import ListNotations.
Local Open Scope N_scope.

(** The initialisation vector and the ciphertext blocks, the last of them [z], that
    decrypt to the blocks [P]: each block is what the one after it needs before it. *)
Fixpoint forge (D : list N -> list N) (P : list (list N)) (z : list N) : list N * list (list N) :=
  match P with
  | [] => (z, [])
  | p :: P' => let (c, C) := forge D P' z in (xor (D c) p, c :: C)
  end.
