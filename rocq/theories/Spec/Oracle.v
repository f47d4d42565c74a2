(** Chosen-initialisation-vector attacks on a decipher that says only whether it
    accepted: strategies that ask yes/no questions, and one that computes the
    decryption of a block.  Independent of the model. *)
From Coq Require Import NArith List.
From Verif.Spec Require Import Octets Aes.
Import ListNotations.
Local Open Scope N_scope.

(** A strategy asks whether an initialisation vector is accepted and goes on from
    the answer.  It has no other access to anything. *)
Inductive strategy : Type :=
| Answer (a : list N)
| Ask (iv : list N) (next : bool -> strategy).

(** The answer of a strategy played against an oracle, and the number of
    questions asked. *)
Fixpoint play (accepts : list N -> bool) (s : strategy) : list N * nat :=
  match s with
  | Answer a => (a, 0%nat)
  | Ask iv next =>
      let (a, q) := play accepts (next (accepts iv)) in (a, S q)
  end.

(** Go on from the first candidate for which [q] is accepted, or both [q1] and
    [q2]. *)
Fixpoint search (q : N -> list N) (cands : list N) (found : option N -> strategy) : strategy :=
  match cands with
  | [] => found None
  | w :: ws => Ask (q w) (fun yes => if yes then found (Some w) else search q ws found)
  end.
Fixpoint search_both (q1 q2 : N -> list N) (cands : list N) (found : option N -> strategy)
  : strategy :=
  match cands with
  | [] => found None
  | w :: ws =>
      Ask (q1 w) (fun yes =>
        if yes
        then Ask (q2 w) (fun yes => if yes then found (Some w) else search_both q1 q2 ws found)
        else search_both q1 q2 ws found)
  end.

(** [known] are the last octets of the decryption; find the [n] before them.  The
    octets of the vector over the known part make the plaintext end in [p]s. *)
Fixpoint extend (n : nat) (known : list N) : strategy :=
  match n with
  | O => Answer known
  | S n' =>
      let p := N.of_nat (S (length known)) in
      search (fun w => repeat 0 n' ++ [w] ++ map (N.lxor p) known) all_octets
        (fun w => match w with
                  | Some w => extend n' (N.lxor w p :: known)
                  | None => Answer known
                  end)
  end.

(** The last octet: two values differing in bit 0 are both accepted only if the
    plaintext then ends in 0 or 1; which of the two, shows one octet earlier. *)
Definition attack : strategy :=
  search_both (fun v => repeat 0 15 ++ [v]) (fun v => repeat 0 15 ++ [N.lxor v 1]) all_octets
    (fun v => match v with
              | None => Answer []
              | Some v =>
                  search_both (fun w => repeat 0 13 ++ [0; w; N.lxor v 2])
                              (fun w => repeat 0 13 ++ [1; w; N.lxor v 2]) all_octets
                    (fun w => match w with
                              | Some _ => extend 15 [v]
                              | None => extend 15 [N.lxor v 1]
                              end)
              end).
