(** Chosen-beginning attacks on a service that encrypts messages of the form
    [m ++ secret], one after the other in one chain: strategies that choose the [m]s
    and see the ciphertexts, and one that computes the secret.  Independent of the
    model. *)
From Coq Require Import NArith List Arith.
From Verif.Spec Require Import Octets Aes.
Import ListNotations.
Local Open Scope N_scope.

(** A strategy sends the beginning of a message and goes on from the ciphertext.  It
    has no other access to anything. *)
Inductive strategy : Type :=
| Answer (a : list N)
| Send (m : list N) (next : list N -> strategy).

(** The answer of a strategy played against a service with a state, and the number of
    messages sent; [None] if the service fails. *)
Fixpoint play {St : Type} (serve : St -> list N -> option (list N * St)) (s : St) (st : strategy)
  : option (list N * nat) :=
  match st with
  | Answer a => Some (a, 0%nat)
  | Send m next =>
      match serve s m with
      | None => None
      | Some (ct, s') =>
          match play serve s' (next ct) with
          | None => None
          | Some (a, q) => Some (a, S q)
          end
      end
  end.

(** Block [i] of a ciphertext, the block before it ([iv] before the first) and the
    last block. *)
Definition block (l : list N) (i : nat) : list N := firstn 16 (skipn (16 * i) l).
Definition before (iv l : list N) (i : nat) : list N :=
  match i with O => iv | S j => block l j end.
Definition final (l : list N) : list N := skipn (length l - 16) l.

(** [target] is the encryption of a block that begins with the fifteen octets [front],
    after [prev]; which octet is its last?  The vector [iv] of the next message is
    known, so the guess can be put where [target] was. *)
Fixpoint guess (front prev target cands iv : list N) (found : N -> list N -> strategy)
  : strategy :=
  match cands with
  | [] => Answer []
  | w :: ws =>
      Send (xor (xor (front ++ [w]) prev) iv) (fun ct =>
        if list_eq_dec N.eq_dec (block ct 0) target
        then found w (final ct)
        else guess front prev target ws (final ct) found)
  end.

(** [known] are the first octets of the secret, [n] are to be found.  The filler moves
    the next octet to the end of a block. *)
Definition filler (known : list N) : list N := repeat 0 (15 - length known mod 16).
Fixpoint recover (n : nat) (known iv : list N) : strategy :=
  match n with
  | O => Answer known
  | S n' =>
      Send (filler known) (fun ct =>
        let l := filler known ++ known in
        let j := (length l / 16)%nat in
        guess (skipn (16 * j) l) (before iv ct j) (block ct j) all_octets (final ct)
          (fun w iv => recover n' (known ++ [w]) iv))
  end.

(** The length of the secret: longer and longer beginnings, until the ciphertext has a
    block more than that of the secret alone. *)
Fixpoint grow (tries k alone : nat) (found : nat -> list N -> strategy) : strategy :=
  match tries with
  | O => Answer []
  | S tries' =>
      Send (repeat 0 k) (fun ct =>
        if Nat.ltb alone (length ct)
        then found (alone - k)%nat (final ct)
        else grow tries' (S k) alone found)
  end.

Definition recover_secret : strategy :=
  Send [] (fun ct => grow 16 1 (length ct) (fun n iv => recover n [] iv)).
