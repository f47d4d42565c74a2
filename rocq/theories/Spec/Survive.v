(** What a hasher or a MAC object replies when its owner catches panics and goes on
    using it.  Until the first panic it is the machine of Spec/Hasher.v, Spec/Mac.v;
    afterwards only the count of octets matters.  Independent of the model. *)
From Coq Require Import NArith List.
From Verif.Spec Require Import Hasher Mac.
Import ListNotations.
Local Open Scope N_scope.

(** After a panic: no digest is ever given out again; an update is accepted while the
    count fits, and otherwise stops with the count at its maximum. *)
Fixpoint doomed (limit : N) (calls : list call) (n : N) : list (option (list N)) :=
  match calls with
  | [] => []
  | Update data :: cs =>
      let n' := n + N.of_nat (length data) in
      if limit <=? n' then None :: doomed limit cs (limit - 1) else Some [] :: doomed limit cs n'
  | Digest :: cs => None :: doomed limit cs n
  end.

Fixpoint replies (limit : N) (checks : bool) (calls : list call) (st : hasher)
  : list (option (list N)) :=
  match calls with
  | [] => []
  | Update data :: cs =>
      match update limit checks st data with
      | Some st' => Some [] :: replies limit checks cs st'
      | None => None :: doomed limit cs (limit - 1)
      end
  | Digest :: cs =>
      match digest limit checks st with
      | Some (d, st') => Some d :: replies limit checks cs st'
      | None => None :: doomed limit cs (total st)
      end
  end.

Fixpoint mac_replies (limit : N) (checks : bool) (calls : list call) (m : mac)
  : list (option (list N)) :=
  match calls with
  | [] => []
  | Update data :: cs =>
      match mac_update limit checks m data with
      | Some m' => Some [] :: mac_replies limit checks cs m'
      | None => None :: doomed limit cs (limit - 1)
      end
  | Digest :: cs =>
      match mac_digest limit checks m with
      | Some (d, m') => Some d :: mac_replies limit checks cs m'
      | None => None :: doomed limit cs (total (inner m))
      end
  end.
