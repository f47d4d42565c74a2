(** What one HMAC-SHA256 object returns over a whole history of calls, as a pair
    of [Hasher] machines.  Used for histories RFC 2104 says nothing about.
    Independent of the model. *)
From Coq Require Import NArith List Arith.
From Verif.Spec Require Import Octets Sha256 Hmac Hasher.
Import ListNotations.
Local Open Scope N_scope.

Record mac : Type := mkMac { inner : hasher; outer : hasher }.

Definition obind {A B : Type} (o : option A) (f : A -> option B) : option B :=
  match o with Some a => f a | None => None end.

(** The key object: both hashers are fed one 64-octet block. *)
Definition new (limit : N) (checks : bool) (K : list N) : option mac :=
  obind (if Nat.ltb 64 (length K)
         then obind (update limit checks fresh K) (fun st =>
              obind (digest limit checks st) (fun ds => Some (fst ds)))
         else Some K) (fun K' =>
  let B := K' ++ repeat 0 (64 - length K') in
  obind (update limit checks fresh (xor B ipad)) (fun i =>
  obind (update limit checks fresh (xor B opad)) (fun o =>
  Some (mkMac i o)))).

Definition mac_update (limit : N) (checks : bool) (m : mac) (data : list N) : option mac :=
  obind (update limit checks (inner m) data) (fun i => Some (mkMac i (outer m))).

(** The inner digest is fed to the outer hasher; neither starts over. *)
Definition mac_digest (limit : N) (checks : bool) (m : mac) : option (list N * mac) :=
  obind (digest limit checks (inner m)) (fun di =>
  obind (update limit checks (outer m) (fst di)) (fun o =>
  obind (digest limit checks o) (fun dd =>
  Some (fst dd, mkMac (snd di) (snd dd))))).

Fixpoint mac_results (limit : N) (checks : bool) (calls : list call) (m : mac)
  : list (option (list N)) :=
  match calls with
  | [] => []
  | Update data :: cs =>
      match mac_update limit checks m data with
      | Some m' => Some [] :: mac_results limit checks cs m'
      | None => [None]
      end
  | Digest :: cs =>
      match mac_digest limit checks m with
      | Some (d, m') => Some d :: mac_results limit checks cs m'
      | None => [None]
      end
  end.
