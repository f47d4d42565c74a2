(** What the memory of a hasher holds: besides the chaining value and the byte count a block
    of 64 octets, part of which is older than the pending octets.  Independent of the model. *)
From Coq Require Import NArith List Arith.
From Verif.Spec Require Import Octets Sha256 Hasher.
From Verif.Spec Require Stream.
Import ListNotations.
Local Open Scope N_scope.

(** [rest] written over the beginning of [old]. *)
Definition overlay (rest old : list N) : list N := rest ++ skipn (length rest) old.

Record memory : Type := mkMemory { known : hasher; block : list N }.
Definition blank : memory := mkMemory fresh (repeat 0 64).

(** New octets replace old ones; what is behind the pending octets is from the last complete
    block, or from before if there is none. *)
Definition write (limit : N) (checks : bool) (m : memory) (data : list N) : option memory :=
  match update limit checks (known m) data with
  | None => None
  | Some st =>
      let l := pending (known m) ++ data in
      Some (mkMemory st (overlay (leftover l) (last (blocks 64 l) (block m))))
  end.
(** A digest leaves the last block of the padding. *)
Definition finish (limit : N) (checks : bool) (m : memory) : option memory :=
  match digest limit checks (known m) with
  | None => None
  | Some (_, st) =>
      let f := final (pending (known m)) ((8 * total (known m)) mod limit) in
      Some (mkMemory st (skipn (length f - 64) f))
  end.
Fixpoint memory_after (limit : N) (checks : bool) (calls : list call) (m : memory) : option memory :=
  match calls with
  | [] => Some m
  | c :: cs =>
      match (match c with Update data => write limit checks m data | Digest => finish limit checks m end) with
      | None => None
      | Some m' => memory_after limit checks cs m'
      end
  end.

(** In closed form, for a message: before the digest, and after it. *)
Definition held (m : list N) : list N := overlay (leftover m) (last (blocks 64 m) (repeat 0 64)).
Definition padded (m : list N) : list N :=
  m ++ [128] ++ repeat 0 ((119 - length m mod 64) mod 64) ++ be_octets 8 (8 * N.of_nat (length m)).
Definition last_block (m : list N) : list N := skipn (length (padded m) - 64) (padded m).

(** The key that the calls on a cipher or decipher put in force: the last one of 16, 24 or 32
    octets. *)
Definition accepted (k : option (list N)) (c : Stream.call) : option (list N) :=
  match c with
  | Stream.Init key =>
      if (Nat.eqb (length key) 16 || Nat.eqb (length key) 24 || Nat.eqb (length key) 32)%bool
      then Some key else k
  | _ => k
  end.
Definition key_in_force (calls : list Stream.call) : option (list N) := fold_left accepted calls None.
