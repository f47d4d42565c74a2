(** What one SHA-256 hasher object returns over a whole history of calls: an
    abstract machine over the RFC 6234 compression function.  It is used for the
    histories RFC 6234 says nothing about: calls after a digest, and lengths whose
    bit count does not fit the machine word.  Independent of the model. *)
From Coq Require Import NArith List Arith.
From Verif.Spec Require Import Octets Sha256.
Import ListNotations.
Local Open Scope N_scope.

(** Chaining value (8 words), the incomplete last block, the byte count. *)
Record hasher : Type := mkHasher { chain : list N; pending : list N; total : N }.

Definition fresh : hasher := mkHasher H0 [] 0.

(** The compression function on a 64-octet block, and on a string of blocks. *)
Definition absorb_block (c b : list N) : list N :=
  compress c (words_of_bits (bits_of_octets b)).
Definition absorb (c l : list N) : list N := fold_left absorb_block (blocks 64 l) c.

(** What is left of [l] after its complete blocks. *)
Definition leftover (l : list N) : list N := skipn (64 * (length l / 64)) l.

(** The machine word counts modulo [limit]; with [checks] reaching [limit] is a
    panic ([None]). *)
Definition update (limit : N) (checks : bool) (st : hasher) (data : list N) : option hasher :=
  let l := pending st ++ data in
  let n := total st + N.of_nat (length data) in
  if (andb checks (limit <=? n))%bool then None
  else Some (mkHasher (absorb (chain st) l) (leftover l) (n mod limit)).

(** The last block or two: the pending octets [p], 0x80, the least number of
    zeros, the 64-bit length. *)
Definition final (p : list N) (bitlen : N) : list N :=
  p ++ [128] ++ repeat 0 ((119 - length p) mod 64) ++ be_octets 8 bitlen.

(** [digest] absorbs them and does not start over: the object keeps the final
    chaining value, its byte count, and the front of the last padded block. *)
Definition digest (limit : N) (checks : bool) (st : hasher) : option (list N * hasher) :=
  let bits := 8 * total st in
  if (andb checks (limit <=? bits))%bool then None
  else
    let f := final (pending st) (bits mod limit) in
    let c := absorb (chain st) f in
    Some (flat_map (be_octets 4) c,
          mkHasher c (firstn (length (pending st)) (skipn (length f - 64) f)) (total st)).

Inductive call : Type := Update (data : list N) | Digest.

(** The results of a history: [Some []] for an update, [Some d] for a digest
    [d]; [None], and nothing after it, if the call panics. *)
Fixpoint results (limit : N) (checks : bool) (calls : list call) (st : hasher)
  : list (option (list N)) :=
  match calls with
  | [] => []
  | Update data :: cs =>
      match update limit checks st data with
      | Some st' => Some [] :: results limit checks cs st'
      | None => [None]
      end
  | Digest :: cs =>
      match digest limit checks st with
      | Some (d, st') => Some d :: results limit checks cs st'
      | None => [None]
      end
  end.

(** SHA-256 with an arbitrary value in the length field: what a hasher computes
    when the length of the message is miscounted.  [Proofs.Sha256Main] shows that
    it is [sha256] when the field holds the length. *)
Definition pad_with_length (m : list bool) (bitlen : N) : list bool :=
  m ++ [true] ++ repeat false (pad_zeros (length m)) ++ bits_of_num 64 bitlen.
Definition sha256_with_length (m : list N) (bitlen : N) : list N :=
  flat_map (be_octets 4)
    (fold_left (fun Hprev b => compress Hprev (words_of_bits b))
       (blocks 512 (pad_with_length (bits_of_octets m) bitlen)) H0).

(** Octets passed to update by a history. *)
Fixpoint bytes_fed (calls : list call) : N :=
  match calls with
  | [] => 0
  | Update d :: cs => N.of_nat (length d) + bytes_fed cs
  | Digest :: cs => bytes_fed cs
  end.
