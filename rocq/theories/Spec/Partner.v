(** Pairs of HMAC keys whose two pads are exchanged.  Independent of the model. *)
From Coq Require Import NArith List Arith.
From Verif.Spec Require Import Octets Sha256 Hmac.
Import ListNotations.
Local Open Scope N_scope.

(** The key block, with the sum of the two pads added: 0x6a in every octet. *)
Definition partner (K : list N) : list N := map (N.lxor 0x6a) (block_key K).

(** The inner and the outer hash of HMAC. *)
Definition inner_hash (K m : list N) : list N := sha256 (xor (block_key K) ipad ++ m).
Definition outer_hash (K m : list N) : list N := sha256 (xor (block_key K) opad ++ m).

(** [n] MACs on top of each other. *)
Fixpoint chain (n : nat) (K m : list N) : list N :=
  match n with O => m | S n' => hmac K (chain n' K m) end.
