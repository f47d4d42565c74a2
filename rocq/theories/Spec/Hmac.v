(** HMAC-SHA256 as in RFC 2104.  Independent of the model. *)
From Coq Require Import NArith List Arith.
From Verif.Spec Require Import Octets Sha256.
Import ListNotations.
Local Open Scope N_scope.

(** Keys longer than B = 64 octets are first hashed; then zeros are appended to
    make a B-octet string. *)
Definition block_key (K : list N) : list N :=
  let K' := if Nat.ltb 64 (length K) then sha256 K else K in
  K' ++ repeat 0 (64 - length K').

Definition ipad : list N := repeat 0x36 64.
Definition opad : list N := repeat 0x5c 64.

(** H(K XOR opad, H(K XOR ipad, text)) *)
Definition hmac (K text : list N) : list N :=
  sha256 (xor (block_key K) opad ++ sha256 (xor (block_key K) ipad ++ text)).
