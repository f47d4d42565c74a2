(** The text of Model/Hmac.v with the recording operations of Ops.v: [if] is [if*],
    and traversals written with pure list functions in the model record their
    length.  Constants, records and functions that neither branch nor index
    (word operations) are the model's own. *)
From Coq Require Import NArith List Bool.
From Verif Require Import Rust.
From Verif.Model Require Import Sha256 Hmac.
From Verif.Leak Require Import Ops Sha256.
Import ListNotations.
Local Open Scope N_scope.

(** src/hmac.rs:46-99.  [HMac::new] calls itself (line 77); the recursion depth
    is bounded by explicit fuel, and exhausting it is [Diverge]. *)
Fixpoint hmac_new_fuel (fuel : nat) (T : target) (key : list N) : res HMac :=
  match fuel with
  | O => Diverge
  | S fuel =>
      if* BLOCK_SIZE <? len key then
        let* tmp := sha256_update T sha256_new key in
        let* (d, _) := sha256_digest T tmp in
        hmac_new_fuel fuel T d
      else
        let block := repeat 0 64 in
        (* block[..key.len()].copy_from_slice(key) *)
        let* block := with_slice block 0 (len key) (fun d => copy_from_slice d key) in
        let* block := map (fun elem => N.lxor elem 0x36) block in
        let* inner := sha256_update T sha256_new block in
        let* block := map (fun elem => N.lxor elem (N.lxor 0x36 0x5c)) block in
        let* outer := sha256_update T sha256_new block in
        Ret (mkHMac inner outer)
  end.

(** src/hmac.rs:46: two levels of recursion are provided for. *)
Definition hmac_new (T : target) (key : list N) : res HMac := hmac_new_fuel 2 T key.

(** src/hmac.rs:104-106 *)
Definition hmac_update (T : target) (m : HMac) (data : list N) : res HMac :=
  let* i := sha256_update T (inner m) data in
  Ret (mkHMac i (outer m)).

(** src/hmac.rs:111-114 *)
Definition hmac_digest (T : target) (m : HMac) : res (list N * HMac) :=
  let* (d, i) := sha256_digest T (inner m) in
  let* o := sha256_update T (outer m) d in
  let* (out, o) := sha256_digest T o in
  Ret (out, mkHMac i o).
