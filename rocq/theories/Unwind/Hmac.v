(** /repo/src/hmac.rs again; see Unwind/Mem.v.  [HMac::new] has no memory the caller
    sees. *)
From Coq Require Import NArith List.
From Verif Require Import Rust.
From Verif.Model Require Import Sha256 Hmac.
From Verif.Unwind Require Import Mem.
From Verif.Unwind Require Sha256.
Import ListNotations.
Local Open Scope N_scope.

(** A method of [self.inner], of [self.outer]. *)
Definition on_inner {A} (p : prog SHA256 A) : prog HMac A := fun m =>
  match p (inner m) with
  | Done a i => Done a (mkHMac i (outer m))
  | Unwound i => Unwound (mkHMac i (outer m))
  | Lost => Lost
  end.
Definition on_outer {A} (p : prog SHA256 A) : prog HMac A := fun m =>
  match p (outer m) with
  | Done a o => Done a (mkHMac (inner m) o)
  | Unwound o => Unwound (mkHMac (inner m) o)
  | Lost => Lost
  end.

(** src/hmac.rs:104-106 *)
Definition update (T : target) (data : list N) : prog HMac unit := on_inner (Sha256.update T data).

(** src/hmac.rs:111-114 *)
Definition digest (T : target) : prog HMac (list N) :=
  let! d := on_inner (Sha256.digest T) in
  let! _ := on_outer (Sha256.update T d) in
  on_outer (Sha256.digest T).
