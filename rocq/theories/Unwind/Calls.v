(** Histories of calls by an owner who catches every panic and goes on with the same
    object: [None] for a call that panicked.  Only chains public calls; no file of
    /repo is modelled. *)
From Coq Require Import NArith List.
From Verif Require Import Rust.
From Verif.Model Require Import Sha256 Hmac.
From Verif.Spec Require Hasher.
From Verif.Unwind Require Import Mem.
From Verif.Unwind Require Sha256 Hmac.
Import ListNotations.

Definition reply {S A} (show : A -> list N) (f : fate S A) (k : S -> list (option (list N)))
  : list (option (list N)) :=
  match f with
  | Done a s => Some (show a) :: k s
  | Unwound s => None :: k s
  | Lost => []
  end.
Fixpoint sha_survive (T : target) (calls : list Hasher.call) (s : SHA256) : list (option (list N)) :=
  match calls with
  | [] => []
  | Hasher.Update d :: cs => reply (fun _ => []) (Unwind.Sha256.update T d s) (sha_survive T cs)
  | Hasher.Digest :: cs => reply (fun d => d) (Unwind.Sha256.digest T s) (sha_survive T cs)
  end.
Fixpoint hmac_survive (T : target) (calls : list Hasher.call) (m : HMac) : list (option (list N)) :=
  match calls with
  | [] => []
  | Hasher.Update d :: cs => reply (fun _ => []) (Unwind.Hmac.update T d m) (hmac_survive T cs)
  | Hasher.Digest :: cs => reply (fun d => d) (Unwind.Hmac.digest T m) (hmac_survive T cs)
  end.
