(** Calls of the public functions, made on the text of the program: the trees of
    Source/Tree.v run by the interpreter of Source/Interp.v. *)
From Coq Require Import NArith List String.
From Verif Require Import Rust.
From Verif.Source Require Import Syntax Interp Tree.
From Verif.Spec Require Hasher.
Import ListNotations.
Local Open Scope string_scope.
Local Open Scope N_scope.

(** The program of /repo/src. *)
Definition run (T : target) : nat -> callee := interp T constants functions.

(** A history of calls on one object with methods [update] and [digest]: the
    results, up to and including the first call that does not return.  An update
    returns [()], here the empty string. *)
Fixpoint history (T : target) (fuel : nat) (type : string) (calls : list Hasher.call) (self : val)
  : list (res (list N)) :=
  match calls with
  | [] => []
  | Hasher.Update d :: cs =>
      match run T fuel (type ++ "::update") [self; VNums U8 d] with
      | Ret (VUnit, [Some self'; None]) => Ret [] :: history T fuel type cs self'
      | Panic => [Panic]
      | _ => [Diverge]
      end
  | Hasher.Digest :: cs =>
      match run T fuel (type ++ "::digest") [self] with
      | Ret (VNums U8 d, [Some self']) => Ret d :: history T fuel type cs self'
      | Panic => [Panic]
      | _ => [Diverge]
      end
  end.

(** The same with the object made by [new(args)]. *)
Definition life (T : target) (fuel : nat) (type : string) (args : list val) (calls : list Hasher.call)
  : list (res (list N)) :=
  match run T fuel (type ++ "::new") args with
  | Ret (self, _) => history T fuel type calls self
  | Panic => [Panic]
  | Diverge => [Diverge]
  end.
