(** Code that may panic after it has changed memory the caller can still see: a
    [&mut self] object or a [&mut [u8]] buffer.  A panic unwinds; whoever catches it
    (with [std::panic::catch_unwind]) finds the memory as it was at that moment.
    No file of /repo is modelled here.  Definitions only, no proofs. *)
From Coq Require Import NArith List Bool.
From Verif Require Import Rust.
Import ListNotations.
Local Open Scope N_scope.

(** How a run ends, and the visible memory then. *)
Inductive fate (S A : Type) : Type :=
| Done (a : A) (s : S)
| Unwound (s : S)
| Lost.
Arguments Done {S A} a s.
Arguments Unwound {S A} s.
Arguments Lost {S A}.

Definition prog (S A : Type) : Type := S -> fate S A.

Definition ret {S A} (a : A) : prog S A := fun s => Done a s.
Definition seq {S A B} (p : prog S A) (k : A -> prog S B) : prog S B := fun s =>
  match p s with
  | Done a s' => k a s'
  | Unwound s' => Unwound s'
  | Lost => Lost
  end.
Notation "'let!' x ':=' m 'in' k" := (seq m (fun x => k))
  (at level 200, x pattern, right associativity,
   format "'[v' 'let!'  x  ':='  m  'in' '/' k ']'").

Definition get {S} : prog S S := fun s => Done s s.
Definition put {S} (s : S) : prog S unit := fun _ => Done tt s.

(** A computation on local values only. *)
Definition lift {S A} (m : res A) : prog S A := fun s =>
  match m with
  | Ret a => Done a s
  | Panic => Unwound s
  | Diverge => Lost
  end.

(** [for i in lo..hi] and [for x in l]. *)
Fixpoint for_n {S} (n : nat) (i : N) (body : N -> prog S unit) : prog S unit :=
  match n with
  | O => ret tt
  | Datatypes.S n' => let! _ := body i in for_n n' (N.succ i) body
  end.
Definition for_range {S} (lo hi : N) (body : N -> prog S unit) : prog S unit :=
  for_n (N.to_nat (hi - lo)) lo body.
Definition for_range_incl {S} (lo hi : N) (body : N -> prog S unit) : prog S unit :=
  for_range lo (hi + 1) body.
Fixpoint for_each {S A} (l : list A) (body : A -> prog S unit) : prog S unit :=
  match l with
  | [] => ret tt
  | x :: l' => let! _ := body x in for_each l' body
  end.

(** [l[i] = v] and [f(&mut l[a..b])] on a visible buffer. *)
Definition assign {X} (i : N) (v : X) : prog (list X) unit :=
  let! l := get in
  let! l := lift (upd l i v) in
  put l.
Definition on_slice {X} (a b : N) (f : prog (list X) unit) : prog (list X) unit := fun l =>
  if (a <=? b) && (b <=? len l) then
    let back x := firstn (N.to_nat a) l ++ x ++ skipn (N.to_nat b) l in
    match f (firstn (N.to_nat (b - a)) (skipn (N.to_nat a) l)) with
    | Done _ x => Done tt (back x)
    | Unwound x => Unwound (back x)
    | Lost => Lost
    end
  else Unwound l.
(** [dst.copy_from_slice(src)]: the lengths are compared first. *)
Definition copy_from_slice {X} (src : list X) : prog (list X) unit :=
  let! dst := get in
  let! x := lift (Rust.copy_from_slice dst src) in
  put x.

(** Without the memory a panic leaves behind. *)
Definition outcome {S A} (p : prog S A) (s : S) : res (A * S) :=
  match p s with
  | Done a s' => Ret (a, s')
  | Unwound _ => Panic
  | Lost => Diverge
  end.
