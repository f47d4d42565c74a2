(** The operations of Rust.v, recording what an observer of the program counter
    and of memory addresses sees.  The files Leak/*.v are the texts of Model/*.v
    written with these operations; Proofs/LeakErase.v proves that leaving out the
    record gives back the model.  No file of /repo is modelled here.

    Recorded: every index read or written, the bounds of every slice, the number
    of elements of every bulk copy or element-wise traversal, the outcome of
    every branch and loop test, the size of every allocation.  Not recorded: the
    operands of arithmetic (no variable-time instruction is modelled, in
    particular not division), and what a write allocates when a vector grows. *)
From Coq Require Import NArith List Bool.
From Verif Require Rust.
Import ListNotations.
Local Open Scope N_scope.

Inductive event : Type :=
| Read (i : N)
| Write (i : N)
| Range (a b : N)
| Run (n : N)
| Branch (b : bool)
| Alloc (bytes : N).

(** A record and an outcome. *)
Definition res (A : Type) : Type := (list event * Rust.res A)%type.
Definition trace {A : Type} (m : res A) : list event := fst m.
Definition outcome {A : Type} (m : res A) : Rust.res A := snd m.

(** What the observer sees: the record, and how the run ends. *)
Inductive ending : Type := Returned | Panicked | Diverged.
Definition visible {A : Type} (m : res A) : list event * ending :=
  (trace m, match outcome m with
            | Rust.Ret _ => Returned
            | Rust.Panic => Panicked
            | Rust.Diverge => Diverged
            end).

Definition lift {A : Type} (m : Rust.res A) : res A := ([], m).
Definition Ret {A : Type} (a : A) : res A := lift (Rust.Ret a).
Definition Panic {A : Type} : res A := lift Rust.Panic.
Definition Diverge {A : Type} : res A := lift Rust.Diverge.
Definition emit (e : event) : res unit := ([e], Rust.Ret tt).

Definition bind {A B : Type} (m : res A) (f : A -> res B) : res B :=
  match m with
  | (t, Rust.Ret a) => let (t', r) := f a in (t ++ t', r)
  | (t, Rust.Panic) => (t, Rust.Panic)
  | (t, Rust.Diverge) => (t, Rust.Diverge)
  end.

Notation "'let*' x ':=' m 'in' k" := (bind m (fun x => k))
  (at level 200, x pattern, right associativity,
   format "'[v' 'let*'  x  ':='  m  'in' '/' k ']'").

(** [if c { x } else { y }] *)
Definition branch {A : Type} (c : bool) (x y : res A) : res A :=
  let* _ := emit (Branch c) in if c then x else y.
Notation "'if*' c 'then' x 'else' y" := (branch c x y)
  (at level 200, right associativity).

(** * Integers: nothing is recorded. *)
Definition uadd (T : Rust.target) (a b : N) : res N := lift (Rust.uadd T a b).
Definition umul (T : Rust.target) (a b : N) : res N := lift (Rust.umul T a b).
Definition usub (T : Rust.target) (a b : N) : res N := lift (Rust.usub T a b).
Definition udiv (a b : N) : res N := lift (Rust.udiv a b).
Definition urem (a b : N) : res N := lift (Rust.urem a b).

(** * Arrays *)
Definition idx {A : Type} (l : list A) (i : N) : res A :=
  let* _ := emit (Read i) in lift (Rust.idx l i).
Definition upd {A : Type} (l : list A) (i : N) (v : A) : res (list A) :=
  let* _ := emit (Write i) in lift (Rust.upd l i v).
Definition slice {A : Type} (l : list A) (a b : N) : res (list A) :=
  let* _ := emit (Range a b) in lift (Rust.slice l a b).
Definition slice_from {A : Type} (l : list A) (a : N) : res (list A) :=
  slice l a (Rust.len l).
Definition slice_to {A : Type} (l : list A) (b : N) : res (list A) :=
  slice l 0 b.
Definition with_slice {A : Type} (l : list A) (a b : N)
    (f : list A -> res (list A)) : res (list A) :=
  let* s := slice l a b in
  let* s' := f s in
  Ret (firstn (N.to_nat a) l ++ s' ++ skipn (N.to_nat b) l).
Definition copy_from_slice {A : Type} (dst src : list A) : res (list A) :=
  let* _ := emit (Run (Rust.len src)) in lift (Rust.copy_from_slice dst src).
Definition split_off {A : Type} (l : list A) (at_ : N) : res (list A * list A) :=
  let* _ := emit (Range at_ (Rust.len l)) in lift (Rust.split_off l at_).
Definition alloc (T : Rust.target) (size n : N) : res unit :=
  let* _ := emit (Alloc (size * n)) in lift (Rust.alloc T size n).
Definition chunks {A : Type} (l : list A) (n : N) : res (list (list A)) :=
  let* _ := emit (Run (Rust.len l)) in lift (Rust.chunks l n).
Definition chunks_exact {A : Type} (l : list A) (n : N) : res (list (list A)) :=
  let* _ := emit (Run (Rust.len l)) in lift (Rust.chunks_exact l n).

(** A pure traversal of [n] elements in order, computing [x]. *)
Definition run {A : Type} (n : N) (x : A) : res A :=
  let* _ := emit (Run n) in Ret x.

(** * Iteration: the loop test is recorded each time. *)
Fixpoint for_n {St : Type} (n : nat) (i : N) (body : N -> St -> res St) (s : St)
  : res St :=
  match n with
  | O => let* _ := emit (Branch false) in Ret s
  | S n' =>
      let* _ := emit (Branch true) in
      let* s' := body i s in for_n n' (N.succ i) body s'
  end.
Definition for_range {St : Type} (lo hi : N) (body : N -> St -> res St) (s : St)
  : res St :=
  for_n (N.to_nat (hi - lo)) lo body s.
Definition for_range_incl {St : Type} (lo hi : N) (body : N -> St -> res St) (s : St)
  : res St :=
  for_range lo (hi + 1) body s.
Fixpoint for_n_rev {St : Type} (n : nat) (lo : N) (body : N -> St -> res St) (s : St)
  : res St :=
  match n with
  | O => let* _ := emit (Branch false) in Ret s
  | S n' =>
      let* _ := emit (Branch true) in
      let* s' := body (lo + N.of_nat n') s in for_n_rev n' lo body s'
  end.
Definition for_range_rev {St : Type} (lo hi : N) (body : N -> St -> res St) (s : St)
  : res St :=
  for_n_rev (N.to_nat (hi - lo)) lo body s.
Fixpoint for_each {A St : Type} (l : list A) (body : A -> St -> res St) (s : St)
  : res St :=
  match l with
  | [] => let* _ := emit (Branch false) in Ret s
  | x :: l' =>
      let* _ := emit (Branch true) in
      let* s' := body x s in for_each l' body s'
  end.
Fixpoint for_each_try {A St E : Type} (l : list A)
    (body : A -> St -> res (Rust.result unit E * St)) (s : St)
  : res (Rust.result unit E * St) :=
  match l with
  | [] => let* _ := emit (Branch false) in Ret (Rust.Ok tt, s)
  | x :: l' =>
      let* _ := emit (Branch true) in
      let* (r, s') := body x s in
      match r with
      | Rust.Ok _ => let* _ := emit (Branch true) in for_each_try l' body s'
      | Rust.Err e => let* _ := emit (Branch false) in Ret (Rust.Err e, s')
      end
  end.
Fixpoint map_res {A B : Type} (f : A -> res B) (l : list A) : res (list B) :=
  match l with
  | [] => let* _ := emit (Branch false) in Ret []
  | x :: l' =>
      let* _ := emit (Branch true) in
      let* y := f x in let* ys := map_res f l' in Ret (y :: ys)
  end.
Fixpoint while_loop {St : Type} (fuel : nat) (cond : St -> bool)
    (body : St -> res St) (s : St) : res St :=
  if* cond s then
    match fuel with
    | O => Diverge
    | S f => let* s' := body s in while_loop f cond body s'
    end
  else Ret s.

(** Element-wise combination: as many steps as the shorter list has elements. *)
Definition zip_xor (a b : list N) : res (list N) :=
  run (N.min (Rust.len a) (Rust.len b)) (Rust.zip_xor a b).
Definition xor_into (a b : list N) : res (list N) :=
  run (N.min (Rust.len a) (Rust.len b)) (Rust.xor_into a b).
Definition map (f : N -> N) (l : list N) : res (list N) :=
  run (Rust.len l) (List.map f l).
