(** The operations of Rust.v, recording every request to the allocator and every
    return of memory to it, in bytes and in order.  Heap/Scrypt.v is the text of
    Model/Scrypt.v written with these operations.  No file of /repo is modelled
    here.

    Recorded: the payload of each request ([Layout::size]).  Not recorded: what
    the allocator itself adds, the stack, and the drops of an unwinding panic
    (the record ends where the panic starts). *)
From Coq Require Import NArith List Bool.
From Verif Require Rust.
From Verif.Spec Require Import Heap.
Import ListNotations.
Local Open Scope N_scope.

(** A record and an outcome. *)
Definition res (A : Type) : Type := (list event * Rust.res A)%type.
Definition trace {A : Type} (m : res A) : list event := fst m.
Definition outcome {A : Type} (m : res A) : Rust.res A := snd m.

Definition lift {A : Type} (m : Rust.res A) : res A := ([], m).
Definition Ret {A : Type} (a : A) : res A := lift (Rust.Ret a).
Definition take (bytes : N) : res unit := ([Take bytes], Rust.Ret tt).
Definition give (bytes : N) : res unit := ([Give bytes], Rust.Ret tt).

Definition bind {A B : Type} (m : res A) (f : A -> res B) : res B :=
  match m with
  | (t, Rust.Ret a) => let (t', r) := f a in (t ++ t', r)
  | (t, Rust.Panic) => (t, Rust.Panic)
  | (t, Rust.Diverge) => (t, Rust.Diverge)
  end.

Notation "'let*' x ':=' m 'in' k" := (bind m (fun x => k))
  (at level 200, x pattern, right associativity,
   format "'[v' 'let*'  x  ':='  m  'in' '/' k ']'").

(** [Vec::with_capacity(n)], [vec![_; n]] for elements of [size] bytes. *)
Definition with_capacity (T : Rust.target) (size n : N) : res unit :=
  let* _ := lift (Rust.alloc T size n) in take (size * n).

(** A new [Vec<u8>] holding exactly [b]: [clone], [to_vec], and [collect] from an
    iterator that knows its length all request exactly [b.len()] bytes. *)
Definition new_bytes (b : list N) : res (list N) :=
  let* _ := take (Rust.len b) in Ret b.
Definition drop_bytes (b : list N) : res unit := give (Rust.len b).

Fixpoint for_n {St : Type} (n : nat) (i : N) (body : N -> St -> res St) (s : St)
  : res St :=
  match n with
  | O => Ret s
  | S n' => let* s' := body i s in for_n n' (N.succ i) body s'
  end.
Definition for_range {St : Type} (lo hi : N) (body : N -> St -> res St) (s : St)
  : res St :=
  for_n (N.to_nat (hi - lo)) lo body s.
Fixpoint for_each {A St : Type} (l : list A) (body : A -> St -> res St) (s : St)
  : res St :=
  match l with
  | [] => Ret s
  | x :: l' => let* s' := body x s in for_each l' body s'
  end.
Fixpoint map_res {A B : Type} (f : A -> res B) (l : list A) : res (list B) :=
  match l with
  | [] => Ret []
  | x :: l' => let* y := f x in let* ys := map_res f l' in Ret (y :: ys)
  end.
