(** The fragment of Rust semantics that /repo/src uses.  No file of /repo is
    modelled here: these are the language and [std] operations the model files
    are written with.  Definitions only, no proofs. *)
From Coq Require Import NArith List Bool.
Import ListNotations.
Local Open Scope N_scope.

(** * Outcomes *)

(** The outcome of running Rust code: a value, a panic, or (only for loops and
    recursions written with explicit fuel) running out of fuel.  [Diverge] is
    never a normal-looking value: conformance theorems state [= Ret _]. *)
Inductive res (A : Type) : Type :=
| Ret (a : A)
| Panic
| Diverge.
Arguments Ret {A} a.
Arguments Panic {A}.
Arguments Diverge {A}.

Definition bind {A B : Type} (m : res A) (f : A -> res B) : res B :=
  match m with
  | Ret a => f a
  | Panic => Panic
  | Diverge => Diverge
  end.

Notation "'let*' x ':=' m 'in' k" := (bind m (fun x => k))
  (at level 200, x pattern, right associativity,
   format "'[v' 'let*'  x  ':='  m  'in' '/' k ']'").

(** Rust's [Result<A, E>]. *)
Inductive result (A E : Type) : Type :=
| Ok (a : A)
| Err (e : E).
Arguments Ok {A E} a.
Arguments Err {A E} e.

(** * Compilation target *)

(** Pointer width, and whether the build has overflow checks (debug profile)
    or wraps (release profile). *)
Inductive ptr_width : Type := W32 | W64.
Record target : Type := mkTarget { width : ptr_width; overflow_checks : bool }.

Definition usize_bits (T : target) : N :=
  match width T with W32 => 32 | W64 => 64 end.
(** Number of [usize] values. *)
Definition usize_mod (T : target) : N := 2 ^ usize_bits T.
(** [isize::MAX], the largest size of any allocation or slice in bytes. *)
Definition isize_max (T : target) : N := 2 ^ (usize_bits T - 1) - 1.
(** [size_of::<Vec<_>>()]: pointer, capacity, length. *)
Definition vec_size (T : target) : N := 3 * (usize_bits T / 8).

(** * Integers: values of every unsigned type are [N]; operations that can leave
    the type's range say what happens. *)

(** An arithmetic result of type [usize]: in range, or panic / wrap. *)
Definition fit_usize (T : target) (x : N) : res N :=
  if x <? usize_mod T then Ret x
  else if overflow_checks T then Panic
  else Ret (x mod usize_mod T).

Definition uadd (T : target) (a b : N) : res N := fit_usize T (a + b).
Definition umul (T : target) (a b : N) : res N := fit_usize T (a * b).
Definition usub (T : target) (a b : N) : res N :=
  if b <=? a then Ret (a - b)
  else if overflow_checks T then Panic
  else Ret (a + usize_mod T - b).
(** Division and remainder panic on a zero divisor in every build. *)
Definition udiv (a b : N) : res N := if b =? 0 then Panic else Ret (a / b).
Definition urem (a b : N) : res N := if b =? 0 then Panic else Ret (a mod b).

(** [x as u8], [x as u64]; [x as usize] from [u64]. *)
Definition as_u8 (x : N) : N := x mod 256.
Definition as_u64 (x : N) : N := x mod 2 ^ 64.
Definition as_usize (T : target) (x : N) : N := x mod usize_mod T.

(** [u32] operations.  Shift amounts in /repo/src are literals below 32 (or
    [32 - literal]), so the overflow check on shift amounts never fires. *)
Definition wrapping_add32 (a b : N) : N := (a + b) mod 2 ^ 32.
Definition shl32 (a s : N) : N := N.shiftl a s mod 2 ^ 32.
Definition shl64 (a s : N) : N := N.shiftl a s mod 2 ^ 64.
Definition shl8 (a s : N) : N := N.shiftl a s mod 2 ^ 8.
Definition shr (a s : N) : N := N.shiftr a s.
Definition not32 (a : N) : N := N.lxor a (2 ^ 32 - 1).

(** * Arrays, slices and vectors are lists. *)

Definition len {A : Type} (l : list A) : N := N.of_nat (length l).

(** [l[i]] (read). *)
Definition idx {A : Type} (l : list A) (i : N) : res A :=
  match nth_error l (N.to_nat i) with
  | Some x => Ret x
  | None => Panic
  end.

Fixpoint set_nth {A : Type} (l : list A) (n : nat) (v : A) : list A :=
  match l, n with
  | [], _ => []
  | _ :: l', O => v :: l'
  | x :: l', S n' => x :: set_nth l' n' v
  end.

(** [l[i] = v]. *)
Definition upd {A : Type} (l : list A) (i : N) (v : A) : res (list A) :=
  if i <? len l then Ret (set_nth l (N.to_nat i) v) else Panic.

(** [&l[a..b]], [&l[a..]], [&l[..b]]. *)
Definition slice {A : Type} (l : list A) (a b : N) : res (list A) :=
  if (a <=? b) && (b <=? len l)
  then Ret (firstn (N.to_nat (b - a)) (skipn (N.to_nat a) l))
  else Panic.
Definition slice_from {A : Type} (l : list A) (a : N) : res (list A) :=
  slice l a (len l).
Definition slice_to {A : Type} (l : list A) (b : N) : res (list A) :=
  slice l 0 b.

(** Running [f] on [&mut l[a..b]] and writing the slice back. *)
Definition with_slice {A : Type} (l : list A) (a b : N)
    (f : list A -> res (list A)) : res (list A) :=
  let* s := slice l a b in
  let* s' := f s in
  Ret (firstn (N.to_nat a) l ++ s' ++ skipn (N.to_nat b) l).

(** [dst.copy_from_slice(src)] on a whole slice: panics on a length mismatch. *)
Definition copy_from_slice {A : Type} (dst src : list A) : res (list A) :=
  if len dst =? len src then Ret src else Panic.

(** [l.split_off(at)]: [l] keeps the first [at] elements. *)
Definition split_off {A : Type} (l : list A) (at_ : N) : res (list A * list A) :=
  if at_ <=? len l
  then Ret (firstn (N.to_nat at_) l, skipn (N.to_nat at_) l)
  else Panic.

(** [Vec::with_capacity(n)] / [vec![_; n]] for elements of [size] bytes:
    "capacity overflow" panic above [isize::MAX] bytes.  Memory exhaustion
    (an abort) is not modelled. *)
Definition alloc (T : target) (size n : N) : res unit :=
  if size * n <=? isize_max T then Ret tt else Panic.

(** [l.chunks(n)]: the last chunk may be shorter.  [n = 0] panics. *)
Fixpoint chunks_fuel {A : Type} (fuel : nat) (n : nat) (l : list A) : list (list A) :=
  match fuel, l with
  | _, [] => []
  | O, _ => []
  | S f, _ => firstn n l :: chunks_fuel f n (skipn n l)
  end.
Definition chunks {A : Type} (l : list A) (n : N) : res (list (list A)) :=
  if n =? 0 then Panic else Ret (chunks_fuel (length l) (N.to_nat n) l).
(** [l.chunks_exact(n)]: a short last chunk is left out.  [n = 0] panics. *)
Definition chunks_exact {A : Type} (l : list A) (n : N) : res (list (list A)) :=
  if n =? 0 then Panic
  else Ret (filter (fun c => len c =? n) (chunks_fuel (length l) (N.to_nat n) l)).

(** * Iteration *)

(** [n] iterations of [body] with the loop variable counting up from [i]. *)
Fixpoint for_n {St : Type} (n : nat) (i : N) (body : N -> St -> res St) (s : St)
  : res St :=
  match n with
  | O => Ret s
  | S n' => let* s' := body i s in for_n n' (N.succ i) body s'
  end.
(** [for i in lo..hi]. *)
Definition for_range {St : Type} (lo hi : N) (body : N -> St -> res St) (s : St)
  : res St :=
  for_n (N.to_nat (hi - lo)) lo body s.
(** [for i in lo..=hi]. *)
Definition for_range_incl {St : Type} (lo hi : N) (body : N -> St -> res St) (s : St)
  : res St :=
  for_range lo (hi + 1) body s.

(** [n] iterations with the loop variable counting down from [lo + n - 1] to [lo]. *)
Fixpoint for_n_rev {St : Type} (n : nat) (lo : N) (body : N -> St -> res St) (s : St)
  : res St :=
  match n with
  | O => Ret s
  | S n' => let* s' := body (lo + N.of_nat n') s in for_n_rev n' lo body s'
  end.
(** [for i in (lo..hi).rev()]. *)
Definition for_range_rev {St : Type} (lo hi : N) (body : N -> St -> res St) (s : St)
  : res St :=
  for_n_rev (N.to_nat (hi - lo)) lo body s.

(** [for x in l]. *)
Fixpoint for_each {A St : Type} (l : list A) (body : A -> St -> res St) (s : St)
  : res St :=
  match l with
  | [] => Ret s
  | x :: l' => let* s' := body x s in for_each l' body s'
  end.

(** [for x in l { ... }] whose body can leave the function early by returning
    an error ([return Err(e)] or [?]); the state at that point is kept. *)
Fixpoint for_each_try {A St E : Type} (l : list A)
    (body : A -> St -> res (result unit E * St)) (s : St) : res (result unit E * St) :=
  match l with
  | [] => Ret (Ok tt, s)
  | x :: l' =>
      let* (r, s') := body x s in
      match r with
      | Ok _ => for_each_try l' body s'
      | Err e => Ret (Err e, s')
      end
  end.

(** [l.into_iter().map(f).collect()], [replacing each element in place by its image]. *)
Fixpoint map_res {A B : Type} (f : A -> res B) (l : list A) : res (list B) :=
  match l with
  | [] => Ret []
  | x :: l' => let* y := f x in let* ys := map_res f l' in Ret (y :: ys)
  end.

(** [while cond { body }] with fuel. *)
Fixpoint while_loop {St : Type} (fuel : nat) (cond : St -> bool)
    (body : St -> res St) (s : St) : res St :=
  if cond s then
    match fuel with
    | O => Diverge
    | S f => let* s' := body s in while_loop f cond body s'
    end
  else Ret s.

(** [a.iter().zip(b.iter()).map(|(a, b)| a ^ b)]: as long as the shorter. *)
Fixpoint zip_xor (a b : list N) : list N :=
  match a, b with
  | x :: a', y :: b' => N.lxor x y :: zip_xor a' b'
  | _, _ => []
  end.

(** [for (e, k) in a.iter_mut().zip(b.iter()) { *e ^= k }]: [a] keeps its
    length; elements without a partner are unchanged. *)
Fixpoint xor_into (a b : list N) : list N :=
  match a, b with
  | x :: a', y :: b' => N.lxor x y :: xor_into a' b'
  | _, _ => a
  end.
