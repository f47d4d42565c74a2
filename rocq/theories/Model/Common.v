(** Model of /repo/src/common.rs.  The macro [wrapping_sum!] (lines 1-12) is
    expanded where it is used (Model/Sha256.v). *)
From Coq Require Import NArith List Bool.
From Verif Require Import Rust.
Import ListNotations.
Local Open Scope N_scope.

(** src/common.rs:16-21: the closure given to [map].  A byte subtraction below
    zero cannot happen in the arm that does it; [usub8] says what would. *)
Definition usub8 (T : target) (a b : N) : res N :=
  if b <=? a then Ret (a - b)
  else if overflow_checks T then Panic else Ret (a + 256 - b).
Definition uadd8 (T : target) (a b : N) : res N :=
  if a + b <? 256 then Ret (a + b)
  else if overflow_checks T then Panic else Ret ((a + b) mod 256).

Definition hex_letter (T : target) (letter : N) : res N :=
  if (48 <=? letter) && (letter <=? 57) then usub8 T letter 48
  else if (97 <=? letter) && (letter <=? 102) then
    let* x := usub8 T letter 97 in uadd8 T x 10
  else if (65 <=? letter) && (letter <=? 70) then
    let* x := usub8 T letter 65 in uadd8 T x 10
  else Panic.

(** [iter.next()] of the mapped iterator: [None] at the end, and the closure is
    run on the next letter otherwise. *)
Definition hex_next (T : target) (iter : list N) : res (option N * list N) :=
  match iter with
  | [] => Ret (None, [])
  | letter :: iter' => let* v := hex_letter T letter in Ret (Some v, iter')
  end.

(** src/common.rs:24-26: the tuple is built before it is matched, so the second
    [next] runs even when the first gave [None].  [fuel] bounds the number of
    iterations; exhausting it is [Diverge]. *)
Fixpoint hex_loop (fuel : nat) (T : target) (iter result : list N) : res (list N) :=
  match fuel with
  | O => Diverge
  | S fuel =>
      let* (a, iter) := hex_next T iter in
      let* (b, iter) := hex_next T iter in
      match a, b with
      | Some h, Some l => hex_loop fuel T iter (result ++ [N.lor (shl8 h 4) l])
      | _, _ => Ret result
      end
  end.

(** src/common.rs:14-28 *)
Definition hex_to_vec (T : target) (hex : list N) : res (list N) :=
  let* cap := udiv (len hex) 2 in
  let* _ := alloc T 1 cap in
  hex_loop (S (length hex)) T hex [].
