(** Counting the steps of a recorded run.  No file of /repo is modelled here. *)
From Coq Require Import NArith List.
From Verif.Leak Require Import Ops.
Import ListNotations.
Local Open Scope N_scope.

(** One step for every index, slice, branch, loop test and allocation; [n] steps for
    a copy or traversal of [n] elements.  Arithmetic between them is not counted. *)
Definition weight (e : event) : N :=
  match e with
  | Run n => n
  | _ => 1
  end.
Definition total (t : list event) : N := fold_right (fun e n => weight e + n) 0 t.
Definition steps {A : Type} (m : res A) : N := total (trace m).
