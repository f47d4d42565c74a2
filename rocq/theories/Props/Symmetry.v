(** C74: the Salsa20 core commutes with moving its matrix along the diagonal. *)
From Coq Require Import NArith List Arith Lia.
From Verif Require Import Rust.
From Verif.Model Require Import Salsa20.
From Verif.Spec Require Octets Salsa20 Matrix.
From Verif.Proofs Require Import Base Bits Salsa20 Salsa20Perm Salsa20Sym.
Import Spec.Octets Spec.Matrix.
Import ListNotations.
Local Open Scope N_scope.

(** C74. Moving the sixteen words of the input one row up and one column left, both
    cyclically, moves the words of the output in the same way, for every number of
    rounds. *)
Theorem C74_commutes_with_diagonal : forall k x out out',
  octets x -> length x = 64%nat -> length out = 64%nat -> length out' = 64%nat ->
  exists y, length y = 64%nat /\
    Model.Salsa20.salsa20 x k out = Ret y /\
    Model.Salsa20.salsa20 (diagonal_octets x) k out' = Ret (diagonal_octets y).
Proof.
  intros k x out out' Hx Hl Ho Ho'. exists (Spec.Salsa20.salsa20 k x).
  split; [apply spec_salsa20_length; assumption|].
  rewrite salsa20_ok by (assumption || lia).
  rewrite firstn_all2, skipn_all2, app_nil_r by lia. split; [reflexivity|].
  pose proof (diagonal_octets_length x Hl) as Hd.
  rewrite salsa20_ok by (apply octets_diagonal || lia; assumption).
  rewrite firstn_all2, skipn_all2, app_nil_r by lia.
  rewrite salsa20_diagonal by assumption. reflexivity.
Qed.
Print Assumptions C74_commutes_with_diagonal.

(** A row round is a column round of the transposed matrix, and conversely. *)
Theorem C74_rows_and_columns : forall x z z', state x -> length z = 16%nat -> length z' = 16%nat ->
  (exists y, Model.Salsa20.columnround x z = Ret y /\
     Model.Salsa20.rowround (transpose x) z' = Ret (transpose y)) /\
  (exists y, Model.Salsa20.rowround x z = Ret y /\
     Model.Salsa20.columnround (transpose x) z' = Ret (transpose y)).
Proof.
  intros x z z' Hx Hz Hz'. pose proof (state_transpose x Hx) as Ht. split.
  - exists (Spec.Salsa20.columnround x). rewrite columnround_ok by (assumption || apply Hx).
    rewrite rowround_ok by (assumption || apply Ht). rewrite rowround_transpose by apply Hx.
    split; reflexivity.
  - exists (Spec.Salsa20.rowround x). rewrite rowround_ok by (assumption || apply Hx).
    rewrite columnround_ok by (assumption || apply Ht). rewrite columnround_transpose by apply Hx.
    split; reflexivity.
Qed.
Print Assumptions C74_rows_and_columns.

(** The 2^128 inputs in which every row is the one above moved right by one word
    give outputs of the same form: sixteen octets, written four times. *)
Theorem C74_circulant_inputs_stay : forall k a b c d out,
  octets (a ++ b ++ c ++ d) ->
  length a = 4%nat -> length b = 4%nat -> length c = 4%nat -> length d = 4%nat ->
  length out = 64%nat ->
  exists a' b' c' d',
    length a' = 4%nat /\ length b' = 4%nat /\ length c' = 4%nat /\ length d' = 4%nat /\
    Model.Salsa20.salsa20 (concat (circulant a b c d)) k out = Ret (concat (circulant a' b' c' d')).
Proof.
  intros k a b c d out Hx Ha Hb Hc Hd Ho.
  repeat rewrite octets_app in Hx. destruct Hx as (Xa & Xb & Xc & Xd).
  set (x := concat (circulant a b c d)).
  assert (Hl : length x = 64%nat).
  { unfold x, circulant. cbn [concat]. repeat rewrite app_length. cbn [length]. lia. }
  assert (Hx : octets x).
  { unfold x, circulant. cbn [concat]. repeat (apply octets_app; split; [assumption|]). constructor. }
  assert (Hf : diagonal_octets x = x).
  { unfold x. repeat match goal with H : length ?l = 4%nat |- _ =>
      lazymatch l with a => idtac | b => idtac | c => idtac | d => idtac end;
      do 4 (destruct l as [|? l]; [discriminate H|]); destruct l; [clear H|discriminate H] end.
    reflexivity. }
  pose proof (salsa20_diagonal k x Hx Hl) as E. rewrite Hf in E.
  set (y := Spec.Salsa20.salsa20 k x) in *.
  assert (Hy : length y = 64%nat) by (apply spec_salsa20_length; assumption).
  rewrite salsa20_ok by (assumption || lia). fold y.
  rewrite firstn_all2, skipn_all2, app_nil_r by lia. fold y.
  clearbody y. clear - E Hy.
  exists (firstn 4 y), (firstn 4 (skipn 4 y)), (firstn 4 (skipn 8 y)), (firstn 4 (skipn 12 y)).
  do 64 (destruct y as [|? y]; [discriminate Hy|]). destruct y; [clear Hy|discriminate Hy].
  cbv in E. injection E. clear E. intros. subst.
  repeat split.
Qed.
Print Assumptions C74_circulant_inputs_stay.

(** The example in the documentation of [salsa20] (src/salsa20.rs:153-162) has this
    form; an input that is moved but not fixed. *)
Example C74_example :
  repeat 7 64 = concat (circulant [7; 7; 7; 7] [7; 7; 7; 7] [7; 7; 7; 7] [7; 7; 7; 7]) /\
  Model.Salsa20.salsa20 (repeat 7 64) 100 (repeat 0 64)
  = Ret (concat (circulant [121; 110; 7; 195] [60; 132; 20; 193] [62; 42; 49; 114] [249; 93; 87; 33])) /\
  (let x := map N.of_nat (seq 0 64) in
   firstn 8 (diagonal_octets x) = [20; 21; 22; 23; 24; 25; 26; 27] /\
   exists y, Model.Salsa20.salsa20 x 4 (repeat 0 64) = Ret y /\
     firstn 4 (skipn 20 y) = [5; 175; 54; 173] /\
     match Model.Salsa20.salsa20 (diagonal_octets x) 4 (repeat 0 64) with
     | Ret y' => firstn 4 y' = [5; 175; 54; 173] | _ => False end).
Proof.
  split; [reflexivity|]. split; [vm_compute; reflexivity|]. cbv zeta. split; [reflexivity|].
  eexists. split; [vm_compute; reflexivity|]. split; vm_compute; reflexivity.
Qed.
