(** The rounds of Salsa20 commute with moving the matrix along its diagonal. *)
From Coq Require Import NArith List Arith Lia.
From Verif Require Import Rust.
From Verif.Model Require Salsa20.
From Verif.Spec Require Octets Salsa20 Matrix.
From Verif.Proofs Require Import Base Bits Salsa20 Salsa20Perm.
Import ListNotations.
Import Spec.Octets.
Import Spec.Salsa20 Spec.Matrix.
Local Open Scope N_scope.

Ltac sixteen x H :=
  apply length_16 in H;
  destruct H as (?&?&?&?&?&?&?&?&?&?&?&?&?&?&?&?&->).
Ltac quarters :=
  repeat match goal with
  | |- context[match quarterround ?q with _ => _ end] =>
      destruct (quarterround q) as [[[? ?] ?] ?]
  end.

Lemma rowround_diagonal x : length x = 16%nat -> rowround (diagonal x) = diagonal (rowround x).
Proof. intros H. sixteen x H. unfold rowround, diagonal. quarters. reflexivity. Qed.
Lemma columnround_diagonal x : length x = 16%nat ->
  columnround (diagonal x) = diagonal (columnround x).
Proof. intros H. sixteen x H. unfold columnround, diagonal. quarters. reflexivity. Qed.
Lemma rowround_transpose x : length x = 16%nat -> rowround (transpose x) = transpose (columnround x).
Proof. intros H. sixteen x H. unfold rowround, columnround, transpose. quarters. reflexivity. Qed.
Lemma columnround_transpose x : length x = 16%nat ->
  columnround (transpose x) = transpose (rowround x).
Proof. intros H. sixteen x H. unfold rowround, columnround, transpose. quarters. reflexivity. Qed.

Lemma diagonal_length {A} (x : list A) : length x = 16%nat -> length (diagonal x) = 16%nat.
Proof. intros H. sixteen x H. reflexivity. Qed.
Lemma words_diagonal x : state x -> state (diagonal x).
Proof.
  intros [H Hw]. split; [apply diagonal_length; exact H|].
  sixteen x H. unfold Salsa20.words in *. unfold diagonal.
  repeat match goal with H : Forall _ (_ :: _) |- _ => inversion H; clear H; subst end.
  repeat (constructor; [assumption|]). constructor.
Qed.
Lemma state_transpose x : state x -> state (transpose x).
Proof.
  intros [H Hw]. sixteen x H. split; [reflexivity|]. unfold Salsa20.words in *. unfold transpose.
  repeat match goal with H : Forall _ (_ :: _) |- _ => inversion H; clear H; subst end.
  repeat (constructor; [assumption|]). constructor.
Qed.

Lemma doubleround_diagonal x : state x -> doubleround (diagonal x) = diagonal (doubleround x).
Proof.
  intros Hx. unfold doubleround. rewrite columnround_diagonal by apply Hx.
  apply rowround_diagonal. apply (state_columnround x Hx).
Qed.

Lemma rounds_diagonal k x : state x -> rounds k (diagonal x) = diagonal (rounds k x).
Proof.
  intros Hx. induction k as [|k IH] using N.peano_ind; [reflexivity|].
  rewrite 2!rounds_succ, IH. apply doubleround_diagonal. apply state_rounds. exact Hx.
Qed.

Lemma add_words_diagonal a b : length a = 16%nat -> length b = 16%nat ->
  add_words (diagonal a) (diagonal b) = diagonal (add_words a b).
Proof. intros Ha Hb. sixteen a Ha. sixteen b Hb. reflexivity. Qed.

Lemma words_diagonal_octets x : length x = 64%nat ->
  words (diagonal_octets x) = diagonal (words x).
Proof.
  intros H.
  do 64 (destruct x as [|? x]; [discriminate H|]). destruct x; [|discriminate H].
  reflexivity.
Qed.
Lemma diagonal_octets_length x : length x = 64%nat -> length (diagonal_octets x) = 64%nat.
Proof.
  intros H.
  do 64 (destruct x as [|? x]; [discriminate H|]). destruct x; [|discriminate H].
  reflexivity.
Qed.
Lemma octets_diagonal x : length x = 64%nat -> octets x -> octets (diagonal_octets x).
Proof.
  intros H Hx. unfold octets in *. rewrite Forall_forall in *. intros b Hb. apply Hx. revert Hb.
  clear Hx.
  do 64 (destruct x as [|? x]; [discriminate H|]). destruct x; [|discriminate H].
  unfold diagonal_octets. cbn. tauto.
Qed.

Lemma flat_diagonal w : length w = 16%nat ->
  flat_map (le_octets 4) (diagonal w) = diagonal_octets (flat_map (le_octets 4) w).
Proof. intros H. sixteen w H. reflexivity. Qed.

Lemma salsa20_diagonal k x : octets x -> length x = 64%nat ->
  salsa20 k (diagonal_octets x) = diagonal_octets (salsa20 k x).
Proof.
  intros Hx Hl. unfold salsa20. rewrite words_diagonal_octets by exact Hl.
  pose proof (words_le_num x Hx Hl) as Hs. pose proof (state_rounds k _ Hs) as Hr.
  rewrite rounds_diagonal by exact Hs.
  rewrite add_words_diagonal by (apply Hs || apply Hr).
  apply flat_diagonal. apply (state_add_words _ _ Hs Hr).
Qed.

(** Circulant matrices are the fixed points of the move. *)
Lemma circulant_fixed {A} (a b c d : A) : diagonal (circulant a b c d) = circulant a b c d.
Proof. reflexivity. Qed.
Lemma fixed_circulant {A} (x : list A) : length x = 16%nat -> diagonal x = x ->
  exists a b c d, x = circulant a b c d.
Proof.
  intros H E. sixteen x H. unfold diagonal in E. injection E. intros. subst.
  unfold circulant. eauto 10.
Qed.
