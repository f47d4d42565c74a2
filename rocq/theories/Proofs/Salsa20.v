(** The Salsa20 core of the model is that of the specification; its rounds are
    invertible and commute with flipping all top bits. *)
From Coq Require Import ZArith NArith List Arith Lia Bool ZifyBool ZifyNat ZifyN.
From Verif Require Import Rust.
From Verif.Model Require Salsa20.
From Verif.Spec Require Octets Salsa20.
From Verif.Proofs Require Import Base Bits.
Import ListNotations.
Import Spec.Octets.
Local Open Scope N_scope.
Ltac Zify.zify_post_hook ::= Z.div_mod_to_equations.

Definition word (x : N) : Prop := x < 2 ^ 32.
Definition words (l : list N) : Prop := Forall word l.

Lemma words_b_spec l : forallb (fun x => x <? 2 ^ 32) l = true -> words l.
Proof. intros H. apply Forall_forall. intros x Hx. rewrite forallb_forall in H. apply N.ltb_lt, H, Hx. Qed.
Lemma word_sum a b : word (Spec.Salsa20.sum a b).
Proof. apply N.mod_lt. discriminate. Qed.
Lemma word_lxor a b : word a -> word b -> word (N.lxor a b).
Proof. apply lxor_lt. Qed.

Lemma rotl_eq c b : b <= 32 -> word c -> Model.Salsa20.rotl c b = Spec.Salsa20.rotl c b.
Proof.
  intros Hb Hc. unfold Model.Salsa20.rotl, Spec.Salsa20.rotl.
  rewrite rot_add by assumption. rewrite <- shl32_split by assumption.
  unfold shl32. rewrite N.shiftl_mul_pow2, N.mul_comm. reflexivity.
Qed.

Lemma word_rotl c b : b <= 32 -> word c -> word (Spec.Salsa20.rotl c b).
Proof.
  intros Hb Hc. rewrite <- rotl_eq by assumption. unfold Model.Salsa20.rotl. apply lor_lt.
  - apply N.mod_lt. discriminate.
  - rewrite shr_div. eapply N.le_lt_trans; [|exact Hc]. apply N.div_le_upper_bound.
    + apply N.pow_nonzero; lia.
    + pose proof (pow2_pos (32 - b)). nia.
Qed.

Definition words4 (q : N * N * N * N) : Prop :=
  let '(a, b, c, d) := q in word a /\ word b /\ word c /\ word d.

Definition list4 (q : N * N * N * N) : list N := let '(a, b, c, d) := q in [a; b; c; d].

Lemma words4_quarterround q : words4 q -> words4 (Spec.Salsa20.quarterround q).
Proof.
  destruct q as [[[a b] c] d]. cbn. intros (Ha & Hb & Hc & Hd).
  repeat split; repeat (apply word_lxor || apply word_rotl || apply word_sum || assumption || lia).
Qed.

Lemma quarterround_ok a b c d z :
  word a -> word b -> word c -> word d -> length z = 4%nat ->
  Model.Salsa20.quarterround [a; b; c; d] z =
  Ret (list4 (Spec.Salsa20.quarterround (a, b, c, d))).
Proof.
  intros Ha Hb Hc Hd Hz.
  destruct z as [|z0 [|z1 [|z2 [|z3 [|]]]]]; try discriminate Hz.
  transitivity (@Ret (list N)
    (let z1 := N.lxor b (Model.Salsa20.rotl (wrapping_add32 a d) 7) in
     let z2 := N.lxor c (Model.Salsa20.rotl (wrapping_add32 z1 a) 9) in
     let z3 := N.lxor d (Model.Salsa20.rotl (wrapping_add32 z2 z1) 13) in
     let z0 := N.lxor a (Model.Salsa20.rotl (wrapping_add32 z3 z2) 18) in
     [z0; z1; z2; z3])).
  { reflexivity. }
  change wrapping_add32 with Spec.Salsa20.sum. cbv zeta.
  unfold Spec.Salsa20.quarterround, list4. cbv zeta.
  rewrite !rotl_eq by (apply word_sum || lia). reflexivity.
Qed.

Lemma list4_length q : length (list4 q) = 4%nat.
Proof. destruct q as [[[? ?] ?] ?]. reflexivity. Qed.

Lemma length_16 {A} (l : list A) : length l = 16%nat ->
  exists x0 x1 x2 x3 x4 x5 x6 x7 x8 x9 x10 x11 x12 x13 x14 x15,
  l = [x0; x1; x2; x3; x4; x5; x6; x7; x8; x9; x10; x11; x12; x13; x14; x15].
Proof.
  intros H.
  do 16 (destruct l as [|? l]; [discriminate H|]).
  destruct l; [|discriminate H].
  do 16 eexists. reflexivity.
Qed.

Ltac split_words H :=
  repeat match type of H with
  | words (_ :: _) => let H' := fresh "Hw" in
      pose proof (Forall_inv H) as H'; apply Forall_inv_tail in H; fold words in H
  end.

Lemma rowround_ok y z : length y = 16%nat -> words y -> length z = 16%nat ->
  Model.Salsa20.rowround y z = Ret (Spec.Salsa20.rowround y).
Proof.
  intros Hy Hw Hz.
  destruct (length_16 y Hy) as (y0&y1&y2&y3&y4&y5&y6&y7&y8&y9&y10&y11&y12&y13&y14&y15&->).
  destruct (length_16 z Hz) as (z0&z1&z2&z3&z4&z5&z6&z7&z8&z9&z10&z11&z12&z13&z14&z15&->).
  repeat match goal with H : words (_ :: _) |- _ => apply Forall_cons_iff in H; destruct H as [? H]; change (words) with (Forall word) in * end.
  repeat match goal with H : Forall word (_ :: _) |- _ => apply Forall_cons_iff in H; destruct H as [? H] end.
  unfold Model.Salsa20.rowround, Spec.Salsa20.rowround.
  change (Model.Salsa20.gather [y0;y1;y2;y3;y4;y5;y6;y7;y8;y9;y10;y11;y12;y13;y14;y15] 0 1 2 3)
    with (Ret [y0;y1;y2;y3]).
  change (Model.Salsa20.gather [y0;y1;y2;y3;y4;y5;y6;y7;y8;y9;y10;y11;y12;y13;y14;y15] 5 6 7 4)
    with (Ret [y5;y6;y7;y4]).
  change (Model.Salsa20.gather [y0;y1;y2;y3;y4;y5;y6;y7;y8;y9;y10;y11;y12;y13;y14;y15] 10 11 8 9)
    with (Ret [y10;y11;y8;y9]).
  change (Model.Salsa20.gather [y0;y1;y2;y3;y4;y5;y6;y7;y8;y9;y10;y11;y12;y13;y14;y15] 15 12 13 14)
    with (Ret [y15;y12;y13;y14]).
  cbn [bind].
  rewrite quarterround_ok by (assumption || reflexivity).
  destruct (Spec.Salsa20.quarterround (y0, y1, y2, y3)) as [[[a0 a1] a2] a3]. cbn [list4 bind].
  cbn -[Model.Salsa20.quarterround Spec.Salsa20.quarterround].
  rewrite quarterround_ok by (assumption || reflexivity).
  destruct (Spec.Salsa20.quarterround (y5, y6, y7, y4)) as [[[b0 b1] b2] b3].
  cbn -[Model.Salsa20.quarterround Spec.Salsa20.quarterround].
  rewrite quarterround_ok by (assumption || reflexivity).
  destruct (Spec.Salsa20.quarterround (y10, y11, y8, y9)) as [[[c0 c1] c2] c3].
  cbn -[Model.Salsa20.quarterround Spec.Salsa20.quarterround].
  rewrite quarterround_ok by (assumption || reflexivity).
  destruct (Spec.Salsa20.quarterround (y15, y12, y13, y14)) as [[[d0 d1] d2] d3].
  reflexivity.
Qed.

Lemma columnround_ok y z : length y = 16%nat -> words y -> length z = 16%nat ->
  Model.Salsa20.columnround y z = Ret (Spec.Salsa20.columnround y).
Proof.
  intros Hy Hw Hz.
  destruct (length_16 y Hy) as (y0&y1&y2&y3&y4&y5&y6&y7&y8&y9&y10&y11&y12&y13&y14&y15&->).
  destruct (length_16 z Hz) as (z0&z1&z2&z3&z4&z5&z6&z7&z8&z9&z10&z11&z12&z13&z14&z15&->).
  unfold words in Hw.
  repeat match goal with H : Forall word (_ :: _) |- _ => apply Forall_cons_iff in H; destruct H as [? H] end.
  unfold Model.Salsa20.columnround, Spec.Salsa20.columnround.
  change (Model.Salsa20.gather [y0;y1;y2;y3;y4;y5;y6;y7;y8;y9;y10;y11;y12;y13;y14;y15] 0 4 8 12)
    with (Ret [y0;y4;y8;y12]).
  change (Model.Salsa20.gather [y0;y1;y2;y3;y4;y5;y6;y7;y8;y9;y10;y11;y12;y13;y14;y15] 5 9 13 1)
    with (Ret [y5;y9;y13;y1]).
  change (Model.Salsa20.gather [y0;y1;y2;y3;y4;y5;y6;y7;y8;y9;y10;y11;y12;y13;y14;y15] 10 14 2 6)
    with (Ret [y10;y14;y2;y6]).
  change (Model.Salsa20.gather [y0;y1;y2;y3;y4;y5;y6;y7;y8;y9;y10;y11;y12;y13;y14;y15] 15 3 7 11)
    with (Ret [y15;y3;y7;y11]).
  cbn [bind].
  rewrite quarterround_ok by (assumption || reflexivity).
  destruct (Spec.Salsa20.quarterround (y0, y4, y8, y12)) as [[[a0 a1] a2] a3].
  cbn -[Model.Salsa20.quarterround Spec.Salsa20.quarterround].
  rewrite quarterround_ok by (assumption || reflexivity).
  destruct (Spec.Salsa20.quarterround (y5, y9, y13, y1)) as [[[b0 b1] b2] b3].
  cbn -[Model.Salsa20.quarterround Spec.Salsa20.quarterround].
  rewrite quarterround_ok by (assumption || reflexivity).
  destruct (Spec.Salsa20.quarterround (y10, y14, y2, y6)) as [[[c0 c1] c2] c3].
  cbn -[Model.Salsa20.quarterround Spec.Salsa20.quarterround].
  rewrite quarterround_ok by (assumption || reflexivity).
  destruct (Spec.Salsa20.quarterround (y15, y3, y7, y11)) as [[[d0 d1] d2] d3].
  reflexivity.
Qed.

(** A 16-word state. *)
Definition state (l : list N) : Prop := length l = 16%nat /\ words l.

Lemma state_rowround y : state y -> state (Spec.Salsa20.rowround y).
Proof.
  intros [Hy Hw].
  destruct (length_16 y Hy) as (y0&y1&y2&y3&y4&y5&y6&y7&y8&y9&y10&y11&y12&y13&y14&y15&->).
  unfold words in Hw.
  repeat match goal with H : Forall word (_ :: _) |- _ => apply Forall_cons_iff in H; destruct H as [? H] end.
  unfold Spec.Salsa20.rowround.
  pose proof (words4_quarterround (y0, y1, y2, y3)) as Q0.
  pose proof (words4_quarterround (y5, y6, y7, y4)) as Q1.
  pose proof (words4_quarterround (y10, y11, y8, y9)) as Q2.
  pose proof (words4_quarterround (y15, y12, y13, y14)) as Q3.
  destruct (Spec.Salsa20.quarterround (y0, y1, y2, y3)) as [[[? ?] ?] ?].
  destruct (Spec.Salsa20.quarterround (y5, y6, y7, y4)) as [[[? ?] ?] ?].
  destruct (Spec.Salsa20.quarterround (y10, y11, y8, y9)) as [[[? ?] ?] ?].
  destruct (Spec.Salsa20.quarterround (y15, y12, y13, y14)) as [[[? ?] ?] ?].
  cbn [words4] in *.
  split; [reflexivity|]. repeat constructor; tauto.
Qed.

Lemma state_columnround y : state y -> state (Spec.Salsa20.columnround y).
Proof.
  intros [Hy Hw].
  destruct (length_16 y Hy) as (y0&y1&y2&y3&y4&y5&y6&y7&y8&y9&y10&y11&y12&y13&y14&y15&->).
  unfold words in Hw.
  repeat match goal with H : Forall word (_ :: _) |- _ => apply Forall_cons_iff in H; destruct H as [? H] end.
  unfold Spec.Salsa20.columnround.
  pose proof (words4_quarterround (y0, y4, y8, y12)) as Q0.
  pose proof (words4_quarterround (y5, y9, y13, y1)) as Q1.
  pose proof (words4_quarterround (y10, y14, y2, y6)) as Q2.
  pose proof (words4_quarterround (y15, y3, y7, y11)) as Q3.
  destruct (Spec.Salsa20.quarterround (y0, y4, y8, y12)) as [[[? ?] ?] ?].
  destruct (Spec.Salsa20.quarterround (y5, y9, y13, y1)) as [[[? ?] ?] ?].
  destruct (Spec.Salsa20.quarterround (y10, y14, y2, y6)) as [[[? ?] ?] ?].
  destruct (Spec.Salsa20.quarterround (y15, y3, y7, y11)) as [[[? ?] ?] ?].
  cbn [words4] in *.
  split; [reflexivity|]. repeat constructor; tauto.
Qed.

Lemma state_doubleround y : state y -> state (Spec.Salsa20.doubleround y).
Proof. intros H. apply state_rowround, state_columnround, H. Qed.

Lemma doubleround_ok x y : state x -> length y = 16%nat ->
  Model.Salsa20.doubleround x y = Ret (Spec.Salsa20.doubleround x).
Proof.
  intros Hx Hy. unfold Model.Salsa20.doubleround.
  rewrite columnround_ok; [|apply Hx|apply Hx|apply repeat_length]. cbn [bind].
  destruct (state_columnround x Hx) as [Hl Hw].
  apply rowround_ok; assumption.
Qed.

Lemma state_rounds k x : state x -> state (Spec.Salsa20.rounds k x).
Proof.
  intros Hx. unfold Spec.Salsa20.rounds. apply N.iter_invariant; [|assumption].
  apply state_doubleround.
Qed.

Lemma mix_ok k x : state x -> Model.Salsa20.mix k x = Ret (Spec.Salsa20.rounds k x).
Proof.
  intros Hx. unfold Model.Salsa20.mix, for_range, Spec.Salsa20.rounds.
  rewrite N.sub_0_r, N2Nat.inj_iter.
  apply (for_n_iter state); [assumption|]. intros j st Hst. split.
  - apply doubleround_ok; [assumption|apply repeat_length].
  - apply state_doubleround. assumption.
Qed.

(** * Reading and writing words *)

Lemma words_le_num x : octets x -> length x = 64%nat -> state (Spec.Salsa20.words x).
Proof.
  intros Hx Hl. unfold Spec.Salsa20.words. split.
  - rewrite map_length, blocks_length, Hl. reflexivity.
  - apply Forall_map. apply Forall_forall. intros g Hg. unfold word.
    pose proof (blocks_all_length _ _ _ Hg) as Hgl.
    pose proof (le_num_lt g (octets_blocks _ _ _ Hx Hg)) as H. rewrite Hgl in H. exact H.
Qed.

Lemma littleendian_ok g : octets g -> length g = 4%nat ->
  Model.Salsa20.littleendian g = Ret (le_num g).
Proof.
  intros Hg Hl. destruct g as [|a [|b [|c [|d [|]]]]]; try discriminate Hl.
  repeat match goal with H : octets (_ :: _) |- _ => apply Forall_cons_iff in H; destruct H as [? H]; change (Forall (fun b => b < 256)) with octets in H end.
  rewrite <- le_word by assumption. reflexivity.
Qed.

Lemma read_words_ok input : octets input -> (64 <= length input)%nat ->
  Model.Salsa20.read_words input = Ret (Spec.Salsa20.words (firstn 64 input)).
Proof.
  intros Ho Hl. unfold Model.Salsa20.read_words.
  change 16 with (len (repeat 0 16)) at 1.
  rewrite (fill_loop (fun i _ => le_num (firstn 4 (skipn (i * 4) input))) _ _ 0).
  - f_equal. unfold Spec.Salsa20.words, blocks.
    rewrite firstn_length, Nat.min_l by lia. rewrite repeat_length.
    apply (list_ext _ _ 0).
    + rewrite !map_length, seq_length, groups_length. reflexivity.
    + intros i Hi. rewrite map_length, seq_length in Hi.
      rewrite (nth_map_seq (fun i => le_num (firstn 4 (skipn (i * 4) input)))) by assumption.
      rewrite (nth_indep _ 0 (le_num [])) by (rewrite map_length, groups_length; assumption).
      rewrite map_nth, nth_groups by assumption. f_equal.
      rewrite skipn_firstn_comm, firstn_firstn. f_equal. lia.
  - intros i o Hi Ho'. rewrite repeat_length in Hi.
    cbv zeta. rewrite slice_ok by lia. cbn [bind].
    replace (N.to_nat (N.of_nat i * 4 + 4) - N.to_nat (N.of_nat i * 4))%nat with 4%nat by lia.
    replace (N.to_nat (N.of_nat i * 4)) with (i * 4)%nat by lia.
    rewrite littleendian_ok; [reflexivity| |].
    + apply octets_firstn, octets_skipn, Ho.
    + rewrite firstn_length, skipn_length. lia.
Qed.

Lemma read_words_short input : (length input < 64)%nat ->
  Model.Salsa20.read_words input = Panic.
Proof.
  intros Hl. unfold Model.Salsa20.read_words, for_range.
  change (N.to_nat (16 - 0)) with 16%nat.
  set (body := fun (i : N) (x : list N) => _).
  assert (Hb : forall i x, (i < 16)%nat -> (i * 4 + 4 <= length input)%nat -> length x = 16%nat ->
    (exists x', body (N.of_nat i) x = Ret x' /\ length x' = 16%nat) ).
  { intros i x Hi Hi' Hx. unfold body. cbv zeta. rewrite slice_ok by lia. cbn [bind].
    set (g := firstn _ _).
    assert (Hg : length g = 4%nat) by (unfold g; rewrite firstn_length, skipn_length; lia).
    destruct g as [|a [|b [|c [|d [|]]]]]; try discriminate Hg.
    assert (Hw : exists w, Model.Salsa20.littleendian [a; b; c; d] = Ret w) by (eexists; reflexivity).
    destruct Hw as [w ->]. cbn [bind].
    rewrite upd_ok by lia. eexists. split; [reflexivity|]. rewrite set_nth_length. assumption. }
  assert (Hp : forall i x, (length input < i * 4 + 4)%nat -> body (N.of_nat i) x = Panic).
  { intros i x Hi. unfold body. cbv zeta. rewrite slice_panic by lia. reflexivity. }
  assert (H : forall n i x, (i + n = 16)%nat -> length x = 16%nat ->
    for_n n (N.of_nat i) body x = Panic \/ (n = 0)%nat /\ (length input < 64)%nat /\ (i * 4 <= length input)%nat
    \/ (length input < i * 4)%nat).
  { induction n as [|n IH]; intros i x Hi Hx.
    - destruct (Nat.lt_ge_cases (length input) (i * 4)); [tauto|]. right; left. lia.
    - destruct (Nat.lt_ge_cases (length input) (i * 4)) as [|Hge]; [tauto|].
      left. cbn [for_n]. destruct (Nat.lt_ge_cases (length input) (i * 4 + 4)) as [Hlt|Hge'].
      + rewrite Hp by assumption. reflexivity.
      + destruct (Hb i x) as (x' & -> & Hx'); [lia|lia|assumption|]. cbn [bind].
        rewrite <- Nat2N.inj_succ. destruct (IH (S i) x') as [->|[(-> & _ & H)|H]]; try lia; reflexivity. }
  destruct (H 16%nat 0%nat (repeat 0 16)) as [E|[(E & _)|E]]; try lia; try reflexivity. exact E.
Qed.

Lemma littleendian_inv_ok x y : length y = 4%nat -> word x ->
  Model.Salsa20.littleendian_inv x y = Ret (le_octets 4 x).
Proof.
  intros Hl Hx. destruct y as [|a [|b [|c [|d [|]]]]]; try discriminate Hl.
  rewrite le_octets_4 by exact Hx. reflexivity.
Qed.

Lemma word_words l i : words l -> word (nth i l 0).
Proof.
  intros H. destruct (Nat.lt_ge_cases i (length l)) as [Hi|Hi].
  - apply (proj1 (Forall_forall _ _) H). apply nth_In. assumption.
  - rewrite nth_overflow by assumption. reflexivity.
Qed.

Lemma add_words_length a b : length (Spec.Salsa20.add_words a b) = Nat.min (length a) (length b).
Proof. revert b; induction a as [|u a IH]; intros [|v b]; cbn; auto. Qed.
Lemma nth_add_words a b i : (i < length a)%nat -> (i < length b)%nat ->
  nth i (Spec.Salsa20.add_words a b) 0 = Spec.Salsa20.sum (nth i a 0) (nth i b 0).
Proof.
  revert b i; induction a as [|u a IH]; intros [|v b] [|i] Ha Hb; cbn in *; try lia; auto.
  apply IH; lia.
Qed.

Lemma flat_map_length_4 (l : list N) : length (flat_map (le_octets 4) l) = (4 * length l)%nat.
Proof.
  induction l as [|x l IH]; [reflexivity|]. cbn [flat_map]. rewrite app_length, IH.
  rewrite le_octets_length. cbn [length]. lia.
Qed.

Lemma write_words_body x z output i :
  length x = 16%nat -> length z = 16%nat -> (i < 16)%nat -> (i * 4 + 4 <= length output)%nat ->
  (let from := N.of_nat i * 4 in
    let to := from + 4 in
    let* x_elem := idx x (N.of_nat i) in
    let* z_elem := idx z (N.of_nat i) in
    with_slice output from to
      (Model.Salsa20.littleendian_inv (wrapping_add32 x_elem z_elem))) =
  Ret (firstn (i * 4) output ++ le_octets 4 (Spec.Salsa20.sum (nth i x 0) (nth i z 0))
       ++ skipn (i * 4 + 4) output).
Proof.
  intros Hx Hz Hi Ho. cbv zeta.
  rewrite (idx_nth x _ 0) by lia. cbn [bind]. rewrite (idx_nth z _ 0) by lia. cbn [bind].
  unfold with_slice. rewrite slice_ok by lia. cbn [bind].
  rewrite littleendian_inv_ok; [|rewrite firstn_length, skipn_length; lia|apply word_sum].
  cbn [bind]. rewrite !Nat2N.id.
  replace (N.to_nat (N.of_nat i * 4)) with (i * 4)%nat by lia.
  replace (N.to_nat (N.of_nat i * 4 + 4)) with (i * 4 + 4)%nat by lia.
  reflexivity.
Qed.

Lemma write_words_ok x z output :
  length x = 16%nat -> length z = 16%nat -> (64 <= length output)%nat ->
  Model.Salsa20.write_words x z output =
  Ret (flat_map (le_octets 4) (Spec.Salsa20.add_words x z) ++ skipn 64 output).
Proof.
  intros Hx Hz Ho. unfold Model.Salsa20.write_words.
  set (s := Spec.Salsa20.add_words x z).
  assert (Hs : length s = 16%nat) by (unfold s; rewrite add_words_length; lia).
  set (body := fun (i : N) (output : list N) => _).
  destruct (for_range_inv
    (fun i st => exists j, i = N.of_nat j /\
       st = flat_map (le_octets 4) (firstn j s) ++ skipn (4 * j) output)
    body 0 16 output) as (st & Hr & j & Hj & Hst).
  4: { rewrite Hr. f_equal. rewrite Hst. replace j with 16%nat by lia.
       rewrite firstn_all2 by lia. reflexivity. }
  - lia.
  - intros i st Hi (j & -> & ->).
    assert (Hfl : length (flat_map (le_octets 4) (firstn j s)) = (j * 4)%nat).
    { rewrite flat_map_length_4, firstn_length. lia. }
    eexists. split.
    + unfold body. apply write_words_body; try assumption; try lia.
      rewrite app_length, skipn_length, Hfl. lia.
    + exists (S j). split; [lia|].
      rewrite (firstn_app (j * 4)), Hfl, Nat.sub_diag, (firstn_O (skipn _ _)), app_nil_r.
      rewrite (firstn_all2 (flat_map _ _)) by (rewrite Hfl; lia).
      rewrite (firstn_S_nth _ _ 0) by lia. rewrite flat_map_app. cbn [flat_map].
      rewrite app_nil_r, <- app_assoc. f_equal. unfold s at 2. rewrite nth_add_words by lia. f_equal.
      rewrite (skipn_app (j * 4 + 4) (flat_map _ _)), Hfl.
      rewrite (skipn_all2 (flat_map _ _)) by (rewrite Hfl; lia). cbn [app].
      rewrite skipn_skipn. f_equal. lia.
  - exists 0%nat. split; [reflexivity|]. reflexivity.
Qed.

Lemma write_words_short x z output :
  length x = 16%nat -> length z = 16%nat -> (length output < 64)%nat ->
  Model.Salsa20.write_words x z output = Panic.
Proof.
  intros Hx Hz Ho. unfold Model.Salsa20.write_words, for_range.
  change (N.to_nat (16 - 0)) with 16%nat.
  set (body := fun (i : N) (output : list N) => _).
  assert (Hp : forall i o, (length o < i * 4 + 4)%nat -> body (N.of_nat i) o = Panic).
  { intros i o Hi. unfold body. cbv zeta.
    destruct (Nat.lt_ge_cases i 16) as [Hlt|Hge].
    - rewrite (idx_nth x _ 0) by lia. cbn [bind]. rewrite (idx_nth z _ 0) by lia. cbn [bind].
      unfold with_slice. rewrite slice_panic by lia. reflexivity.
    - rewrite idx_none by lia. reflexivity. }
  assert (H : forall n i o, (i + n = 16)%nat -> length o = length output ->
     (i * 4 <= length output)%nat -> for_n n (N.of_nat i) body o = Panic).
  { induction n as [|n IH]; intros i o Hi Hlo Hio; [lia|].
    cbn [for_n]. destruct (Nat.lt_ge_cases (length output) (i * 4 + 4)) as [Hlt|Hge].
    - rewrite Hp by lia. reflexivity.
    - unfold body at 1. rewrite write_words_body by lia. cbn [bind].
      rewrite <- Nat2N.inj_succ. apply IH; [lia| |lia].
      rewrite !app_length, firstn_length, skipn_length, le_octets_length. lia. }
  apply (H 16%nat 0%nat); lia.
Qed.

Lemma salsa20_ok input k output : octets input -> (64 <= length input)%nat ->
  (64 <= length output)%nat ->
  Model.Salsa20.salsa20 input k output =
  Ret (Spec.Salsa20.salsa20 k (firstn 64 input) ++ skipn 64 output).
Proof.
  intros Hi Hl Ho. unfold Model.Salsa20.salsa20. rewrite read_words_ok by assumption. cbn [bind].
  assert (Hst : state (Spec.Salsa20.words (firstn 64 input))).
  { apply words_le_num; [apply octets_firstn; assumption|rewrite firstn_length; lia]. }
  rewrite mix_ok by assumption. cbn [bind].
  apply write_words_ok; [apply Hst| |assumption].
  apply (state_rounds k _ Hst).
Qed.

Lemma salsa20_short input k output : octets input ->
  (length input < 64 \/ length output < 64)%nat ->
  Model.Salsa20.salsa20 input k output = Panic.
Proof.
  intros Hi Hl. unfold Model.Salsa20.salsa20.
  destruct (Nat.lt_ge_cases (length input) 64) as [Hlt|Hge].
  - rewrite read_words_short by assumption. reflexivity.
  - rewrite read_words_ok by assumption. cbn [bind].
    assert (Hst : state (Spec.Salsa20.words (firstn 64 input))).
    { apply words_le_num; [apply octets_firstn; assumption|rewrite firstn_length; lia]. }
    rewrite mix_ok by assumption. cbn [bind].
    apply write_words_short; [apply Hst| |lia].
    apply (state_rounds k _ Hst).
Qed.

Lemma spec_salsa20_length k x : octets x -> length x = 64%nat ->
  length (Spec.Salsa20.salsa20 k x) = 64%nat.
Proof.
  intros Hx Hl. unfold Spec.Salsa20.salsa20.
  pose proof (words_le_num x Hx Hl) as Hst.
  rewrite flat_map_length_4, add_words_length.
  rewrite (proj1 Hst), (proj1 (state_rounds k _ Hst)). reflexivity.
Qed.

Lemma octets_salsa20 k x : octets (Spec.Salsa20.salsa20 k x).
Proof.
  unfold Spec.Salsa20.salsa20.
  generalize (Spec.Salsa20.add_words (Spec.Salsa20.words x) (Spec.Salsa20.rounds k (Spec.Salsa20.words x))).
  intros l. induction l as [|a l IH]; [constructor|].
  cbn [flat_map]. apply octets_app. split; [apply octets_le_octets|assumption].
Qed.
