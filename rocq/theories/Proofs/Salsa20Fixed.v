(** States of alternating sign are fixed by the rounds of Salsa20. *)
From Coq Require Import ZArith NArith List Arith Lia Bool ZifyBool ZifyNat ZifyN.
From Verif Require Import Rust.
From Verif.Model Require Salsa20.
From Verif.Spec Require Octets Salsa20.
From Verif.Proofs Require Import Base Bits Salsa20 Salsa20Perm.
Import ListNotations.
Import Spec.Octets.
Import Spec.Salsa20.
Local Open Scope N_scope.
Ltac Zify.zify_post_hook ::= Z.div_mod_to_equations.

Lemma word_neg a : word (neg a).
Proof. apply N.mod_lt. discriminate. Qed.
Lemma sum_neg a : word a -> sum a (neg a) = 0.
Proof. unfold word, sum, neg. change (2 ^ 32) with 4294967296. lia. Qed.
Lemma sum_neg' a : word a -> sum (neg a) a = 0.
Proof. unfold word, sum, neg. change (2 ^ 32) with 4294967296. lia. Qed.
Lemma neg_neg a : word a -> neg (neg a) = a.
Proof. unfold word, neg. change (2 ^ 32) with 4294967296. lia. Qed.

Lemma quarterround_alternating a : word a -> quarterround (a, neg a, a, neg a) = (a, neg a, a, neg a).
Proof.
  intros Ha. unfold quarterround. rewrite sum_neg by assumption.
  rewrite N.lxor_0_r. rewrite sum_neg' by assumption. rewrite N.lxor_0_r.
  rewrite sum_neg by assumption. rewrite N.lxor_0_r.
  rewrite sum_neg' by assumption. rewrite N.lxor_0_r. reflexivity.
Qed.

Lemma doubleround_checkered a : word a -> doubleround (checkered a) = checkered a.
Proof.
  intros Ha. unfold doubleround, checkered, columnround. cbv zeta.
  rewrite quarterround_alternating by assumption. unfold rowround.
  rewrite quarterround_alternating by assumption. reflexivity.
Qed.

Lemma state_checkered a : word a -> state (checkered a).
Proof.
  intros Ha. pose proof (word_neg a). split; [reflexivity|].
  unfold checkered. cbv zeta. repeat (apply Forall_cons; [assumption|]). constructor.
Qed.

Lemma rounds_checkered k a : word a -> rounds k (checkered a) = checkered a.
Proof.
  intros Ha. unfold rounds. apply N.iter_invariant with (Inv := fun x => x = checkered a); [|reflexivity].
  intros x ->. apply doubleround_checkered. assumption.
Qed.

Lemma sum_double a : word a -> neg (sum a a) = sum (neg a) (neg a).
Proof. unfold word, sum, neg. change (2 ^ 32) with 4294967296. lia. Qed.

Lemma salsa20_checkered k a : word a ->
  salsa20 k (flat_map (le_octets 4) (checkered a)) = flat_map (le_octets 4) (checkered (sum a a)).
Proof.
  intros Ha. unfold salsa20. pose proof (state_checkered a Ha) as [_ Hw].
  rewrite words_flat by exact Hw. rewrite rounds_checkered by assumption. f_equal.
  unfold checkered. cbv zeta. rewrite sum_double by assumption. reflexivity.
Qed.

Lemma octets_flat_le l : octets (flat_map (le_octets 4) l).
Proof. induction l as [|x l IH]; cbn [flat_map]; [constructor|]. apply octets_app. split; [apply octets_le_octets|exact IH]. Qed.

Lemma model_checkered k a : word a ->
  Model.Salsa20.salsa20 (flat_map (le_octets 4) (checkered a)) k (repeat 0 64)
  = Ret (flat_map (le_octets 4) (checkered (sum a a))).
Proof.
  intros Ha.
  assert (Hl : length (flat_map (le_octets 4) (checkered a)) = 64%nat) by (rewrite flat_map_length_4; reflexivity).
  rewrite salsa20_ok by (apply octets_flat_le || (rewrite ?Hl, ?repeat_length; lia)).
  rewrite firstn_all2 by lia. rewrite skipn_all2 by (rewrite repeat_length; lia).
  rewrite app_nil_r, salsa20_checkered by assumption. reflexivity.
Qed.
