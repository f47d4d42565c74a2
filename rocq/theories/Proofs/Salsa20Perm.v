(** The rounds of Salsa20 are invertible and commute with flipping all top bits. *)
From Coq Require Import ZArith NArith List Arith Lia Bool ZifyBool ZifyNat ZifyN.
From Verif Require Import Rust.
From Verif.Model Require Salsa20.
From Verif.Spec Require Octets Salsa20.
From Verif.Proofs Require Import Base Bits Salsa20.
Import ListNotations.
Import Spec.Octets.
Import Spec.Salsa20.
Local Open Scope N_scope.
Ltac Zify.zify_post_hook ::= Z.div_mod_to_equations.

(** * Inverse *)

Definition unquarterround (z : N * N * N * N) : N * N * N * N :=
  let '(z0, z1, z2, z3) := z in
  let y0 := N.lxor z0 (rotl (sum z3 z2) 18) in
  let y3 := N.lxor z3 (rotl (sum z2 z1) 13) in
  let y2 := N.lxor z2 (rotl (sum z1 y0) 9) in
  let y1 := N.lxor z1 (rotl (sum y0 y3) 7) in
  (y0, y1, y2, y3).

Lemma lxor_cancel a b : N.lxor (N.lxor a b) b = a.
Proof. rewrite N.lxor_assoc, N.lxor_nilpotent, N.lxor_0_r. reflexivity. Qed.

Lemma unquarterround_quarterround y : unquarterround (quarterround y) = y.
Proof.
  destruct y as [[[y0 y1] y2] y3]. unfold quarterround, unquarterround. cbv zeta.
  rewrite !lxor_cancel. reflexivity.
Qed.
Lemma quarterround_unquarterround y : quarterround (unquarterround y) = y.
Proof.
  destruct y as [[[y0 y1] y2] y3]. unfold quarterround, unquarterround. cbv zeta.
  rewrite !lxor_cancel. reflexivity.
Qed.
Lemma words4_unquarterround q : words4 q -> words4 (unquarterround q).
Proof.
  destruct q as [[[a b] c] d]. cbn. intros (Ha & Hb & Hc & Hd).
  repeat split; repeat (apply word_lxor || apply word_rotl || apply word_sum || assumption || lia).
Qed.

Definition unrowround (y : list N) : list N :=
  match y with
  | [y0; y1; y2; y3; y4; y5; y6; y7; y8; y9; y10; y11; y12; y13; y14; y15] =>
      let '(z0, z1, z2, z3) := unquarterround (y0, y1, y2, y3) in
      let '(z5, z6, z7, z4) := unquarterround (y5, y6, y7, y4) in
      let '(z10, z11, z8, z9) := unquarterround (y10, y11, y8, y9) in
      let '(z15, z12, z13, z14) := unquarterround (y15, y12, y13, y14) in
      [z0; z1; z2; z3; z4; z5; z6; z7; z8; z9; z10; z11; z12; z13; z14; z15]
  | _ => []
  end.
Definition uncolumnround (x : list N) : list N :=
  match x with
  | [x0; x1; x2; x3; x4; x5; x6; x7; x8; x9; x10; x11; x12; x13; x14; x15] =>
      let '(y0, y4, y8, y12) := unquarterround (x0, x4, x8, x12) in
      let '(y5, y9, y13, y1) := unquarterround (x5, x9, x13, x1) in
      let '(y10, y14, y2, y6) := unquarterround (x10, x14, x2, x6) in
      let '(y15, y3, y7, y11) := unquarterround (x15, x3, x7, x11) in
      [y0; y1; y2; y3; y4; y5; y6; y7; y8; y9; y10; y11; y12; y13; y14; y15]
  | _ => []
  end.


(** Rewriting one round after the other on a fully destructed state. *)
Ltac qcase f q :=
  let E := fresh "E" in
  destruct (f q) as [[[? ?] ?] ?] eqn:E.

Lemma unrowround_rowround y : length y = 16%nat -> unrowround (rowround y) = y.
Proof.
  intros Hy.
  destruct (length_16 y Hy) as (y0&y1&y2&y3&y4&y5&y6&y7&y8&y9&y10&y11&y12&y13&y14&y15&->).
  unfold rowround.
  qcase quarterround (y0, y1, y2, y3). qcase quarterround (y5, y6, y7, y4).
  qcase quarterround (y10, y11, y8, y9). qcase quarterround (y15, y12, y13, y14).
  unfold unrowround. rewrite <- E, <- E0, <- E1, <- E2, !unquarterround_quarterround. reflexivity.
Qed.
Lemma rowround_unrowround y : length y = 16%nat -> rowround (unrowround y) = y.
Proof.
  intros Hy.
  destruct (length_16 y Hy) as (y0&y1&y2&y3&y4&y5&y6&y7&y8&y9&y10&y11&y12&y13&y14&y15&->).
  unfold unrowround.
  qcase unquarterround (y0, y1, y2, y3). qcase unquarterround (y5, y6, y7, y4).
  qcase unquarterround (y10, y11, y8, y9). qcase unquarterround (y15, y12, y13, y14).
  unfold rowround. rewrite <- E, <- E0, <- E1, <- E2, !quarterround_unquarterround. reflexivity.
Qed.
Lemma uncolumnround_columnround y : length y = 16%nat -> uncolumnround (columnround y) = y.
Proof.
  intros Hy.
  destruct (length_16 y Hy) as (y0&y1&y2&y3&y4&y5&y6&y7&y8&y9&y10&y11&y12&y13&y14&y15&->).
  unfold columnround.
  qcase quarterround (y0, y4, y8, y12). qcase quarterround (y5, y9, y13, y1).
  qcase quarterround (y10, y14, y2, y6). qcase quarterround (y15, y3, y7, y11).
  unfold uncolumnround. rewrite <- E, <- E0, <- E1, <- E2, !unquarterround_quarterround. reflexivity.
Qed.
Lemma columnround_uncolumnround y : length y = 16%nat -> columnround (uncolumnround y) = y.
Proof.
  intros Hy.
  destruct (length_16 y Hy) as (y0&y1&y2&y3&y4&y5&y6&y7&y8&y9&y10&y11&y12&y13&y14&y15&->).
  unfold uncolumnround.
  qcase unquarterround (y0, y4, y8, y12). qcase unquarterround (y5, y9, y13, y1).
  qcase unquarterround (y10, y14, y2, y6). qcase unquarterround (y15, y3, y7, y11).
  unfold columnround. rewrite <- E, <- E0, <- E1, <- E2, !quarterround_unquarterround. reflexivity.
Qed.

Lemma state_unrowround y : state y -> state (unrowround y).
Proof.
  intros [Hy Hw].
  destruct (length_16 y Hy) as (y0&y1&y2&y3&y4&y5&y6&y7&y8&y9&y10&y11&y12&y13&y14&y15&->).
  unfold Salsa20.words in Hw.
  repeat match goal with H : Forall word (_ :: _) |- _ => apply Forall_cons_iff in H; destruct H as [? H] end.
  unfold unrowround.
  pose proof (words4_unquarterround (y0, y1, y2, y3)) as Q0.
  pose proof (words4_unquarterround (y5, y6, y7, y4)) as Q1.
  pose proof (words4_unquarterround (y10, y11, y8, y9)) as Q2.
  pose proof (words4_unquarterround (y15, y12, y13, y14)) as Q3.
  qcase unquarterround (y0, y1, y2, y3). qcase unquarterround (y5, y6, y7, y4).
  qcase unquarterround (y10, y11, y8, y9). qcase unquarterround (y15, y12, y13, y14).
  cbn [words4] in *.
  split; [reflexivity|]. repeat constructor; tauto.
Qed.
Lemma state_uncolumnround y : state y -> state (uncolumnround y).
Proof.
  intros [Hy Hw].
  destruct (length_16 y Hy) as (y0&y1&y2&y3&y4&y5&y6&y7&y8&y9&y10&y11&y12&y13&y14&y15&->).
  unfold Salsa20.words in Hw.
  repeat match goal with H : Forall word (_ :: _) |- _ => apply Forall_cons_iff in H; destruct H as [? H] end.
  unfold uncolumnround.
  pose proof (words4_unquarterround (y0, y4, y8, y12)) as Q0.
  pose proof (words4_unquarterround (y5, y9, y13, y1)) as Q1.
  pose proof (words4_unquarterround (y10, y14, y2, y6)) as Q2.
  pose proof (words4_unquarterround (y15, y3, y7, y11)) as Q3.
  qcase unquarterround (y0, y4, y8, y12). qcase unquarterround (y5, y9, y13, y1).
  qcase unquarterround (y10, y14, y2, y6). qcase unquarterround (y15, y3, y7, y11).
  cbn [words4] in *.
  split; [reflexivity|]. repeat constructor; tauto.
Qed.

Definition undoubleround (x : list N) : list N := uncolumnround (unrowround x).

Lemma undoubleround_doubleround x : state x -> undoubleround (doubleround x) = x.
Proof.
  intros Hx. unfold undoubleround, doubleround.
  rewrite unrowround_rowround by apply (state_columnround x Hx).
  apply uncolumnround_columnround, Hx.
Qed.
Lemma doubleround_undoubleround x : state x -> doubleround (undoubleround x) = x.
Proof.
  intros Hx. unfold undoubleround, doubleround.
  rewrite columnround_uncolumnround by apply (state_unrowround x Hx).
  apply rowround_unrowround, Hx.
Qed.
Lemma state_undoubleround x : state x -> state (undoubleround x).
Proof. intros H. apply state_uncolumnround, state_unrowround, H. Qed.

Lemma rounds_succ k x : rounds (N.succ k) x = doubleround (rounds k x).
Proof. apply N.iter_succ. Qed.

Lemma rounds_inj k x y : state x -> state y -> rounds k x = rounds k y -> x = y.
Proof.
  intros Hx Hy. induction k as [|k IH] using N.peano_ind; [exact (fun H => H)|].
  rewrite !rounds_succ. intros H. apply IH.
  rewrite <- (undoubleround_doubleround (rounds k x)) by (apply state_rounds; assumption).
  rewrite <- (undoubleround_doubleround (rounds k y)) by (apply state_rounds; assumption).
  rewrite H. reflexivity.
Qed.

Lemma rounds_surj k y : state y -> exists x, state x /\ rounds k x = y.
Proof.
  revert y. induction k as [|k IH] using N.peano_ind; intros y Hy; [exists y; split; [assumption|reflexivity]|].
  destruct (IH (undoubleround y) (state_undoubleround y Hy)) as (x & Hx & E).
  exists x. split; [assumption|]. rewrite rounds_succ, E. apply doubleround_undoubleround. assumption.
Qed.

(** The words of an octet string determine it. *)
Lemma le_num_inj a b : octets a -> octets b -> length a = length b -> le_num a = le_num b -> a = b.
Proof.
  intros Ha Hb Hl H. rewrite <- (le_octets_le_num a Ha), <- (le_octets_le_num b Hb), Hl, H. reflexivity.
Qed.

Lemma flat_words l : octets l -> (length l mod 4 = 0)%nat -> flat_map (le_octets 4) (words l) = l.
Proof.
  intros Ho Hl. unfold words. rewrite <- (blocks_concat 4 l) at 2 by (assumption || lia).
  rewrite flat_map_concat_map, map_map. f_equal. rewrite <- (map_id (blocks 4 l)) at 2.
  apply map_ext_in. intros g Hg.
  rewrite <- (blocks_all_length 4 l g Hg) at 1. apply le_octets_le_num.
  eapply octets_blocks; eassumption.
Qed.

Lemma words_inj a b : octets a -> octets b -> (length a mod 4 = 0)%nat -> (length b mod 4 = 0)%nat ->
  words a = words b -> a = b.
Proof.
  intros Ha Hb Hla Hlb H. rewrite <- (flat_words a), <- (flat_words b) by assumption.
  rewrite H. reflexivity.
Qed.

Lemma words_flat l : Salsa20.words l -> words (flat_map (le_octets 4) l) = l.
Proof.
  intros Hl. unfold words. rewrite flat_map_concat_map.
  rewrite blocks_of_concat; [|lia|].
  - rewrite map_map. rewrite <- (map_id l) at 2. apply map_ext_in. intros x Hx.
    rewrite le_num_le_octets. apply N.mod_small. apply (proj1 (Forall_forall _ _) Hl x Hx).
  - apply Forall_map, Forall_forall. intros x _. apply le_octets_length.
Qed.

(** * Top bits *)

Definition flip (x : N) : N := N.lxor x (2 ^ 31).

Lemma flip_add x : word x -> flip x = (x + 2 ^ 31) mod 2 ^ 32.
Proof.
  intros Hx. unfold flip. unfold word in Hx. change (2 ^ 32) with (2 * 2 ^ 31) in *.
  destruct (N.lt_ge_cases x (2 ^ 31)) as [Hlt|Hge].
  - rewrite N.mod_small by lia.
    replace (N.lxor x (2 ^ 31)) with (N.lor x (1 * 2 ^ 31)).
    + rewrite lor_add_disjoint' by assumption. lia.
    + rewrite N.mul_1_l. symmetry. apply N.lxor_lor. apply N.bits_inj_0. intros m.
      rewrite N.land_spec, N.pow2_bits_eqb. destruct (N.eqb_spec 31 m) as [<-|]; [|apply andb_false_r].
      rewrite (proj1 (lt_pow2_testbit x 31)) by (assumption || lia). reflexivity.
  - remember (x - 2 ^ 31) as l. assert (Hl : l < 2 ^ 31) by lia.
    replace x with (1 * 2 ^ 31 + l) by lia.
    rewrite <- lor_add_disjoint by assumption.
    replace (N.lor (1 * 2 ^ 31) l) with (N.lxor l (2 ^ 31)).
    + rewrite lxor_cancel.
      replace (N.lxor l (2 ^ 31)) with (l + 2 ^ 31); [|].
      * replace (l + 2 ^ 31 + 2 ^ 31) with (l + 1 * (2 * 2 ^ 31)) by lia.
        rewrite N.mod_add by discriminate. rewrite N.mod_small; lia.
      * symmetry. rewrite N.lxor_lor.
        -- rewrite <- (N.mul_1_l (2 ^ 31)), lor_add_disjoint' by assumption. lia.
        -- apply N.bits_inj_0. intros m.
           rewrite N.land_spec, N.pow2_bits_eqb. destruct (N.eqb_spec 31 m) as [<-|]; [|apply andb_false_r].
           rewrite (proj1 (lt_pow2_testbit l 31)) by (assumption || lia). reflexivity.
    + rewrite N.mul_1_l. rewrite (N.lor_comm (2 ^ 31)). apply N.lxor_lor.
      apply N.bits_inj_0. intros m.
      rewrite N.land_spec, N.pow2_bits_eqb. destruct (N.eqb_spec 31 m) as [<-|]; [|apply andb_false_r].
      rewrite (proj1 (lt_pow2_testbit l 31)) by (assumption || lia). reflexivity.
Qed.

Lemma word_flip x : word x -> word (flip x).
Proof. intros H. apply word_lxor; [assumption|reflexivity]. Qed.

Lemma sum_flip a b : word a -> word b -> sum (flip a) (flip b) = sum a b.
Proof.
  intros Ha Hb. rewrite !flip_add by assumption. unfold sum, word in *.
  change (2 ^ 32) with 4294967296 in *. change (2 ^ 31) with 2147483648. lia.
Qed.

Lemma lxor_flip a b : N.lxor (flip a) b = flip (N.lxor a b).
Proof. unfold flip. rewrite !N.lxor_assoc, (N.lxor_comm b). reflexivity. Qed.

Definition flip4 (q : N * N * N * N) : N * N * N * N :=
  let '(a, b, c, d) := q in (flip a, flip b, flip c, flip d).

Lemma quarterround_flip q : words4 q -> quarterround (flip4 q) = flip4 (quarterround q).
Proof.
  destruct q as [[[a b] c] d]. cbn [words4]. intros (Ha & Hb & Hc & Hd).
  unfold flip4, quarterround. cbv zeta.
  rewrite (sum_flip a d) by assumption. rewrite (lxor_flip b).
  set (z1 := N.lxor b _).
  assert (word z1) by (repeat (apply word_lxor || apply word_rotl || apply word_sum || assumption || lia)).
  rewrite (sum_flip z1 a) by assumption. rewrite (lxor_flip c).
  set (z2 := N.lxor c _).
  assert (word z2) by (repeat (apply word_lxor || apply word_rotl || apply word_sum || assumption || lia)).
  rewrite (sum_flip z2 z1) by assumption. rewrite (lxor_flip d).
  set (z3 := N.lxor d _).
  assert (word z3) by (repeat (apply word_lxor || apply word_rotl || apply word_sum || assumption || lia)).
  rewrite (sum_flip z3 z2) by assumption. rewrite (lxor_flip a). reflexivity.
Qed.

Ltac qflip q :=
  let H := fresh in
  pose proof (quarterround_flip q) as H; cbn [flip4 words4] in H; rewrite H by tauto; clear H.

Lemma rowround_flip y : state y -> rowround (map flip y) = map flip (rowround y).
Proof.
  intros [Hy Hw].
  destruct (length_16 y Hy) as (y0&y1&y2&y3&y4&y5&y6&y7&y8&y9&y10&y11&y12&y13&y14&y15&->).
  unfold Salsa20.words in Hw.
  repeat match goal with H : Forall word (_ :: _) |- _ => apply Forall_cons_iff in H; destruct H as [? H] end.
  unfold rowround. cbn [map].
  qflip (y0, y1, y2, y3).
  qflip (y5, y6, y7, y4).
  qflip (y10, y11, y8, y9).
  qflip (y15, y12, y13, y14).
  qcase quarterround (y0, y1, y2, y3). qcase quarterround (y5, y6, y7, y4).
  qcase quarterround (y10, y11, y8, y9). qcase quarterround (y15, y12, y13, y14).
  reflexivity.
Qed.
Lemma columnround_flip y : state y -> columnround (map flip y) = map flip (columnround y).
Proof.
  intros [Hy Hw].
  destruct (length_16 y Hy) as (y0&y1&y2&y3&y4&y5&y6&y7&y8&y9&y10&y11&y12&y13&y14&y15&->).
  unfold Salsa20.words in Hw.
  repeat match goal with H : Forall word (_ :: _) |- _ => apply Forall_cons_iff in H; destruct H as [? H] end.
  unfold columnround. cbn [map].
  qflip (y0, y4, y8, y12).
  qflip (y5, y9, y13, y1).
  qflip (y10, y14, y2, y6).
  qflip (y15, y3, y7, y11).
  qcase quarterround (y0, y4, y8, y12). qcase quarterround (y5, y9, y13, y1).
  qcase quarterround (y10, y14, y2, y6). qcase quarterround (y15, y3, y7, y11).
  reflexivity.
Qed.

Lemma rounds_flip k x : state x -> rounds k (map flip x) = map flip (rounds k x).
Proof.
  intros Hx. induction k as [|k IH] using N.peano_ind; [reflexivity|].
  rewrite !rounds_succ, IH. unfold doubleround.
  pose proof (state_rounds k x Hx) as Hr.
  rewrite columnround_flip by assumption.
  apply rowround_flip, state_columnround, Hr.
Qed.

Lemma add_words_flip a b : Salsa20.words a -> Salsa20.words b ->
  add_words (map flip a) (map flip b) = add_words a b.
Proof.
  intros Ha; revert b; induction Ha as [|x a Hx Ha IH]; intros b Hb; [reflexivity|].
  destruct Hb as [|y b Hy Hb]; [reflexivity|]. cbn [map add_words].
  rewrite sum_flip, IH by assumption. reflexivity.
Qed.

(** Flipping the top bit of every little-endian word of an octet string. *)
Definition top_bits (n : nat) : list N := concat (repeat [0; 0; 0; 128] n).

Lemma lxor_128 d : d < 256 -> N.lxor d 128 = (d + 128) mod 256.
Proof.
  intros Hd. apply N.eqb_eq.
  apply (octet_check (fun d => N.lxor d 128 =? (d + 128) mod 256)); [vm_compute; reflexivity|assumption].
Qed.

Lemma le_num_flip g : octets g -> length g = 4%nat -> le_num (xor g [0; 0; 0; 128]) = flip (le_num g).
Proof.
  intros Hg Hl. pose proof (le_num_lt g Hg) as Hlt. rewrite Hl in Hlt.
  rewrite flip_add by exact Hlt.
  destruct g as [|a [|b [|c [|d [|]]]]]; try discriminate Hl.
  repeat match goal with H : octets (_ :: _) |- _ => apply Forall_cons_iff in H; destruct H as [? H]; change (Forall (fun b => b < 256)) with octets in H end.
  cbn [xor le_num]. rewrite !N.lxor_0_r, lxor_128 by assumption.
  change (2 ^ 32) with 4294967296. change (2 ^ 31) with 2147483648. lia.
Qed.

Lemma words_flip_bytes n x : octets x -> length x = (4 * n)%nat ->
  words (xor x (top_bits n)) = map flip (words x).
Proof.
  revert x; induction n as [|n IH]; intros x Hx Hl.
  - destruct x; [reflexivity|discriminate Hl].
  - assert (Hx' : x = firstn 4 x ++ skipn 4 x) by (symmetry; apply firstn_skipn).
    assert (Hf : length (firstn 4 x) = 4%nat) by (rewrite firstn_length; lia).
    rewrite Hx'. change (top_bits (S n)) with ([0; 0; 0; 128] ++ top_bits n).
    rewrite xor_app by (rewrite Hf; reflexivity).
    unfold words. rewrite !blocks_app; try lia; try (rewrite ?xor_length, Hf; reflexivity).
    rewrite !map_app. f_equal.
    + rewrite !blocks_single by (rewrite ?xor_length, ?Hf; reflexivity || lia).
      cbn [map]. rewrite le_num_flip; [reflexivity|apply octets_firstn; assumption|assumption].
    + apply IH; [apply octets_skipn; assumption|rewrite skipn_length; lia].
Qed.

Lemma salsa20_flip k x : octets x -> length x = 64%nat ->
  salsa20 k (xor x (top_bits 16)) = salsa20 k x.
Proof.
  intros Hx Hl. unfold salsa20. rewrite (words_flip_bytes 16) by assumption.
  pose proof (words_le_num x Hx Hl) as Hst.
  rewrite rounds_flip by assumption.
  rewrite add_words_flip; [reflexivity|apply Hst|apply (state_rounds k _ Hst)].
Qed.

(** * The statements of the properties *)

Lemma sub_words_add a b : Salsa20.words a -> Salsa20.words b -> length a = length b ->
  sub_words (add_words a b) a = b.
Proof.
  intros Ha; revert b; induction Ha as [|x a Hx Ha IH]; intros b Hb Hl;
    destruct Hb as [|y b Hy Hb]; try discriminate Hl; [reflexivity|].
  cbn [add_words sub_words]. rewrite IH by (assumption || (cbn in Hl; lia)). f_equal.
  unfold sum, word in *. change (2 ^ 32) with 4294967296 in *. lia.
Qed.

Lemma state_add_words a b : state a -> state b -> state (add_words a b).
Proof.
  intros [Hla Ha] [Hlb Hb]. split; [rewrite add_words_length, Hla, Hlb; reflexivity|].
  clear Hla Hlb. revert b Hb; induction Ha as [|x a Hx Ha IH]; intros b Hb; [constructor|].
  destruct Hb as [|y b Hy Hb]; [constructor|]. constructor; [apply word_sum|apply IH; assumption].
Qed.

Lemma salsa20_difference k x : octets x -> length x = 64%nat ->
  sub_words (words (salsa20 k x)) (words x) = rounds k (words x).
Proof.
  intros Hx Hl. pose proof (words_le_num x Hx Hl) as Hst.
  pose proof (state_rounds k _ Hst) as Hr.
  unfold salsa20. rewrite words_flat by apply (state_add_words _ _ Hst Hr).
  apply sub_words_add; [apply Hst|apply Hr|]. rewrite (proj1 Hst), (proj1 Hr). reflexivity.
Qed.

Lemma difference_injective k x y outx outy :
  octets x -> octets y -> length x = 64%nat -> length y = 64%nat ->
  Model.Salsa20.salsa20 x k (repeat 0 64) = Ret outx ->
  Model.Salsa20.salsa20 y k (repeat 0 64) = Ret outy ->
  sub_words (words outx) (words x) = sub_words (words outy) (words y) -> x = y.
Proof.
  intros Hx Hy Hlx Hly.
  rewrite !salsa20_ok; try assumption; try (rewrite repeat_length; lia); try lia.
  rewrite !firstn_all2 by lia. change (skipn 64 (repeat 0 64)) with (@nil N). rewrite !app_nil_r.
  intros Ex Ey. injection Ex as <-. injection Ey as <-.
  rewrite !salsa20_difference by assumption. intros H.
  apply words_inj; try assumption; try (rewrite ?Hlx, ?Hly; reflexivity).
  apply (rounds_inj k); [apply words_le_num; assumption|apply words_le_num; assumption|assumption].
Qed.

Lemma mix_injective k x y z : state x -> state y ->
  Model.Salsa20.mix k x = Ret z -> Model.Salsa20.mix k y = Ret z -> x = y.
Proof.
  intros Hx Hy. rewrite !mix_ok by assumption. intros E1 E2. injection E1 as <-. injection E2 as E2.
  symmetry in E2. eapply rounds_inj; eassumption.
Qed.
Lemma mix_total k x : state x -> exists y, Model.Salsa20.mix k x = Ret y /\ state y.
Proof. intros Hx. rewrite mix_ok by assumption. eexists. split; [reflexivity|]. apply state_rounds, Hx. Qed.
Lemma mix_surjective k y : state y -> exists x, state x /\ Model.Salsa20.mix k x = Ret y.
Proof.
  intros Hy. destruct (rounds_surj k y Hy) as (x & Hx & E). exists x. split; [assumption|].
  rewrite mix_ok, E by assumption. reflexivity.
Qed.

Lemma flip_top_bits_eq x : length x = 64%nat -> flip_top_bits x = xor x (top_bits 16).
Proof. intros Hl. unfold flip_top_bits. rewrite Hl. reflexivity. Qed.

Lemma octets_top_bits n : octets (top_bits n).
Proof.
  induction n as [|n IH]; [constructor|]. change (top_bits (S n)) with ([0; 0; 0; 128] ++ top_bits n).
  apply octets_app. split; [repeat constructor|assumption].
Qed.

Lemma model_flip k x out : octets x -> length x = 64%nat -> (64 <= length out)%nat ->
  Model.Salsa20.salsa20 (flip_top_bits x) k out = Model.Salsa20.salsa20 x k out /\
  flip_top_bits x <> x.
Proof.
  intros Hx Hl Ho. split.
  - rewrite flip_top_bits_eq by assumption.
    assert (Hl' : length (xor x (top_bits 16)) = 64%nat) by (rewrite xor_length, Hl; reflexivity).
    rewrite !salsa20_ok; try assumption; try lia.
    + rewrite !firstn_all2 by lia. rewrite salsa20_flip by assumption. reflexivity.
    + apply octets_xor; [assumption|apply octets_top_bits].
  - rewrite flip_top_bits_eq by assumption. intros E.
    apply (f_equal (fun l => nth 3 l 0)) in E. revert E.
    rewrite nth_xor; [|lia|vm_compute; lia]. change (nth 3 (top_bits 16) 0) with 128.
    intros E. apply (f_equal (fun v => N.lxor (nth 3 x 0) v)) in E.
    rewrite <- N.lxor_assoc, N.lxor_nilpotent in E. discriminate E.
Qed.

Lemma salsa20_panic_iff input k output : octets input ->
  Model.Salsa20.salsa20 input k output = Panic <->
  (length input < 64 \/ length output < 64)%nat.
Proof.
  intros Hi. split.
  - intros E. destruct (Nat.lt_ge_cases (length input) 64) as [|H1]; [tauto|].
    destruct (Nat.lt_ge_cases (length output) 64) as [|H2]; [tauto|].
    rewrite salsa20_ok in E by assumption. discriminate E.
  - apply salsa20_short. assumption.
Qed.

Lemma salsa20_local input k output : octets input ->
  (64 <= length input)%nat -> (64 <= length output)%nat ->
  exists b, length b = 64%nat /\ octets b /\
    Model.Salsa20.salsa20 (firstn 64 input) k (repeat 0 64) = Ret b /\
    Model.Salsa20.salsa20 input k output = Ret (b ++ skipn 64 output).
Proof.
  intros Hi H1 H2. exists (salsa20 k (firstn 64 input)).
  assert (Hlf : length (firstn 64 input) = 64%nat) by (rewrite firstn_length; lia).
  split; [apply spec_salsa20_length; [apply octets_firstn; assumption|assumption]|].
  split; [apply octets_salsa20|].
  rewrite !salsa20_ok; try assumption; try lia; try (rewrite repeat_length; lia);
    try (apply octets_firstn; assumption).
  split; [|reflexivity].
  rewrite firstn_firstn. change (skipn 64 (repeat 0 64)) with (@nil N). rewrite app_nil_r. reflexivity.
Qed.
