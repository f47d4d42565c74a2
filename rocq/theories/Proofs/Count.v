(** Counting octet strings: all of them, and those [Spec.Stream.strip] accepts. *)
From Coq Require Import ZArith NArith List Arith Lia Bool ZifyBool ZifyNat ZifyN.
From Verif.Spec Require Import Octets Stream Counting.
From Verif.Proofs Require Import Base.
From Verif.Spec Require Cbc.
From Verif.Proofs Require Stream.
Import ListNotations.
Local Open Scope N_scope.

Lemma NoDup_flat_map {A B} (f : A -> list B) l : NoDup l ->
  (forall x, In x l -> NoDup (f x)) ->
  (forall x y z, In x l -> In y l -> In z (f x) -> In z (f y) -> x = y) ->
  NoDup (flat_map f l).
Proof.
  induction l as [|x l IH]; intros Hl Hf Hd; [constructor|]. inversion Hl as [|? ? Hx Hl']; subst.
  cbn [flat_map]. assert (H1 : NoDup (f x)) by (apply Hf; left; reflexivity).
  assert (H2 : NoDup (flat_map f l)).
  { apply IH; [assumption|intros y Hy; apply Hf; right; assumption|].
    intros a b z Ha Hb. apply Hd; right; assumption. }
  assert (H3 : forall z, In z (f x) -> ~ In z (flat_map f l)).
  { intros z Hz Hc. apply in_flat_map in Hc. destruct Hc as (y & Hy & Hzy).
    assert (x = y) by (apply (Hd x y z); [left; reflexivity|right; assumption|assumption|assumption]). congruence. }
  clear -H1 H2 H3. induction (f x) as [|a la IH]; [assumption|]. inversion H1 as [|? ? Ha H1']; subst.
  cbn [app]. constructor.
  - intros Hi. apply in_app_or in Hi. destruct Hi as [Hi|Hi]; [contradiction|]. apply (H3 a); [left; reflexivity|assumption].
  - apply IH; [assumption|]. intros z Hz. apply H3. right. assumption.
Qed.
Lemma NoDup_map {A B} (f : A -> B) l : NoDup l -> (forall x y, In x l -> In y l -> f x = f y -> x = y) ->
  NoDup (map f l).
Proof.
  induction l as [|x l IH]; intros Hl Hi; [constructor|]. inversion Hl as [|? ? Hx Hl']; subst.
  cbn [map]. constructor.
  - intros Hc. apply in_map_iff in Hc. destruct Hc as (y & E & Hy).
    assert (y = x) by (apply Hi; [right; assumption|left; reflexivity|assumption]). congruence.
  - apply IH; [assumption|]. intros a b Ha Hb. apply Hi; right; assumption.
Qed.

(** The sum of [f] over a list, and the length of a [flat_map]. *)
Fixpoint sum_over {A} (f : A -> N) (l : list A) : N :=
  match l with [] => 0 | x :: l => f x + sum_over f l end.
Lemma length_flat_map {A B} (f : A -> list B) l :
  N.of_nat (length (flat_map f l)) = sum_over (fun x => N.of_nat (length (f x))) l.
Proof.
  induction l as [|x l IH]; [reflexivity|]. cbn [flat_map sum_over]. rewrite app_length, Nat2N.inj_add, IH. reflexivity.
Qed.
Lemma sum_over_const {A} (f : A -> N) c l : (forall x, In x l -> f x = c) -> sum_over f l = N.of_nat (length l) * c.
Proof.
  induction l as [|x l IH]; intros H; [reflexivity|]. cbn [sum_over length].
  rewrite IH by (intros y Hy; apply H; right; assumption). rewrite (H x) by (left; reflexivity). lia.
Qed.
Lemma sum_over_ext {A} (f g : A -> N) l : (forall x, In x l -> f x = g x) -> sum_over f l = sum_over g l.
Proof.
  induction l as [|x l IH]; intros H; [reflexivity|]. cbn [sum_over].
  rewrite IH by (intros y Hy; apply H; right; assumption). rewrite (H x) by (left; reflexivity). reflexivity.
Qed.

(** All octets, all strings of [k] octets. *)
Definition all_octets : list N := map N.of_nat (seq 0 256).
Lemma all_octets_length : length all_octets = 256%nat.
Proof. unfold all_octets. rewrite map_length, seq_length. reflexivity. Qed.
Lemma all_octets_in b : In b all_octets <-> b < 256.
Proof.
  unfold all_octets. rewrite in_map_iff. split.
  - intros (n & <- & Hn). apply in_seq in Hn. lia.
  - intros Hb. exists (N.to_nat b). split; [lia|]. apply in_seq. lia.
Qed.
Lemma all_octets_nodup : NoDup all_octets.
Proof. apply NoDup_map; [apply seq_NoDup|]. intros x y _ _ E. lia. Qed.
Opaque all_octets.

Fixpoint words (k : nat) : list (list N) :=
  match k with
  | O => [[]]
  | S k => flat_map (fun b => map (cons b) (words k)) all_octets
  end.
Lemma words_length k : N.of_nat (length (words k)) = 256 ^ N.of_nat k.
Proof.
  induction k as [|k IH]; [reflexivity|]. cbn [words]. rewrite length_flat_map.
  rewrite (sum_over_const _ (256 ^ N.of_nat k)) by (intros x _; rewrite map_length; exact IH).
  rewrite all_octets_length, (Nat2N.inj_succ k), N.pow_succ_r'. reflexivity.
Qed.
Lemma words_in k : forall w, In w (words k) <-> length w = k /\ octets w.
Proof.
  induction k as [|k IH]; intros w; cbn [words].
  - split.
    + intros [<-|[]]. split; [reflexivity|constructor].
    + intros [Hl _]. destruct w; [left; reflexivity|discriminate].
  - rewrite in_flat_map. split.
    + intros (b & Hb & Hw). apply in_map_iff in Hw. destruct Hw as (v & <- & Hv). apply IH in Hv.
      apply all_octets_in in Hb. split; [cbn [length]; lia|]. constructor; [assumption|apply Hv].
    + intros [Hl Ho]. destruct w as [|b w]; [discriminate|]. inversion Ho as [|? ? Hb Hw]; subst.
      exists b. split; [apply all_octets_in; assumption|]. apply in_map. apply IH.
      split; [cbn [length] in Hl; lia|assumption].
Qed.
Lemma words_nodup k : NoDup (words k).
Proof.
  induction k as [|k IH]; cbn [words]; [repeat constructor; intros []|].
  apply NoDup_flat_map; [apply all_octets_nodup| |].
  - intros x _. apply NoDup_map; [assumption|]. intros a b _ _ E. congruence.
  - intros x y z _ _ Hx Hy. apply in_map_iff in Hx, Hy. destruct Hx as (a & <- & _), Hy as (b & E & _). congruence.
Qed.

(** Everything is counted by the power. *)
Lemma counted_all k : counted k (fun _ => True) (256 ^ N.of_nat k).
Proof.
  exists (words k). split; [apply words_nodup|]. split; [|apply words_length].
  intros b. rewrite words_in. tauto.
Qed.
Lemma counted_unique k P n m : counted k P n -> counted k P m -> n = m.
Proof.
  intros (L & HL & IL & <-) (M & HM & IM & <-). f_equal. apply Nat.le_antisymm; apply NoDup_incl_length; try assumption;
    intros x Hx; [apply IM, IL|apply IL, IM]; assumption.
Qed.
Lemma counted_ext k (P Q : list N -> Prop) n : (forall b, length b = k -> octets b -> (P b <-> Q b)) ->
  counted k P n -> counted k Q n.
Proof.
  intros H (L & HL & IL & E). exists L. split; [assumption|]. split; [|assumption].
  intros b. rewrite IL. split; intros (H1 & H2 & H3); (split; [assumption|split; [assumption|apply H; assumption]]).
Qed.
(** Through a bijection of the strings. *)
Lemma counted_bij k (P : list N -> Prop) n (f g : list N -> list N) :
  (forall b, length b = k -> octets b -> length (f b) = k /\ octets (f b) /\ g (f b) = b) ->
  (forall b, length b = k -> octets b -> length (g b) = k /\ octets (g b) /\ f (g b) = b) ->
  counted k P n -> counted k (fun b => P (f b)) n.
Proof.
  intros Hf Hg (L & HL & IL & E). exists (map g L). split; [|split].
  - apply NoDup_map; [assumption|]. intros x y Hx Hy Exy. apply IL in Hx, Hy.
    destruct Hx as (X1 & X2 & _), Hy as (Y1 & Y2 & _).
    destruct (Hg x X1 X2) as (_ & _ & Ex), (Hg y Y1 Y2) as (_ & _ & Ey). congruence.
  - intros b. rewrite in_map_iff. split.
    + intros (x & <- & Hx). apply IL in Hx. destruct Hx as (X1 & X2 & X3).
      destruct (Hg x X1 X2) as (G1 & G2 & G3). split; [assumption|]. split; [assumption|]. rewrite G3. assumption.
    + intros (B1 & B2 & B3). destruct (Hf b B1 B2) as (F1 & F2 & F3). exists (f b).
      split; [assumption|]. apply IL. auto.
  - rewrite map_length. assumption.
Qed.

(** * Accepted blocks *)

(** The end of an accepted block, by its last octet. *)
Definition tail_of (n : nat) : list N := match n with O => [0] | _ => repeat (N.of_nat n) n end.
Lemma tail_of_length n : length (tail_of n) = Nat.max n 1.
Proof. destruct n; [reflexivity|]. unfold tail_of. rewrite repeat_length. lia. Qed.
Lemma tail_of_last m n d : last (m ++ tail_of n) d = N.of_nat n.
Proof.
  destruct n as [|n]; [apply last_last|]. unfold tail_of.
  replace (repeat (N.of_nat (S n)) (S n)) with (repeat (N.of_nat (S n)) n ++ [N.of_nat (S n)]).
  - rewrite app_assoc. apply last_last.
  - symmetry. apply repeat_cons.
Qed.
Lemma octets_tail n : (n < 256)%nat -> octets (tail_of n).
Proof. destruct n; intros H; [repeat constructor|]. unfold tail_of. apply octets_repeat. lia. Qed.

(** With the last octets [ns]. *)
Definition ending (k : nat) (ns : list nat) : list (list N) :=
  flat_map (fun n => map (fun m => m ++ tail_of n) (words (k - Nat.max n 1))) ns.
Lemma ending_in k ns b : (1 <= k < 256)%nat -> Forall (fun n => (n <= k)%nat) ns ->
  In b (ending k ns) <-> length b = k /\ octets b /\ exists n m, In n ns /\ b = m ++ tail_of n.
Proof.
  intros Hk Hns. unfold ending. rewrite in_flat_map. split.
  - intros (n & Hn & Hb). rewrite Forall_forall in Hns. specialize (Hns n Hn).
    apply in_map_iff in Hb. destruct Hb as (m & <- & Hm). apply words_in in Hm. destruct Hm as [Hl Ho].
    split; [rewrite app_length, tail_of_length; lia|]. split; [|eauto].
    apply octets_app. split; [assumption|apply octets_tail; lia].
  - intros (Hl & Ho & n & m & Hn & ->). exists n. split; [assumption|]. apply in_map_iff. exists m. split; [reflexivity|].
    apply words_in. rewrite app_length, tail_of_length in Hl. apply octets_app in Ho. split; [lia|apply Ho].
Qed.
Lemma ending_nodup k ns : NoDup ns -> NoDup (ending k ns).
Proof.
  intros Hns. apply NoDup_flat_map; [assumption| |].
  - intros n _. apply NoDup_map; [apply words_nodup|]. intros x y _ _ E. apply app_inv_tail in E. exact E.
  - intros x y z _ _ Hx Hy. apply in_map_iff in Hx, Hy. destruct Hx as (a & <- & _), Hy as (b & E & _).
    apply (f_equal (fun l => last l 0)) in E. rewrite !tail_of_last in E. lia.
Qed.
Lemma ending_length k ns :
  N.of_nat (length (ending k ns)) = sum_over (fun n => 256 ^ N.of_nat (k - Nat.max n 1)) ns.
Proof.
  unfold ending. rewrite length_flat_map. apply sum_over_ext. intros n _. rewrite map_length. apply words_length.
Qed.

Lemma tail_of_pad l m n : l <> [] -> ends_with_pad l m n -> exists m', l = m' ++ tail_of n.
Proof.
  intros Hl [E Hn]. destruct n as [|n]; [|exists m; exact E].
  destruct (exists_last Hl) as (m' & x & ->). rewrite last_last in Hn. subst x. exists m'. reflexivity.
Qed.
Lemma pad_of_tail m n : exists m', ends_with_pad (m ++ tail_of n) m' n.
Proof.
  destruct n as [|n].
  - exists (m ++ [0]). split; [rewrite app_nil_r; reflexivity|apply (tail_of_last m 0)].
  - exists m. split; [reflexivity|apply (tail_of_last m (S n))].
Qed.

Lemma stripped_count k : (1 <= k < 256)%nat ->
  counted k (fun b => exists m, strip k b = Stripped m)
    (sum_over (fun n => 256 ^ N.of_nat (k - Nat.max n 1)) (seq 0 (k + 1))).
Proof.
  intros Hk. exists (ending k (seq 0 (k + 1))). split; [apply ending_nodup, seq_NoDup|].
  split; [|apply ending_length]. intros b.
  rewrite ending_in; [|assumption|apply Forall_forall; intros n Hn; apply in_seq in Hn; lia].
  split; intros (H1 & H2 & H3); (split; [assumption|split; [assumption|]]).
  - destruct H3 as (n & m & Hn & ->). apply in_seq in Hn. destruct (pad_of_tail m n) as [m' Hm'].
    exists m'. apply Proofs.Stream.strip_stripped. split; [assumption|]. exists n. split; [lia|assumption].
  - destruct H3 as [m Hm]. apply Proofs.Stream.strip_stripped in Hm. destruct Hm as (_ & n & Hn & Hp).
    destruct (tail_of_pad b m n) as [m' ->]; [intros ->; cbn in H1; lia|assumption|].
    exists n, m'. split; [apply in_seq; lia|reflexivity].
Qed.
(** Those that carry padding as RFC 5652 defines it. *)
Lemma valid_count k : (1 <= k < 256)%nat ->
  counted k (fun b => exists m, Spec.Cbc.pkcs7_valid k b m)
    (sum_over (fun n => 256 ^ N.of_nat (k - n)) (seq 1 k)).
Proof.
  intros Hk. exists (ending k (seq 1 k)). split; [apply ending_nodup, seq_NoDup|]. split.
  2: { rewrite ending_length. apply sum_over_ext. intros n Hn. apply in_seq in Hn. do 2 f_equal. lia. }
  intros b. rewrite ending_in; [|assumption|apply Forall_forall; intros n Hn; apply in_seq in Hn; lia].
  split; intros (H1 & H2 & H3); (split; [assumption|split; [assumption|]]).
  - destruct H3 as (n & m & Hn & ->). apply in_seq in Hn. destruct n as [|n]; [lia|].
    exists m, (S n). split; [lia|]. split; [reflexivity|]. rewrite H1. apply Nat.mod_same. lia.
  - destruct H3 as (m & n & Hn & E & _). exists n, m. split; [apply in_seq; lia|].
    destruct n; [lia|exact E].
Qed.

(** The sums. *)
Lemma sum_over_map {A B} (f : B -> N) (g : A -> B) l : sum_over f (map g l) = sum_over (fun x => f (g x)) l.
Proof. induction l as [|x l IH]; [reflexivity|]. cbn [map sum_over]. rewrite IH. reflexivity. Qed.
Lemma powers_sum k : 255 * sum_over (fun n => 256 ^ N.of_nat (k - n)) (seq 1 k) + 1 = 256 ^ N.of_nat k.
Proof.
  induction k as [|k IH]; [reflexivity|]. cbn [seq sum_over]. rewrite <- seq_shift, sum_over_map.
  rewrite (sum_over_ext _ (fun n => 256 ^ N.of_nat (k - n))) by (intros n _; f_equal; f_equal; lia).
  replace (S k - 1)%nat with k by lia. rewrite (Nat2N.inj_succ k), N.pow_succ_r'. lia.
Qed.
Lemma accepted_sum k : (1 <= k)%nat ->
  sum_over (fun n => 256 ^ N.of_nat (k - Nat.max n 1)) (seq 0 (k + 1)) =
  sum_over (fun n => 256 ^ N.of_nat (k - n)) (seq 1 k) + 256 ^ N.of_nat (k - 1).
Proof.
  intros Hk. replace (k + 1)%nat with (S k) by lia. cbn [seq sum_over Nat.max].
  rewrite (sum_over_ext _ (fun n => 256 ^ N.of_nat (k - n)) (seq 1 k)); [apply N.add_comm|].
  intros n Hn. apply in_seq in Hn. do 2 f_equal. lia.
Qed.
