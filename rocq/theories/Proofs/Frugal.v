(** scrypt with a smaller table. *)
From Coq Require Import ZArith NArith List Arith Lia Bool ZifyBool ZifyNat ZifyN.
From Verif.Spec Require Import Octets Pbkdf2 Scrypt Frugal.
Import ListNotations.
Local Open Scope N_scope.


(** The entries kept of the first [i]. *)
Definition kept_of (r : nat) (k : N) (B : list N) (i : N) : list (list N) :=
  map (fun q => V r B (N.of_nat q * k)) (seq 0 (N.to_nat ((i + k - 1) / k))).
Lemma kept_grows r k B i : 1 <= k ->
  kept_of r k B (i + 1) = if i mod k =? 0 then kept_of r k B i ++ [V r B i] else kept_of r k B i.
Proof.
  intros Hk. unfold kept_of.
  assert (D : i = k * (i / k) + i mod k) by (apply N.div_mod; lia).
  assert (M : i mod k < k) by (apply N.mod_lt; lia).
  assert (E2 : (i + 1 + k - 1) / k = i / k + 1).
  { symmetry. apply (N.div_unique _ _ _ (i mod k)); lia. }
  rewrite E2. destruct (N.eqb_spec (i mod k) 0) as [E|E].
  - assert (E1 : (i + k - 1) / k = i / k).
    { symmetry. apply (N.div_unique _ _ _ (k - 1)); lia. }
    rewrite E1, N2Nat.inj_add, Nat.add_1_r, seq_S, map_app. cbn [map Nat.add]. do 3 f_equal.
    rewrite N2Nat.id. lia.
  - assert (E1 : (i + k - 1) / k = i / k + 1).
    { symmetry. apply (N.div_unique _ _ _ (i mod k - 1)); lia. }
    rewrite E1. reflexivity.
Qed.
Lemma fill_ok r k B m : 1 <= k -> forall i,
  fill r k m i (V r B i) (kept_of r k B i) = (V r B (i + N.of_nat m), kept_of r k B (i + N.of_nat m)).
Proof.
  intros Hk. induction m as [|m IH]; intros i.
  - cbn [fill]. rewrite N.add_0_r. reflexivity.
  - cbn [fill]. rewrite <- kept_grows by assumption.
    replace (BlockMix r (V r B i)) with (V r B (i + 1)) by (unfold V; rewrite N.add_1_r, N.iter_succ; reflexivity).
    rewrite IH. replace (i + 1 + N.of_nat m) with (i + N.of_nat (S m)) by lia. reflexivity.
Qed.
Lemma kept_length r k B i : length (kept_of r k B i) = N.to_nat ((i + k - 1) / k).
Proof. unfold kept_of. rewrite map_length, seq_length. reflexivity. Qed.
Lemma fetch_ok r k B n j : 1 <= k -> j < n -> fetch r k (kept_of r k B n) j = V r B j.
Proof.
  intros Hk Hj. unfold fetch, kept_of.
  assert (D : j = k * (j / k) + j mod k) by (apply N.div_mod; lia).
  assert (L : j / k < (n + k - 1) / k).
  { assert (N1 : n + k - 1 = k * ((n + k - 1) / k) + (n + k - 1) mod k) by (apply N.div_mod; lia).
    assert (N2 : (n + k - 1) mod k < k) by (apply N.mod_lt; lia). nia. }
  rewrite (nth_indep _ _ (V r B (N.of_nat 0 * k))) by (rewrite map_length, seq_length; lia).
  rewrite (map_nth (fun q => V r B (N.of_nat q * k))), seq_nth by lia. cbn [Nat.add]. rewrite N2Nat.id.
  unfold V. rewrite <- N.iter_add. f_equal. lia.
Qed.
Lemma iter_comm {A} (f : A -> A) n x : f (N.iter n f x) = N.iter n f (f x).
Proof. rewrite <- N.iter_succ, N.iter_succ_r. reflexivity. Qed.

Definition indices_from (r : nat) (B : list N) (n i : N) (m : nat) : list N :=
  map (fun q => ROMix_index r B n (i + N.of_nat q)) (seq 0 m).
Lemma indices_from_S r B n i m : indices_from r B n i (S m) = ROMix_index r B n i :: indices_from r B n (N.succ i) m.
Proof.
  unfold indices_from. cbn [seq map]. f_equal; [f_equal; lia|]. rewrite <- seq_shift, map_map. apply map_ext. intros q. f_equal. lia.
Qed.
Lemma wander_ok r k B n m : 1 <= k -> 1 <= n -> forall i work,
  wander r k n (kept_of r k B n) m (N.iter i (ROMix_step r B n) (V r B n)) work =
  (N.iter (i + N.of_nat m) (ROMix_step r B n) (V r B n),
   work + N.of_nat m + sum (map (fun j => j mod k) (indices_from r B n i m))).
Proof.
  intros Hk Hn. induction m as [|m IH]; intros i work.
  - cbn. rewrite !N.add_0_r. reflexivity.
  - cbn [wander]. rewrite fetch_ok by (try assumption; apply N.mod_lt; lia).
    change (BlockMix r (xor ?x (V r B (Integerify r ?x mod n)))) with (ROMix_step r B n x).
    rewrite <- N.iter_succ, IH. f_equal; [f_equal; lia|].
    rewrite indices_from_S. cbn [map sum fold_right]. fold (sum (map (fun j => j mod k) (indices_from r B n (N.succ i) m))).
    unfold ROMix_index. generalize (Integerify r (N.iter i (ROMix_step r B n) (V r B n)) mod n mod k). intros. lia.
Qed.
Lemma frugal_ROMix_ok r k B n : 1 <= k -> 1 <= n ->
  frugal_ROMix r k B n =
  mkLane (ROMix r B n) (N.to_nat ((n + k - 1) / k)) (2 * n + sum (map (fun j => j mod k) (ROMix_indices r B n))).
Proof.
  intros Hk Hn. unfold frugal_ROMix.
  assert (F : fill r k (N.to_nat n) 0 B [] = (V r B n, kept_of r k B n)).
  { pose proof (fill_ok r k B (N.to_nat n) Hk 0) as F. rewrite N.add_0_l, N2Nat.id in F. unfold kept_of at 1 in F.
    replace ((0 + k - 1) / k) with 0 in F by (symmetry; apply N.div_small; lia). exact F. }
  rewrite F. pose proof (wander_ok r k B n (N.to_nat n) Hk Hn 0 n) as W. rewrite N.add_0_l, N2Nat.id in W.
  change (N.iter 0 (ROMix_step r B n) (V r B n)) with (V r B n) in W. rewrite W, kept_length. unfold ROMix. f_equal.
  unfold indices_from, ROMix_indices. rewrite (map_ext (fun q => ROMix_index r B n (0 + N.of_nat q)) (fun q => ROMix_index r B n (N.of_nat q))) by (intros; f_equal; lia). lia.
Qed.
Lemma sum_le l b : Forall (fun x => x <= b) l -> sum l <= N.of_nat (length l) * b.
Proof. induction 1; cbn [sum fold_right length]; [lia|]. fold (sum l). lia. Qed.
Lemma indices_bound r k B n : 1 <= k -> sum (map (fun j => j mod k) (ROMix_indices r B n)) <= n * (k - 1).
Proof.
  intros Hk. etransitivity; [apply (sum_le _ (k - 1))|].
  - apply Forall_forall. intros x Hx. apply in_map_iff in Hx. destruct Hx as (j & <- & _). pose proof (N.mod_lt j k). lia.
  - unfold ROMix_indices. rewrite !map_length, seq_length, N2Nat.id. lia.
Qed.
Lemma frugal_scrypt_ok k P Salt n r p l : 1 <= k -> 1 <= n ->
  frugal_scrypt k P Salt n r p l = scrypt P Salt n r p l.
Proof.
  intros Hk Hn. unfold frugal_scrypt, scrypt, lanes. rewrite map_map. do 2 f_equal. apply map_ext.
  intros B. rewrite frugal_ROMix_ok by assumption. reflexivity.
Qed.
