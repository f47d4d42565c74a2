(** The spread of differences through the rounds of AES. *)
From Coq Require Import ZArith NArith List Arith Lia Bool ZifyBool ZifyNat ZifyN.
From Verif Require Import Rust.
From Verif.Spec Require Import Octets Aes Diffusion.
From Verif.Model Require Import Aes.
From Verif.Proofs Require Import Base Bits Gf Aes.
Import ListNotations.
Local Open Scope N_scope.

(** * One column *)

Lemma gf_mul_0 k : gf_mul 0 k = 0.
Proof.
  pose proof (gf_mul_lxor 0 0 k) as E. rewrite N.lxor_0_r in E. rewrite E at 1. apply N.lxor_nilpotent.
Qed.

(** Multiplication by [k] is injective. *)
Definition cancels (k : N) : bool := forallb (fun x => if gf_mul x k =? 0 then x =? 0 else true) Aes.all_octets.
Lemma cancels_ok k x : cancels k = true -> x < 256 -> gf_mul x k = 0 -> x = 0.
Proof.
  intros H Hx E. pose proof (octet_check _ H x Hx) as C. cbv beta in C. rewrite E in C. cbn in C. apply N.eqb_eq. exact C.
Qed.

(** The inverses of 1, 2 and 3. *)
Definition inverse (k : N) : N := if k =? 1 then 1 else if k =? 2 then 0x8d else 0xf6.
Definition undoes (k : N) : bool := forallb (fun y => gf_mul (gf_mul y k) (inverse k) =? y) Aes.all_octets.
(** Two equations with one solution. *)
Definition regular (a b c d : N) : bool :=
  undoes b && forallb (fun x => if gf_mul x c =? gf_mul (gf_mul (gf_mul x a) (inverse b)) d then x =? 0 else true) Aes.all_octets.
Lemma regular_ok a b c d x y : regular a b c d = true -> x < 256 -> y < 256 ->
  gf_mul x a = gf_mul y b -> gf_mul x c = gf_mul y d -> x = 0.
Proof.
  intros H Hx Hy E1 E2. apply andb_true_iff in H. destruct H as [H1 H2].
  pose proof (octet_check _ H1 y Hy) as C1. pose proof (octet_check _ H2 x Hx) as C2. cbv beta in C1, C2.
  apply N.eqb_eq in C1. rewrite E1, C1, E2, N.eqb_refl in C2. apply N.eqb_eq. exact C2.
Qed.

Definition weight (b : bool) : nat := if b then 1 else 0.
Definition nonzero (x : N) : bool := negb (x =? 0).
Definition w4 (a b c d : N) : nat := (weight (nonzero a) + weight (nonzero b) + weight (nonzero c) + weight (nonzero d))%nat.

(** The branch number: input and output differences of a column have at least five
    nonzero bytes, or none. *)
Definition branch (p q : nat) : Prop := (p = 0 /\ q = 0)%nat \/ (1 <= p /\ 1 <= q /\ 5 <= p + q)%nat.

Ltac simplify_circ :=
  unfold circ in *; rewrite ?gf_mul_0, ?N.lxor_0_l, ?N.lxor_0_r in *.

Lemma circ_zero k0 k1 k2 k3 : circ k0 k1 k2 k3 0 0 0 0 = 0.
Proof. simplify_circ. reflexivity. Qed.

Ltac vm := vm_compute; reflexivity.
(** [H : 0 = ...] with one or two products left. *)
Ltac one_left H := simplify_circ; refine (cancels_ok _ _ _ _ H); [vm|assumption].
Lemma pair_zero a b c d x y : regular a b c d = true -> x < 256 -> y < 256 ->
  N.lxor (gf_mul x a) (gf_mul y b) = 0 -> N.lxor (gf_mul x c) (gf_mul y d) = 0 -> x = 0.
Proof.
  intros H Hx Hy E1 E2. apply N.lxor_eq in E1, E2. exact (regular_ok a b c d x y H Hx Hy E1 E2).
Qed.

Section column.
Variables x0 x1 x2 x3 : N.
Hypothesis H0 : x0 < 256.
Hypothesis H1 : x1 < 256.
Hypothesis H2 : x2 < 256.
Hypothesis H3 : x3 < 256.
Let m0 := circ 2 3 1 1 x0 x1 x2 x3.
Let m1 := circ 2 3 1 1 x1 x2 x3 x0.
Let m2 := circ 2 3 1 1 x2 x3 x0 x1.
Let m3 := circ 2 3 1 1 x3 x0 x1 x2.

Lemma single00 : x1 = 0 -> x2 = 0 -> x3 = 0 -> m0 = 0 -> x0 = 0.
Proof. intros A B C E. unfold m0 in E. rewrite A, B, C in E. simplify_circ. exact (cancels_ok 2 x0 ltac:(vm) H0 E). Qed.
Lemma single01 : x1 = 0 -> x2 = 0 -> x3 = 0 -> m1 = 0 -> x0 = 0.
Proof. intros A B C E. unfold m1 in E. rewrite A, B, C in E. simplify_circ. exact (cancels_ok 1 x0 ltac:(vm) H0 E). Qed.
Lemma single02 : x1 = 0 -> x2 = 0 -> x3 = 0 -> m2 = 0 -> x0 = 0.
Proof. intros A B C E. unfold m2 in E. rewrite A, B, C in E. simplify_circ. exact (cancels_ok 1 x0 ltac:(vm) H0 E). Qed.
Lemma single03 : x1 = 0 -> x2 = 0 -> x3 = 0 -> m3 = 0 -> x0 = 0.
Proof. intros A B C E. unfold m3 in E. rewrite A, B, C in E. simplify_circ. exact (cancels_ok 3 x0 ltac:(vm) H0 E). Qed.
Lemma single10 : x0 = 0 -> x2 = 0 -> x3 = 0 -> m0 = 0 -> x1 = 0.
Proof. intros A B C E. unfold m0 in E. rewrite A, B, C in E. simplify_circ. exact (cancels_ok 3 x1 ltac:(vm) H1 E). Qed.
Lemma single11 : x0 = 0 -> x2 = 0 -> x3 = 0 -> m1 = 0 -> x1 = 0.
Proof. intros A B C E. unfold m1 in E. rewrite A, B, C in E. simplify_circ. exact (cancels_ok 2 x1 ltac:(vm) H1 E). Qed.
Lemma single12 : x0 = 0 -> x2 = 0 -> x3 = 0 -> m2 = 0 -> x1 = 0.
Proof. intros A B C E. unfold m2 in E. rewrite A, B, C in E. simplify_circ. exact (cancels_ok 1 x1 ltac:(vm) H1 E). Qed.
Lemma single13 : x0 = 0 -> x2 = 0 -> x3 = 0 -> m3 = 0 -> x1 = 0.
Proof. intros A B C E. unfold m3 in E. rewrite A, B, C in E. simplify_circ. exact (cancels_ok 1 x1 ltac:(vm) H1 E). Qed.
Lemma single20 : x0 = 0 -> x1 = 0 -> x3 = 0 -> m0 = 0 -> x2 = 0.
Proof. intros A B C E. unfold m0 in E. rewrite A, B, C in E. simplify_circ. exact (cancels_ok 1 x2 ltac:(vm) H2 E). Qed.
Lemma single21 : x0 = 0 -> x1 = 0 -> x3 = 0 -> m1 = 0 -> x2 = 0.
Proof. intros A B C E. unfold m1 in E. rewrite A, B, C in E. simplify_circ. exact (cancels_ok 3 x2 ltac:(vm) H2 E). Qed.
Lemma single22 : x0 = 0 -> x1 = 0 -> x3 = 0 -> m2 = 0 -> x2 = 0.
Proof. intros A B C E. unfold m2 in E. rewrite A, B, C in E. simplify_circ. exact (cancels_ok 2 x2 ltac:(vm) H2 E). Qed.
Lemma single23 : x0 = 0 -> x1 = 0 -> x3 = 0 -> m3 = 0 -> x2 = 0.
Proof. intros A B C E. unfold m3 in E. rewrite A, B, C in E. simplify_circ. exact (cancels_ok 1 x2 ltac:(vm) H2 E). Qed.
Lemma single30 : x0 = 0 -> x1 = 0 -> x2 = 0 -> m0 = 0 -> x3 = 0.
Proof. intros A B C E. unfold m0 in E. rewrite A, B, C in E. simplify_circ. exact (cancels_ok 1 x3 ltac:(vm) H3 E). Qed.
Lemma single31 : x0 = 0 -> x1 = 0 -> x2 = 0 -> m1 = 0 -> x3 = 0.
Proof. intros A B C E. unfold m1 in E. rewrite A, B, C in E. simplify_circ. exact (cancels_ok 1 x3 ltac:(vm) H3 E). Qed.
Lemma single32 : x0 = 0 -> x1 = 0 -> x2 = 0 -> m2 = 0 -> x3 = 0.
Proof. intros A B C E. unfold m2 in E. rewrite A, B, C in E. simplify_circ. exact (cancels_ok 3 x3 ltac:(vm) H3 E). Qed.
Lemma single33 : x0 = 0 -> x1 = 0 -> x2 = 0 -> m3 = 0 -> x3 = 0.
Proof. intros A B C E. unfold m3 in E. rewrite A, B, C in E. simplify_circ. exact (cancels_ok 2 x3 ltac:(vm) H3 E). Qed.
Lemma pair0101 : x2 = 0 -> x3 = 0 -> m0 = 0 -> m1 = 0 -> x0 = 0.
Proof.
  intros A B E F. unfold m0 in E. unfold m1 in F. rewrite A, B in E, F. simplify_circ.
  rewrite N.lxor_comm in F.
  exact (pair_zero 2 3 1 2 x0 x1 ltac:(vm) H0 H1 E F).
Qed.
Lemma pair0102 : x2 = 0 -> x3 = 0 -> m0 = 0 -> m2 = 0 -> x0 = 0.
Proof.
  intros A B E F. unfold m0 in E. unfold m2 in F. rewrite A, B in E, F. simplify_circ.
  exact (pair_zero 2 3 1 1 x0 x1 ltac:(vm) H0 H1 E F).
Qed.
Lemma pair0103 : x2 = 0 -> x3 = 0 -> m0 = 0 -> m3 = 0 -> x0 = 0.
Proof.
  intros A B E F. unfold m0 in E. unfold m3 in F. rewrite A, B in E, F. simplify_circ.
  exact (pair_zero 2 3 3 1 x0 x1 ltac:(vm) H0 H1 E F).
Qed.
Lemma pair0112 : x2 = 0 -> x3 = 0 -> m1 = 0 -> m2 = 0 -> x0 = 0.
Proof.
  intros A B E F. unfold m1 in E. unfold m2 in F. rewrite A, B in E, F. simplify_circ.
  rewrite N.lxor_comm in E.
  exact (pair_zero 1 2 1 1 x0 x1 ltac:(vm) H0 H1 E F).
Qed.
Lemma pair0113 : x2 = 0 -> x3 = 0 -> m1 = 0 -> m3 = 0 -> x0 = 0.
Proof.
  intros A B E F. unfold m1 in E. unfold m3 in F. rewrite A, B in E, F. simplify_circ.
  rewrite N.lxor_comm in E.
  exact (pair_zero 1 2 3 1 x0 x1 ltac:(vm) H0 H1 E F).
Qed.
Lemma pair0123 : x2 = 0 -> x3 = 0 -> m2 = 0 -> m3 = 0 -> x0 = 0.
Proof.
  intros A B E F. unfold m2 in E. unfold m3 in F. rewrite A, B in E, F. simplify_circ.
  exact (pair_zero 1 1 3 1 x0 x1 ltac:(vm) H0 H1 E F).
Qed.
Lemma pair0201 : x1 = 0 -> x3 = 0 -> m0 = 0 -> m1 = 0 -> x0 = 0.
Proof.
  intros A B E F. unfold m0 in E. unfold m1 in F. rewrite A, B in E, F. simplify_circ.
  rewrite N.lxor_comm in F.
  exact (pair_zero 2 1 1 3 x0 x2 ltac:(vm) H0 H2 E F).
Qed.
Lemma pair0202 : x1 = 0 -> x3 = 0 -> m0 = 0 -> m2 = 0 -> x0 = 0.
Proof.
  intros A B E F. unfold m0 in E. unfold m2 in F. rewrite A, B in E, F. simplify_circ.
  rewrite N.lxor_comm in F.
  exact (pair_zero 2 1 1 2 x0 x2 ltac:(vm) H0 H2 E F).
Qed.
Lemma pair0203 : x1 = 0 -> x3 = 0 -> m0 = 0 -> m3 = 0 -> x0 = 0.
Proof.
  intros A B E F. unfold m0 in E. unfold m3 in F. rewrite A, B in E, F. simplify_circ.
  exact (pair_zero 2 1 3 1 x0 x2 ltac:(vm) H0 H2 E F).
Qed.
Lemma pair0212 : x1 = 0 -> x3 = 0 -> m1 = 0 -> m2 = 0 -> x0 = 0.
Proof.
  intros A B E F. unfold m1 in E. unfold m2 in F. rewrite A, B in E, F. simplify_circ.
  rewrite N.lxor_comm in E.
  rewrite N.lxor_comm in F.
  exact (pair_zero 1 3 1 2 x0 x2 ltac:(vm) H0 H2 E F).
Qed.
Lemma pair0213 : x1 = 0 -> x3 = 0 -> m1 = 0 -> m3 = 0 -> x0 = 0.
Proof.
  intros A B E F. unfold m1 in E. unfold m3 in F. rewrite A, B in E, F. simplify_circ.
  rewrite N.lxor_comm in E.
  exact (pair_zero 1 3 3 1 x0 x2 ltac:(vm) H0 H2 E F).
Qed.
Lemma pair0223 : x1 = 0 -> x3 = 0 -> m2 = 0 -> m3 = 0 -> x0 = 0.
Proof.
  intros A B E F. unfold m2 in E. unfold m3 in F. rewrite A, B in E, F. simplify_circ.
  rewrite N.lxor_comm in E.
  exact (pair_zero 1 2 3 1 x0 x2 ltac:(vm) H0 H2 E F).
Qed.
Lemma pair0301 : x1 = 0 -> x2 = 0 -> m0 = 0 -> m1 = 0 -> x0 = 0.
Proof.
  intros A B E F. unfold m0 in E. unfold m1 in F. rewrite A, B in E, F. simplify_circ.
  rewrite N.lxor_comm in F.
  exact (pair_zero 2 1 1 1 x0 x3 ltac:(vm) H0 H3 E F).
Qed.
Lemma pair0302 : x1 = 0 -> x2 = 0 -> m0 = 0 -> m2 = 0 -> x0 = 0.
Proof.
  intros A B E F. unfold m0 in E. unfold m2 in F. rewrite A, B in E, F. simplify_circ.
  rewrite N.lxor_comm in F.
  exact (pair_zero 2 1 1 3 x0 x3 ltac:(vm) H0 H3 E F).
Qed.
Lemma pair0303 : x1 = 0 -> x2 = 0 -> m0 = 0 -> m3 = 0 -> x0 = 0.
Proof.
  intros A B E F. unfold m0 in E. unfold m3 in F. rewrite A, B in E, F. simplify_circ.
  rewrite N.lxor_comm in F.
  exact (pair_zero 2 1 3 2 x0 x3 ltac:(vm) H0 H3 E F).
Qed.
Lemma pair0312 : x1 = 0 -> x2 = 0 -> m1 = 0 -> m2 = 0 -> x0 = 0.
Proof.
  intros A B E F. unfold m1 in E. unfold m2 in F. rewrite A, B in E, F. simplify_circ.
  rewrite N.lxor_comm in E.
  rewrite N.lxor_comm in F.
  exact (pair_zero 1 1 1 3 x0 x3 ltac:(vm) H0 H3 E F).
Qed.
Lemma pair0313 : x1 = 0 -> x2 = 0 -> m1 = 0 -> m3 = 0 -> x0 = 0.
Proof.
  intros A B E F. unfold m1 in E. unfold m3 in F. rewrite A, B in E, F. simplify_circ.
  rewrite N.lxor_comm in E.
  rewrite N.lxor_comm in F.
  exact (pair_zero 1 1 3 2 x0 x3 ltac:(vm) H0 H3 E F).
Qed.
Lemma pair0323 : x1 = 0 -> x2 = 0 -> m2 = 0 -> m3 = 0 -> x0 = 0.
Proof.
  intros A B E F. unfold m2 in E. unfold m3 in F. rewrite A, B in E, F. simplify_circ.
  rewrite N.lxor_comm in E.
  rewrite N.lxor_comm in F.
  exact (pair_zero 1 3 3 2 x0 x3 ltac:(vm) H0 H3 E F).
Qed.
Lemma pair1201 : x0 = 0 -> x3 = 0 -> m0 = 0 -> m1 = 0 -> x1 = 0.
Proof.
  intros A B E F. unfold m0 in E. unfold m1 in F. rewrite A, B in E, F. simplify_circ.
  exact (pair_zero 3 1 2 3 x1 x2 ltac:(vm) H1 H2 E F).
Qed.
Lemma pair1202 : x0 = 0 -> x3 = 0 -> m0 = 0 -> m2 = 0 -> x1 = 0.
Proof.
  intros A B E F. unfold m0 in E. unfold m2 in F. rewrite A, B in E, F. simplify_circ.
  rewrite N.lxor_comm in F.
  exact (pair_zero 3 1 1 2 x1 x2 ltac:(vm) H1 H2 E F).
Qed.
Lemma pair1203 : x0 = 0 -> x3 = 0 -> m0 = 0 -> m3 = 0 -> x1 = 0.
Proof.
  intros A B E F. unfold m0 in E. unfold m3 in F. rewrite A, B in E, F. simplify_circ.
  exact (pair_zero 3 1 1 1 x1 x2 ltac:(vm) H1 H2 E F).
Qed.
Lemma pair1212 : x0 = 0 -> x3 = 0 -> m1 = 0 -> m2 = 0 -> x1 = 0.
Proof.
  intros A B E F. unfold m1 in E. unfold m2 in F. rewrite A, B in E, F. simplify_circ.
  rewrite N.lxor_comm in F.
  exact (pair_zero 2 3 1 2 x1 x2 ltac:(vm) H1 H2 E F).
Qed.
Lemma pair1213 : x0 = 0 -> x3 = 0 -> m1 = 0 -> m3 = 0 -> x1 = 0.
Proof.
  intros A B E F. unfold m1 in E. unfold m3 in F. rewrite A, B in E, F. simplify_circ.
  exact (pair_zero 2 3 1 1 x1 x2 ltac:(vm) H1 H2 E F).
Qed.
Lemma pair1223 : x0 = 0 -> x3 = 0 -> m2 = 0 -> m3 = 0 -> x1 = 0.
Proof.
  intros A B E F. unfold m2 in E. unfold m3 in F. rewrite A, B in E, F. simplify_circ.
  rewrite N.lxor_comm in E.
  exact (pair_zero 1 2 1 1 x1 x2 ltac:(vm) H1 H2 E F).
Qed.
Lemma pair1301 : x0 = 0 -> x2 = 0 -> m0 = 0 -> m1 = 0 -> x1 = 0.
Proof.
  intros A B E F. unfold m0 in E. unfold m1 in F. rewrite A, B in E, F. simplify_circ.
  exact (pair_zero 3 1 2 1 x1 x3 ltac:(vm) H1 H3 E F).
Qed.
Lemma pair1302 : x0 = 0 -> x2 = 0 -> m0 = 0 -> m2 = 0 -> x1 = 0.
Proof.
  intros A B E F. unfold m0 in E. unfold m2 in F. rewrite A, B in E, F. simplify_circ.
  rewrite N.lxor_comm in F.
  exact (pair_zero 3 1 1 3 x1 x3 ltac:(vm) H1 H3 E F).
Qed.
Lemma pair1303 : x0 = 0 -> x2 = 0 -> m0 = 0 -> m3 = 0 -> x1 = 0.
Proof.
  intros A B E F. unfold m0 in E. unfold m3 in F. rewrite A, B in E, F. simplify_circ.
  rewrite N.lxor_comm in F.
  exact (pair_zero 3 1 1 2 x1 x3 ltac:(vm) H1 H3 E F).
Qed.
Lemma pair1312 : x0 = 0 -> x2 = 0 -> m1 = 0 -> m2 = 0 -> x1 = 0.
Proof.
  intros A B E F. unfold m1 in E. unfold m2 in F. rewrite A, B in E, F. simplify_circ.
  rewrite N.lxor_comm in F.
  exact (pair_zero 2 1 1 3 x1 x3 ltac:(vm) H1 H3 E F).
Qed.
Lemma pair1313 : x0 = 0 -> x2 = 0 -> m1 = 0 -> m3 = 0 -> x1 = 0.
Proof.
  intros A B E F. unfold m1 in E. unfold m3 in F. rewrite A, B in E, F. simplify_circ.
  rewrite N.lxor_comm in F.
  exact (pair_zero 2 1 1 2 x1 x3 ltac:(vm) H1 H3 E F).
Qed.
Lemma pair1323 : x0 = 0 -> x2 = 0 -> m2 = 0 -> m3 = 0 -> x1 = 0.
Proof.
  intros A B E F. unfold m2 in E. unfold m3 in F. rewrite A, B in E, F. simplify_circ.
  rewrite N.lxor_comm in E.
  rewrite N.lxor_comm in F.
  exact (pair_zero 1 3 1 2 x1 x3 ltac:(vm) H1 H3 E F).
Qed.
Lemma pair2301 : x0 = 0 -> x1 = 0 -> m0 = 0 -> m1 = 0 -> x2 = 0.
Proof.
  intros A B E F. unfold m0 in E. unfold m1 in F. rewrite A, B in E, F. simplify_circ.
  exact (pair_zero 1 1 3 1 x2 x3 ltac:(vm) H2 H3 E F).
Qed.
Lemma pair2302 : x0 = 0 -> x1 = 0 -> m0 = 0 -> m2 = 0 -> x2 = 0.
Proof.
  intros A B E F. unfold m0 in E. unfold m2 in F. rewrite A, B in E, F. simplify_circ.
  exact (pair_zero 1 1 2 3 x2 x3 ltac:(vm) H2 H3 E F).
Qed.
Lemma pair2303 : x0 = 0 -> x1 = 0 -> m0 = 0 -> m3 = 0 -> x2 = 0.
Proof.
  intros A B E F. unfold m0 in E. unfold m3 in F. rewrite A, B in E, F. simplify_circ.
  rewrite N.lxor_comm in F.
  exact (pair_zero 1 1 1 2 x2 x3 ltac:(vm) H2 H3 E F).
Qed.
Lemma pair2312 : x0 = 0 -> x1 = 0 -> m1 = 0 -> m2 = 0 -> x2 = 0.
Proof.
  intros A B E F. unfold m1 in E. unfold m2 in F. rewrite A, B in E, F. simplify_circ.
  exact (pair_zero 3 1 2 3 x2 x3 ltac:(vm) H2 H3 E F).
Qed.
Lemma pair2313 : x0 = 0 -> x1 = 0 -> m1 = 0 -> m3 = 0 -> x2 = 0.
Proof.
  intros A B E F. unfold m1 in E. unfold m3 in F. rewrite A, B in E, F. simplify_circ.
  rewrite N.lxor_comm in F.
  exact (pair_zero 3 1 1 2 x2 x3 ltac:(vm) H2 H3 E F).
Qed.
Lemma pair2323 : x0 = 0 -> x1 = 0 -> m2 = 0 -> m3 = 0 -> x2 = 0.
Proof.
  intros A B E F. unfold m2 in E. unfold m3 in F. rewrite A, B in E, F. simplify_circ.
  rewrite N.lxor_comm in F.
  exact (pair_zero 2 3 1 2 x2 x3 ltac:(vm) H2 H3 E F).
Qed.
Lemma back0 : x0 = circ 14 11 13 9 m0 m1 m2 m3.
Proof. symmetry. apply circ_inverse; [exact inv_mix_mix|assumption..]. Qed.
Lemma back1 : x1 = circ 14 11 13 9 m1 m2 m3 m0.
Proof. symmetry. apply circ_inverse; [exact inv_mix_mix|assumption..]. Qed.
Lemma back2 : x2 = circ 14 11 13 9 m2 m3 m0 m1.
Proof. symmetry. apply circ_inverse; [exact inv_mix_mix|assumption..]. Qed.
Lemma back3 : x3 = circ 14 11 13 9 m3 m0 m1 m2.
Proof. symmetry. apply circ_inverse; [exact inv_mix_mix|assumption..]. Qed.
Lemma only00 : m1 = 0 -> m2 = 0 -> m3 = 0 -> x0 = 0 -> m0 = 0.
Proof. intros A B C E. rewrite back0 in E. rewrite A, B, C in E. simplify_circ. exact (cancels_ok 14 m0 ltac:(vm) (circ_lt _ _ _ _ _ _ _ _) E). Qed.
Lemma only01 : m1 = 0 -> m2 = 0 -> m3 = 0 -> x1 = 0 -> m0 = 0.
Proof. intros A B C E. rewrite back1 in E. rewrite A, B, C in E. simplify_circ. exact (cancels_ok 9 m0 ltac:(vm) (circ_lt _ _ _ _ _ _ _ _) E). Qed.
Lemma only02 : m1 = 0 -> m2 = 0 -> m3 = 0 -> x2 = 0 -> m0 = 0.
Proof. intros A B C E. rewrite back2 in E. rewrite A, B, C in E. simplify_circ. exact (cancels_ok 13 m0 ltac:(vm) (circ_lt _ _ _ _ _ _ _ _) E). Qed.
Lemma only03 : m1 = 0 -> m2 = 0 -> m3 = 0 -> x3 = 0 -> m0 = 0.
Proof. intros A B C E. rewrite back3 in E. rewrite A, B, C in E. simplify_circ. exact (cancels_ok 11 m0 ltac:(vm) (circ_lt _ _ _ _ _ _ _ _) E). Qed.
Lemma only10 : m0 = 0 -> m2 = 0 -> m3 = 0 -> x0 = 0 -> m1 = 0.
Proof. intros A B C E. rewrite back0 in E. rewrite A, B, C in E. simplify_circ. exact (cancels_ok 11 m1 ltac:(vm) (circ_lt _ _ _ _ _ _ _ _) E). Qed.
Lemma only11 : m0 = 0 -> m2 = 0 -> m3 = 0 -> x1 = 0 -> m1 = 0.
Proof. intros A B C E. rewrite back1 in E. rewrite A, B, C in E. simplify_circ. exact (cancels_ok 14 m1 ltac:(vm) (circ_lt _ _ _ _ _ _ _ _) E). Qed.
Lemma only12 : m0 = 0 -> m2 = 0 -> m3 = 0 -> x2 = 0 -> m1 = 0.
Proof. intros A B C E. rewrite back2 in E. rewrite A, B, C in E. simplify_circ. exact (cancels_ok 9 m1 ltac:(vm) (circ_lt _ _ _ _ _ _ _ _) E). Qed.
Lemma only13 : m0 = 0 -> m2 = 0 -> m3 = 0 -> x3 = 0 -> m1 = 0.
Proof. intros A B C E. rewrite back3 in E. rewrite A, B, C in E. simplify_circ. exact (cancels_ok 13 m1 ltac:(vm) (circ_lt _ _ _ _ _ _ _ _) E). Qed.
Lemma only20 : m0 = 0 -> m1 = 0 -> m3 = 0 -> x0 = 0 -> m2 = 0.
Proof. intros A B C E. rewrite back0 in E. rewrite A, B, C in E. simplify_circ. exact (cancels_ok 13 m2 ltac:(vm) (circ_lt _ _ _ _ _ _ _ _) E). Qed.
Lemma only21 : m0 = 0 -> m1 = 0 -> m3 = 0 -> x1 = 0 -> m2 = 0.
Proof. intros A B C E. rewrite back1 in E. rewrite A, B, C in E. simplify_circ. exact (cancels_ok 11 m2 ltac:(vm) (circ_lt _ _ _ _ _ _ _ _) E). Qed.
Lemma only22 : m0 = 0 -> m1 = 0 -> m3 = 0 -> x2 = 0 -> m2 = 0.
Proof. intros A B C E. rewrite back2 in E. rewrite A, B, C in E. simplify_circ. exact (cancels_ok 14 m2 ltac:(vm) (circ_lt _ _ _ _ _ _ _ _) E). Qed.
Lemma only23 : m0 = 0 -> m1 = 0 -> m3 = 0 -> x3 = 0 -> m2 = 0.
Proof. intros A B C E. rewrite back3 in E. rewrite A, B, C in E. simplify_circ. exact (cancels_ok 9 m2 ltac:(vm) (circ_lt _ _ _ _ _ _ _ _) E). Qed.
Lemma only30 : m0 = 0 -> m1 = 0 -> m2 = 0 -> x0 = 0 -> m3 = 0.
Proof. intros A B C E. rewrite back0 in E. rewrite A, B, C in E. simplify_circ. exact (cancels_ok 9 m3 ltac:(vm) (circ_lt _ _ _ _ _ _ _ _) E). Qed.
Lemma only31 : m0 = 0 -> m1 = 0 -> m2 = 0 -> x1 = 0 -> m3 = 0.
Proof. intros A B C E. rewrite back1 in E. rewrite A, B, C in E. simplify_circ. exact (cancels_ok 13 m3 ltac:(vm) (circ_lt _ _ _ _ _ _ _ _) E). Qed.
Lemma only32 : m0 = 0 -> m1 = 0 -> m2 = 0 -> x2 = 0 -> m3 = 0.
Proof. intros A B C E. rewrite back2 in E. rewrite A, B, C in E. simplify_circ. exact (cancels_ok 11 m3 ltac:(vm) (circ_lt _ _ _ _ _ _ _ _) E). Qed.
Lemma only33 : m0 = 0 -> m1 = 0 -> m2 = 0 -> x3 = 0 -> m3 = 0.
Proof. intros A B C E. rewrite back3 in E. rewrite A, B, C in E. simplify_circ. exact (cancels_ok 14 m3 ltac:(vm) (circ_lt _ _ _ _ _ _ _ _) E). Qed.
Lemma zero0 : x0 = 0 -> x1 = 0 -> x2 = 0 -> x3 = 0 -> m0 = 0.
Proof. intros A B C D. unfold m0. rewrite A, B, C, D. apply circ_zero. Qed.
Lemma none0 : m0 = 0 -> m1 = 0 -> m2 = 0 -> m3 = 0 -> x0 = 0.
Proof. intros A B C D. rewrite back0, A, B, C, D. apply circ_zero. Qed.
Lemma zero1 : x0 = 0 -> x1 = 0 -> x2 = 0 -> x3 = 0 -> m1 = 0.
Proof. intros A B C D. unfold m1. rewrite A, B, C, D. apply circ_zero. Qed.
Lemma none1 : m0 = 0 -> m1 = 0 -> m2 = 0 -> m3 = 0 -> x1 = 0.
Proof. intros A B C D. rewrite back1, A, B, C, D. apply circ_zero. Qed.
Lemma zero2 : x0 = 0 -> x1 = 0 -> x2 = 0 -> x3 = 0 -> m2 = 0.
Proof. intros A B C D. unfold m2. rewrite A, B, C, D. apply circ_zero. Qed.
Lemma none2 : m0 = 0 -> m1 = 0 -> m2 = 0 -> m3 = 0 -> x2 = 0.
Proof. intros A B C D. rewrite back2, A, B, C, D. apply circ_zero. Qed.
Lemma zero3 : x0 = 0 -> x1 = 0 -> x2 = 0 -> x3 = 0 -> m3 = 0.
Proof. intros A B C D. unfold m3. rewrite A, B, C, D. apply circ_zero. Qed.
Lemma none3 : m0 = 0 -> m1 = 0 -> m2 = 0 -> m3 = 0 -> x3 = 0.
Proof. intros A B C D. rewrite back3, A, B, C, D. apply circ_zero. Qed.

#[local] Hint Resolve zero0 zero1 zero2 zero3 none0 none1 none2 none3 single00 single01
single02 single03 single10 single11 single12 single13 single20 single21 single22 single23
single30 single31 single32 single33 only00 only01 only02 only03 only10 only11 only12
only13 only20 only21 only22 only23 only30 only31 only32 only33 pair0101 pair0102 pair0103
pair0112 pair0113 pair0123 pair0201 pair0202 pair0203 pair0212 pair0213 pair0223 pair0301
pair0302 pair0303 pair0312 pair0313 pair0323 pair1201 pair1202 pair1203 pair1212 pair1213
pair1223 pair1301 pair1302 pair1303 pair1312 pair1313 pair1323 pair2301 pair2302 pair2303
pair2312 pair2313 pair2323 : column.

Lemma column_branch : branch (w4 x0 x1 x2 x3) (w4 m0 m1 m2 m3).
Proof.
  unfold branch, w4, nonzero.
  destruct (N.eqb_spec x0 0) as [X0|X0], (N.eqb_spec x1 0) as [X1|X1],
           (N.eqb_spec x2 0) as [X2|X2], (N.eqb_spec x3 0) as [X3|X3],
           (N.eqb_spec m0 0) as [M0|M0], (N.eqb_spec m1 0) as [M1|M1],
           (N.eqb_spec m2 0) as [M2|M2], (N.eqb_spec m3 0) as [M3|M3];
    cbn [negb weight Nat.add];
    first [ left; split; reflexivity
          | right; split; [|split]; apply Nat.leb_le; reflexivity
          | exfalso; match goal with Z : _ <> 0 |- _ => apply Z; solve [eauto 2 with column nocore] end ].
Qed.
End column.

(** * Patterns of differing bytes *)

Definition pattern : Type := nat -> nat -> bool.
Definition column (A : pattern) (c : nat) : nat :=
  (weight (A 0 c) + weight (A 1 c) + weight (A 2 c) + weight (A 3 c))%nat.
(** The bytes that ShiftRows brings into column [c]. *)
Definition diagonal (A : pattern) (c : nat) : nat :=
  (weight (A 0 c) + weight (A 1 ((c + 1) mod 4)) + weight (A 2 ((c + 2) mod 4)) + weight (A 3 ((c + 3) mod 4)))%nat.
Definition total (A : pattern) : nat := (column A 0 + column A 1 + column A 2 + column A 3)%nat.
Definition step (A B : pattern) : Prop := forall c, (c < 4)%nat -> branch (diagonal A c) (column B c).

Definition some (n : nat) : nat := match n with O => 0 | S _ => 1 end.

Lemma four (P : nat -> Prop) : (forall c, (c < 4)%nat -> P c) -> P 0%nat /\ P 1%nat /\ P 2%nat /\ P 3%nat.
Proof. intros H. repeat split; apply H; lia. Qed.

Lemma total_diagonal A : total A = (diagonal A 0 + diagonal A 1 + diagonal A 2 + diagonal A 3)%nat.
Proof. unfold total, column, diagonal. cbn [Nat.add Nat.modulo Nat.divmod fst snd Nat.sub]. lia. Qed.

Lemma some_le n m : (m <= n)%nat -> (some m <= some n)%nat.
Proof. destruct m, n; cbn; lia. Qed.
Lemma some_weight b : some (weight b) = weight b.
Proof. destruct b; reflexivity. Qed.
Lemma branch_some p q : branch p q -> (5 * some p <= p + q)%nat /\ some p = some q.
Proof. unfold branch. destruct p, q; cbn; lia. Qed.

Definition columns (A : pattern) : nat := (some (column A 0) + some (column A 1) + some (column A 2) + some (column A 3))%nat.
Definition diagonals (A : pattern) : nat := (some (diagonal A 0) + some (diagonal A 1) + some (diagonal A 2) + some (diagonal A 3))%nat.

Lemma two_rounds A B : step A B -> (5 * columns B <= total A + total B)%nat /\ diagonals A = columns B.
Proof.
  intros H. destruct (four _ H) as (H0 & H1 & H2 & H3). rewrite total_diagonal. unfold total, columns, diagonals.
  apply branch_some in H0, H1, H2, H3. lia.
Qed.

Lemma column_in A r c : (r < 4)%nat -> (weight (A r c) <= some (column A c))%nat.
Proof.
  intros Hr. rewrite <- some_weight. apply some_le. unfold column.
  destruct r as [|[|[|[|]]]]; lia.
Qed.
Lemma diagonal_in A r c : (r < 4)%nat -> (weight (A r ((c + r) mod 4)) <= some (diagonal A (c mod 4)))%nat.
Proof.
  intros Hr. rewrite <- some_weight. apply some_le. unfold diagonal.
  rewrite !Nat.add_mod_idemp_l by lia.
  destruct r as [|[|[|[|]]]]; rewrite ?Nat.add_0_r; lia.
Qed.

Lemma spread A B c : step A B -> (c < 4)%nat -> (1 <= diagonal A c)%nat -> (5 <= columns A + diagonals B)%nat.
Proof.
  intros H Hc Hd. specialize (H c Hc). destruct H as [[H _]|(_ & _ & H)]; [lia|].
  assert (HA : (diagonal A c <= columns A)%nat).
  { unfold diagonal, columns.
    pose proof (column_in A 0 c ltac:(lia)). pose proof (column_in A 1 ((c + 1) mod 4) ltac:(lia)).
    pose proof (column_in A 2 ((c + 2) mod 4) ltac:(lia)). pose proof (column_in A 3 ((c + 3) mod 4) ltac:(lia)).
    destruct c as [|[|[|[|]]]]; [..|lia]; cbn [Nat.add Nat.modulo Nat.divmod fst snd Nat.sub] in *; lia. }
  assert (HB : (column B c <= diagonals B)%nat).
  { unfold column, diagonals.
    pose proof (diagonal_in B 0 (c + 4) ltac:(lia)). pose proof (diagonal_in B 1 (c + 3) ltac:(lia)).
    pose proof (diagonal_in B 2 (c + 2) ltac:(lia)). pose proof (diagonal_in B 3 (c + 1) ltac:(lia)).
    destruct c as [|[|[|[|]]]]; [..|lia]; cbn [Nat.add Nat.modulo Nat.divmod fst snd Nat.sub] in *; lia. }
  lia.
Qed.

Lemma four_rounds A B C D : step A B -> step B C -> step C D -> (1 <= total A)%nat ->
  (25 <= total A + total B + total C + total D)%nat.
Proof.
  intros H1 H2 H3 HA. destruct (two_rounds _ _ H1) as [E1 F1]. destruct (two_rounds _ _ H3) as [E3 F3].
  assert (HB : (1 <= total B)%nat).
  { rewrite total_diagonal in HA. destruct (four _ H1) as (B0 & B1 & B2 & B3). unfold total, branch in *. lia. }
  assert (Hc : exists c, (c < 4)%nat /\ (1 <= diagonal B c)%nat).
  { rewrite total_diagonal in HB.
    destruct (diagonal B 0) eqn:D0; [|exists 0%nat; lia]. destruct (diagonal B 1) eqn:D1; [|exists 1%nat; lia].
    destruct (diagonal B 2) eqn:D2; [|exists 2%nat; lia]. exists 3%nat. lia. }
  destruct Hc as (c & Hc & Hd). pose proof (spread B C c H2 Hc Hd). lia.
Qed.

(** One byte, four bytes of a column, sixteen bytes. *)
Lemma column_le A c : (column A c <= 4)%nat.
Proof. unfold column, weight. destruct (A 0%nat c), (A 1%nat c), (A 2%nat c), (A 3%nat c); lia. Qed.

Lemma one_spreads A B C : step A B -> step B C -> total A = 1%nat -> total B = 4%nat /\ total C = 16%nat.
Proof.
  intros H1 H2 HA. rewrite total_diagonal in HA. destruct (four _ H1) as (B0 & B1 & B2 & B3).
  pose proof (column_le B 0). pose proof (column_le B 1). pose proof (column_le B 2). pose proof (column_le B 3).
  assert (E : exists c, (c < 4)%nat /\ column B c = 4%nat /\ forall c', (c' < 4)%nat -> c' <> c -> column B c' = 0%nat).
  { unfold branch in *.
    destruct (diagonal A 0) eqn:D0; [destruct (diagonal A 1) eqn:D1; [destruct (diagonal A 2) eqn:D2|]|].
    - exists 3%nat. split; [lia|]. split; [lia|]. intros [|[|[|[|]]]]; lia.
    - exists 2%nat. split; [lia|]. split; [lia|]. intros [|[|[|[|]]]]; lia.
    - exists 1%nat. split; [lia|]. split; [lia|]. intros [|[|[|[|]]]]; lia.
    - exists 0%nat. split; [lia|]. split; [lia|]. intros [|[|[|[|]]]]; lia. }
  destruct E as (c & Hc & E4 & E0). destruct (four _ H2) as (C0 & C1 & C2 & C3).
  pose proof (column_le C 0). pose proof (column_le C 1). pose proof (column_le C 2). pose proof (column_le C 3).
  unfold total. split.
  - destruct c as [|[|[|[|]]]]; [..|lia];
      pose proof (E0 0%nat); pose proof (E0 1%nat); pose proof (E0 2%nat); pose proof (E0 3%nat); lia.
  - assert (D : forall c', (c' < 4)%nat -> diagonal B c' = 1%nat).
    { assert (W : forall r, (r < 4)%nat -> weight (B r c) = 1%nat).
      { unfold column in E4. intros r Hr.
        assert (forall b, (weight b <= 1)%nat) as Wb by (intros []; cbn; lia).
        pose proof (Wb (B 0%nat c)). pose proof (Wb (B 1%nat c)). pose proof (Wb (B 2%nat c)). pose proof (Wb (B 3%nat c)).
        destruct r as [|[|[|[|]]]]; lia. }
      assert (Z : forall r c', (r < 4)%nat -> (c' < 4)%nat -> c' <> c -> weight (B r c') = 0%nat).
      { intros r c' Hr Hc' Hn. specialize (E0 c' Hc' Hn). unfold column in E0.
        destruct r as [|[|[|[|]]]]; lia. }
      intros c' Hc'. unfold diagonal.
      destruct c as [|[|[|[|]]]]; [..|lia]; (destruct c' as [|[|[|[|]]]]; [..|lia]);
        cbn [Nat.add Nat.modulo Nat.divmod fst snd Nat.sub];
        rewrite ?W by lia; rewrite ?Z by lia; reflexivity. }
    rewrite !D in * by lia. unfold branch in *. lia.
Qed.

(** * Rounds *)

(** The body of the loop of [encrypt], src/aes.rs:364-367. *)
Definition round_body (round_keys : list N) (round : N) (state : Block) : res Block :=
  let* state := sub_bytes enc_lookup_sbox state in
  let* state := enc_shift_rows state in
  let* state := mix_columns enc_mix_column state in
  let* k := slice round_keys (round * NB) ((round + 1) * NB) in
  add_round_key state k.

Definition pat (s s' : state) : pattern := fun r c => nonzero (N.lxor (entry s r c) (entry s' r c)).

Lemma nonzero_lxor x y : nonzero (N.lxor x y) = negb (x =? y).
Proof.
  unfold nonzero. f_equal. destruct (N.eqb_spec x y) as [->|n]; [rewrite N.lxor_nilpotent; reflexivity|].
  apply N.eqb_neq. intros E. apply n, N.lxor_eq, E.
Qed.

Lemma filter_weight {A} (f : A -> bool) x l : length (filter f (x :: l)) = (weight (f x) + length (filter f l))%nat.
Proof. cbn [filter]. destruct (f x); reflexivity. Qed.

Lemma differing_total s s' : differing (cols s) (cols s') = total (pat s s').
Proof.
  unfold differing, cols, total, column, pat. cbn [map concat app combine]. rewrite !nonzero_lxor.
  rewrite !filter_weight. cbn [fst snd filter length]. lia.
Qed.

Lemma square_cols B : octet_square B -> exists s, wf s /\ B = cols s.
Proof.
  intros [Hl Hf]. do 4 (destruct B as [|? B]; [discriminate|]). destruct B; [|discriminate].
  exists (matrix (fun r c => nth r (nth c [l; l0; l1; l2] []) 0)). split.
  - apply matrix_wf. intros r c Hr Hc. apply octets_nth.
    apply (proj1 (Forall_forall _ _) Hf). apply nth_In. exact Hc.
  - unfold cols. cbn [map]. rewrite !entry_matrix by lia. cbn [nth].
    repeat match goal with H : Forall _ (_ :: _) |- _ => apply Forall_cons_iff in H; destruct H as [[? ?] ?] end.
    repeat match goal with H : length ?l = 4%nat |- _ =>
      do 4 (destruct l as [|? l]; [discriminate|]); destruct l; [|discriminate] end.
    reflexivity.
Qed.
Lemma cols_square s : wf s -> octet_square (cols s).
Proof.
  intros [_ H]. split; [reflexivity|]. unfold cols. cbn [map].
  repeat (apply Forall_cons || apply Forall_nil || split); try reflexivity; apply H.
Qed.

Definition plus_key (k : list N) (s : state) : state :=
  matrix (fun r c => N.lxor (entry s r c) (as_u8 (shr (nth c k 0) (24 - 8 * N.of_nat r)))).

Lemma plus_key_wf k s : wf s -> wf (plus_key k s).
Proof.
  intros [_ H]. apply matrix_wf. intros r c _ _. apply lxor_lt256; [apply H|]. unfold as_u8. apply N.mod_lt. discriminate.
Qed.

Lemma plus_key_ok k s : length k = 4%nat -> add_round_key (cols s) k = Ret (cols (plus_key k s)).
Proof.
  intros Hk. do 4 (destruct k as [|? k]; [discriminate|]). destruct k; [|discriminate].
  unfold cols, plus_key. cbn [map]. rewrite !entry_matrix by lia. cbn [add_round_key add_round_key_col bind nth].
  rewrite !land_255. cbn [N.of_nat N.mul N.sub Pos.of_succ_nat Pos.succ Pos.mul Pos.sub_mask].
  assert (Hs : forall n, shr n 0 = n) by (intros; apply N.shiftr_0_r).
  change (24 - 8 * 0) with 24. change (24 - 8 * 1) with 16. change (24 - 8 * 2) with 8. change (24 - 8 * 3) with 0.
  rewrite ?Hs. reflexivity.
Qed.

Lemma slice_four {A} (w : list A) r k : slice w (r * NB) ((r + 1) * NB) = Ret k -> length k = 4%nat.
Proof.
  unfold slice, NB. intros E.
  destruct ((r * 4 <=? (r + 1) * 4) && ((r + 1) * 4 <=? len w)) eqn:C; [|discriminate].
  injection E as <-. apply andb_true_iff in C. destruct C as [_ C]. apply N.leb_le in C. unfold len in C.
  rewrite firstn_length, skipn_length. lia.
Qed.

(** What a round does to a state, when its key is there. *)
Lemma round_body_ok w r s B : wf s -> round_body w r (cols s) = Ret B ->
  exists k, slice w (r * NB) ((r + 1) * NB) = Ret k /\ B = cols (plus_key k (MixColumns (ShiftRows (SubBytes s)))).
Proof.
  intros Hs. unfold round_body.
  rewrite sub_bytes_ok by exact Hs. cbn [bind]. rewrite shift_rows_ok. cbn [bind].
  rewrite mix_columns_ok by apply ShiftRows_wf, SubBytes_wf. cbn [bind].
  destruct (slice w (r * NB) ((r + 1) * NB)) as [k| |] eqn:E; try discriminate. cbn [bind].
  rewrite plus_key_ok by exact (slice_four w r k E). intros H. injection H as <-. exists k. split; reflexivity.
Qed.

Lemma circ_lxor k0 k1 k2 k3 a b c d a' b' c' d' :
  circ k0 k1 k2 k3 (N.lxor a a') (N.lxor b b') (N.lxor c c') (N.lxor d d') =
  N.lxor (circ k0 k1 k2 k3 a b c d) (circ k0 k1 k2 k3 a' b' c' d').
Proof.
  unfold circ. rewrite !gf_mul_lxor.
  generalize (gf_mul a k0) (gf_mul b k1) (gf_mul c k2) (gf_mul d k3) (gf_mul a' k0) (gf_mul b' k1) (gf_mul c' k2) (gf_mul d' k3).
  intros. apply N.bits_inj. intros k. rewrite !N.lxor_spec. Btauto.btauto.
Qed.

Lemma pat_plus_key k s s' r c : (r < 4)%nat -> (c < 4)%nat -> pat (plus_key k s) (plus_key k s') r c = pat s s' r c.
Proof.
  intros Hr Hc. unfold pat, plus_key. rewrite !entry_matrix by assumption. f_equal.
  generalize (entry s r c) (entry s' r c) (as_u8 (shr (nth c k 0) (24 - 8 * N.of_nat r))). intros x y z.
  apply N.bits_inj. intros i. rewrite !N.lxor_spec. Btauto.btauto.
Qed.
Lemma pat_shift_sub s s' r c : wf s -> wf s' -> (r < 4)%nat -> (c < 4)%nat ->
  pat (ShiftRows (SubBytes s)) (ShiftRows (SubBytes s')) r c = pat s s' r ((c + r) mod 4)%nat.
Proof.
  intros [_ Hs] [_ Hs'] Hr Hc. unfold pat, ShiftRows. rewrite !entry_matrix by assumption. unfold SubBytes.
  rewrite !entry_matrix by (assumption || apply Nat.mod_upper_bound; lia). rewrite !nonzero_lxor. f_equal.
  destruct (N.eqb_spec (entry s r ((c + r) mod 4)%nat) (entry s' r ((c + r) mod 4)%nat)) as [->|n]; [apply N.eqb_refl|].
  apply N.eqb_neq. intros E. apply n. apply SubByte_inj; [apply Hs|apply Hs'|exact E].
Qed.

Lemma step_round k s s' : wf s -> wf s' ->
  step (pat s s') (pat (plus_key k (MixColumns (ShiftRows (SubBytes s)))) (plus_key k (MixColumns (ShiftRows (SubBytes s'))))).
Proof.
  intros Hs Hs' c Hc. set (u := ShiftRows (SubBytes s)). set (u' := ShiftRows (SubBytes s')).
  assert (Hu : wf u) by apply ShiftRows_wf, SubBytes_wf. assert (Hu' : wf u') by apply ShiftRows_wf, SubBytes_wf.
  assert (Ed : diagonal (pat s s') c = column (pat u u') c).
  { unfold diagonal, column, u, u'. rewrite !pat_shift_sub by (assumption || lia).
    rewrite Nat.add_0_r, (Nat.mod_small c 4) by exact Hc. reflexivity. }
  rewrite Ed. unfold column at 2. rewrite !pat_plus_key by (assumption || lia). unfold pat at 2 3 4 5.
  unfold MixColumns. rewrite !mix_entry by (assumption || lia || in_mult).
  cbn [Nat.add Nat.modulo Nat.divmod fst snd Nat.sub]. rewrite <- !circ_lxor.
  unfold column, pat. apply (column_branch (N.lxor (entry u 0 c) (entry u' 0 c)) (N.lxor (entry u 1 c) (entry u' 1 c))
    (N.lxor (entry u 2 c) (entry u' 2 c)) (N.lxor (entry u 3 c) (entry u' 3 c)));
    apply lxor_lt256; apply Hu || apply Hu'.
Qed.

Lemma one_round w r S S' B B' : octet_square S -> octet_square S' ->
  round_body w r S = Ret B -> round_body w r S' = Ret B' ->
  exists s s' t t', wf s /\ wf s' /\ wf t /\ wf t' /\ S = cols s /\ S' = cols s' /\ B = cols t /\ B' = cols t' /\
    step (pat s s') (pat t t').
Proof.
  intros H H' E E'. destruct (square_cols S H) as (s & Hs & ->). destruct (square_cols S' H') as (s' & Hs' & ->).
  destruct (round_body_ok w r s B Hs E) as (k & Ek & ->). destruct (round_body_ok w r s' B' Hs' E') as (k' & Ek' & ->).
  rewrite Ek in Ek'. injection Ek' as <-.
  exists s, s', (plus_key k (MixColumns (ShiftRows (SubBytes s)))), (plus_key k (MixColumns (ShiftRows (SubBytes s')))).
  split; [exact Hs|]. split; [exact Hs'|]. split; [apply plus_key_wf, mix_with_wf|]. split; [apply plus_key_wf, mix_with_wf|].
  do 4 (split; [reflexivity|]). apply step_round; assumption.
Qed.

Lemma cols_inj s t : wf s -> wf t -> cols s = cols t -> s = t.
Proof.
  intros Hs Ht E. apply wf_eq; [exact Hs|exact Ht|]. intros r c Hr Hc.
  assert (R : forall u, entry u r c = nth r (nth c (cols u) []) 0).
  { intros u. unfold cols. destruct c as [|[|[|[|]]]]; [..|lia]; (destruct r as [|[|[|[|]]]]; [..|lia]); reflexivity. }
  rewrite !R, E. reflexivity.
Qed.

(** * Rounds of the decryption *)

(** The body of the loop of [decrypt], src/aes.rs:392-395. *)
Definition unround_body (round_keys : list N) (round : N) (state : Block) : res Block :=
  let* state := dec_shift_rows state in
  let* state := sub_bytes dec_lookup_sbox state in
  let* k := slice round_keys (round * NB) ((round + 1) * NB) in
  let* state := add_round_key state k in
  mix_columns dec_mix_column state.

(** Seen with the rows in the opposite order, rows move the same way again. *)
Definition reflect (A : pattern) : pattern := fun r c => A ((4 - r) mod 4)%nat c.
Lemma reflect_total A : total (reflect A) = total A.
Proof. unfold total, column, reflect. cbn [Nat.modulo Nat.divmod fst snd Nat.sub]. lia. Qed.

Lemma branch_sym p q : branch p q -> branch q p.
Proof. unfold branch. lia. Qed.

Lemma InvSubByte_inj b c : b < 256 -> c < 256 -> InvSubByte b = InvSubByte c -> b = c.
Proof. intros Hb Hc E. rewrite <- (SubByte_InvSubByte b Hb), <- (SubByte_InvSubByte c Hc), E. reflexivity. Qed.

Lemma pat_unshift_unsub s s' r c : wf s -> wf s' -> (r < 4)%nat -> (c < 4)%nat ->
  pat (InvSubBytes (InvShiftRows s)) (InvSubBytes (InvShiftRows s')) r c = pat s s' r ((c + 4 - r) mod 4)%nat.
Proof.
  intros [_ Hs] [_ Hs'] Hr Hc. unfold pat, InvSubBytes. rewrite !entry_matrix by assumption. unfold InvShiftRows.
  rewrite !entry_matrix by assumption. rewrite !nonzero_lxor. f_equal.
  set (c' := ((c + 4 - r) mod 4)%nat).
  destruct (N.eqb_spec (entry s r c') (entry s' r c')) as [->|n]; [apply N.eqb_refl|].
  apply N.eqb_neq. intros E. apply n. apply InvSubByte_inj; [apply Hs|apply Hs'|exact E].
Qed.

Lemma mix_branch s s' c : wf s -> wf s' -> (c < 4)%nat ->
  branch (column (pat s s') c) (column (pat (MixColumns s) (MixColumns s')) c).
Proof.
  intros Hu Hu' Hc. unfold column at 2. unfold pat at 2 3 4 5.
  unfold MixColumns. rewrite !mix_entry by (assumption || lia || in_mult).
  cbn [Nat.add Nat.modulo Nat.divmod fst snd Nat.sub]. rewrite <- !circ_lxor.
  unfold column, pat. apply (column_branch (N.lxor (entry s 0 c) (entry s' 0 c)) (N.lxor (entry s 1 c) (entry s' 1 c))
    (N.lxor (entry s 2 c) (entry s' 2 c)) (N.lxor (entry s 3 c) (entry s' 3 c)));
    apply lxor_lt256; apply Hu || apply Hu'.
Qed.

Lemma step_unround k s s' : wf s -> wf s' ->
  step (reflect (pat s s'))
    (reflect (pat (InvMixColumns (plus_key k (InvSubBytes (InvShiftRows s))))
                  (InvMixColumns (plus_key k (InvSubBytes (InvShiftRows s')))))).
Proof.
  intros Hs Hs' c Hc. set (u := InvSubBytes (InvShiftRows s)). set (u' := InvSubBytes (InvShiftRows s')).
  assert (Hu : wf u) by apply InvSubBytes_wf, InvShiftRows_wf, Hs.
  assert (Hu' : wf u') by apply InvSubBytes_wf, InvShiftRows_wf, Hs'.
  assert (Ed : diagonal (reflect (pat s s')) c = column (pat (plus_key k u) (plus_key k u')) c).
  { unfold column. rewrite !pat_plus_key by (assumption || lia). unfold u, u'.
    rewrite !pat_unshift_unsub by (assumption || lia). unfold diagonal, reflect.
    destruct c as [|[|[|[|]]]]; [..|lia]; cbn [Nat.add Nat.modulo Nat.divmod fst snd Nat.sub]; lia. }
  rewrite Ed. set (v := InvMixColumns (plus_key k u)). set (v' := InvMixColumns (plus_key k u')).
  assert (Ev : column (reflect (pat v v')) c = column (pat v v') c).
  { unfold column, reflect. cbn [Nat.modulo Nat.divmod fst snd Nat.sub]. lia. }
  rewrite Ev. apply branch_sym.
  rewrite <- (MixColumns_InvMixColumns (plus_key k u)) by apply plus_key_wf, Hu.
  rewrite <- (MixColumns_InvMixColumns (plus_key k u')) by apply plus_key_wf, Hu'.
  fold v v'. apply mix_branch; [apply mix_with_wf|apply mix_with_wf|exact Hc].
Qed.

Lemma unround_body_ok w r s B : wf s -> unround_body w r (cols s) = Ret B ->
  exists k, slice w (r * NB) ((r + 1) * NB) = Ret k /\ B = cols (InvMixColumns (plus_key k (InvSubBytes (InvShiftRows s)))).
Proof.
  intros Hs. unfold unround_body. rewrite inv_shift_rows_ok. cbn [bind].
  rewrite inv_sub_bytes_ok by apply InvShiftRows_wf, Hs. cbn [bind].
  destruct (slice w (r * NB) ((r + 1) * NB)) as [k| |] eqn:E; try discriminate. cbn [bind].
  rewrite plus_key_ok by exact (slice_four w r k E). cbn [bind].
  rewrite inv_mix_columns_ok by apply plus_key_wf, InvSubBytes_wf, InvShiftRows_wf, Hs.
  intros H. injection H as <-. exists k. split; reflexivity.
Qed.

Lemma one_unround w r S S' B B' : octet_square S -> octet_square S' ->
  unround_body w r S = Ret B -> unround_body w r S' = Ret B' ->
  exists s s' t t', wf s /\ wf s' /\ wf t /\ wf t' /\ S = cols s /\ S' = cols s' /\ B = cols t /\ B' = cols t' /\
    step (reflect (pat s s')) (reflect (pat t t')).
Proof.
  intros H H' E E'. destruct (square_cols S H) as (s & Hs & ->). destruct (square_cols S' H') as (s' & Hs' & ->).
  destruct (unround_body_ok w r s B Hs E) as (k & Ek & ->). destruct (unround_body_ok w r s' B' Hs' E') as (k' & Ek' & ->).
  rewrite Ek in Ek'. injection Ek' as <-.
  exists s, s', (InvMixColumns (plus_key k (InvSubBytes (InvShiftRows s)))), (InvMixColumns (plus_key k (InvSubBytes (InvShiftRows s')))).
  split; [exact Hs|]. split; [exact Hs'|]. split; [apply mix_with_wf|]. split; [apply mix_with_wf|].
  do 4 (split; [reflexivity|]). apply step_unround; assumption.
Qed.
