(** Arithmetic in GF(2^8): the model's [mul] against the specification's
    [gf_mul], linearity, and the inverse pair of column mixings. *)
From Coq Require Import ZArith NArith List Arith Lia Bool Btauto ZifyBool ZifyNat ZifyN.
From Verif Require Import Rust.
From Verif.Spec Require Import Octets Aes.
From Verif.Model Require Import Aes.
From Verif.Proofs Require Import Base Bits.
Import ListNotations.
Local Open Scope N_scope.
Ltac Zify.zify_post_hook ::= Z.div_mod_to_equations.

(** * Reduction modulo m(x) *)

Definition mod_step (acc : N) (i : nat) : N :=
  if N.testbit acc (N.of_nat (8 + i)) then N.lxor acc (N.shiftl m_poly (N.of_nat i)) else acc.
(** Long division starting at power [8 + n]. *)
Definition pm (n : nat) (a : N) : N := fold_left mod_step (rev (seq 0 n)) a.

Lemma poly_mod_pm a : poly_mod a = pm (N.size_nat a - 8) a.
Proof. reflexivity. Qed.

Lemma pm_S n a : pm (S n) a = pm n (mod_step a n).
Proof. unfold pm. rewrite seq_S, rev_app_distr. reflexivity. Qed.

Lemma size_nat_testbit a i : (N.size_nat a <= i)%nat -> N.testbit a (N.of_nat i) = false.
Proof. intros H. rewrite Ntestbit_Nbit. apply Nbit_Nsize. assumption. Qed.

Lemma size_nat_lt a : a < 2 ^ N.of_nat (N.size_nat a).
Proof.
  apply lt_pow2_testbit. intros m Hm. rewrite <- (N2Nat.id m). apply size_nat_testbit. lia.
Qed.

Lemma mod_step_lxor a b i : mod_step (N.lxor a b) i = N.lxor (mod_step a i) (mod_step b i).
Proof.
  unfold mod_step. rewrite N.lxor_spec.
  generalize (N.shiftl m_poly (N.of_nat i)) as c. intros c.
  destruct (N.testbit a _), (N.testbit b _); cbn [xorb];
    apply N.bits_inj; intros k; rewrite !N.lxor_spec; btauto.
Qed.
Lemma pm_lxor n : forall a b, pm n (N.lxor a b) = N.lxor (pm n a) (pm n b).
Proof.
  induction n as [|n IH]; intros a b; [reflexivity|].
  rewrite !pm_S, mod_step_lxor. apply IH.
Qed.

Lemma pm_pad n m a : (m <= n)%nat -> a < 2 ^ N.of_nat (8 + m) -> pm n a = pm m a.
Proof.
  intros Hmn Ha. induction n as [|n IH]; [replace m with 0%nat by lia; reflexivity|].
  destruct (Nat.eq_dec m (S n)) as [->|Hne]; [reflexivity|].
  rewrite pm_S. rewrite <- IH by lia. f_equal. unfold mod_step.
  rewrite (proj1 (lt_pow2_testbit _ _) Ha) by lia. reflexivity.
Qed.

Lemma poly_mod_bound n a : a < 2 ^ N.of_nat (8 + n) -> poly_mod a = pm n a.
Proof.
  intros Ha. rewrite poly_mod_pm.
  destruct (Nat.le_ge_cases n (N.size_nat a - 8)) as [H|H].
  - apply pm_pad; assumption.
  - symmetry. apply pm_pad; [assumption|].
    eapply N.lt_le_trans; [apply size_nat_lt|]. apply N.pow_le_mono_r; lia.
Qed.

Lemma common_bound a b : exists n, a < 2 ^ N.of_nat (8 + n) /\ b < 2 ^ N.of_nat (8 + n).
Proof.
  exists (N.size_nat a + N.size_nat b)%nat.
  split; (eapply N.lt_le_trans; [apply size_nat_lt|]; apply N.pow_le_mono_r; lia).
Qed.

Lemma poly_mod_lxor a b : poly_mod (N.lxor a b) = N.lxor (poly_mod a) (poly_mod b).
Proof.
  destruct (common_bound a b) as (n & Ha & Hb).
  rewrite (poly_mod_bound n) by (apply lxor_lt; assumption).
  rewrite (poly_mod_bound n a), (poly_mod_bound n b) by assumption. apply pm_lxor.
Qed.

Lemma poly_mod_small a : a < 256 -> poly_mod a = a.
Proof. intros Ha. rewrite (poly_mod_bound 0) by exact Ha. reflexivity. Qed.

Lemma mod_step_lt a i : a < 2 ^ N.of_nat (8 + S i) -> mod_step a i < 2 ^ N.of_nat (8 + i).
Proof.
  intros Ha. apply lt_pow2_testbit. intros m Hm.
  unfold mod_step. destruct (N.eq_dec m (N.of_nat (8 + i))) as [->|Hne].
  - destruct (N.testbit a (N.of_nat (8 + i))) eqn:E; [|assumption].
    rewrite N.lxor_spec, E, N.shiftl_spec_high' by lia.
    replace (N.of_nat (8 + i) - N.of_nat i) with 8 by lia. reflexivity.
  - assert (Hm' : N.testbit a m = false) by (apply (proj1 (lt_pow2_testbit _ _) Ha); lia).
    destruct (N.testbit a (N.of_nat (8 + i))); [|assumption].
    rewrite N.lxor_spec, Hm', N.shiftl_spec_high' by lia.
    rewrite (proj1 (lt_pow2_testbit m_poly 9)); [reflexivity|vm_compute; reflexivity|lia].
Qed.
Lemma pm_lt n : forall a, a < 2 ^ N.of_nat (8 + n) -> pm n a < 256.
Proof.
  induction n as [|n IH]; intros a Ha; [exact Ha|].
  rewrite pm_S. apply IH. apply mod_step_lt. assumption.
Qed.
Lemma poly_mod_lt a : poly_mod a < 256.
Proof.
  destruct (common_bound a a) as (n & Ha & _).
  rewrite (poly_mod_bound n) by assumption. apply pm_lt. assumption.
Qed.

Lemma mod_step_shift a i : mod_step (N.shiftl a 1) (S i) = N.shiftl (mod_step a i) 1.
Proof.
  unfold mod_step. rewrite N.shiftl_spec_high' by lia.
  replace (N.of_nat (8 + S i) - 1) with (N.of_nat (8 + i)) by lia.
  destruct (N.testbit a (N.of_nat (8 + i))); [|reflexivity].
  rewrite N.shiftl_lxor. f_equal. rewrite N.shiftl_shiftl. f_equal. lia.
Qed.
Lemma pm_shift n : forall a, pm (S n) (N.shiftl a 1) = mod_step (N.shiftl (pm n a) 1) 0.
Proof.
  induction n as [|n IH]; intros a; [reflexivity|].
  rewrite pm_S, mod_step_shift, IH, <- pm_S. reflexivity.
Qed.
Lemma double_step p : p < 256 -> double p = mod_step (N.shiftl p 1) 0.
Proof.
  intros Hp. apply N.eqb_eq.
  apply (octet_check (fun p => double p =? mod_step (N.shiftl p 1) 0)); [|assumption].
  vm_compute. reflexivity.
Qed.
Lemma double_lt p : p < 256 -> double p < 256.
Proof.
  intros Hp. apply N.ltb_lt.
  apply (octet_check (fun p => double p <? 256)); [|assumption].
  vm_compute. reflexivity.
Qed.
Lemma poly_mod_shift1 a : poly_mod (N.shiftl a 1) = double (poly_mod a).
Proof.
  rewrite double_step by apply poly_mod_lt.
  destruct (common_bound a a) as (n & Ha & _).
  rewrite (poly_mod_bound n a) by assumption. rewrite <- pm_shift.
  apply poly_mod_bound. rewrite N.shiftl_mul_pow2.
  replace (N.of_nat (8 + S n)) with (N.of_nat (8 + n) + 1) by lia. rewrite N.pow_add_r.
  apply N.mul_lt_mono_pos_r; [reflexivity|assumption].
Qed.
Lemma poly_mod_shift a i : poly_mod (N.shiftl a (N.of_nat i)) = Nat.iter i double (poly_mod a).
Proof.
  induction i as [|i IH]; [rewrite N.shiftl_0_r; reflexivity|].
  replace (N.of_nat (S i)) with (N.of_nat i + 1) by lia.
  rewrite <- N.shiftl_shiftl, poly_mod_shift1, IH. reflexivity.
Qed.

(** * Multiplication *)

(** Sum of the doublings selected by the bits of [b] listed in [l]. *)
Definition sum_doubles (a b : N) (l : list nat) (acc : N) : N :=
  fold_left (fun acc i => if N.testbit b (N.of_nat i)
                          then N.lxor acc (Nat.iter i double a) else acc) l acc.

Lemma gf_mul_sum a b : gf_mul a b = sum_doubles (poly_mod a) b (seq 0 (N.size_nat b)) 0.
Proof.
  unfold gf_mul, poly_mul, sum_doubles.
  enough (forall l acc,
    poly_mod (fold_left (fun acc i => if N.testbit b (N.of_nat i)
                then N.lxor acc (N.shiftl a (N.of_nat i)) else acc) l acc) =
    fold_left (fun acc i => if N.testbit b (N.of_nat i)
                then N.lxor acc (Nat.iter i double (poly_mod a)) else acc) l (poly_mod acc)) as H
    by exact (H _ 0).
  induction l as [|i l IH]; intros acc; [reflexivity|]. cbn [fold_left].
  rewrite IH. f_equal. destruct (N.testbit b (N.of_nat i)); [|reflexivity].
  rewrite poly_mod_lxor, poly_mod_shift. reflexivity.
Qed.

Lemma sum_doubles_acc a b l acc : sum_doubles a b l acc = N.lxor acc (sum_doubles a b l 0).
Proof.
  unfold sum_doubles. revert acc. induction l as [|i l IH]; intros acc.
  - cbn. rewrite N.lxor_0_r. reflexivity.
  - cbn [fold_left]. rewrite IH.
    rewrite (IH (if N.testbit b (N.of_nat i) then N.lxor 0 (Nat.iter i double a) else 0)).
    destruct (N.testbit b (N.of_nat i)).
    + rewrite N.lxor_0_l, <- N.lxor_assoc. reflexivity.
    + rewrite N.lxor_0_l. reflexivity.
Qed.

Lemma iter_comm {A} (f : A -> A) n x : Nat.iter n f (f x) = f (Nat.iter n f x).
Proof. induction n as [|n IH]; cbn; [reflexivity|]. f_equal. exact IH. Qed.

Lemma sum_doubles_shift a b n acc :
  sum_doubles a b (seq 1 n) acc = sum_doubles (double a) (shr b 1) (seq 0 n) acc.
Proof.
  rewrite <- seq_shift. unfold sum_doubles. revert acc.
  generalize (seq 0 n) as l. induction l as [|i l IH]; intros acc; [reflexivity|].
  cbn [map fold_left]. rewrite IH. f_equal.
  unfold shr. rewrite N.shiftr_spec'. replace (N.of_nat i + 1) with (N.of_nat (S i)) by lia.
  destruct (N.testbit b (N.of_nat (S i))); [|reflexivity].
  f_equal. cbn [Nat.iter]. symmetry. apply iter_comm.
Qed.

Lemma land_1_testbit b : negb (N.land b 1 =? 0) = N.testbit b 0.
Proof.
  change 1 with (N.ones 1). rewrite N.land_ones. change (2 ^ 1) with 2.
  rewrite <- N.bit0_mod. destruct (N.testbit b 0); reflexivity.
Qed.

Lemma size_nat_shr b n : (N.size_nat b <= S n)%nat -> (N.size_nat (shr b 1) <= n)%nat.
Proof. unfold shr. destruct b as [|[p|p|]]; cbn; lia. Qed.

Lemma mul_loop n : forall b r p, (N.size_nat b <= n)%nat ->
  while_loop n (fun '(by_, _, _) => negb (by_ =? 0))
    (fun '(by_, r, power) =>
       let r := if negb (N.land by_ 1 =? 0) then N.lxor r power else r in
       Ret (shr by_ 1, r, double power)) (b, r, p)
  = Ret (0, sum_doubles p b (seq 0 (N.size_nat b)) r, Nat.iter (N.size_nat b) double p).
Proof.
  induction n as [|n IH]; intros b r p Hb.
  - destruct b as [|q]; [reflexivity|]. destruct q; cbn in Hb; lia.
  - cbn [while_loop]. destruct (N.eqb_spec b 0) as [->|Hb0]; [reflexivity|].
    cbn [negb bind]. rewrite IH by (apply size_nat_shr; assumption).
    assert (E : N.size_nat b = S (N.size_nat (shr b 1))).
    { unfold shr. destruct b as [|[q|q|]]; [contradiction|reflexivity..]. }
    rewrite E. cbn [seq]. f_equal. f_equal.
    + f_equal. rewrite land_1_testbit.
      change (0%nat :: seq 1 (N.size_nat (shr b 1))) with ([0%nat] ++ seq 1 (N.size_nat (shr b 1))).
      unfold sum_doubles at 2. rewrite fold_left_app.
      change (sum_doubles (double p) (shr b 1) (seq 0 (N.size_nat (shr b 1))) (if N.testbit b 0 then N.lxor r p else r) =
              sum_doubles p b (seq 1 (N.size_nat (shr b 1))) (if N.testbit b 0 then N.lxor r p else r)).
      symmetry. apply sum_doubles_shift.
    + cbn [Nat.iter]. apply iter_comm.
Qed.

Lemma mul_ok b k : b < 256 -> mul b k = Ret (gf_mul b k).
Proof.
  intros Hb. unfold mul. rewrite mul_loop by lia. cbn [bind].
  rewrite gf_mul_sum, poly_mod_small by assumption. reflexivity.
Qed.

Lemma gf_mul_lt a b : gf_mul a b < 256.
Proof. apply poly_mod_lt. Qed.

(** Linearity in the first argument. *)
Lemma poly_mul_lxor a a' b : poly_mul (N.lxor a a') b = N.lxor (poly_mul a b) (poly_mul a' b).
Proof.
  unfold poly_mul.
  enough (forall l x y,
    fold_left (fun acc i => if N.testbit b (N.of_nat i)
      then N.lxor acc (N.shiftl (N.lxor a a') (N.of_nat i)) else acc) l (N.lxor x y) =
    N.lxor (fold_left (fun acc i => if N.testbit b (N.of_nat i)
              then N.lxor acc (N.shiftl a (N.of_nat i)) else acc) l x)
           (fold_left (fun acc i => if N.testbit b (N.of_nat i)
              then N.lxor acc (N.shiftl a' (N.of_nat i)) else acc) l y)) as H
    by exact (H _ 0 0).
  induction l as [|i l IH]; intros x y; [reflexivity|]. cbn [fold_left].
  rewrite <- IH. f_equal. destruct (N.testbit b (N.of_nat i)); [|reflexivity].
  rewrite N.shiftl_lxor. apply N.bits_inj. intros k. rewrite !N.lxor_spec. btauto.
Qed.
Lemma gf_mul_lxor a a' b : gf_mul (N.lxor a a') b = N.lxor (gf_mul a b) (gf_mul a' b).
Proof. unfold gf_mul. rewrite poly_mul_lxor. apply poly_mod_lxor. Qed.

(** The multipliers of the column mixings commute (exhaustive check). *)
Definition multipliers : list N := [1; 2; 3; 9; 0x0b; 0x0d; 0x0e].
Lemma gf_mul_comm k x : In k multipliers -> x < 256 -> gf_mul k x = gf_mul x k.
Proof.
  intros Hk Hx. apply N.eqb_eq.
  assert (H : forallb (fun x => forallb (fun k => gf_mul k x =? gf_mul x k) multipliers) all_octets = true)
    by (vm_compute; reflexivity).
  pose proof (octet_check _ H x Hx) as H'. rewrite forallb_forall in H'. apply H'. assumption.
Qed.
Lemma gf_mul_1 x : x < 256 -> gf_mul x 1 = x.
Proof.
  intros Hx. apply N.eqb_eq.
  apply (octet_check (fun x => gf_mul x 1 =? x)); [|assumption]. vm_compute. reflexivity.
Qed.

(** * Circulant matrices *)

(** One entry of a circulant product. *)
Definition circ (k0 k1 k2 k3 a b c d : N) : N :=
  N.lxor (gf_mul a k0) (N.lxor (gf_mul b k1) (N.lxor (gf_mul c k2) (gf_mul d k3))).

Lemma circ_lt k0 k1 k2 k3 a b c d : circ k0 k1 k2 k3 a b c d < 256.
Proof. unfold circ. repeat apply lxor_lt256; apply gf_mul_lt. Qed.

Lemma gf_mul_circ k0 k1 k2 k3 a b c d k :
  gf_mul (circ k0 k1 k2 k3 a b c d) k =
  N.lxor (gf_mul (gf_mul a k0) k) (N.lxor (gf_mul (gf_mul b k1) k)
    (N.lxor (gf_mul (gf_mul c k2) k) (gf_mul (gf_mul d k3) k))).
Proof. unfold circ. rewrite !gf_mul_lxor. reflexivity. Qed.

Lemma lxor_transpose x0 x1 x2 x3 y0 y1 y2 y3 z0 z1 z2 z3 w0 w1 w2 w3 :
  N.lxor (N.lxor x0 (N.lxor x1 (N.lxor x2 x3))) (N.lxor (N.lxor y0 (N.lxor y1 (N.lxor y2 y3)))
    (N.lxor (N.lxor z0 (N.lxor z1 (N.lxor z2 z3))) (N.lxor w0 (N.lxor w1 (N.lxor w2 w3))))) =
  N.lxor (N.lxor x0 (N.lxor y0 (N.lxor z0 w0))) (N.lxor (N.lxor x1 (N.lxor y1 (N.lxor z1 w1)))
    (N.lxor (N.lxor x2 (N.lxor y2 (N.lxor z2 w2))) (N.lxor x3 (N.lxor y3 (N.lxor z3 w3))))).
Proof. apply N.bits_inj. intros k. rewrite !N.lxor_spec. btauto. Qed.

(** Coefficient of one entry in the product of two circulants. *)
Definition circ_coef (j0 j1 j2 j3 k0 k1 k2 k3 x : N) : N :=
  N.lxor (gf_mul (gf_mul x k0) j0) (N.lxor (gf_mul (gf_mul x k1) j1)
    (N.lxor (gf_mul (gf_mul x k2) j2) (gf_mul (gf_mul x k3) j3))).

Definition inverse_rows (j0 j1 j2 j3 k0 k1 k2 k3 : N) : bool :=
  forallb (fun x =>
    (circ_coef j0 j1 j2 j3 k0 k3 k2 k1 x =? x)
    && (circ_coef j0 j1 j2 j3 k1 k0 k3 k2 x =? 0)
    && (circ_coef j0 j1 j2 j3 k2 k1 k0 k3 x =? 0)
    && (circ_coef j0 j1 j2 j3 k3 k2 k1 k0 x =? 0))%bool all_octets.

(** If the coefficients are those of the identity, the entries come back. *)
Lemma circ_inverse j0 j1 j2 j3 k0 k1 k2 k3 a b c d :
  inverse_rows j0 j1 j2 j3 k0 k1 k2 k3 = true ->
  a < 256 -> b < 256 -> c < 256 -> d < 256 ->
  circ j0 j1 j2 j3
    (circ k0 k1 k2 k3 a b c d) (circ k0 k1 k2 k3 b c d a)
    (circ k0 k1 k2 k3 c d a b) (circ k0 k1 k2 k3 d a b c) = a.
Proof.
  intros H Ha Hb Hc Hd. unfold circ at 1. rewrite !gf_mul_circ.
  pose proof (octet_check _ H) as Hx. clear H. cbv beta in Hx.
  assert (H : forall x, x < 256 ->
    circ_coef j0 j1 j2 j3 k0 k3 k2 k1 x = x /\ circ_coef j0 j1 j2 j3 k1 k0 k3 k2 x = 0 /\
    circ_coef j0 j1 j2 j3 k2 k1 k0 k3 x = 0 /\ circ_coef j0 j1 j2 j3 k3 k2 k1 k0 x = 0).
  { intros x Hlt. specialize (Hx x Hlt). rewrite !andb_true_iff, !N.eqb_eq in Hx. tauto. }
  clear Hx.
  transitivity (N.lxor (circ_coef j0 j1 j2 j3 k0 k3 k2 k1 a)
    (N.lxor (circ_coef j0 j1 j2 j3 k1 k0 k3 k2 b)
    (N.lxor (circ_coef j0 j1 j2 j3 k2 k1 k0 k3 c)
            (circ_coef j0 j1 j2 j3 k3 k2 k1 k0 d)))).
  - unfold circ_coef. apply N.bits_inj. intros k. rewrite !N.lxor_spec. btauto.
  - destruct (H a Ha) as (-> & _). destruct (H b Hb) as (_ & -> & _).
    destruct (H c Hc) as (_ & _ & -> & _). destruct (H d Hd) as (_ & _ & _ & ->).
    rewrite !N.lxor_0_r. reflexivity.
Qed.

Lemma inv_mix_mix : inverse_rows 0x0e 0x0b 0x0d 0x09 2 3 1 1 = true.
Proof. vm_compute. reflexivity. Qed.
Lemma mix_inv_mix : inverse_rows 2 3 1 1 0x0e 0x0b 0x0d 0x09 = true.
Proof. vm_compute. reflexivity. Qed.

(** * [poly_mod] is the remainder *)

Lemma poly_mul_shiftl a b i : poly_mul (N.shiftl a i) b = N.shiftl (poly_mul a b) i.
Proof.
  unfold poly_mul.
  enough (forall l x,
    fold_left (fun acc j => if N.testbit b (N.of_nat j)
      then N.lxor acc (N.shiftl (N.shiftl a i) (N.of_nat j)) else acc) l (N.shiftl x i) =
    N.shiftl (fold_left (fun acc j => if N.testbit b (N.of_nat j)
      then N.lxor acc (N.shiftl a (N.of_nat j)) else acc) l x) i) as H.
  { rewrite <- H. rewrite N.shiftl_0_l. reflexivity. }
  induction l as [|j l IH]; intros x; [reflexivity|]. cbn [fold_left]. rewrite <- IH. f_equal.
  destruct (N.testbit b (N.of_nat j)); [|reflexivity].
  rewrite N.shiftl_lxor, !N.shiftl_shiftl. do 2 f_equal. lia.
Qed.

Lemma pm_quotient n : forall a, exists q, a = N.lxor (poly_mul q m_poly) (pm n a).
Proof.
  induction n as [|n IH]; intros a.
  - exists 0. reflexivity.
  - rewrite pm_S. destruct (IH (mod_step a n)) as (q & Hq).
    unfold mod_step in Hq at 1. destruct (N.testbit a (N.of_nat (8 + n))).
    + exists (N.lxor (N.shiftl 1 (N.of_nat n)) q).
      rewrite poly_mul_lxor, poly_mul_shiftl. change (poly_mul 1 m_poly) with m_poly.
      rewrite N.lxor_assoc, <- Hq.
      rewrite (N.lxor_comm a), <- N.lxor_assoc, N.lxor_nilpotent, N.lxor_0_l. reflexivity.
    + exists q. exact Hq.
Qed.

Lemma poly_mod_quotient a : exists q, a = N.lxor (poly_mul q m_poly) (poly_mod a).
Proof. rewrite poly_mod_pm. apply pm_quotient. Qed.
