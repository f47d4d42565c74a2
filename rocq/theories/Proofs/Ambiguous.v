(** Ciphertexts that are read under several keys. *)
From Coq Require Import ZArith NArith List Arith Lia Bool ZifyBool ZifyNat ZifyN.
From Verif Require Import Rust Calls.
From Verif.Spec Require Octets Aes Cbc Stream Ambiguous.
From Verif.Proofs Require Import Base Bits.
From Verif.Proofs Require Stream AesCbc Count.
Import ListNotations.
Import Spec.Octets Spec.Cbc Spec.Ambiguous.
Import Proofs.Stream (is_block).
Import Proofs.Count (tail_of).
Local Open Scope N_scope.

Definition key_ok (key : list N) : Prop := octets key /\ Spec.Aes.valid_key_size key.
Definition wants_ok (W : list (list N * list N)) : Prop := Forall (fun kw => key_ok (fst kw) /\ is_block (snd kw)) W.

Lemma inv_block key c : key_ok key -> is_block c -> is_block (Spec.Aes.InvCipher key c).
Proof. intros [A B] C. apply Proofs.AesCbc.InvCipher_block; assumption. Qed.

Lemma steer_reads z : is_block z -> forall W, wants_ok W ->
  let (v, C) := steer W z in
  is_block v /\ Forall is_block C /\ length C = length W /\ last C v = z /\
  forall iv i key w, nth_error W i = Some (key, w) -> (i = 0%nat -> iv = v) ->
    nth_error (cbc_decrypt (Spec.Aes.InvCipher key) iv C) i = Some w.
Proof.
  intros Hz. induction W as [|[k0 w0] W IH]; intros HW; cbn [steer].
  - repeat apply conj; try apply Hz; try constructor. intros iv i key w H. destruct i; discriminate.
  - inversion HW as [|? ? [Hk Hw] HW']; subst. cbn [fst snd] in Hk, Hw. specialize (IH HW'). 
    destruct (steer W z) as [c C]. destruct IH as (Hc & HC & L & La & R).
    pose proof (inv_block k0 c Hk Hc) as Hi.
    split; [apply Proofs.Stream.is_block_xor; assumption|]. split; [constructor; assumption|].
    split; [cbn [length]; rewrite L; reflexivity|]. split.
    + destruct C as [|x C]; [exact La|]. change (last (c :: x :: C) (xor (Spec.Aes.InvCipher k0 c) w0)) with (last (x :: C) (xor (Spec.Aes.InvCipher k0 c) w0)).
      rewrite <- La. clear. revert x. induction C as [|y C IH]; intros x; [reflexivity|]. exact (IH y).
    + intros iv [|i] key w H Hv.
      * cbn [nth_error] in H. injection H as -> ->. cbn [cbc_decrypt nth_error]. rewrite (Hv eq_refl).
        f_equal. apply xor_cancel_l. rewrite (proj2 Hi), (proj2 Hw). reflexivity.
      * cbn [nth_error] in H. cbn [cbc_decrypt nth_error]. apply R; [exact H|reflexivity].
Qed.

(** And there is no other ciphertext with this last block. *)
Lemma steer_unique z : forall W iv C, wants_ok W -> is_block iv -> Forall is_block C ->
  length C = length W -> last C iv = z ->
  (forall i key w, nth_error W i = Some (key, w) -> nth_error (cbc_decrypt (Spec.Aes.InvCipher key) iv C) i = Some w) ->
  (iv, C) = steer W z.
Proof.
  induction W as [|[k0 w0] W IH]; intros iv [|c C] HW Hiv HC L La R; try discriminate L.
  - cbn [steer]. cbn [last] in La. rewrite La. reflexivity.
  - inversion HW as [|? ? [Hk Hw] HW']; subst. cbn [fst snd] in Hk, Hw. inversion HC as [|? ? Hc HC']; subst.
    cbn [steer]. rewrite <- (IH c C).
    + f_equal. specialize (R 0%nat k0 w0 eq_refl). cbn [cbc_decrypt nth_error] in R.
      pose proof (inv_block k0 c Hk Hc) as Hi.
      assert (E : xor (Spec.Aes.InvCipher k0 c) iv = w0) by congruence. rewrite <- E. symmetry.
      apply xor_cancel_l. rewrite (proj2 Hi), (proj2 Hiv). reflexivity.
    + exact HW'.
    + exact Hc.
    + exact HC'.
    + cbn [length] in L. lia.
    + destruct C as [|x C]; [reflexivity|]. change (last (c :: x :: C) iv) with (last (x :: C) iv).
      clear. revert x. induction C as [|y C IH]; intros x; [reflexivity|]. exact (IH y).
    + intros i key w H. exact (R (S i) key w H).
Qed.

(** * Two blocks that are both taken for padded *)
Definition padded (b : list N) : Prop := exists m, Stream.strip 16 b = Stream.Stripped m.
Lemma padded_tail b : length b = 16%nat -> padded b <-> exists m n, (n <= 16)%nat /\ b = m ++ tail_of n.
Proof.
  intros L. split.
  - intros [m E]. apply Proofs.Stream.strip_stripped in E. destruct E as (_ & n & Hn & P).
    destruct (Proofs.Count.tail_of_pad b m n) as [m' E]; [destruct b; discriminate|exact P|]. exists m', n. split; assumption.
  - intros (m & n & Hn & ->). destruct (Proofs.Count.pad_of_tail m n) as [m' E]. exists m'.
    apply Proofs.Stream.strip_stripped. split; [exact L|]. exists n. split; assumption.
Qed.
Lemma tail_of_repeat n : tail_of n = repeat (N.of_nat n) (Nat.max n 1).
Proof. destruct n; [reflexivity|]. cbn [tail_of]. f_equal. lia. Qed.
Lemma xor_repeat a b n : xor (repeat a n) (repeat b n) = repeat (N.lxor a b) n.
Proof. induction n as [|n IH]; [reflexivity|]. cbn [repeat xor]. rewrite IH. reflexivity. Qed.
(** Equal sums of two numbers up to 16, with the smaller of them. *)
Lemma small_sums : forallb (fun a => forallb (fun b =>
   let x := N.to_nat (N.lxor (N.of_nat a) (N.of_nat b)) in
   (Nat.ltb x 32 && Nat.leb (Nat.max (x - 16) 1) (Nat.max a 1))%bool) (seq a (17 - a))) (seq 0 17) = true.
Proof. vm_compute. reflexivity. Qed.
Lemma small_sum a b : (a <= b <= 16)%nat ->
  exists x, N.lxor (N.of_nat a) (N.of_nat b) = N.of_nat x /\ (x < 32)%nat /\ (Nat.max (x - 16) 1 <= Nat.max a 1)%nat.
Proof.
  intros H. exists (N.to_nat (N.lxor (N.of_nat a) (N.of_nat b))). split; [rewrite N2Nat.id; reflexivity|].
  pose proof (proj1 (forallb_forall _ _) small_sums a) as F. cbv beta in F. specialize (F ltac:(apply in_seq; lia)).
  pose proof (proj1 (forallb_forall _ _) F b ltac:(apply in_seq; lia)) as G. cbv beta zeta in G.
  apply andb_prop in G. destruct G as [G1 G2]. apply Nat.ltb_lt in G1. apply Nat.leb_le in G2. split; assumption.
Qed.
Lemma all_sums : forallb (fun x => 
   let b := Nat.min x 16 in let a := (x - 16)%nat in
   (N.lxor (N.of_nat a) (N.of_nat b) =? N.of_nat x)%bool) (seq 0 32) = true.
Proof. vm_compute. reflexivity. Qed.
Lemma all_sum x : (x < 32)%nat -> N.lxor (N.of_nat (x - 16)) (N.of_nat (Nat.min x 16)) = N.of_nat x.
Proof.
  intros H. pose proof (proj1 (forallb_forall _ _) all_sums x ltac:(apply in_seq; lia)) as G. cbv beta zeta in G.
  apply N.eqb_eq in G. exact G.
Qed.
Lemma cut_tail (m m' : list N) a b n k : (n <= k)%nat -> length (m ++ repeat a n) = length (m' ++ repeat b k) ->
  xor (m ++ repeat a n) (m' ++ repeat b k) = xor m (m' ++ repeat b (k - n)) ++ repeat (N.lxor a b) n.
Proof.
  intros H L. rewrite !app_length, !repeat_length in L.
  replace k with (k - n + n)%nat at 1 by lia. rewrite repeat_app, app_assoc. rewrite xor_app.
  - rewrite xor_repeat. reflexivity.
  - rewrite app_length, repeat_length. lia.
Qed.
Lemma end_shorter (m : list N) x n k : (k <= n)%nat -> exists m', m ++ repeat x n = m' ++ repeat x k.
Proof. intros H. exists (m ++ repeat x (n - k)). rewrite <- app_assoc, <- repeat_app. do 2 f_equal. lia. Qed.

Lemma sum_compatible v v' : length v = 16%nat -> length v' = 16%nat -> padded v -> padded v' -> compatible (xor v v').
Proof.
  assert (G : forall m a m' b, (a <= b <= 16)%nat -> length (m ++ tail_of a) = length (m' ++ tail_of b) ->
    compatible (xor (m ++ tail_of a) (m' ++ tail_of b))).
  { intros m a m' b H L. rewrite !tail_of_repeat in L |- *. rewrite cut_tail by (assumption || lia).
    destruct (small_sum a b H) as (x & -> & Hx & Hm).
    destruct (end_shorter (xor m (m' ++ repeat (N.of_nat b) (Nat.max b 1 - Nat.max a 1))) (N.of_nat x) (Nat.max a 1) (Nat.max (x - 16) 1) Hm) as [m2 E].
    exists m2, x. split; assumption. }
  intros L L' P P'. apply (padded_tail v L) in P. apply (padded_tail v' L') in P'.
  destruct P as (m & a & Ha & ->), P' as (m' & b & Hb & ->).
  destruct (le_lt_dec a b) as [H|H]; [apply G; [lia|congruence]|]. rewrite xor_comm. apply G; [lia|congruence].
Qed.
Lemma compatible_sum d : is_block d -> compatible d ->
  exists v v', is_block v /\ is_block v' /\ padded v /\ padded v' /\ xor v v' = d.
Proof.
  intros Hd (m & x & Hx & E). set (v' := repeat (N.of_nat (Nat.min x 16)) 16).
  assert (Hv' : is_block v') by (split; [apply octets_repeat; lia|apply repeat_length]).
  exists (xor d v'), v'. pose proof (Proofs.Stream.is_block_xor d v' Hd Hv') as Hv.
  split; [exact Hv|]. split; [exact Hv'|].
  assert (P' : padded v').
  { apply padded_tail; [apply Hv'|]. exists (repeat (N.of_nat (Nat.min x 16)) (16 - Nat.max (Nat.min x 16) 1)), (Nat.min x 16).
    split; [lia|]. rewrite tail_of_repeat, <- repeat_app. unfold v'. f_equal. lia. }
  assert (P : padded (xor d v')).
  { apply padded_tail; [apply Hv|].
    pose proof (proj2 Hd) as L. rewrite E, app_length, repeat_length in L.
    unfold v'. replace (repeat (N.of_nat (Nat.min x 16)) 16) with ([] ++ repeat (N.of_nat (Nat.min x 16)) 16) by reflexivity.
    rewrite E, cut_tail; [|lia|rewrite !app_length, !repeat_length; cbn [length]; lia].
    exists (xor m ([] ++ repeat (N.of_nat (Nat.min x 16)) (16 - Nat.max (x - 16) 1))), (x - 16)%nat. split; [lia|].
    rewrite tail_of_repeat. f_equal. f_equal.
    rewrite <- (all_sum x Hx) at 1. rewrite N.lxor_assoc, N.lxor_nilpotent, N.lxor_0_r. reflexivity. }
  split; [exact P|]. split; [exact P'|].
  apply xor_cancel_r. rewrite (proj2 Hd), (proj2 Hv'). reflexivity.
Qed.
Lemma small_compatible d : is_block d -> last d 256 <= 17 -> compatible d.
Proof.
  intros [O L] H. assert (N0 : d <> []) by (intros ->; discriminate L).
  destruct (exists_last N0) as (m & x & ->). rewrite last_last in H.
  exists m, (N.to_nat x). split; [lia|]. rewrite N2Nat.id. replace (Nat.max (N.to_nat x - 16) 1) with 1%nat by lia. reflexivity.
Qed.
Lemma cancel_tail a a' l : is_block a -> is_block a' -> is_block l -> xor (xor a l) (xor a' l) = xor a a'.
Proof.
  intros [_ A] [_ A'] [_ L]. rewrite xor_assoc, (xor_comm a'), xor_cancel_l; [reflexivity|]. rewrite L, A'. reflexivity.
Qed.
Lemma other_side a a' v v' l : is_block a -> is_block a' -> is_block l -> is_block v' -> xor v v' = xor a a' -> xor a l = v -> xor a' l = v'.
Proof.
  intros Ha Ha' Hl Hv' E <-. rewrite <- (cancel_tail a a' l Ha Ha' Hl) in E.
  apply (f_equal (xor (xor a l))) in E. rewrite !xor_cancel_l in E; [congruence| |];
    rewrite ?xor_length, ?(proj2 Ha), ?(proj2 Ha'), ?(proj2 Hl), ?(proj2 Hv'); reflexivity.
Qed.
