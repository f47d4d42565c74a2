(** C91: how often sums of bits agree across the rounds of AES. *)
From Coq Require Import ZArith NArith List Arith Lia Bool ZifyBool ZifyNat ZifyN.
From Verif Require Import Rust.
From Verif.Spec Require Import Octets Counting Diffusion Differential Linear.
From Verif.Model Require Import Aes.
From Verif.Proofs Require Import Base Gf Count Aes Diffusion Differential Linear.
Import ListNotations.
Local Open Scope N_scope.

(** For any two nonzero masks, 128 octets give or take 16 have the same sum of bits as
    their entry in the substitution table. *)
Theorem C91_table : forall u v L, u <> 0 -> u < 256 -> v <> 0 -> v < 256 -> NoDup L ->
  (forall x, In x L <-> x < 256 /\ exists y, idx SBOX x = Ret y /\ parity (N.land u x) = parity (N.land v y)) ->
  (112 <= length L <= 144)%nat.
Proof.
  intros u v L Hu Hu' Hv Hv' ND HL. pose proof (corr_le u v Hv Hv') as B. unfold corr in B.
  set (p := fun x => negb (xorb (dot1 u x) (dot1 v (Spec.Aes.SubByte x)))).
  rewrite (zsum_ext _ (fun x => sgn (negb (p x)))) in B by (intros x _; unfold p; rewrite negb_involutive; reflexivity).
  rewrite zsum_sgn, all_octets_length in B.
  assert (E : length L = length (filter p all_octets)).
  { assert (S : forall x, In x L <-> In x (filter p all_octets)).
    { intros x. rewrite HL, filter_In, all_octets_in. unfold p, dot1. split.
      - intros [Hx (y & Ey & D)]. split; [exact Hx|]. rewrite sbox_ok in Ey by exact Hx. apply Ret_inj in Ey. subst y.
        rewrite D, xorb_nilpotent. reflexivity.
      - intros [Hx D]. split; [exact Hx|]. exists (Spec.Aes.SubByte x). split; [apply sbox_ok, Hx|].
        apply negb_true_iff in D. revert D. generalize (parity (N.land u x)) (parity (N.land v (Spec.Aes.SubByte x))).
        intros [] []; (reflexivity || discriminate). }
    apply Nat.le_antisymm; apply NoDup_incl_length; try (apply NoDup_filter, all_octets_nodup); try exact ND;
      intros x Hx; apply S, Hx. }
  rewrite E. clear - B. revert B. generalize (length (filter p all_octets)). intros n B. lia.
Qed.
Print Assumptions C91_table.

(** If the mask before a round selects from [k] bytes, then the sums under it and under
    a mask behind the round are the same for half of the 2^128 states, up to one half of a
    share of 8^-k, whatever the key. *)
Theorem C91_round : forall w r u v, (r + 1) * 4 <= N.of_nat (length w) ->
  length u = 16%nat -> octets u -> length v = 16%nat -> octets v ->
  exists n, agreeing (giving (round_bytes w r)) u v n /\
    (Z.abs (2 * Z.of_N n - 2 ^ 128) * 8 ^ Z.of_N (active u) <= 2 ^ 128)%Z.
Proof.
  intros w r u v Hw Lu Ou Lv Ov. destruct (round_agreeing w r u v Hw (conj Lu Ou) (conj Lv Ov)) as (n & k & A & E).
  exists n. split; [exact A|]. rewrite E, Z.abs_mul. replace (Z.abs (sgn k)) with 1%Z by (destruct k; reflexivity).
  rewrite Z.mul_1_l. change (2 ^ 128)%Z with (256 ^ Z.of_nat 16)%Z. rewrite <- Lu.
  apply prod_bound; [exact sub_flat|exact Ou|apply octets_output, before_wf|rewrite Lu; reflexivity].
Qed.
Print Assumptions C91_round.

(** Along any chain of five masks, the first not zero, the four differences from one half,
    each doubled, multiply to at most 2^-75. *)
Theorem C91_four_rounds : forall w1 w2 w3 w4 r1 r2 r3 r4 u0 u1 u2 u3 u4 n1 n2 n3 n4,
  (r1 + 1) * 4 <= N.of_nat (length w1) -> (r2 + 1) * 4 <= N.of_nat (length w2) ->
  (r3 + 1) * 4 <= N.of_nat (length w3) -> (r4 + 1) * 4 <= N.of_nat (length w4) ->
  (forall u, In u [u0; u1; u2; u3; u4] -> length u = 16%nat /\ octets u) -> u0 <> repeat 0 16 ->
  agreeing (giving (round_bytes w1 r1)) u0 u1 n1 -> agreeing (giving (round_bytes w2 r2)) u1 u2 n2 ->
  agreeing (giving (round_bytes w3 r3)) u2 u3 n3 -> agreeing (giving (round_bytes w4 r4)) u3 u4 n4 ->
  let bias n := (2 * Z.of_N n - 2 ^ 128)%Z in
  (Z.abs (bias n1 * bias n2 * bias n3 * bias n4) * 2 ^ 75 <= 2 ^ 128 * 2 ^ 128 * 2 ^ 128 * 2 ^ 128)%Z.
Proof.
  intros w1 w2 w3 w4 r1 r2 r3 r4 u0 u1 u2 u3 u4 n1 n2 n3 n4 H1 H2 H3 H4 HU D C1 C2 C3 C4 bias.
  assert (I0 : is16 u0) by (apply HU; cbn; tauto). assert (I1 : is16 u1) by (apply HU; cbn; tauto).
  assert (I2 : is16 u2) by (apply HU; cbn; tauto). assert (I3 : is16 u3) by (apply HU; cbn; tauto).
  assert (I4 : is16 u4) by (apply HU; cbn; tauto). clear HU.
  assert (B : forall w r a b n, (r + 1) * 4 <= N.of_nat (length w) -> is16 a -> is16 b ->
    agreeing (giving (round_bytes w r)) a b n ->
    (Z.abs (bias n) * 8 ^ Z.of_N (active a) <= 2 ^ 128)%Z /\ (bias n = 0%Z \/ step (places a) (places b))).
  { intros w r a b n Hw Ha Hb C. split.
    - destruct (C91_round w r a b Hw) as (m & Cm & Hm); try apply Ha; try apply Hb.
      rewrite (counted_unique _ _ _ _ C Cm). exact Hm.
    - destruct (round_agreeing w r a b Hw Ha Hb) as (m & k & A & E). unfold bias.
      rewrite (counted_unique _ _ _ _ C A), E. destruct (Z.eq_dec (prod Spec.Aes.SubByte a (Spec.Aes.output_of_state (before (Spec.Aes.state_of_input b)))) 0) as [Z0|NZ].
      + left. rewrite Z0. apply Z.mul_0_r.
      + right. apply mask_step; assumption. }
  destruct (B _ _ _ _ _ H1 I0 I1 C1) as [B1 [Z1|S1]]; [rewrite Z1; cbn; discriminate|].
  destruct (B _ _ _ _ _ H2 I1 I2 C2) as [B2 [Z2|S2]]; [rewrite Z2, Z.mul_0_r; cbn; discriminate|].
  destruct (B _ _ _ _ _ H3 I2 I3 C3) as [B3 [Z3|S3]]; [rewrite Z3, Z.mul_0_r; cbn; discriminate|].
  destruct (B _ _ _ _ _ H4 I3 I4 C4) as [B4 _].
  refine (four_corrs _ _ _ _ _ _ _ _ _ _ _ B1 B2 B3 B4); [|discriminate].
  pose proof (four_rounds _ _ _ _ S1 S2 S3 (active_some u0 I0 D)) as F.
  rewrite <- !places_total by (apply I0 || apply I1 || apply I2 || apply I3). lia.
Qed.
Print Assumptions C91_four_rounds.

(** The same for the rounds of [decrypt]. *)
Theorem C91_round_back : forall w r u v, (r + 1) * 4 <= N.of_nat (length w) ->
  length u = 16%nat -> octets u -> length v = 16%nat -> octets v ->
  exists n, agreeing (giving (unround_bytes w r)) u v n /\
    (Z.abs (2 * Z.of_N n - 2 ^ 128) * 8 ^ Z.of_N (active u) <= 2 ^ 128)%Z.
Proof.
  intros w r u v Hw Lu Ou Lv Ov. destruct (unround_agreeing w r u v Hw (conj Lu Ou) (conj Lv Ov)) as (n & k & A & E).
  exists n. split; [exact A|]. rewrite E, Z.abs_mul. replace (Z.abs (sgn k)) with 1%Z by (destruct k; reflexivity).
  rewrite Z.mul_1_l. change (2 ^ 128)%Z with (256 ^ Z.of_nat 16)%Z. rewrite <- Lu.
  apply prod_bound; [exact inv_flat|exact Ou|apply octets_output, unbefore_wf|rewrite Lu; reflexivity].
Qed.
Print Assumptions C91_round_back.

Theorem C91_four_rounds_back : forall w1 w2 w3 w4 r1 r2 r3 r4 u0 u1 u2 u3 u4 n1 n2 n3 n4,
  (r1 + 1) * 4 <= N.of_nat (length w1) -> (r2 + 1) * 4 <= N.of_nat (length w2) ->
  (r3 + 1) * 4 <= N.of_nat (length w3) -> (r4 + 1) * 4 <= N.of_nat (length w4) ->
  (forall u, In u [u0; u1; u2; u3; u4] -> length u = 16%nat /\ octets u) -> u0 <> repeat 0 16 ->
  agreeing (giving (unround_bytes w1 r1)) u0 u1 n1 -> agreeing (giving (unround_bytes w2 r2)) u1 u2 n2 ->
  agreeing (giving (unround_bytes w3 r3)) u2 u3 n3 -> agreeing (giving (unround_bytes w4 r4)) u3 u4 n4 ->
  let bias n := (2 * Z.of_N n - 2 ^ 128)%Z in
  (Z.abs (bias n1 * bias n2 * bias n3 * bias n4) * 2 ^ 75 <= 2 ^ 128 * 2 ^ 128 * 2 ^ 128 * 2 ^ 128)%Z.
Proof.
  intros w1 w2 w3 w4 r1 r2 r3 r4 u0 u1 u2 u3 u4 n1 n2 n3 n4 H1 H2 H3 H4 HU D C1 C2 C3 C4 bias.
  assert (I0 : is16 u0) by (apply HU; cbn; tauto). assert (I1 : is16 u1) by (apply HU; cbn; tauto).
  assert (I2 : is16 u2) by (apply HU; cbn; tauto). assert (I3 : is16 u3) by (apply HU; cbn; tauto).
  assert (I4 : is16 u4) by (apply HU; cbn; tauto). clear HU.
  assert (B : forall w r a b n, (r + 1) * 4 <= N.of_nat (length w) -> is16 a -> is16 b ->
    agreeing (giving (unround_bytes w r)) a b n ->
    (Z.abs (bias n) * 8 ^ Z.of_N (active a) <= 2 ^ 128)%Z /\
    (bias n = 0%Z \/ step (reflect (places a)) (reflect (places b)))).
  { intros w r a b n Hw Ha Hb C. split.
    - destruct (C91_round_back w r a b Hw) as (m & Cm & Hm); try apply Ha; try apply Hb.
      rewrite (counted_unique _ _ _ _ C Cm). exact Hm.
    - destruct (unround_agreeing w r a b Hw Ha Hb) as (m & k & A & E). unfold bias.
      rewrite (counted_unique _ _ _ _ C A), E. destruct (Z.eq_dec (prod Spec.Aes.InvSubByte a (Spec.Aes.output_of_state (unbefore (Spec.Aes.state_of_input b)))) 0) as [Z0|NZ].
      + left. rewrite Z0. apply Z.mul_0_r.
      + right. apply unmask_step; assumption. }
  destruct (B _ _ _ _ _ H1 I0 I1 C1) as [B1 [Z1|S1]]; [rewrite Z1; cbn; discriminate|].
  destruct (B _ _ _ _ _ H2 I1 I2 C2) as [B2 [Z2|S2]]; [rewrite Z2, Z.mul_0_r; cbn; discriminate|].
  destruct (B _ _ _ _ _ H3 I2 I3 C3) as [B3 [Z3|S3]]; [rewrite Z3, Z.mul_0_r; cbn; discriminate|].
  destruct (B _ _ _ _ _ H4 I3 I4 C4) as [B4 _].
  refine (four_corrs _ _ _ _ _ _ _ _ _ _ _ B1 B2 B3 B4); [|discriminate].
  pose proof (active_some u0 I0 D) as F0. rewrite <- reflect_total in F0.
  pose proof (four_rounds _ _ _ _ S1 S2 S3 F0) as F. rewrite !reflect_total in F.
  rewrite <- !places_total by (apply I0 || apply I1 || apply I2 || apply I3). lia.
Qed.
Print Assumptions C91_four_rounds_back.

(** Masks for which the substitution table is as far from one half as it can be: 144 and
    112 octets; and two others. *)
Example C91_example :
  let agree u v := filter (fun x => match idx SBOX x with
    | Ret y => Bool.eqb (parity (N.land u x)) (parity (N.land v y)) | _ => false end) some_octets in
  (length (agree 1 136), length (agree 1 72), length (agree 1 1)) = (144, 112, 140)%nat.
Proof. vm_compute. reflexivity. Qed.
