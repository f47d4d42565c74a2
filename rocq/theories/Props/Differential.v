(** C90: how many states carry a difference through the rounds of AES. *)
From Coq Require Import ZArith NArith List Arith Lia Bool ZifyBool ZifyNat ZifyN.
From Verif Require Import Rust.
From Verif.Spec Require Import Octets Counting Diffusion Differential.
From Verif.Model Require Import Aes.
From Verif.Proofs Require Import Base Gf Count Aes Diffusion Differential.
Import ListNotations.
Local Open Scope N_scope.

(** Changed by the same nonzero [a], at most four entries of the substitution table
    change by the same [c]. *)
Theorem C90_table : forall a c L, a <> 0 -> a < 256 -> NoDup L ->
  (forall x, In x L -> exists y y', idx SBOX x = Ret y /\ idx SBOX (N.lxor x a) = Ret y' /\ N.lxor y y' = c) ->
  (length L <= 4)%nat.
Proof.
  intros a c L Ha Ha' ND H. destruct L as [|x0 L0] eqn:EL; [cbn [length]; lia|]. rewrite <- EL in *.
  assert (B : forall x, In x L -> x < 256).
  { intros x Hx. destruct (H x Hx) as (y & _ & E & _). unfold idx in E.
    destruct (nth_error SBOX (N.to_nat x)) eqn:En; [|discriminate].
    assert (Hn : nth_error SBOX (N.to_nat x) <> None) by congruence. apply nth_error_Some in Hn.
    change (length SBOX) with 256%nat in Hn. lia. }
  assert (V : forall x, In x L -> moves Spec.Aes.SubByte a c x = true).
  { intros x Hx. destruct (H x Hx) as (y & y' & E & E' & <-). unfold moves. apply N.eqb_eq.
    assert (Hxa : N.lxor x a < 256) by (apply lxor_lt256; [apply B, Hx|exact Ha']).
    rewrite sbox_ok in E by apply B, Hx. rewrite sbox_ok in E' by exact Hxa.
    apply Ret_inj in E, E'. rewrite E, E'. apply N.lxor_comm. }
  assert (Hc : c < 256).
  { assert (Hx0 : In x0 L) by (rewrite EL; left; reflexivity). specialize (V x0 Hx0). unfold moves in V.
    apply N.eqb_eq in V. rewrite <- V. apply lxor_lt256; apply SubByte_lt. }
  etransitivity; [|exact (sub_passing a c Ha Ha' Hc)]. unfold passing. apply NoDup_incl_length; [exact ND|].
  intros x Hx. apply (proj2 (filter_In _ _ _)). split; [apply all_octets_in, B, Hx|apply V, Hx].
Qed.
Print Assumptions C90_table.

(** [round_bytes] is what [encrypt] repeats (see [C88_rounds_of_encrypt]), and
    [unround_bytes] what [decrypt] repeats, on the bytes of the state. *)
Theorem C90_rounds : forall w nr s, octet_square s ->
  (let* x := from_block s in for_range 1 nr (round_bytes w) x) =
  (let* t := for_range 1 nr (round_body w) s in from_block t) /\
  (let* x := from_block s in for_range_rev 1 nr (unround_bytes w) x) =
  (let* t := for_range_rev 1 nr (unround_body w) s in from_block t).
Proof.
  intros w nr S HS. destruct (square_cols S HS) as (s & Hs & ->). rewrite from_block_ok. cbn [bind]. split.
  - apply (for_n_bytes (round_body w)); [exact Hs|intros; apply round_cases; assumption|].
    intros r u Hu. unfold round_bytes. rewrite block_of_output by exact Hu. reflexivity.
  - apply (for_n_rev_bytes (unround_body w)); [exact Hs|intros; apply unround_cases; assumption|].
    intros r u Hu. unfold unround_bytes. rewrite block_of_output by exact Hu. reflexivity.
Qed.
Print Assumptions C90_rounds.

(** If [k] bytes of a difference are not zero, then of the 2^128 states no more than one
    in 64^k carries it through a round to a given difference, whatever the key. *)
Theorem C90_round : forall w r a b, (r + 1) * 4 <= N.of_nat (length w) ->
  length a = 16%nat -> octets a -> length b = 16%nat -> octets b ->
  exists n, carried (giving (round_bytes w r)) a b n /\ n * 64 ^ active a <= 2 ^ 128.
Proof.
  intros w r a b Hw La Oa Lb Ob. destruct (round_carried w r a b Hw (conj La Oa) (conj Lb Ob)) as (c & _ & Hc & H); destruct Hc as [Lc Oc].
  exists (ways Spec.Aes.SubByte a c). split; [exact H|]. change (2 ^ 128) with (256 ^ N.of_nat 16). rewrite <- La.
  apply ways_bound; [exact sub_passing|exact Oa|exact Oc|congruence].
Qed.
Print Assumptions C90_round.

(** There are differences with one byte for which this is exact. *)
Theorem C90_round_exact : forall w r, (r + 1) * 4 <= N.of_nat (length w) ->
  exists a b n, length a = 16%nat /\ octets a /\ length b = 16%nat /\ octets b /\ active a = 1 /\
    carried (giving (round_bytes w r)) a b n /\ n * 64 = 2 ^ 128.
Proof.
  intros w r Hw. destruct passing_four as (c0 & Hc0 & E4).
  set (a := 1 :: repeat 0 15). set (c := c0 :: repeat 0 15).
  assert (Ha : is16 a) by (split; [reflexivity|repeat (constructor; try lia)]).
  assert (Hc : is16 c) by (split; [reflexivity|constructor; [exact Hc0|repeat (constructor; try lia)]]).
  assert (Wc : wf (Spec.Aes.state_of_input c)) by apply state_of_input_wf, Hc.
  set (b := Spec.Aes.output_of_state (Spec.Aes.MixColumns (Spec.Aes.ShiftRows (Spec.Aes.state_of_input c)))).
  assert (Hb : is16 b) by apply is16_output, mix_with_wf.
  destruct (round_carried w r a b Hw Ha Hb) as (c' & -> & _ & H).
  unfold b in H at 2. rewrite input_of_output in H by apply mix_with_wf.
  rewrite InvMixColumns_MixColumns in H by apply ShiftRows_wf, Wc.
  rewrite InvShiftRows_ShiftRows in H by exact Wc. rewrite output_of_input in H by apply Hc.
  exists a, b, (ways Spec.Aes.SubByte a c). destruct Ha as [La Oa], Hb as [Lb Ob].
  split; [exact La|]. split; [exact Oa|]. split; [exact Lb|]. split; [exact Ob|]. split; [reflexivity|].
  split; [exact H|]. unfold a, c. rewrite (ways_first _ _ _ 15 4 E4). reflexivity.
Qed.
Print Assumptions C90_round_exact.

(** Along any chain of five differences, the first not zero, the four shares of states
    that carry one to the next multiply to at most 2^-150. *)
Theorem C90_four_rounds : forall w1 w2 w3 w4 r1 r2 r3 r4 a0 a1 a2 a3 a4 n1 n2 n3 n4,
  (r1 + 1) * 4 <= N.of_nat (length w1) -> (r2 + 1) * 4 <= N.of_nat (length w2) ->
  (r3 + 1) * 4 <= N.of_nat (length w3) -> (r4 + 1) * 4 <= N.of_nat (length w4) ->
  (forall a, In a [a0; a1; a2; a3; a4] -> length a = 16%nat /\ octets a) -> a0 <> repeat 0 16 ->
  carried (giving (round_bytes w1 r1)) a0 a1 n1 -> carried (giving (round_bytes w2 r2)) a1 a2 n2 ->
  carried (giving (round_bytes w3 r3)) a2 a3 n3 -> carried (giving (round_bytes w4 r4)) a3 a4 n4 ->
  n1 * n2 * n3 * n4 * 2 ^ 150 <= 2 ^ 128 * 2 ^ 128 * 2 ^ 128 * 2 ^ 128.
Proof.
  intros w1 w2 w3 w4 r1 r2 r3 r4 a0 a1 a2 a3 a4 n1 n2 n3 n4 H1 H2 H3 H4 HA D C1 C2 C3 C4.
  assert (I0 : is16 a0) by (apply HA; cbn; tauto). assert (I1 : is16 a1) by (apply HA; cbn; tauto).
  assert (I2 : is16 a2) by (apply HA; cbn; tauto). assert (I3 : is16 a3) by (apply HA; cbn; tauto).
  assert (I4 : is16 a4) by (apply HA; cbn; tauto). clear HA.
  assert (B : forall w r a b n, (r + 1) * 4 <= N.of_nat (length w) -> is16 a -> is16 b ->
    carried (giving (round_bytes w r)) a b n -> n * 64 ^ active a <= 2 ^ 128 /\ (n = 0 \/ step (places a) (places b))).
  { intros w r a b n Hw Ha Hb C. split.
    - destruct (C90_round w r a b Hw) as (m & Cm & Hm); try apply Ha; try apply Hb.
      rewrite (counted_unique _ _ _ _ C Cm). exact Hm.
    - destruct C as (L & _ & HL & <-). destruct L as [|x L]; [left; reflexivity|right].
      destruct (proj1 (HL x) (or_introl eq_refl)) as (Lx & Ox & Cx).
      exact (round_step w r a b x Hw Ha Hb (conj Lx Ox) Cx). }
  destruct (B _ _ _ _ _ H1 I0 I1 C1) as [B1 [->|S1]]; [cbn; lia|].
  destruct (B _ _ _ _ _ H2 I1 I2 C2) as [B2 [->|S2]]; [rewrite N.mul_0_r; cbn; lia|].
  destruct (B _ _ _ _ _ H3 I2 I3 C3) as [B3 [->|S3]]; [rewrite N.mul_0_r; cbn; lia|].
  destruct (B _ _ _ _ _ H4 I3 I4 C4) as [B4 _].
  refine (four_counts _ _ _ _ _ _ _ _ _ _ B1 B2 B3 B4).
  pose proof (four_rounds _ _ _ _ S1 S2 S3 (active_some a0 I0 D)) as F.
  rewrite <- !places_total by (apply I0 || apply I1 || apply I2 || apply I3). lia.
Qed.
Print Assumptions C90_four_rounds.

(** The same for the rounds of [decrypt]. *)
Theorem C90_round_back : forall w r a b, (r + 1) * 4 <= N.of_nat (length w) ->
  length a = 16%nat -> octets a -> length b = 16%nat -> octets b ->
  exists n, carried (giving (unround_bytes w r)) a b n /\ n * 64 ^ active a <= 2 ^ 128.
Proof.
  intros w r a b Hw La Oa Lb Ob. destruct (unround_carried w r a b Hw (conj La Oa) (conj Lb Ob)) as (c & _ & Hc & H); destruct Hc as [Lc Oc].
  exists (ways Spec.Aes.InvSubByte a c). split; [exact H|]. change (2 ^ 128) with (256 ^ N.of_nat 16). rewrite <- La.
  apply ways_bound; [exact inv_sub_passing|exact Oa|exact Oc|congruence].
Qed.
Print Assumptions C90_round_back.

Theorem C90_four_rounds_back : forall w1 w2 w3 w4 r1 r2 r3 r4 a0 a1 a2 a3 a4 n1 n2 n3 n4,
  (r1 + 1) * 4 <= N.of_nat (length w1) -> (r2 + 1) * 4 <= N.of_nat (length w2) ->
  (r3 + 1) * 4 <= N.of_nat (length w3) -> (r4 + 1) * 4 <= N.of_nat (length w4) ->
  (forall a, In a [a0; a1; a2; a3; a4] -> length a = 16%nat /\ octets a) -> a0 <> repeat 0 16 ->
  carried (giving (unround_bytes w1 r1)) a0 a1 n1 -> carried (giving (unround_bytes w2 r2)) a1 a2 n2 ->
  carried (giving (unround_bytes w3 r3)) a2 a3 n3 -> carried (giving (unround_bytes w4 r4)) a3 a4 n4 ->
  n1 * n2 * n3 * n4 * 2 ^ 150 <= 2 ^ 128 * 2 ^ 128 * 2 ^ 128 * 2 ^ 128.
Proof.
  intros w1 w2 w3 w4 r1 r2 r3 r4 a0 a1 a2 a3 a4 n1 n2 n3 n4 H1 H2 H3 H4 HA D C1 C2 C3 C4.
  assert (I0 : is16 a0) by (apply HA; cbn; tauto). assert (I1 : is16 a1) by (apply HA; cbn; tauto).
  assert (I2 : is16 a2) by (apply HA; cbn; tauto). assert (I3 : is16 a3) by (apply HA; cbn; tauto).
  assert (I4 : is16 a4) by (apply HA; cbn; tauto). clear HA.
  assert (B : forall w r a b n, (r + 1) * 4 <= N.of_nat (length w) -> is16 a -> is16 b ->
    carried (giving (unround_bytes w r)) a b n ->
    n * 64 ^ active a <= 2 ^ 128 /\ (n = 0 \/ step (reflect (places a)) (reflect (places b)))).
  { intros w r a b n Hw Ha Hb C. split.
    - destruct (C90_round_back w r a b Hw) as (m & Cm & Hm); try apply Ha; try apply Hb.
      rewrite (counted_unique _ _ _ _ C Cm). exact Hm.
    - destruct C as (L & _ & HL & <-). destruct L as [|x L]; [left; reflexivity|right].
      destruct (proj1 (HL x) (or_introl eq_refl)) as (Lx & Ox & Cx).
      exact (unround_step w r a b x Hw Ha Hb (conj Lx Ox) Cx). }
  destruct (B _ _ _ _ _ H1 I0 I1 C1) as [B1 [->|S1]]; [cbn; lia|].
  destruct (B _ _ _ _ _ H2 I1 I2 C2) as [B2 [->|S2]]; [rewrite N.mul_0_r; cbn; lia|].
  destruct (B _ _ _ _ _ H3 I2 I3 C3) as [B3 [->|S3]]; [rewrite N.mul_0_r; cbn; lia|].
  destruct (B _ _ _ _ _ H4 I3 I4 C4) as [B4 _].
  refine (four_counts _ _ _ _ _ _ _ _ _ _ B1 B2 B3 B4).
  pose proof (active_some a0 I0 D) as F0. rewrite <- reflect_total in F0.
  pose proof (four_rounds _ _ _ _ S1 S2 S3 F0) as F. rewrite !reflect_total in F.
  rewrite <- !places_total by (apply I0 || apply I1 || apply I2 || apply I3). lia.
Qed.
Print Assumptions C90_four_rounds_back.

(** The four entries that a change by 1 changes by 31, and a state that carries a change
    of its first byte through the first round of AES-128 under the key of FIPS-197,
    appendix B. *)
Example C90_example :
  let key := [0x2b; 0x7e; 0x15; 0x16; 0x28; 0xae; 0xd2; 0xa6; 0xab; 0xf7; 0x15; 0x88; 0x09; 0xcf; 0x4f; 0x3c] in
  let x := 0 :: repeat 7 15 in let a := 1 :: repeat 0 15 in
  let c := [62; 31; 31; 33] ++ repeat 0 12 in
  (filter (fun x => match idx SBOX x, idx SBOX (N.lxor x 1) with Ret y, Ret y' => N.lxor y y' =? 31 | _, _ => false end)
     some_octets,
   let* w := expand_key key 10 in
   let* y := round_bytes w 1 x in let* y' := round_bytes w 1 (xor x a) in Ret (xor y y')) =
  ([0; 1; 188; 189], Ret c).
Proof. vm_compute. reflexivity. Qed.
