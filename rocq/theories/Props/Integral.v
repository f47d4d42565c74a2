(** C92: the states that differ in one byte, all 256 of them, through the rounds of AES. *)
From Coq Require Import ZArith NArith List Arith Lia Bool ZifyBool ZifyNat ZifyN.
From Verif Require Import Rust.
From Verif.Spec Require Import Octets Integral.
From Verif.Model Require Import Aes.
From Verif.Proofs Require Import Base Aes Diffusion Differential Integral.
Import ListNotations.
Local Open Scope N_scope.

Lemma family_one w r b i : (r + 1) * 4 <= N.of_nat (length w) -> is16 b -> (i < 16)%nat ->
  exists f, (forall x, x < 256 -> round_bytes w r (put b i x) = Ret (Spec.Aes.output_of_state (f x))) /\
    kinds (fun _ c => (diagonal (single (i mod 4) (i / 4)) c =? 1)%nat) f.
Proof.
  intros Hw Hb Hi. destruct (round_slice w r Hw) as (k & Ek & Hk).
  exists (fun x => rnd k (Spec.Aes.state_of_input (put b i x))). split.
  - intros x Hx. apply round_bytes_ok; [exact Ek|exact Hk|]. destruct Hb as [Lb Ob].
    split; [rewrite put_length; lia|apply put_octets; assumption].
  - apply kinds_round; [|apply kinds_put; assumption]. intros c Hc.
    apply single_diagonal; [apply Nat.mod_upper_bound; lia|apply Nat.div_lt_upper_bound; lia|exact Hc].
Qed.
Lemma family_round w r A g f : (r + 1) * 4 <= N.of_nat (length w) -> (forall c, (c < 4)%nat -> (diagonal A c <= 1)%nat) ->
  (forall x, x < 256 -> g x = Ret (Spec.Aes.output_of_state (f x))) -> kinds A f ->
  exists h, (forall x, x < 256 -> (let* y := g x in round_bytes w r y) = Ret (Spec.Aes.output_of_state (h x))) /\
    kinds (fun _ c => (diagonal A c =? 1)%nat) h.
Proof.
  intros Hw HA Hg K. destruct (round_slice w r Hw) as (k & Ek & Hk). exists (fun x => rnd k (f x)). split.
  - intros x Hx. rewrite (Hg x Hx). cbn [bind]. pose proof (proj1 K x Hx) as W.
    rewrite (round_bytes_ok w r k) by (exact Ek || exact Hk || apply is16_output, W).
    rewrite input_of_output by exact W. reflexivity.
  - apply kinds_round; assumption.
Qed.
Lemma family_unround w r A g f : (r + 1) * 4 <= N.of_nat (length w) -> (forall c, (c < 4)%nat -> (antidiagonal A c <= 1)%nat) ->
  (forall x, x < 256 -> g x = Ret (Spec.Aes.output_of_state (f x))) -> kinds A f ->
  exists h, (forall x, x < 256 -> (let* y := g x in unround_bytes w r y) = Ret (Spec.Aes.output_of_state (h x))) /\
    kinds (fun _ c => (antidiagonal A c =? 1)%nat) h.
Proof.
  intros Hw HA Hg K. destruct (round_slice w r Hw) as (k & Ek & Hk). exists (fun x => unrnd k (f x)). split.
  - intros x Hx. rewrite (Hg x Hx). cbn [bind]. pose proof (proj1 K x Hx) as W.
    rewrite (unround_bytes_ok w r k) by (exact Ek || exact Hk || apply is16_output, W).
    rewrite input_of_output by exact W. reflexivity.
  - apply kinds_unround; assumption.
Qed.
Lemma family_un_one w r b i : (r + 1) * 4 <= N.of_nat (length w) -> is16 b -> (i < 16)%nat ->
  exists f, (forall x, x < 256 -> unround_bytes w r (put b i x) = Ret (Spec.Aes.output_of_state (f x))) /\
    kinds (fun _ c => (antidiagonal (single (i mod 4) (i / 4)) c =? 1)%nat) f.
Proof.
  intros Hw Hb Hi. destruct (round_slice w r Hw) as (k & Ek & Hk).
  exists (fun x => unrnd k (Spec.Aes.state_of_input (put b i x))). split.
  - intros x Hx. apply unround_bytes_ok; [exact Ek|exact Hk|]. destruct Hb as [Lb Ob].
    split; [rewrite put_length; lia|apply put_octets; assumption].
  - apply kinds_unround; [|apply kinds_put; assumption]. intros c Hc.
    apply single_diagonal; [apply Nat.mod_upper_bound; lia|apply Nat.div_lt_upper_bound; lia|exact Hc].
Qed.

(** After one round, the four bytes of one column take every value once, and the other
    twelve bytes are the same in all 256 states. *)
Theorem C92_one_round : forall w r b i, (r + 1) * 4 <= N.of_nat (length w) ->
  length b = 16%nat -> octets b -> (i < 16)%nat ->
  exists f, (forall x, x < 256 -> round_bytes w r (put b i x) = Ret (f x)) /\
    forall j, (j < 16)%nat ->
      ((j / 4 = (i / 4 + 4 - i mod 4) mod 4)%nat -> every_value_once (fun x => nth j (f x) 0)) /\
      ((j / 4 <> (i / 4 + 4 - i mod 4) mod 4)%nat -> one_value (fun x => nth j (f x) 0)).
Proof.
  intros w r b i Hw Lb Ob Hi. destruct (family_one w r b i Hw (conj Lb Ob) Hi) as (f & E & W & K).
  exists (fun x => Spec.Aes.output_of_state (f x)). split; [exact E|]. intros j Hj.
  assert (Hr : (j mod 4 < 4)%nat) by (apply Nat.mod_upper_bound; lia).
  assert (Hc : (j / 4 < 4)%nat) by (apply Nat.div_lt_upper_bound; lia).
  specialize (K (j mod 4)%nat (j / 4)%nat Hr Hc). cbv beta in K.
  assert (D : (diagonal (single (i mod 4) (i / 4)) (j / 4) =? 1)%nat = (j / 4 =? (i / 4 + 4 - i mod 4) mod 4)%nat).
  { revert Hc. generalize (j / 4)%nat. intros c Hc.
    assert (Hi1 : (i mod 4 < 4)%nat) by (apply Nat.mod_upper_bound; lia).
    assert (Hi2 : (i / 4 < 4)%nat) by (apply Nat.div_lt_upper_bound; lia).
    revert Hi1 Hi2. generalize (i mod 4)%nat (i / 4)%nat. intros p q Hp Hq.
    destruct p as [|[|[|[|]]]]; [..|lia]; (destruct q as [|[|[|[|]]]]; [..|lia]); (destruct c as [|[|[|[|]]]]; [..|lia]); reflexivity. }
  rewrite D in K. assert (EQ : forall x, nth j (Spec.Aes.output_of_state (f x)) 0 = Spec.Aes.entry (f x) (j mod 4) (j / 4))
    by (intros x; apply output_nth, Hj).
  split; intros Q.
  - apply Nat.eqb_eq in Q. rewrite Q in K. apply runs_once.
    refine (runs_ext _ _ _ K). intros x _. symmetry. apply EQ.
  - apply Nat.eqb_neq in Q. rewrite Q in K. apply still_one. intros x Hx. rewrite !EQ. apply K, Hx.
Qed.
Print Assumptions C92_one_round.

(** After two rounds, every byte takes every value once. *)
Theorem C92_two_rounds : forall w1 w2 r1 r2 b i,
  (r1 + 1) * 4 <= N.of_nat (length w1) -> (r2 + 1) * 4 <= N.of_nat (length w2) ->
  length b = 16%nat -> octets b -> (i < 16)%nat ->
  exists f, (forall x, x < 256 -> (let* y := round_bytes w1 r1 (put b i x) in round_bytes w2 r2 y) = Ret (f x)) /\
    forall j, (j < 16)%nat -> every_value_once (fun x => nth j (f x) 0).
Proof.
  intros w1 w2 r1 r2 b i H1 H2 Lb Ob Hi. destruct (family_one w1 r1 b i H1 (conj Lb Ob) Hi) as (f1 & E1 & K1).
  assert (Hi1 : (i mod 4 < 4)%nat) by (apply Nat.mod_upper_bound; lia).
  assert (Hi2 : (i / 4 < 4)%nat) by (apply Nat.div_lt_upper_bound; lia).
  assert (HD : forall c, (c < 4)%nat -> (diagonal (fun _ c => (diagonal (single (i mod 4) (i / 4)) c =? 1)%nat) c <= 1)%nat)
    by (intros c Hc; rewrite (proj1 (second_diagonal _ _ c Hi1 Hi2 Hc)); apply le_n).
  destruct (family_round w2 r2 _ _ f1 H2 HD E1 K1) as (f2 & E2 & _ & K2).
  exists (fun x => Spec.Aes.output_of_state (f2 x)). split; [exact E2|]. intros j Hj.
  assert (Hr : (j mod 4 < 4)%nat) by (apply Nat.mod_upper_bound; lia).
  assert (Hc : (j / 4 < 4)%nat) by (apply Nat.div_lt_upper_bound; lia).
  specialize (K2 (j mod 4)%nat (j / 4)%nat Hr Hc). cbv beta in K2.
  rewrite (proj1 (second_diagonal _ _ _ Hi1 Hi2 Hc)) in K2. cbn [Nat.eqb] in K2. apply runs_once.
  refine (runs_ext _ _ _ K2). intros x _. symmetry. apply output_nth, Hj.
Qed.
Print Assumptions C92_two_rounds.

(** After three rounds, the 256 states sum to zero. *)
Theorem C92_three_rounds : forall w1 w2 w3 r1 r2 r3 b i,
  (r1 + 1) * 4 <= N.of_nat (length w1) -> (r2 + 1) * 4 <= N.of_nat (length w2) -> (r3 + 1) * 4 <= N.of_nat (length w3) ->
  length b = 16%nat -> octets b -> (i < 16)%nat ->
  exists f, (forall x, x < 256 ->
      (let* y := (let* y := round_bytes w1 r1 (put b i x) in round_bytes w2 r2 y) in round_bytes w3 r3 y) = Ret (f x)) /\
    sum256 f = repeat 0 16.
Proof.
  intros w1 w2 w3 r1 r2 r3 b i H1 H2 H3 Lb Ob Hi. destruct (family_one w1 r1 b i H1 (conj Lb Ob) Hi) as (f1 & E1 & K1).
  assert (Hi1 : (i mod 4 < 4)%nat) by (apply Nat.mod_upper_bound; lia).
  assert (Hi2 : (i / 4 < 4)%nat) by (apply Nat.div_lt_upper_bound; lia).
  assert (HD : forall c, (c < 4)%nat -> (diagonal (fun _ c => (diagonal (single (i mod 4) (i / 4)) c =? 1)%nat) c <= 1)%nat)
    by (intros c Hc; rewrite (proj1 (second_diagonal _ _ c Hi1 Hi2 Hc)); apply le_n).
  destruct (family_round w2 r2 _ _ f1 H2 HD E1 K1) as (f2 & E2 & K2).
  assert (F : kinds full f2).
  { refine (kinds_ext _ _ _ _ K2). intros r c Hr Hc. rewrite (proj1 (second_diagonal _ _ c Hi1 Hi2 Hc)). reflexivity. }
  destruct (round_slice w3 r3 H3) as (k & Ek & Hk).
  exists (fun x => Spec.Aes.output_of_state (rnd k (f2 x))). split.
  - intros x Hx. rewrite (E2 x Hx). cbn [bind]. pose proof (proj1 K2 x Hx) as W.
    rewrite (round_bytes_ok w3 r3 k) by (exact Ek || exact Hk || apply is16_output, W).
    rewrite input_of_output by exact W. reflexivity.
  - apply (sum_zero (fun x => rnd k (f2 x))); [reflexivity|]. apply round_sum, F.
Qed.
Print Assumptions C92_three_rounds.

(** The same for the rounds of [decrypt]. *)
Theorem C92_two_rounds_back : forall w1 w2 r1 r2 b i,
  (r1 + 1) * 4 <= N.of_nat (length w1) -> (r2 + 1) * 4 <= N.of_nat (length w2) ->
  length b = 16%nat -> octets b -> (i < 16)%nat ->
  exists f, (forall x, x < 256 -> (let* y := unround_bytes w1 r1 (put b i x) in unround_bytes w2 r2 y) = Ret (f x)) /\
    forall j, (j < 16)%nat -> every_value_once (fun x => nth j (f x) 0).
Proof.
  intros w1 w2 r1 r2 b i H1 H2 Lb Ob Hi. destruct (family_un_one w1 r1 b i H1 (conj Lb Ob) Hi) as (f1 & E1 & K1).
  assert (Hi1 : (i mod 4 < 4)%nat) by (apply Nat.mod_upper_bound; lia).
  assert (Hi2 : (i / 4 < 4)%nat) by (apply Nat.div_lt_upper_bound; lia).
  assert (HD : forall c, (c < 4)%nat -> (antidiagonal (fun _ c => (antidiagonal (single (i mod 4) (i / 4)) c =? 1)%nat) c <= 1)%nat)
    by (intros c Hc; rewrite (proj2 (second_diagonal _ _ c Hi1 Hi2 Hc)); apply le_n).
  destruct (family_unround w2 r2 _ _ f1 H2 HD E1 K1) as (f2 & E2 & _ & K2).
  exists (fun x => Spec.Aes.output_of_state (f2 x)). split; [exact E2|]. intros j Hj.
  assert (Hr : (j mod 4 < 4)%nat) by (apply Nat.mod_upper_bound; lia).
  assert (Hc : (j / 4 < 4)%nat) by (apply Nat.div_lt_upper_bound; lia).
  specialize (K2 (j mod 4)%nat (j / 4)%nat Hr Hc). cbv beta in K2.
  rewrite (proj2 (second_diagonal _ _ _ Hi1 Hi2 Hc)) in K2. cbn [Nat.eqb] in K2. apply runs_once.
  refine (runs_ext _ _ _ K2). intros x _. symmetry. apply output_nth, Hj.
Qed.
Print Assumptions C92_two_rounds_back.

Theorem C92_three_rounds_back : forall w1 w2 w3 r1 r2 r3 b i,
  (r1 + 1) * 4 <= N.of_nat (length w1) -> (r2 + 1) * 4 <= N.of_nat (length w2) -> (r3 + 1) * 4 <= N.of_nat (length w3) ->
  length b = 16%nat -> octets b -> (i < 16)%nat ->
  exists f, (forall x, x < 256 ->
      (let* y := (let* y := unround_bytes w1 r1 (put b i x) in unround_bytes w2 r2 y) in unround_bytes w3 r3 y) = Ret (f x)) /\
    sum256 f = repeat 0 16.
Proof.
  intros w1 w2 w3 r1 r2 r3 b i H1 H2 H3 Lb Ob Hi. destruct (family_un_one w1 r1 b i H1 (conj Lb Ob) Hi) as (f1 & E1 & K1).
  assert (Hi1 : (i mod 4 < 4)%nat) by (apply Nat.mod_upper_bound; lia).
  assert (Hi2 : (i / 4 < 4)%nat) by (apply Nat.div_lt_upper_bound; lia).
  assert (HD : forall c, (c < 4)%nat -> (antidiagonal (fun _ c => (antidiagonal (single (i mod 4) (i / 4)) c =? 1)%nat) c <= 1)%nat)
    by (intros c Hc; rewrite (proj2 (second_diagonal _ _ c Hi1 Hi2 Hc)); apply le_n).
  destruct (family_unround w2 r2 _ _ f1 H2 HD E1 K1) as (f2 & E2 & K2).
  assert (F : kinds full f2).
  { refine (kinds_ext _ _ _ _ K2). intros r c Hr Hc. rewrite (proj2 (second_diagonal _ _ c Hi1 Hi2 Hc)). reflexivity. }
  destruct (round_slice w3 r3 H3) as (k & Ek & Hk).
  exists (fun x => Spec.Aes.output_of_state (unrnd k (f2 x))). split.
  - intros x Hx. rewrite (E2 x Hx). cbn [bind]. pose proof (proj1 K2 x Hx) as W.
    rewrite (unround_bytes_ok w3 r3 k) by (exact Ek || exact Hk || apply is16_output, W).
    rewrite input_of_output by exact W. reflexivity.
  - apply (sum_zero (fun x => unrnd k (f2 x))); [reflexivity|]. apply unround_sum, F.
Qed.
Print Assumptions C92_three_rounds_back.

(** Under the key of FIPS-197, appendix B: the sums after three and after four rounds of
    the 256 states that differ in their sixth byte.  The fourth round hides the
    property. *)
Example C92_example :
  let key := [0x2b; 0x7e; 0x15; 0x16; 0x28; 0xae; 0xd2; 0xa6; 0xab; 0xf7; 0x15; 0x88; 0x09; 0xcf; 0x4f; 0x3c] in
  let run w n := sum256 (fun x => match for_range 1 n (round_bytes w) (put (repeat 7 16) 5 x) with Ret y => y | _ => [] end) in
  (let* w := expand_key key 10 in Ret (run w 4, run w 5)) =
  Ret (repeat 0 16, [168; 49; 204; 127; 228; 2; 28; 210; 94; 235; 182; 128; 236; 15; 117; 167]).
Proof. vm_compute. reflexivity. Qed.
