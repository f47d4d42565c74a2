(** C87: how many messages and passwords share a digest or a key, and how one
    collision per block multiplies. *)
From Coq Require Import ZArith NArith List Arith Lia Bool ZifyBool ZifyNat ZifyN.
From Verif Require Import Rust Calls.
From Verif.Model Require Import Sha256 Hmac Pbkdf2 Scrypt.
From Verif.Spec Require Octets Sha256 Hasher Hmac Collision Counting Multi.
From Verif.Proofs Require Import Base Sha256Core Sha256 Sha256Main.
From Verif.Proofs Require Hmac Collision Count Multi.
From Verif.Props Require Import Collision.
From Verif.Props Require Pbkdf2 Derived.
Import Spec.Octets Spec.Counting Spec.Multi.
Import ListNotations.
Local Open Scope N_scope.
Ltac Zify.zify_post_hook ::= Z.div_mod_to_equations.

(** For every length there is a digest that at least 256^(L-32) messages of that
    length have. *)
Theorem C87_crowded_digest : forall T L, 8 * N.of_nat L < usize_mod T ->
  exists d n, counted L (fun m => hash_of T [m] d) n /\ 256 ^ N.of_nat (L - 32) <= n.
Proof.
  intros T L HL.
  destruct (Multi.crowded_words Spec.Sha256.sha256 32 L (256 ^ N.of_nat (L - 32) - 1)) as (y & n & _ & _ & Hc & Hn).
  - intros w Hw Ho. split; [apply Sha256Main.spec_sha256_length|apply Sha256Main.octets_spec_sha256].
  - destruct (le_lt_dec 32 L) as [H|H].
    + replace L with (32 + (L - 32))%nat at 2 by lia. rewrite Nat2N.inj_add, N.pow_add_r.
      assert (256 ^ N.of_nat (L - 32) <> 0) by (apply N.pow_nonzero; discriminate).
      assert (256 ^ N.of_nat 32 <> 0) by (apply N.pow_nonzero; discriminate).
      generalize dependent (256 ^ N.of_nat 32). generalize dependent (256 ^ N.of_nat (L - 32)). intros. nia.
    + replace (L - 32)%nat with 0%nat by lia. change (256 ^ N.of_nat 0 - 1) with 0. rewrite N.mul_0_r.
      apply N.neq_0_lt_0, N.pow_nonzero. discriminate.
  - exists y, n. split; [|lia]. destruct Hc as (l & H1 & H2 & H3). exists l. split; [exact H1|]. split; [|exact H3].
    intros b. rewrite H2. split; intros (Hl & Ho & E); (split; [exact Hl|]; split; [exact Ho|]).
    + apply hash_of_spec; cbn [concat]; rewrite app_nil_r; [exact Ho|rewrite Hl; exact HL|]. symmetry. exact E.
    + apply hash_of_spec in E; cbn [concat] in *; rewrite ?app_nil_r in *; [symmetry; exact E|exact Ho|rewrite Hl; exact HL].
Qed.
Print Assumptions C87_crowded_digest.

(** From a way to find one collision per chaining value, [k] uses of it give 2^k
    different messages with the same digest, behind any beginning of whole blocks
    and before any end. *)
Theorem C87_collisions_multiply : forall T find p k s,
  finds find -> octets p -> octets s -> (length p mod 64 = 0)%nat ->
  8 * N.of_nat (length p + 64 * k + length s) < usize_mod T ->
  let choice c := choose c (pairs find (behind p) k) in
  (exists d, forall c, length c = k -> hash_of T [p; choice c; s] d) /\
  (forall c c', length c = k -> length c' = k -> p ++ choice c ++ s = p ++ choice c' ++ s -> c = c').
Proof.
  intros T find p k s Hf Hp Hs Hm Hl choice.
  assert (Hb : Spec.Collision.chaining (behind p)).
  { rewrite Multi.behind_absorb by exact Hp. apply absorb_ok. split; [apply H0_length|apply words_H0]. }
  assert (Hc : forall c, length c = k -> length (choice c) = (64 * k)%nat /\ octets (choice c)).
  { intros c Hc. apply (Multi.choose_absorb find Hf k (behind p) c Hb Hc). }
  split.
  - exists (Spec.Sha256.sha256 (p ++ choice (repeat true k) ++ s)). intros c E.
    destruct (Hc c E) as [L O]. destruct (Hc (repeat true k) (repeat_length _ _)) as [L' O'].
    apply hash_of_spec; cbn [concat]; rewrite app_nil_r.
    + apply octets_app. split; [exact Hp|]. apply octets_app. split; assumption.
    + rewrite !app_length, L. rewrite Nat.add_assoc. exact Hl.
    + rewrite !app_assoc. rewrite !Multi.sha256_whole by (rewrite app_length, ?L, ?L'; lia).
      rewrite !app_length, L, L'. rewrite !(absorb_app _ p _ Hm).
      rewrite <- (Multi.behind_absorb p Hp).
      assert (Ea : absorb (behind p) (choice c) = absorb (behind p) (choice (repeat true k))).
      { apply (Multi.choose_absorb find Hf k (behind p) c Hb E). }
      rewrite Ea. reflexivity.
  - intros c c' E E' H. apply app_inv_head, app_inv_tail in H.
    exact (Multi.choose_inj find Hf k (behind p) c c' Hb E E' H).
Qed.
Print Assumptions C87_collisions_multiply.

(** Such a way exists, so the theorem above speaks about something. *)
Theorem C87_finder_exists : exists find, finds find.
Proof.
  exists (Multi.search (Count.words 64)). apply Multi.search_finds.
  - intros b. apply Count.words_in.
  - apply Count.words_nodup.
  - rewrite Count.words_length. reflexivity.
Qed.
Print Assumptions C87_finder_exists.

(** Refuted: different passwords of one length derive different keys.  For every
    length above 64 there are at least 256^(L-32) passwords of that length that give
    one and the same HMAC object, and so one PBKDF2 key and one scrypt key, for
    every salt, count, parameters and output length. *)
Theorem C87_passwords_of_one_length_refuted : forall T L, (64 < L)%nat -> 8 * N.of_nat L < usize_mod T ->
  exists Ps, NoDup Ps /\ 256 ^ N.of_nat (L - 32) <= N.of_nat (length Ps) /\
    Forall (fun P => length P = L /\ octets P) Ps /\
    forall P P', In P Ps -> In P' Ps ->
      hmac_new T P = hmac_new T P' /\
      (forall S c out, pbkdf2_sha256 T P S c out = pbkdf2_sha256 T P' S c out) /\
      (forall s S out, scrypt_derive T s P S out = scrypt_derive T s P' S out).
Proof.
  intros T L HL Hu. destruct (C87_crowded_digest T L Hu) as (d & n & (l & H1 & H2 & H3) & Hn).
  exists l. split; [exact H1|]. split; [rewrite H3; exact Hn|]. split.
  { apply Forall_forall. intros P HP. apply H2 in HP. tauto. }
  assert (Hd : forall P, In P l -> length P = L /\ octets P /\ Spec.Sha256.sha256 P = d).
  { intros P HP. apply H2 in HP. destruct HP as (A & B & C). split; [exact A|]. split; [exact B|].
    apply hash_of_spec in C; cbn [concat] in *; rewrite ?app_nil_r in *; [symmetry; exact C|exact B|rewrite A; exact Hu]. }
  intros P P' HP HP'. destruct (Hd P HP) as (A & B & C). destruct (Hd P' HP') as (A' & B' & C').
  split; [|split].
  - rewrite (Hmac.hmac_new_long T P), (Hmac.hmac_new_long T P'); try assumption; try lia. rewrite C, C'. reflexivity.
  - intros S c out. rewrite (Pbkdf2.C15_long_password T P), (Pbkdf2.C15_long_password T P'); try assumption; try lia. rewrite C, C'. reflexivity.
  - intros s S out. rewrite (Derived.C68_long_passphrase T s P), (Derived.C68_long_passphrase T s P'); try assumption; try lia. rewrite C, C'. reflexivity.
Qed.
Print Assumptions C87_passwords_of_one_length_refuted.

(** Passwords of 65 octets on a 32-bit target: 2^264 of them with one key; and the
    eight choices out of three pairs are in the order of the pairs. *)
Example C87_example :
  (64 < 65)%nat /\ 8 * N.of_nat 65 < usize_mod (mkTarget W32 true) /\
  256 ^ N.of_nat (65 - 32) = 2 ^ 264 /\
  choose [true; false; true] [([1], [2]); ([3], [4]); ([5], [6])] = [1; 4; 5] /\
  (length (repeat 7 128) mod 64 = 0)%nat.
Proof. repeat split; try reflexivity. lia. Qed.
