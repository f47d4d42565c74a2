(** A build with overflow checks for a narrow target is the most cautious one:
    whatever it returns, every build for a target at least as wide returns. *)
From Coq Require Import ZArith NArith List Arith Lia Bool ZifyBool ZifyNat ZifyN.
From Verif Require Import Rust Calls.
From Verif.Model Require Import Sha256 Hmac Pbkdf2 Salsa20 Scrypt Aes Pkcs7 AesCbc.
From Verif.Spec Require Hasher Stream.
From Verif.Proofs Require Import Base Bits.
From Verif.Proofs Require Scrypt.
Import ListNotations.
Local Open Scope N_scope.

Definition safer (T T' : target) : Prop :=
  overflow_checks T = true /\ usize_bits T <= usize_bits T'.

Definition refines {A} (m m' : res A) : Prop := forall x, m = Ret x -> m' = Ret x.

Lemma rf_refl {A} (m : res A) : refines m m.
Proof. intros x H; exact H. Qed.
Lemma rf_bind {A B} (m m' : res A) (f f' : A -> res B) :
  refines m m' -> (forall a, m = Ret a -> refines (f a) (f' a)) -> refines (bind m f) (bind m' f').
Proof.
  intros Hm Hf x H. destruct m as [a| |]; try discriminate. rewrite (Hm a eq_refl). exact (Hf a eq_refl x H).
Qed.
Lemma rf_if {A} (c : bool) (x x' y y' : res A) :
  refines x x' -> refines y y' -> refines (if c then x else y) (if c then x' else y').
Proof. destruct c; auto. Qed.

Create HintDb rf.
Section Targets.
  Variables (T T' : target).
  Hypothesis (HT : safer T T').

  Lemma usize_mod_le : usize_mod T <= usize_mod T'.
  Proof. unfold usize_mod. apply N.pow_le_mono_r; [discriminate|apply HT]. Qed.
  Lemma rf_fit x : refines (fit_usize T x) (fit_usize T' x).
  Proof.
    destruct HT as [Hc _]. pose proof usize_mod_le. unfold fit_usize. rewrite Hc.
    destruct (N.ltb_spec x (usize_mod T)), (N.ltb_spec x (usize_mod T')); try lia;
      intros y E; try discriminate; exact E.
  Qed.
  Lemma rf_uadd a b : refines (uadd T a b) (uadd T' a b).
  Proof. apply rf_fit. Qed.
  Lemma rf_umul a b : refines (umul T a b) (umul T' a b).
  Proof. apply rf_fit. Qed.
  Lemma rf_usub a b : refines (usub T a b) (usub T' a b).
  Proof. destruct HT as [Hc _]. unfold usub. rewrite Hc. destruct (b <=? a); intros y E; [exact E|discriminate]. Qed.

  Lemma wider : width T = width T' \/ width T = W32 /\ width T' = W64.
  Proof.
    destruct HT as [_ H]. unfold usize_bits in H. destruct (width T), (width T'); auto. exfalso; lia.
  Qed.
  (** The limit grows more than the size of a vector does. *)
  Lemma rf_alloc_vec n : refines (alloc T (vec_size T) n) (alloc T' (vec_size T') n).
  Proof.
    unfold alloc, vec_size, isize_max, usize_bits.
    destruct wider as [-> | [-> ->]]; [apply rf_refl|].
    change (3 * (32 / 8)) with 12. change (3 * (64 / 8)) with 24.
    change (2 ^ (32 - 1) - 1) with 2147483647. change (2 ^ (64 - 1) - 1) with 9223372036854775807.
    destruct (N.leb_spec (12 * n) 2147483647), (N.leb_spec (24 * n) 9223372036854775807); try lia;
      intros y E; try discriminate; exact E.
  Qed.
  Lemma rf_alloc k n : refines (alloc T k n) (alloc T' k n).
  Proof.
    unfold alloc, isize_max, usize_bits.
    destruct wider as [-> | [-> ->]]; [apply rf_refl|].
    change (2 ^ (32 - 1) - 1) with 2147483647. change (2 ^ (64 - 1) - 1) with 9223372036854775807.
    destruct (N.leb_spec (k * n) 2147483647), (N.leb_spec (k * n) 9223372036854775807); try lia;
      intros y E; try discriminate; exact E.
  Qed.

  Lemma rf_with_slice {A} (l : list A) a b f f' :
    (forall s, refines (f s) (f' s)) -> refines (with_slice l a b f) (with_slice l a b f').
  Proof.
    intros Hf. apply rf_bind; [apply rf_refl|]. intros s _. apply rf_bind; [apply Hf|]. intros; apply rf_refl.
  Qed.
  Lemma rf_for_n {St} n : forall i (b b' : N -> St -> res St) s,
    (forall i s, refines (b i s) (b' i s)) -> refines (for_n n i b s) (for_n n i b' s).
  Proof.
    induction n as [|n IH]; intros i b b' s H; cbn [for_n]; [apply rf_refl|].
    apply rf_bind; [apply H|]. intros s' _. apply IH, H.
  Qed.
  Lemma rf_for_range {St} lo hi (b b' : N -> St -> res St) s :
    (forall i s, refines (b i s) (b' i s)) -> refines (for_range lo hi b s) (for_range lo hi b' s).
  Proof. apply rf_for_n. Qed.
  Lemma rf_for_range_incl {St} lo hi (b b' : N -> St -> res St) s :
    (forall i s, refines (b i s) (b' i s)) -> refines (for_range_incl lo hi b s) (for_range_incl lo hi b' s).
  Proof. apply rf_for_n. Qed.
  Lemma rf_for_each {A St} l : forall (b b' : A -> St -> res St) s,
    (forall i s, refines (b i s) (b' i s)) -> refines (for_each l b s) (for_each l b' s).
  Proof.
    induction l as [|x l IH]; intros b b' s H; cbn [for_each]; [apply rf_refl|].
    apply rf_bind; [apply H|]. intros s' _. apply IH, H.
  Qed.
  Lemma rf_map_res {A B} (f f' : A -> res B) l :
    (forall x, refines (f x) (f' x)) -> refines (map_res f l) (map_res f' l).
  Proof.
    intros H. induction l as [|x l IH]; cbn [map_res]; [apply rf_refl|].
    apply rf_bind; [apply H|]. intros y _. apply rf_bind; [exact IH|]. intros; apply rf_refl.
  Qed.
  Lemma rf_while {St} fuel (c : St -> bool) (b b' : St -> res St) :
    (forall s, refines (b s) (b' s)) -> forall s, refines (while_loop fuel c b s) (while_loop fuel c b' s).
  Proof.
    intros H. induction fuel as [|fuel IH]; intros s; cbn [while_loop]; apply rf_if; try apply rf_refl.
    apply rf_bind; [apply H|]. intros; apply IH.
  Qed.

  Ltac rf1 :=
    first
      [ apply rf_refl
      | apply rf_uadd | apply rf_umul | apply rf_usub | apply rf_alloc_vec | apply rf_alloc
      | solve [eauto with rf]
      | apply rf_bind; [|intros ? ?]
      | apply rf_if
      | apply rf_for_each; intros ? ?
      | apply rf_for_range; intros ? ?
      | apply rf_for_range_incl; intros ? ?
      | apply rf_map_res; intros ?
      | apply rf_while; intros ?
      | apply rf_with_slice; intros ?
      | match goal with
        | |- context [match ?x with pair _ _ => _ end] => destruct x
        | |- context [match ?x with Ok _ => _ | Err _ => _ end] => destruct x
        | |- context [match ?x with Some _ => _ | None => _ end] => destruct x
        end ].
  Ltac rf := repeat rf1.

  Lemma update_byte_rf b s : refines (update_byte T b s) (update_byte T' b s).
  Proof. unfold update_byte. rf. Qed.
  Lemma sha256_update_rf s d : refines (sha256_update T s d) (sha256_update T' s d).
  Proof. apply rf_for_each; intros; apply update_byte_rf. Qed.
  Hint Resolve sha256_update_rf : rf.
  Lemma sha256_digest_rf s : refines (sha256_digest T s) (sha256_digest T' s).
  Proof. unfold sha256_digest. rf. Qed.
  Hint Resolve sha256_digest_rf : rf.

  Lemma hmac_new_rf k : refines (hmac_new T k) (hmac_new T' k).
  Proof.
    unfold hmac_new. generalize 2%nat as n. intros n. revert k.
    induction n as [|n IH]; intros k; cbn [hmac_new_fuel]; rf.
  Qed.
  Hint Resolve hmac_new_rf : rf.
  Lemma hmac_update_rf m d : refines (hmac_update T m d) (hmac_update T' m d).
  Proof. unfold hmac_update. rf. Qed.
  Lemma hmac_digest_rf m : refines (hmac_digest T m) (hmac_digest T' m).
  Proof. unfold hmac_digest. rf. Qed.
  Hint Resolve hmac_update_rf hmac_digest_rf : rf.

  Lemma pbkdf2_block_rf P S c i : refines (pbkdf2_block T P S c i) (pbkdf2_block T' P S c i).
  Proof. unfold pbkdf2_block. rf. Qed.
  Hint Resolve pbkdf2_block_rf : rf.
  Lemma pbkdf2_sha256_rf P S c o : refines (pbkdf2_sha256 T P S c o) (pbkdf2_sha256 T' P S c o).
  Proof. unfold pbkdf2_sha256. rf. Qed.
  Hint Resolve pbkdf2_sha256_rf : rf.

  Lemma integerify_rf x : refines (integerify T x) (integerify T' x).
  Proof. unfold integerify. rf. Qed.
  Lemma block_mix_rf s b : refines (block_mix T s b) (block_mix T' s b).
  Proof. unfold block_mix. rf. Qed.
  Lemma split_blocks_rf s b : refines (split_blocks T s b) (split_blocks T' s b).
  Proof. unfold split_blocks. rf. Qed.
  Hint Resolve integerify_rf block_mix_rf split_blocks_rf : rf.

  (** Truncation to [usize] and remainder by a power of two. *)
  Lemma trunc_rem k j : 2 ^ j < usize_mod T ->
    as_usize T k mod 2 ^ j = as_usize T' k mod 2 ^ j.
  Proof.
    intros Hj. pose proof usize_mod_le as Hle. unfold as_usize, usize_mod in *.
    assert (L : forall w, j <= w -> k mod 2 ^ w mod 2 ^ j = k mod 2 ^ j).
    { intros w Hw. apply N.bits_inj. intros i.
      destruct (N.lt_ge_cases i j) as [Hi|Hi].
      - rewrite !N.mod_pow2_bits_low by lia. reflexivity.
      - rewrite !N.mod_pow2_bits_high by lia. reflexivity. }
    apply N.pow_lt_mono_r_iff in Hj; [|lia]. destruct HT as [_ Hb].
    rewrite !L by lia. reflexivity.
  Qed.
  Lemma ro_mix_rf s b j : sn s = 2 ^ j -> refines (ro_mix T s b) (ro_mix T' s b).
  Proof.
    intros Hs. unfold ro_mix. apply rf_bind; [apply rf_alloc_vec|]. intros [] Ha.
    assert (Hlt : 2 ^ j < usize_mod T).
    { rewrite <- Hs. pose proof (isize_usize T). unfold alloc in Ha.
      destruct (N.leb_spec (vec_size T * sn s) (isize_max T)); [|discriminate].
      assert (1 <= vec_size T) by (unfold vec_size, usize_bits; destruct (width T); vm_compute; discriminate).
      nia. }
    apply rf_bind; [rf|]. intros [x v] _.
    apply rf_for_range. intros _ y. apply rf_bind; [apply integerify_rf|]. intros k _.
    rewrite Hs. unfold urem. rewrite (trunc_rem k j Hlt). rf.
  Qed.
  Lemma scrypt_derive_rf s P S o : refines (scrypt_derive T s P S o) (scrypt_derive T' s P S o).
  Proof.
    unfold scrypt_derive. apply rf_if; [apply rf_refl|].
    destruct (N.ltb_spec (sn s) 1) as [|Hn]; [apply rf_refl|].
    apply rf_bind; [apply rf_usub|]. intros n1 E1. rewrite usub_ok in E1 by lia. injection E1 as <-.
    destruct (N.eqb_spec (N.land (sn s - 1) (sn s)) 0) as [E|E]; cbn [negb]; [|apply rf_refl].
    destruct (Proofs.Scrypt.land_pred_zero (sn s) Hn E) as [j Hj].
    apply rf_if; [apply rf_refl|].
    repeat (apply rf_bind; [solve [rf]|]; intros ? ?).
    apply rf_bind; [apply rf_map_res; intros; eapply ro_mix_rf, Hj|]. intros ? ?. rf.
  Qed.

  Lemma pad_new_rf k : refines (pad_new T k) (pad_new T' k).
  Proof. unfold pad_new. rf. Qed.
  Lemma pad_write_rf p b : refines (pad_write T p b) (pad_write T' p b).
  Proof. unfold pad_write. rf. Qed.
  Lemma pad_flush_rf p : refines (pad_flush T p) (pad_flush T' p).
  Proof. unfold pad_flush. rf. Qed.
  Lemma unpad_new_rf k : refines (unpad_new T k) (unpad_new T' k).
  Proof. unfold unpad_new. rf. Qed.
  Lemma unpad_write_rf p b : refines (unpad_write T p b) (unpad_write T' p b).
  Proof. unfold unpad_write. rf. Qed.
  Lemma unpad_flush_rf p : refines (unpad_flush T p) (unpad_flush T' p).
  Proof. unfold unpad_flush. rf. Qed.
  Hint Resolve pad_new_rf pad_write_rf pad_flush_rf unpad_new_rf unpad_write_rf unpad_flush_rf : rf.

  Lemma pad_writes_rf chunks : forall p, refines (pad_writes T p chunks) (pad_writes T' p chunks).
  Proof. induction chunks as [|d ds IH]; intros p; cbn [pad_writes]; rf. Qed.
  Lemma unpad_writes_rf chunks : forall p, refines (unpad_writes T p chunks) (unpad_writes T' p chunks).
  Proof. induction chunks as [|d ds IH]; intros p; cbn [unpad_writes]; rf. Qed.
  Hint Resolve pad_writes_rf unpad_writes_rf : rf.
  Lemma pad_stream_rf k chunks : refines (pad_stream T k chunks) (pad_stream T' k chunks).
  Proof. unfold pad_stream. rf. Qed.
  Lemma unpad_stream_rf k chunks : refines (unpad_stream T k chunks) (unpad_stream T' k chunks).
  Proof. unfold unpad_stream. rf. Qed.

  Lemma cipher_call_rf c x : refines (cipher_call T c x) (cipher_call T' c x).
  Proof. destruct x; unfold cipher_call, cipher_write, cipher_flush; rf. Qed.
  Lemma decipher_call_rf c x : refines (decipher_call T c x) (decipher_call T' c x).
  Proof. destruct x; unfold decipher_call, decipher_write, decipher_flush; rf. Qed.
  Lemma run_calls_rf {S} (f f' : S -> Stream.call -> res (Stream.reply * S)) calls :
    (forall s x, refines (f s x) (f' s x)) -> forall s, refines (run_calls f s calls) (run_calls f' s calls).
  Proof. intros H. induction calls as [|x xs IH]; intros s; cbn [run_calls]; rf. Qed.
  Lemma cipher_run_rf iv calls : refines (cipher_run T iv calls) (cipher_run T' iv calls).
  Proof.
    unfold cipher_run, cipher_new. apply rf_bind; [rf|]. intros c _. apply run_calls_rf. intros. apply cipher_call_rf.
  Qed.
  Lemma decipher_run_rf iv calls : refines (decipher_run T iv calls) (decipher_run T' iv calls).
  Proof.
    unfold decipher_run, decipher_new. apply rf_bind; [rf|]. intros c _.
    apply run_calls_rf. intros. apply decipher_call_rf.
  Qed.

  Lemma sha_run_rf calls : forall s, ~ In None (sha_run T calls s) -> sha_run T' calls s = sha_run T calls s.
  Proof.
    induction calls as [|[d|] cs IH]; intros s Hn; cbn [sha_run] in *; [reflexivity| |].
    - destruct (sha256_update T s d) as [s'| |] eqn:E; [|exfalso; apply Hn; left; reflexivity..].
      rewrite (sha256_update_rf s d s' E). f_equal. apply IH. intros H; apply Hn; right; exact H.
    - destruct (sha256_digest T s) as [[d s']| |] eqn:E; [|exfalso; apply Hn; left; reflexivity..].
      rewrite (sha256_digest_rf s _ E). f_equal. apply IH. intros H; apply Hn; right; exact H.
  Qed.
  Lemma hmac_run_rf calls : forall m, ~ In None (hmac_run T calls m) -> hmac_run T' calls m = hmac_run T calls m.
  Proof.
    induction calls as [|[d|] cs IH]; intros s Hn; cbn [hmac_run] in *; [reflexivity| |].
    - destruct (hmac_update T s d) as [s'| |] eqn:E; [|exfalso; apply Hn; left; reflexivity..].
      rewrite (hmac_update_rf s d s' E). f_equal. apply IH. intros H; apply Hn; right; exact H.
    - destruct (hmac_digest T s) as [[d s']| |] eqn:E; [|exfalso; apply Hn; left; reflexivity..].
      rewrite (hmac_digest_rf s _ E). f_equal. apply IH. intros H; apply Hn; right; exact H.
  Qed.
End Targets.
