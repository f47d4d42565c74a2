(** C83: the inputs on which HMac::new, pbkdf2_sha256 and Scrypt::derive panic. *)
From Coq Require Import NArith List Lia.
From Verif Require Import Rust.
From Verif.Model Require Import Scrypt Hmac Pbkdf2.
From Verif.Spec Require Import Octets.
From Verif.Proofs Require Base Scrypt Pbkdf2.
From Verif.Proofs Require Import Panics.
Import ListNotations.
Local Open Scope N_scope.

Theorem C83_hmac_new : forall T key, octets key ->
  hmac_new T key = Panic <-> overflow_checks T = true /\ usize_mod T <= 8 * len key.
Proof. intros T key. apply hmac_new_panics. Qed.
Print Assumptions C83_hmac_new.

Theorem C83_pbkdf2 : forall T P S c out, octets P -> octets S -> len out <= isize_max T ->
  pbkdf2_sha256 T P S c out = Panic <->
  out <> [] /\ overflow_checks T = true /\
  (usize_mod T <= 8 * len P \/ usize_mod T <= 8 * (len S + 68)).
Proof.
  intros T P S c out HP HS Hout. unfold len at 1 2. destruct out as [|a out].
  { rewrite pbkdf2_nil. split; [discriminate|intros [H _]; contradiction]. }
  destruct (overflow_checks T) eqn:HT.
  - destruct (pbkdf2_fit_dec T P S) as [Hf|Hf].
    + destruct (pbkdf2_returns T P S c (a :: out) HP HS (or_intror Hf) Hout) as (o & -> & _).
      destruct Hf. split; [discriminate|]. intros (_ & _ & H'). lia.
    + rewrite pbkdf2_panics; try assumption; [|discriminate]. unfold Proofs.Pbkdf2.fits in Hf.
      split; [|reflexivity]. intros _. split; [discriminate|]. split; [reflexivity|]. lia.
  - destruct (pbkdf2_returns T P S c (a :: out) HP HS (or_introl HT) Hout) as (o & -> & _).
    split; [discriminate|intros (_ & H & _); discriminate].
Qed.
Print Assumptions C83_pbkdf2.

(** A call that does not panic fills the buffer. *)
Theorem C83_pbkdf2_returns : forall T P S c out, octets P -> octets S -> len out <= isize_max T ->
  pbkdf2_sha256 T P S c out <> Panic ->
  exists o, pbkdf2_sha256 T P S c out = Ret o /\ length o = length out.
Proof.
  intros T P S c out HP HS Hout Hn. destruct out as [|a out]; [rewrite pbkdf2_nil; exists []; split; reflexivity|].
  assert (H : overflow_checks T = false \/ Proofs.Pbkdf2.fits T P S).
  { destruct (overflow_checks T) eqn:HT; [right|left; reflexivity].
    destruct (pbkdf2_fit_dec T P S) as [Hf|Hf]; [exact Hf|]. exfalso. apply Hn.
    apply pbkdf2_panics; try assumption. discriminate. }
  destruct (pbkdf2_returns T P S c (a :: out) HP HS H Hout) as (o & E & Hl & _). exists o. split; assumption.
Qed.
Print Assumptions C83_pbkdf2_returns.

(** Builds with overflow checks. *)
Theorem C83_scrypt_checked : forall T r k p P S out, overflow_checks T = true ->
  1 <= r -> 2 ^ k < usize_mod T -> 1 <= p -> octets P -> octets S -> len out <= isize_max T ->
  scrypt_derive T (scrypt_new r (2 ^ k) p) P S out = Panic <->
  isize_max T < p * 128 * r \/
  usize_mod T <= 8 * len P \/ usize_mod T <= 8 * (len S + 68) \/
  isize_max T < vec_size T * 2 ^ k \/
  out <> [] /\ usize_mod T <= 8 * (p * 128 * r + 68).
Proof.
  intros T r k p P S out HT Hr Hk Hp HP HS Hout.
  assert (Hacc : Proofs.Scrypt.accepted (scrypt_new r (2 ^ k) p)).
  { split; [exact Hr|]. pose proof (Proofs.Base.pow2_pos k). split; [cbn [scrypt_new sn]; lia|].
    split; [exists k; reflexivity|exact Hp]. }
  pose proof (derive_checked T (scrypt_new r (2 ^ k) p) P S out HT Hacc Hk HP HS Hout) as H.
  unfold stops in H. rewrite HT in H. cbv zeta in H. cbn [scrypt_new sr sn sp] in H.
  change (N.of_nat (length P)) with (len P) in H. change (N.of_nat (length S)) with (len S) in H.
  destruct H as [[Hs E]|[Hs (o & E & _)]]; [tauto|]. rewrite E. split; [discriminate|contradiction].
Qed.
Print Assumptions C83_scrypt_checked.

(** Builds without them: the products wrap. *)
Theorem C83_scrypt_wrapping : forall T r k p P S out, overflow_checks T = false ->
  1 <= r < usize_mod T -> 2 ^ k < usize_mod T -> 1 <= p -> octets P -> octets S -> len out <= isize_max T ->
  let vector := (p * 128 * r) mod usize_mod T in
  let lane := (128 * r) mod usize_mod T in
  scrypt_derive T (scrypt_new r (2 ^ k) p) P S out = Panic <->
  lane = 0 \/ isize_max T < vector \/
  lane <= vector /\ (usize_mod T <= 128 * r \/ isize_max T < vec_size T * 2 ^ k).
Proof.
  intros T r k p P S out HT [Hr Hr'] Hk Hp HP HS Hout.
  assert (Hacc : Proofs.Scrypt.accepted (scrypt_new r (2 ^ k) p)).
  { split; [exact Hr|]. pose proof (Proofs.Base.pow2_pos k). split; [cbn [scrypt_new sn]; lia|].
    split; [exists k; reflexivity|exact Hp]. }
  pose proof (derive_unchecked T (scrypt_new r (2 ^ k) p) P S out HT Hacc Hr' Hk HP HS Hout) as H.
  unfold stops in H. rewrite HT in H. cbv zeta in *. cbn [scrypt_new sr sn sp] in H.
  destruct H as [[Hs E]|[Hs (o & E & _)]]; [tauto|]. rewrite E. split; [discriminate|contradiction].
Qed.
Print Assumptions C83_scrypt_wrapping.

(** A call that does not panic returns: an error, the buffer untouched, or the
    buffer filled. *)
Theorem C83_scrypt_returns : forall T r n p P S out,
  r < usize_mod T -> n < usize_mod T -> octets P -> octets S -> len out <= isize_max T ->
  scrypt_derive T (scrypt_new r n p) P S out <> Panic ->
  exists o, length o = length out /\
  (scrypt_derive T (scrypt_new r n p) P S out = Ret (Ok tt, o) \/
   exists e, scrypt_derive T (scrypt_new r n p) P S out = Ret (Err e, out)).
Proof.
  intros T r n p P S out Hr Hn HP HS Hout Hp.
  assert (Hc : Proofs.Scrypt.accepted (scrypt_new r n p) \/
    exists e, scrypt_derive T (scrypt_new r n p) P S out = Ret (Err e, out)).
  { unfold scrypt_derive, Proofs.Scrypt.accepted. cbn [scrypt_new sr sn sp].
    destruct (N.ltb_spec r 1); [right; exists RIsTooSmall; reflexivity|].
    destruct (N.ltb_spec n 1); [right; exists NIsTooSmall; reflexivity|].
    rewrite Proofs.Base.usub_ok by lia. cbn [bind].
    destruct (N.eqb_spec (N.land (n - 1) n) 0) as [Hl|]; cbn [negb]; [|right; exists NIsNotAPowerOfTwo; reflexivity].
    destruct (N.ltb_spec p 1); [right; exists PIsTooSmall; reflexivity|].
    left. repeat split; try assumption. apply Proofs.Scrypt.land_pred_zero; assumption. }
  destruct Hc as [Hacc|He]; [|exists out; split; [reflexivity|right; exact He]].
  assert (H : (stops T (scrypt_new r n p) P S out /\ scrypt_derive T (scrypt_new r n p) P S out = Panic) \/
    (~ stops T (scrypt_new r n p) P S out /\
     exists o, scrypt_derive T (scrypt_new r n p) P S out = Ret (Ok tt, o) /\ length o = length out)).
  { destruct (overflow_checks T) eqn:HT; [apply derive_checked|apply derive_unchecked]; assumption. }
  destruct H as [[_ E]|[_ (o & E & Hl)]]; [contradiction|]. exists o. split; [exact Hl|left; exact E].
Qed.
Print Assumptions C83_scrypt_returns.

(** Half a gigabyte of password is too much on 32 bits, one byte less is not. *)
Example C83_example_password :
  pbkdf2_sha256 (mkTarget W32 true) (repeat 7 (N.to_nat (2 ^ 29))) [1] 1 [5; 6] = Panic /\
  pbkdf2_sha256 (mkTarget W32 true) (repeat 7 (N.to_nat (2 ^ 29 - 1))) [1] 1 [5; 6] <> Panic /\
  pbkdf2_sha256 (mkTarget W32 true) (repeat 7 (N.to_nat (2 ^ 29))) [1] 1 [] <> Panic.
Proof.
  assert (H1 : octets [1]) by (constructor; [reflexivity|constructor]).
  assert (Ho : len [5; 6] <= isize_max (mkTarget W32 true)) by (vm_compute; discriminate).
  assert (Hk : forall n, octets (repeat 7 n)) by (intros n; apply Proofs.Base.octets_repeat; reflexivity).
  split; [|split].
  - apply C83_pbkdf2; try assumption; [apply Hk|]. split; [discriminate|]. split; [reflexivity|].
    left. rewrite Proofs.Base.len_repeat, N2Nat.id. vm_compute. discriminate.
  - rewrite (C83_pbkdf2 _ _ _ _ _ (Hk _) H1 Ho), Proofs.Base.len_repeat, N2Nat.id.
    intros (_ & _ & [H|H]); revert H; vm_compute; congruence.
  - rewrite (C83_pbkdf2 _ _ _ _ _ (Hk _) H1) by (vm_compute; discriminate). intros [H _]. contradiction.
Qed.
(** 32 bits, overflow checks, r = 2^22, N = p = 1, empty password and salt: the
    half gigabyte that is mixed can be allocated and mixed; only the last PBKDF2 call
    cannot count its bits. *)
Example C83_example_late out : len out <= isize_max (mkTarget W32 true) ->
  scrypt_derive (mkTarget W32 true) (scrypt_new (2 ^ 22) 1 1) [] [] out = Panic <-> out <> [].
Proof.
  intros H. etransitivity.
  - apply (C83_scrypt_checked (mkTarget W32 true) (2 ^ 22) 0 1 [] [] out); try reflexivity; try assumption;
      try (vm_compute; discriminate); constructor.
  - split; [|intros Ho; right; right; right; right; split; [exact Ho|vm_compute; discriminate]].
    intros [Hx|[Hx|[Hx|[Hx|[Hx _]]]]]; [| | | |exact Hx]; exfalso; revert Hx; vm_compute; congruence.
Qed.
(** 64 bits, wrapping, r = 2^56, p = 2, N = 2: no panic; the lane is larger than the
    wrapped (empty) vector, so nothing is mixed.  With r = 2^57 + 1, p = 1 a lane wraps to
    128 bytes and the call panics. *)
Example C83_example_wrapping :
  scrypt_derive (mkTarget W64 false) (scrypt_new (2 ^ 56) 2 2) [1] [2] [0] <> Panic /\
  scrypt_derive (mkTarget W64 false) (scrypt_new (2 ^ 57 + 1) 2 1) [1] [2] [0] = Panic.
Proof.
  assert (H1 : octets [1]) by (constructor; [reflexivity|constructor]).
  assert (H2 : octets [2]) by (constructor; [reflexivity|constructor]).
  assert (Ho : len [0] <= isize_max (mkTarget W64 false)) by (vm_compute; discriminate).
  split.
  - intros E. apply (C83_scrypt_wrapping (mkTarget W64 false) (2 ^ 56) 1 2 [1] [2] [0]) in E; try assumption;
      try reflexivity; try (split; vm_compute; congruence); try (vm_compute; congruence).
    destruct E as [Hx|[Hx|[Hx _]]]; revert Hx; vm_compute; congruence.
  - apply (C83_scrypt_wrapping (mkTarget W64 false) (2 ^ 57 + 1) 1 1 [1] [2] [0]); try assumption;
      try reflexivity; try (split; vm_compute; congruence); try (vm_compute; congruence).
    right. right. split; [vm_compute; congruence|left; vm_compute; congruence].
Qed.
