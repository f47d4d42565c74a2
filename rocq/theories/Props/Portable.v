(** C66: results that an overflow-checked build gives are given by every build for
    the same or a wider pointer size. *)
From Coq Require Import NArith List Lia.
From Verif Require Import Rust Calls.
From Verif.Model Require Import Sha256 Hmac Pbkdf2 Scrypt Pkcs7 AesCbc.
From Verif.Spec Require Hasher Stream.
From Verif.Proofs Require Portable.
Import ListNotations.
Local Open Scope N_scope.

(** [T] checks for overflow and its pointers are not wider than those of [T']. *)
Definition checked_and_not_wider (T T' : target) : Prop :=
  overflow_checks T = true /\ usize_bits T <= usize_bits T'.

Theorem C66_sha256_portable : forall T T' calls,
  checked_and_not_wider T T' -> ~ In None (sha_run T calls sha256_new) ->
  sha_run T' calls sha256_new = sha_run T calls sha256_new.
Proof. intros T T' calls H. apply Proofs.Portable.sha_run_rf. exact H. Qed.
Print Assumptions C66_sha256_portable.

Theorem C66_hmac_portable : forall T T' key calls m,
  checked_and_not_wider T T' -> hmac_new T key = Ret m -> ~ In None (hmac_run T calls m) ->
  hmac_new T' key = Ret m /\ hmac_run T' calls m = hmac_run T calls m.
Proof.
  intros T T' key calls m H E Hn. split.
  - apply (Proofs.Portable.hmac_new_rf T T' H key m E).
  - apply Proofs.Portable.hmac_run_rf; assumption.
Qed.
Print Assumptions C66_hmac_portable.

Theorem C66_pbkdf2_portable : forall T T' P S c out dk, checked_and_not_wider T T' ->
  pbkdf2_sha256 T P S c out = Ret dk -> pbkdf2_sha256 T' P S c out = Ret dk.
Proof. intros T T' P S c out dk H. apply (Proofs.Portable.pbkdf2_sha256_rf T T' H). Qed.
Print Assumptions C66_pbkdf2_portable.

(** Errors included: a rejection is a result. *)
Theorem C66_scrypt_portable : forall T T' s P S out r out', checked_and_not_wider T T' ->
  scrypt_derive T s P S out = Ret (r, out') -> scrypt_derive T' s P S out = Ret (r, out').
Proof. intros T T' s P S out r out' H. apply (Proofs.Portable.scrypt_derive_rf T T' H). Qed.
Print Assumptions C66_scrypt_portable.

Theorem C66_padding_portable : forall T T' k chunks, checked_and_not_wider T T' ->
  (forall r, pad_stream T k chunks = Ret r -> pad_stream T' k chunks = Ret r) /\
  (forall r, unpad_stream T k chunks = Ret r -> unpad_stream T' k chunks = Ret r).
Proof.
  intros T T' k chunks H. split.
  - apply (Proofs.Portable.pad_stream_rf T T' H).
  - apply (Proofs.Portable.unpad_stream_rf T T' H).
Qed.
Print Assumptions C66_padding_portable.

(** The AES functions do not depend on the target at all. *)
Theorem C66_cbc_portable : forall T T' iv calls, checked_and_not_wider T T' ->
  (forall r, cipher_run T iv calls = Ret r -> cipher_run T' iv calls = Ret r) /\
  (forall r, decipher_run T iv calls = Ret r -> decipher_run T' iv calls = Ret r).
Proof.
  intros T T' iv calls H. split.
  - apply (Proofs.Portable.cipher_run_rf T T' H).
  - apply (Proofs.Portable.decipher_run_rf T T' H).
Qed.
Print Assumptions C66_cbc_portable.

(** The hypothesis that the build checks for overflow is needed: a 32-bit release
    build accepts a block size whose double wraps to 0, for which a 32-bit debug
    build panics. *)
Theorem C66_release_agrees_with_debug_refuted : exists k chunks,
  unpad_stream (mkTarget W32 false) k chunks <> unpad_stream (mkTarget W32 true) k chunks.
Proof. exists (2 ^ 31), []. vm_compute. discriminate. Qed.
Print Assumptions C66_release_agrees_with_debug_refuted.

Example C66_example :
  checked_and_not_wider (mkTarget W32 true) (mkTarget W64 false) /\
  checked_and_not_wider (mkTarget W64 true) (mkTarget W64 false) /\
  ~ checked_and_not_wider (mkTarget W64 true) (mkTarget W32 true) /\
  ~ In None (sha_run (mkTarget W32 true) [Hasher.Update [97]; Hasher.Digest; Hasher.Digest] sha256_new) /\
  exists outs m, unpad_stream (mkTarget W32 true) 4 [[1; 2]; [3; 1]] = Ret (outs, m).
Proof.
  split; [split; vm_compute; (reflexivity || discriminate)|].
  split; [split; vm_compute; (reflexivity || discriminate)|].
  split; [intros [_ H]; vm_compute in H; apply H; reflexivity|].
  split; [|eexists _, _; vm_compute; reflexivity].
  vm_compute. intros H. repeat (destruct H as [H|H]; [discriminate|]). exact H.
Qed.
