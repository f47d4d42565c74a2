(** C75: comparing and printing error values. *)
From Coq Require Import NArith List String Bool.
From Verif.Model Require Import Aes Pkcs7 AesCbc Scrypt Derives.
Import ListNotations.
Local Open Scope string_scope.

(** A comparison that says [true] exactly for identical values. *)
Definition decides_identity {E : Type} (eqb : E -> E -> bool) : Prop :=
  forall a b, eqb a b = true <-> a = b.

(** C75. [==] on errors holds exactly between identical errors; in particular
    [assert_eq!] on an error pins down the variant and, inside [DecipherError], the
    wrapped error. *)
Theorem C75_eq_is_identity :
  decides_identity aes_error_eq /\ decides_identity unpad_error_eq /\
  decides_identity scrypt_error_eq /\ decides_identity decipher_error_eq.
Proof.
  repeat split; intros H;
    repeat match goal with
           | e : AESError |- _ => destruct e
           | e : UnpadError |- _ => destruct e
           | e : DecipherError |- _ => destruct e
           | e : ScryptError |- _ => destruct e
           end; try reflexivity; discriminate H.
Qed.
Print Assumptions C75_eq_is_identity.

(** Two errors print alike with [{:?}] exactly if they are identical, also across
    the two wrapped types. *)
Theorem C75_debug_distinct :
  (forall a b, aes_error_debug a = aes_error_debug b <-> a = b) /\
  (forall a b, unpad_error_debug a = unpad_error_debug b <-> a = b) /\
  (forall a b, scrypt_error_debug a = scrypt_error_debug b <-> a = b) /\
  (forall a b, decipher_error_debug a = decipher_error_debug b <-> a = b).
Proof.
  repeat split; intros H;
    repeat match goal with
           | e : AESError |- _ => destruct e
           | e : UnpadError |- _ => destruct e
           | e : DecipherError |- _ => destruct e
           | e : ScryptError |- _ => destruct e
           end; try reflexivity; discriminate H.
Qed.
Print Assumptions C75_debug_distinct.

(** The exact texts. *)
Theorem C75_texts :
  map aes_error_debug [InvalidKeySize; NotInitialized] = ["InvalidKeySize"; "NotInitialized"] /\
  map unpad_error_debug [UnfinishedBlock; InvalidPadding] = ["UnfinishedBlock"; "InvalidPadding"] /\
  map decipher_error_debug
      [EAES InvalidKeySize; EAES NotInitialized; EPKCS7 UnfinishedBlock; EPKCS7 InvalidPadding] =
    ["AES(InvalidKeySize)"; "AES(NotInitialized)"; "PKCS7(UnfinishedBlock)"; "PKCS7(InvalidPadding)"] /\
  map scrypt_error_debug [RIsTooSmall; NIsTooSmall; NIsNotAPowerOfTwo; PIsTooSmall] =
    ["RIsTooSmall"; "NIsTooSmall"; "NIsNotAPowerOfTwo"; "PIsTooSmall"].
Proof. repeat split; reflexivity. Qed.
Print Assumptions C75_texts.

Example C75_example :
  decipher_error_eq (EAES NotInitialized) (EAES NotInitialized) = true /\
  decipher_error_eq (EAES NotInitialized) (EAES InvalidKeySize) = false /\
  decipher_error_eq (EAES NotInitialized) (EPKCS7 InvalidPadding) = false /\
  decipher_error_debug (EPKCS7 InvalidPadding) = "PKCS7(InvalidPadding)".
Proof. repeat split; reflexivity. Qed.
