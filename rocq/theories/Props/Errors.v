(** C48: what error values render as. *)
From Coq Require Import List String.
From Verif.Model Require Import Aes Pkcs7 AesCbc Scrypt.
Import ListNotations.
Local Open Scope string_scope.

(** The four rendering functions, with the name of the type. *)
Definition renders_as {E : Type} (type_name : string) (description display : E -> string) : Prop :=
  forall e, display e = type_name ++ ": " ++ description e.
Definition distinct {E : Type} (display : E -> string) : Prop :=
  forall e e', display e = display e' -> e = e'.

Theorem C48_display_is_name_and_description :
  renders_as "AESError" aes_error_description aes_error_display /\
  renders_as "UnpadError" unpad_error_description unpad_error_display /\
  renders_as "DecipherError" decipher_error_description decipher_error_display /\
  renders_as "ScryptError" scrypt_error_description scrypt_error_display.
Proof. repeat split; intros e; reflexivity. Qed.
Print Assumptions C48_display_is_name_and_description.

Theorem C48_displays_are_distinct :
  distinct aes_error_display /\ distinct unpad_error_display /\
  distinct decipher_error_display /\ distinct scrypt_error_display.
Proof.
  repeat split; intros e e' H;
    repeat match goal with
           | e : AESError |- _ => destruct e
           | e : UnpadError |- _ => destruct e
           | e : DecipherError |- _ => destruct e
           | e : ScryptError |- _ => destruct e
           end; try reflexivity; discriminate H.
Qed.
Print Assumptions C48_displays_are_distinct.

Theorem C48_decipher_error_wraps : forall a u,
  decipher_error_description (EAES a) = aes_error_description a /\
  decipher_error_description (EPKCS7 u) = unpad_error_description u.
Proof. intros a u. split; reflexivity. Qed.
Print Assumptions C48_decipher_error_wraps.

(** The exact texts. *)
Theorem C48_texts :
  map aes_error_display [InvalidKeySize; NotInitialized] =
    ["AESError: key size must be either of: 128, 192, or 256 bits";
     "AESError: AES instance must be initialized prior to use"] /\
  map unpad_error_display [UnfinishedBlock; InvalidPadding] =
    ["UnpadError: data length must be a multiple of block size";
     "UnpadError: final block contains invalid padding"] /\
  map decipher_error_display
      [EAES InvalidKeySize; EAES NotInitialized; EPKCS7 UnfinishedBlock; EPKCS7 InvalidPadding] =
    ["DecipherError: key size must be either of: 128, 192, or 256 bits";
     "DecipherError: AES instance must be initialized prior to use";
     "DecipherError: data length must be a multiple of block size";
     "DecipherError: final block contains invalid padding"] /\
  map scrypt_error_display [RIsTooSmall; NIsTooSmall; NIsNotAPowerOfTwo; PIsTooSmall] =
    ["ScryptError: `r` must be larger than 1"; "ScryptError: `n` must be larger than 1";
     "ScryptError: `n` must be a power of two"; "ScryptError: `p` must be larger than 1"].
Proof. repeat split; reflexivity. Qed.
Print Assumptions C48_texts.

Example C48_example :
  decipher_error_display (EPKCS7 InvalidPadding) = "DecipherError: final block contains invalid padding" /\
  decipher_error_display (EPKCS7 InvalidPadding) <> decipher_error_display (EAES NotInitialized).
Proof. split; [reflexivity|discriminate]. Qed.
