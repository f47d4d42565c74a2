(** The derived implementations of the error types of /repo/src, as rustc defines
    [derive(Debug, PartialEq)]. *)
From Coq Require Import NArith List String.
From Verif.Model Require Import Aes Pkcs7 AesCbc Scrypt.
Local Open Scope N_scope.
Local Open Scope string_scope.

(** [PartialEq] of an enum: same discriminant (declaration order), then equal
    fields.  src/aes.rs:261-269 *)
Definition aes_error_tag (e : AESError) : N :=
  match e with InvalidKeySize => 0 | NotInitialized => 1 end.
Definition aes_error_eq (a b : AESError) : bool := N.eqb (aes_error_tag a) (aes_error_tag b).
(** src/pkcs7.rs:56-63 *)
Definition unpad_error_tag (e : UnpadError) : N :=
  match e with UnfinishedBlock => 0 | InvalidPadding => 1 end.
Definition unpad_error_eq (a b : UnpadError) : bool := N.eqb (unpad_error_tag a) (unpad_error_tag b).
(** src/scrypt.rs:22-28 *)
Definition scrypt_error_tag (e : ScryptError) : N :=
  match e with RIsTooSmall => 0 | NIsTooSmall => 1 | NIsNotAPowerOfTwo => 2 | PIsTooSmall => 3 end.
Definition scrypt_error_eq (a b : ScryptError) : bool :=
  N.eqb (scrypt_error_tag a) (scrypt_error_tag b).
(** src/aes_cbc.rs:141-147 *)
Definition decipher_error_eq (a b : DecipherError) : bool :=
  match a, b with
  | EAES x, EAES y => aes_error_eq x y
  | EPKCS7 x, EPKCS7 y => unpad_error_eq x y
  | _, _ => false
  end.

(** [{:?}]: the name of the variant, then its field in parentheses. *)
Definition aes_error_debug (e : AESError) : string :=
  match e with InvalidKeySize => "InvalidKeySize" | NotInitialized => "NotInitialized" end.
Definition unpad_error_debug (e : UnpadError) : string :=
  match e with UnfinishedBlock => "UnfinishedBlock" | InvalidPadding => "InvalidPadding" end.
Definition scrypt_error_debug (e : ScryptError) : string :=
  match e with
  | RIsTooSmall => "RIsTooSmall"
  | NIsTooSmall => "NIsTooSmall"
  | NIsNotAPowerOfTwo => "NIsNotAPowerOfTwo"
  | PIsTooSmall => "PIsTooSmall"
  end.
Definition debug_tuple (name field : string) : string := name ++ "(" ++ field ++ ")".
Definition decipher_error_debug (e : DecipherError) : string :=
  match e with
  | EAES x => debug_tuple "AES" (aes_error_debug x)
  | EPKCS7 x => debug_tuple "PKCS7" (unpad_error_debug x)
  end.
