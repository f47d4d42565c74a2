(** Model of /repo/src/aes_cbc.rs. *)
From Coq Require Import NArith List String.
From Verif Require Import Rust.
From Verif.Model Require Import Aes Pkcs7.
Import ListNotations.
Local Open Scope N_scope.

(** src/aes_cbc.rs:38-42 *)
Record Cipher : Type := mkCipher { c_aes : AES; c_pad : Pad; c_iv : list N }.

(** src/aes_cbc.rs:48-54 *)
Definition cipher_new (T : target) (iv : list N) : res Cipher :=
  let* pad := pad_new T BLOCK_SIZE in
  Ret (mkCipher aes_new pad iv).

(** src/aes_cbc.rs:59-62 *)
Definition cipher_init (c : Cipher) (key : list N) : res (result unit AESError * Cipher) :=
  let* (r, aes) := aes_init (c_aes c) key in
  Ret (r, mkCipher aes (c_pad c) (c_iv c)).

(** src/aes_cbc.rs:87-102 *)
Definition encrypt_block (c : Cipher) (b : list N) : res (result (list N) AESError * Cipher) :=
  let block := repeat 0 16 in
  let* block := copy_from_slice block b in
  let block := xor_into block (c_iv c) in
  let* r := aes_encrypt (c_aes c) block in
  match r with
  | Ok new_iv => Ret (Ok new_iv, mkCipher (c_aes c) (c_pad c) new_iv)
  | Err err => Ret (Err err, c)
  end.

(** src/aes_cbc.rs:65-79 *)
Definition cipher_write (T : target) (c : Cipher) (b : list N)
  : res (result (list N) AESError * Cipher) :=
  let* (w, pad) := pad_write T (c_pad c) b in
  let c := mkCipher (c_aes c) pad (c_iv c) in
  match w with
  | None => Ret (Ok [], c)
  | Some blocks =>
      let* cs := chunks blocks BLOCK_SIZE in
      let* (r, (out, c)) :=
        for_each_try cs (fun block st =>
          let '(out, c) := st in
          let* (r, c) := encrypt_block c block in
          match r with
          | Ok ciphertext => Ret (Ok tt, (out ++ ciphertext, c))
          | Err e => Ret (Err e, (out, c))
          end) ([], c) in
      match r with
      | Ok _ => Ret (Ok out, c)
      | Err e => Ret (Err e, c)
      end
  end.

(** src/aes_cbc.rs:82-85 *)
Definition cipher_flush (T : target) (c : Cipher) : res (result (list N) AESError * Cipher) :=
  let* (block, pad) := pad_flush T (c_pad c) in
  encrypt_block (mkCipher (c_aes c) pad (c_iv c)) block.

(** src/aes_cbc.rs:133-138 *)
Record Decipher : Type := mkDecipher {
  d_aes : AES;
  d_unpad : Unpad;
  d_iv : list N;
  d_buffer : Pad
}.

(** src/aes_cbc.rs:142-147 *)
Inductive DecipherError : Type :=
| EAES (e : AESError)
| EPKCS7 (e : UnpadError).

(** src/aes_cbc.rs:155-163 *)
Definition decipher_error_description (e : DecipherError) : string :=
  match e with
  | EAES err => aes_error_description err
  | EPKCS7 err => unpad_error_description err
  end.

(** src/aes_cbc.rs:149-153 *)
Definition decipher_error_display (e : DecipherError) : string :=
  "DecipherError: " ++ decipher_error_description e.

(** src/aes_cbc.rs:169-176 *)
Definition decipher_new (T : target) (iv : list N) : res Decipher :=
  let* unpad := unpad_new T BLOCK_SIZE in
  let* buffer := pad_new T BLOCK_SIZE in
  Ret (mkDecipher aes_new unpad iv buffer).

(** src/aes_cbc.rs:181-184 *)
Definition decipher_init (d : Decipher) (key : list N)
  : res (result unit AESError * Decipher) :=
  let* (r, aes) := aes_init (d_aes d) key in
  Ret (r, mkDecipher aes (d_unpad d) (d_iv d) (d_buffer d)).

(** src/aes_cbc.rs:187-214 *)
Definition decipher_write (T : target) (d : Decipher) (b : list N)
  : res (result (list N) DecipherError * Decipher) :=
  let* (w, buffer) := pad_write T (d_buffer d) b in
  let d := mkDecipher (d_aes d) (d_unpad d) (d_iv d) buffer in
  match w with
  | None => Ret (Ok [], d)
  | Some blocks =>
      let* cs := chunks blocks BLOCK_SIZE in
      let* (r, (padded_result, iv)) :=
        for_each_try cs (fun ciphertext st =>
          let '(padded_result, iv) := st in
          let block := repeat 0 16 in
          let* block := copy_from_slice block ciphertext in
          let* r := aes_decrypt (d_aes d) block in
          match r with
          | Err err => Ret (Err (EAES err), (padded_result, iv))
          | Ok cleartext =>
              let cleartext := xor_into cleartext iv in
              let iv := block in
              Ret (Ok tt, (padded_result ++ cleartext, iv))
          end) ([], d_iv d) in
      let d := mkDecipher (d_aes d) (d_unpad d) iv (d_buffer d) in
      match r with
      | Err e => Ret (Err e, d)
      | Ok _ =>
          let* (o, unpad) := unpad_write T (d_unpad d) padded_result in
          let d := mkDecipher (d_aes d) unpad (d_iv d) (d_buffer d) in
          match o with
          | Some x => Ret (Ok x, d)
          | None => Ret (Ok [], d)
          end
      end
  end.

(** src/aes_cbc.rs:217-222 *)
Definition decipher_flush (T : target) (d : Decipher)
  : res (result (list N) DecipherError * Decipher) :=
  let* (r, unpad) := unpad_flush T (d_unpad d) in
  let d := mkDecipher (d_aes d) unpad (d_iv d) (d_buffer d) in
  match r with
  | Err err => Ret (Err (EPKCS7 err), d)
  | Ok block => Ret (Ok block, d)
  end.
