(** Sequences of API calls, as in ../Calls.v, with the recording operations.  Each
    function here only chains public calls; no file of /repo is modelled. *)
From Coq Require Import NArith List.
From Verif Require Import Rust.
From Verif Require Calls.
From Verif.Model Require Import Sha256 Hmac Aes Pkcs7 AesCbc.
From Verif.Leak Require Import Ops Sha256 Hmac Pkcs7 AesCbc.
From Verif.Spec Require Hasher Stream.
Import ListNotations.
Local Open Scope N_scope.

(** A history of calls on one hasher: the results, an update giving []. *)
Fixpoint sha_session (T : target) (calls : list Hasher.call) (s : SHA256) : res (list (list N)) :=
  match calls with
  | [] => Ret []
  | Hasher.Update d :: cs =>
      let* s := sha256_update T s d in
      let* rs := sha_session T cs s in
      Ret ([] :: rs)
  | Hasher.Digest :: cs =>
      let* (d, s) := sha256_digest T s in
      let* rs := sha_session T cs s in
      Ret (d :: rs)
  end.

(** The same on one [HMac]. *)
Fixpoint hmac_calls (T : target) (calls : list Hasher.call) (m : HMac) : res (list (list N)) :=
  match calls with
  | [] => Ret []
  | Hasher.Update d :: cs =>
      let* m := hmac_update T m d in
      let* rs := hmac_calls T cs m in
      Ret ([] :: rs)
  | Hasher.Digest :: cs =>
      let* (d, m) := hmac_digest T m in
      let* rs := hmac_calls T cs m in
      Ret (d :: rs)
  end.
Definition hmac_session (T : target) (key : list N) (calls : list Hasher.call)
  : res (list (list N)) :=
  let* m := hmac_new T key in hmac_calls T calls m.

(** Writes on a [Pad], on an [Unpad]; a whole stream through a new padder. *)
Fixpoint pad_writes (T : target) (p : Pad) (chunks : list (list N))
  : res (list (option (list N)) * Pad) :=
  match chunks with
  | [] => Ret ([], p)
  | d :: ds =>
      let* (o, p) := pad_write T p d in
      let* (os, p) := pad_writes T p ds in
      Ret (o :: os, p)
  end.
Fixpoint unpad_writes (T : target) (p : Unpad) (chunks : list (list N))
  : res (list (option (list N)) * Unpad) :=
  match chunks with
  | [] => Ret ([], p)
  | d :: ds =>
      let* (o, p) := unpad_write T p d in
      let* (os, p) := unpad_writes T p ds in
      Ret (o :: os, p)
  end.
Definition pad_stream (T : target) (k : N) (chunks : list (list N))
  : res (list (option (list N)) * list N) :=
  let* p := pad_new T k in
  let* (outs, p) := pad_writes T p chunks in
  let* (b, _) := pad_flush T p in
  Ret (outs, b).
Definition unpad_stream (T : target) (k : N) (chunks : list (list N))
  : res (list (option (list N)) * result (list N) UnpadError) :=
  let* p := unpad_new T k in
  let* (outs, p) := unpad_writes T p chunks in
  let* (r, _) := unpad_flush T p in
  Ret (outs, r).

(** One call on a [Cipher], on a [Decipher], and histories of calls on a new one. *)
Definition cipher_call (T : target) (c : Cipher) (x : Stream.call) : res (Stream.reply * Cipher) :=
  match x with
  | Stream.Init key =>
      let* (r, c) := cipher_init c key in
      Ret (match r with Ok _ => Stream.Accepted | Err e => Calls.aes_error_reply e end, c)
  | Stream.Write b =>
      let* (r, c) := cipher_write T c b in
      Ret (match r with Ok d => Stream.Data d | Err e => Calls.aes_error_reply e end, c)
  | Stream.Flush =>
      let* (r, c) := cipher_flush T c in
      Ret (match r with Ok d => Stream.Data d | Err e => Calls.aes_error_reply e end, c)
  end.
Definition decipher_call (T : target) (c : Decipher) (x : Stream.call)
  : res (Stream.reply * Decipher) :=
  match x with
  | Stream.Init key =>
      let* (r, c) := decipher_init c key in
      Ret (match r with Ok _ => Stream.Accepted | Err e => Calls.aes_error_reply e end, c)
  | Stream.Write b =>
      let* (r, c) := decipher_write T c b in
      Ret (match r with Ok d => Stream.Data d | Err e => Calls.decipher_error_reply e end, c)
  | Stream.Flush =>
      let* (r, c) := decipher_flush T c in
      Ret (match r with Ok d => Stream.Data d | Err e => Calls.decipher_error_reply e end, c)
  end.
Fixpoint run_calls {S : Type} (call : S -> Stream.call -> res (Stream.reply * S))
    (s : S) (calls : list Stream.call) : res (list Stream.reply * S) :=
  match calls with
  | [] => Ret ([], s)
  | x :: xs =>
      let* (r, s) := call s x in
      let* (rs, s) := run_calls call s xs in
      Ret (r :: rs, s)
  end.
Definition cipher_run (T : target) (iv : list N) (calls : list Stream.call)
  : res (list Stream.reply * Cipher) :=
  let* c := cipher_new T iv in
  run_calls (cipher_call T) c calls.
Definition decipher_run (T : target) (iv : list N) (calls : list Stream.call)
  : res (list Stream.reply * Decipher) :=
  let* d := decipher_new T iv in
  run_calls (decipher_call T) d calls.
