(** Sequences of API calls as a user's program makes them, run on the model.
    Each function here only chains public calls; no file of /repo is modelled. *)
From Coq Require Import NArith List.
From Verif Require Import Rust.
From Verif.Model Require Import Sha256.
From Verif.Spec Require Octets Hasher.
Import ListNotations.
Local Open Scope N_scope.

(** [for d in chunks { h.update(d) }] *)
Definition sha_updates (T : target) (s : SHA256) (chunks : list (list N)) : res SHA256 :=
  for_each chunks (fun d s => sha256_update T s d) s.

(** A history of calls on one hasher: the results, up to and including a panic
    ([None]).  An update has no result ([Some []]). *)
Fixpoint sha_run (T : target) (calls : list Hasher.call) (s : SHA256) : list (option (list N)) :=
  match calls with
  | [] => []
  | Hasher.Update d :: cs =>
      match sha256_update T s d with
      | Ret s' => Some [] :: sha_run T cs s'
      | _ => [None]
      end
  | Hasher.Digest :: cs =>
      match sha256_digest T s with
      | Ret (d, s') => Some d :: sha_run T cs s'
      | _ => [None]
      end
  end.

(** The arguments are byte strings (Rust's type [&[u8]]). *)
Definition sha_call_ok (c : Hasher.call) : Prop :=
  match c with Hasher.Update d => Octets.octets d | Hasher.Digest => True end.

From Verif.Model Require Import Hmac.

(** [for d in chunks { m.update(d) }] on an [HMac]. *)
Definition hmac_updates (T : target) (m : HMac) (chunks : list (list N)) : res HMac :=
  for_each chunks (fun d m => hmac_update T m d) m.

(** A history of calls on one [HMac], as [sha_run]. *)
Fixpoint hmac_run (T : target) (calls : list Hasher.call) (m : HMac) : list (option (list N)) :=
  match calls with
  | [] => []
  | Hasher.Update d :: cs =>
      match hmac_update T m d with
      | Ret m' => Some [] :: hmac_run T cs m'
      | _ => [None]
      end
  | Hasher.Digest :: cs =>
      match hmac_digest T m with
      | Ret (d, m') => Some d :: hmac_run T cs m'
      | _ => [None]
      end
  end.

From Verif.Model Require Import Aes.
From Verif.Spec Require BlockCipher.

(** One call on an [AES] object, and a history of calls: the replies, up to a
    panic ([None]). *)
Definition block_reply (r : result (list N) AESError) : BlockCipher.reply :=
  match r with
  | Ok b => BlockCipher.Result b
  | Err InvalidKeySize => BlockCipher.BadKeySize
  | Err NotInitialized => BlockCipher.NoKey
  end.
Definition init_reply (r : result unit AESError) : BlockCipher.reply :=
  match r with
  | Ok _ => BlockCipher.Accepted
  | Err InvalidKeySize => BlockCipher.BadKeySize
  | Err NotInitialized => BlockCipher.NoKey
  end.
Definition aes_call (a : AES) (c : BlockCipher.call) : res (BlockCipher.reply * AES) :=
  match c with
  | BlockCipher.Init key =>
      let* (r, a) := aes_init a key in Ret (init_reply r, a)
  | BlockCipher.Encrypt b =>
      let* r := aes_encrypt a b in Ret (block_reply r, a)
  | BlockCipher.Decrypt b =>
      let* r := aes_decrypt a b in Ret (block_reply r, a)
  end.
Fixpoint aes_run (a : AES) (calls : list BlockCipher.call) : list (option BlockCipher.reply) :=
  match calls with
  | [] => []
  | c :: cs =>
      match aes_call a c with
      | Ret (r, a') => Some r :: aes_run a' cs
      | _ => [None]
      end
  end.

(** The arguments have the Rust types [&[u8]] and [&[u8; 16]]. *)
Definition aes_call_ok (c : BlockCipher.call) : Prop :=
  match c with
  | BlockCipher.Init key => Octets.octets key
  | BlockCipher.Encrypt b | BlockCipher.Decrypt b => Octets.octets b /\ length b = 16%nat
  end.

From Verif.Model Require Import Pkcs7 AesCbc.
From Verif.Spec Require Stream.

(** [chunks.iter().map(|d| p.write(d))] on a [Pad], and on an [Unpad]. *)
Fixpoint pad_writes (T : target) (p : Pad) (chunks : list (list N))
  : res (list (option (list N)) * Pad) :=
  match chunks with
  | [] => Ret ([], p)
  | d :: ds =>
      let* (o, p) := pad_write T p d in
      let* (os, p) := pad_writes T p ds in
      Ret (o :: os, p)
  end.
Fixpoint unpad_writes (T : target) (p : Unpad) (chunks : list (list N))
  : res (list (option (list N)) * Unpad) :=
  match chunks with
  | [] => Ret ([], p)
  | d :: ds =>
      let* (o, p) := unpad_write T p d in
      let* (os, p) := unpad_writes T p ds in
      Ret (o :: os, p)
  end.
(** The bytes in a sequence of results of [write]. *)
Definition emitted (outs : list (option (list N))) : list N :=
  concat (map (fun o => match o with Some l => l | None => [] end) outs).

(** A whole stream through a new padder, a new unpadder. *)
Definition pad_stream (T : target) (k : N) (chunks : list (list N))
  : res (list (option (list N)) * list N) :=
  let* p := pad_new T k in
  let* (outs, p) := pad_writes T p chunks in
  let* (b, _) := pad_flush T p in
  Ret (outs, b).
Definition unpad_stream (T : target) (k : N) (chunks : list (list N))
  : res (list (option (list N)) * result (list N) UnpadError) :=
  let* p := unpad_new T k in
  let* (outs, p) := unpad_writes T p chunks in
  let* (r, _) := unpad_flush T p in
  Ret (outs, r).

(** One call on a [Cipher], on a [Decipher]. *)
Definition aes_error_reply (e : AESError) : Stream.reply :=
  match e with
  | InvalidKeySize => Stream.BadKeySize
  | NotInitialized => Stream.NoKey
  end.
Definition cipher_call (T : target) (c : Cipher) (x : Stream.call) : res (Stream.reply * Cipher) :=
  match x with
  | Stream.Init key =>
      let* (r, c) := cipher_init c key in
      Ret (match r with Ok _ => Stream.Accepted | Err e => aes_error_reply e end, c)
  | Stream.Write b =>
      let* (r, c) := cipher_write T c b in
      Ret (match r with Ok d => Stream.Data d | Err e => aes_error_reply e end, c)
  | Stream.Flush =>
      let* (r, c) := cipher_flush T c in
      Ret (match r with Ok d => Stream.Data d | Err e => aes_error_reply e end, c)
  end.

Definition decipher_error_reply (e : DecipherError) : Stream.reply :=
  match e with
  | EAES e => aes_error_reply e
  | EPKCS7 UnfinishedBlock => Stream.Unfinished
  | EPKCS7 InvalidPadding => Stream.BadPadding
  end.
Definition decipher_call (T : target) (c : Decipher) (x : Stream.call)
  : res (Stream.reply * Decipher) :=
  match x with
  | Stream.Init key =>
      let* (r, c) := decipher_init c key in
      Ret (match r with Ok _ => Stream.Accepted | Err e => aes_error_reply e end, c)
  | Stream.Write b =>
      let* (r, c) := decipher_write T c b in
      Ret (match r with Ok d => Stream.Data d | Err e => decipher_error_reply e end, c)
  | Stream.Flush =>
      let* (r, c) := decipher_flush T c in
      Ret (match r with Ok d => Stream.Data d | Err e => decipher_error_reply e end, c)
  end.

(** A history of calls: all replies and the object after it, or a panic. *)
Fixpoint run_calls {S : Type} (call : S -> Stream.call -> res (Stream.reply * S))
    (s : S) (calls : list Stream.call) : res (list Stream.reply * S) :=
  match calls with
  | [] => Ret ([], s)
  | x :: xs =>
      let* (r, s) := call s x in
      let* (rs, s) := run_calls call s xs in
      Ret (r :: rs, s)
  end.
Definition cipher_run (T : target) (iv : list N) (calls : list Stream.call)
  : res (list Stream.reply * Cipher) :=
  let* c := cipher_new T iv in
  run_calls (cipher_call T) c calls.
Definition decipher_run (T : target) (iv : list N) (calls : list Stream.call)
  : res (list Stream.reply * Decipher) :=
  let* d := decipher_new T iv in
  run_calls (decipher_call T) d calls.

(** The arguments have the Rust type [&[u8]]. *)
Definition stream_call_ok (c : Stream.call) : Prop :=
  match c with
  | Stream.Init d | Stream.Write d => Octets.octets d
  | Stream.Flush => True
  end.
