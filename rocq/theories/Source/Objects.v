(** Objects of the program: one made by [new], then any methods called on it. *)
From Coq Require Import NArith List String.
From Verif Require Import Rust.
From Verif.Source Require Import Syntax Interp Tree Calls.
From Verif.Spec Require BlockCipher Stream.
Import ListNotations.
Local Open Scope string_scope.
Local Open Scope N_scope.

(** A call: the name of the method and its arguments after [self]. *)
Definition invocation : Type := (string * list val)%type.

(** What a sequence of calls returns.  A method with [&mut self] leaves a new
    state of the object behind, one with [&self] does not. *)
Fixpoint talk (T : target) (fuel : nat) (type : string) (calls : list invocation) (self : val)
  : res (list val) :=
  match calls with
  | [] => Ret []
  | (method, args) :: cs =>
      let* (v, refs) := run T fuel (type ++ "::" ++ method) (self :: args) in
      let* vs := talk T fuel type cs (match refs with Some self' :: _ => self' | _ => self end) in
      Ret (v :: vs)
  end.
Definition object (T : target) (fuel : nat) (type : string) (args : list val) (calls : list invocation)
  : res (list val) :=
  let* (self, _) := run T fuel (type ++ "::new") args in
  talk T fuel type calls self.

(** * The calls and replies of the specifications, as values of the program *)

Definition stream_invocation (c : Stream.call) : invocation :=
  match c with
  | Stream.Init key => ("init", [VNums U8 key])
  | Stream.Write d => ("write", [VNums U8 d])
  | Stream.Flush => ("flush", [])
  end.

Definition bytes_or_none (o : option (list N)) : val :=
  match o with Some l => VCon "Some" [VNums U8 l] | None => VCon "None" [] end.
Definition verdict_value (r : Stream.verdict) : val :=
  match r with
  | Stream.Stripped m => VCon "Ok" [VNums U8 m]
  | Stream.Incomplete => VCon "Err" [VCon "pkcs7::UnpadError::UnfinishedBlock" []]
  | Stream.Invalid => VCon "Err" [VCon "pkcs7::UnpadError::InvalidPadding" []]
  end.

Definition aes_invocation (c : BlockCipher.call) : invocation :=
  match c with
  | BlockCipher.Init key => ("init", [VNums U8 key])
  | BlockCipher.Encrypt b => ("encrypt", [VNums U8 b])
  | BlockCipher.Decrypt b => ("decrypt", [VNums U8 b])
  end.
Definition aes_value (r : BlockCipher.reply) : val :=
  match r with
  | BlockCipher.Accepted => VCon "Ok" [VUnit]
  | BlockCipher.Result b => VCon "Ok" [VNums U8 b]
  | BlockCipher.BadKeySize => VCon "Err" [VCon "aes::AESError::InvalidKeySize" []]
  | BlockCipher.NoKey => VCon "Err" [VCon "aes::AESError::NotInitialized" []]
  end.

(** A [Cipher] never replies the last two. *)
Definition cipher_value (r : Stream.reply) : val :=
  match r with
  | Stream.Accepted => VCon "Ok" [VUnit]
  | Stream.Data d => VCon "Ok" [VNums U8 d]
  | Stream.BadKeySize => VCon "Err" [VCon "aes::AESError::InvalidKeySize" []]
  | Stream.NoKey => VCon "Err" [VCon "aes::AESError::NotInitialized" []]
  | Stream.Unfinished => verdict_value Stream.Incomplete
  | Stream.BadPadding => verdict_value Stream.Invalid
  end.
(** A [Decipher] wraps the errors of [write] and [flush], not those of [init]. *)
Definition decipher_value (r : Stream.reply) : val :=
  match r with
  | Stream.Accepted => VCon "Ok" [VUnit]
  | Stream.Data d => VCon "Ok" [VNums U8 d]
  | Stream.BadKeySize => VCon "Err" [VCon "aes::AESError::InvalidKeySize" []]
  | Stream.NoKey =>
      VCon "Err" [VCon "aes_cbc::DecipherError::AES" [VCon "aes::AESError::NotInitialized" []]]
  | Stream.Unfinished =>
      VCon "Err" [VCon "aes_cbc::DecipherError::PKCS7" [VCon "pkcs7::UnpadError::UnfinishedBlock" []]]
  | Stream.BadPadding =>
      VCon "Err" [VCon "aes_cbc::DecipherError::PKCS7" [VCon "pkcs7::UnpadError::InvalidPadding" []]]
  end.

(** A call of scrypt: [Scrypt::new(r, n, p).derive(passphrase, salt, &mut out)];
    the result, and what is in [out] afterwards. *)
Definition derivation (T : target) (fuel : nat) (r n p : N) (passphrase salt out : list N)
  : res (val * val) :=
  let* (self, _) := run T fuel "scrypt::Scrypt::new" [VInt Usize r; VInt Usize n; VInt Usize p] in
  let* (v, refs) := run T fuel "scrypt::Scrypt::derive"
                      [self; VNums U8 passphrase; VNums U8 salt; VNums U8 out] in
  match refs with
  | [None; None; None; Some out'] => Ret (v, out')
  | _ => Diverge
  end.
