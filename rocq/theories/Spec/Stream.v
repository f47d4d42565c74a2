(** Streams cut into blocks, and what one AES-CBC cipher or decipher object
    returns over a whole history of calls: abstract machines over the
    specifications in [Aes] and [Cbc].  Independent of the model. *)
From Coq Require Import NArith List Arith Bool.
From Verif.Spec Require Import Octets Aes Cbc BlockCipher.
Import ListNotations.
Local Open Scope N_scope.

(** * Cutting a stream *)

(** The complete blocks of [k] octets at the front of [l], and what is left. *)
Definition whole (k : nat) (l : list N) : list N := firstn (k * (length l / k)) l.
Definition rest (k : nat) (l : list N) : list N := skipn (k * (length l / k)) l.

(** The blocks that are certainly not the last one, because something follows
    them, and what is held back: at most one block. *)
Definition settled (k : nat) (l : list N) : list N := firstn (k * ((length l - 1) / k)) l.
Definition held (k : nat) (l : list N) : list N := skipn (k * ((length l - 1) / k)) l.

(** * Removing padding *)

Inductive verdict : Type := Stripped (m : list N) | Incomplete | Invalid.

(** [m] is what remains of [l] without [n] octets of value [n] at its end.  Unlike
    [Cbc.pkcs7_valid] this admits n = 0: the last octet is 0 and nothing is
    removed. *)
Definition ends_with_pad (l m : list N) (n : nat) : Prop :=
  l = m ++ repeat (N.of_nat n) n /\ last l 256 = N.of_nat n.

(** The decision on the final block of [k] octets. *)
Definition strip (k : nat) (b : list N) : verdict :=
  if negb (Nat.eqb (length b) k) then Incomplete
  else
    let n := N.to_nat (last b 256) in
    if (Nat.leb n k && forallb (N.eqb (N.of_nat n)) (skipn (k - n) b))%bool
    then Stripped (firstn (k - n) b)
    else Invalid.

(** * Calls and replies *)

Inductive call : Type :=
| Init (key : list N)
| Write (data : list N)
| Flush.

Inductive reply : Type :=
| Accepted
| Data (d : list N)
| BadKeySize
| NoKey
| Unfinished
| BadPadding.

(** * The cipher: key in force, last ciphertext block, pending plaintext *)

Record cipher : Type := mkCipher {
  c_key : option (list N);
  c_chain : list N;
  c_pending : list N
}.

Definition last_block (c : list (list N)) (default : list N) : list N := last c default.

Definition cipher_step (s : cipher) (c : call) : reply * cipher :=
  match c with
  | Init key =>
      if key_size_ok key then (Accepted, mkCipher (Some key) (c_chain s) (c_pending s))
      else (BadKeySize, s)
  | Write d =>
      let l := c_pending s ++ d in
      if Nat.ltb (length l) 16 then (Data [], mkCipher (c_key s) (c_chain s) l)
      else
        match c_key s with
        | None => (NoKey, mkCipher None (c_chain s) (rest 16 l))
        | Some key =>
            let out := cbc_encrypt (Cipher key) (c_chain s) (blocks 16 l) in
            (Data (concat out), mkCipher (Some key) (last_block out (c_chain s)) (rest 16 l))
        end
  | Flush =>
      match c_key s with
      | None => (NoKey, mkCipher None (c_chain s) [])
      | Some key =>
          let b := Cipher key (xor (pkcs7_pad 16 (c_pending s)) (c_chain s)) in
          (Data b, mkCipher (Some key) b [])
      end
  end.

(** * The decipher: key in force, last ciphertext block, incomplete ciphertext
    block, plaintext held back *)

Record decipher : Type := mkDecipher {
  d_key : option (list N);
  d_chain : list N;
  d_fragment : list N;
  d_held : list N
}.

Definition decipher_step (s : decipher) (c : call) : reply * decipher :=
  match c with
  | Init key =>
      if key_size_ok key
      then (Accepted, mkDecipher (Some key) (d_chain s) (d_fragment s) (d_held s))
      else (BadKeySize, s)
  | Write d =>
      let l := d_fragment s ++ d in
      if Nat.ltb (length l) 16 then (Data [], mkDecipher (d_key s) (d_chain s) l (d_held s))
      else
        match d_key s with
        | None => (NoKey, mkDecipher None (d_chain s) (rest 16 l) (d_held s))
        | Some key =>
            let p := d_held s ++ concat (cbc_decrypt (InvCipher key) (d_chain s) (blocks 16 l)) in
            (Data (settled 16 p),
             mkDecipher (Some key) (last_block (blocks 16 l) (d_chain s)) (rest 16 l) (held 16 p))
        end
  | Flush =>
      match strip 16 (d_held s) with
      | Stripped m => (Data m, mkDecipher (d_key s) (d_chain s) (d_fragment s) [])
      | Incomplete => (Unfinished, s)
      | Invalid => (BadPadding, s)
      end
  end.

Definition new_cipher (iv : list N) : cipher := mkCipher None iv [].
Definition new_decipher (iv : list N) : decipher := mkDecipher None iv [] [].

(** The replies of a history, and the state after it. *)
Fixpoint run {S : Type} (step : S -> call -> reply * S) (s : S) (calls : list call)
  : list reply * S :=
  match calls with
  | [] => ([], s)
  | c :: cs =>
      let (r, s') := step s c in
      let (rs, s'') := run step s' cs in
      (r :: rs, s'')
  end.
