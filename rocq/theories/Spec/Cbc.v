(** PKCS#7 padding (RFC 5652, section 6.3) and the CBC mode of operation
    (NIST SP 800-38A, section 6.2).  Independent of the model. *)
From Coq Require Import NArith List Arith.
From Verif.Spec Require Import Octets Aes.
Import ListNotations.
Local Open Scope N_scope.

(** "the input shall be padded at the trailing end with k-(lth mod k) octets all
    having value k-(lth mod k), where lth is the length of the input" *)
Definition pkcs7_pad (k : nat) (m : list N) : list N :=
  let n := (k - length m mod k)%nat in
  m ++ repeat (N.of_nat n) n.

(** The padding of a complete message is valid if it ends in n octets of value n
    with 1 <= n <= k. *)
Definition pkcs7_valid (k : nat) (l m : list N) : Prop :=
  exists n : nat, (1 <= n <= k)%nat /\ l = m ++ repeat (N.of_nat n) n /\
                  (length l mod k = 0)%nat.

(** C_1 = CIPH (P_1 xor IV); C_j = CIPH (P_j xor C_{j-1}) *)
Fixpoint cbc_encrypt (E : list N -> list N) (IV : list N) (P : list (list N))
  : list (list N) :=
  match P with
  | [] => []
  | Pj :: P' => let Cj := E (xor Pj IV) in Cj :: cbc_encrypt E Cj P'
  end.

(** P_1 = CIPH^-1 (C_1) xor IV; P_j = CIPH^-1 (C_j) xor C_{j-1} *)
Fixpoint cbc_decrypt (D : list N -> list N) (IV : list N) (C : list (list N))
  : list (list N) :=
  match C with
  | [] => []
  | Cj :: C' => xor (D Cj) IV :: cbc_decrypt D Cj C'
  end.

(** AES-CBC with PKCS#7 padding on whole messages. *)
Definition aes_cbc_encrypt (key IV m : list N) : list N :=
  concat (cbc_encrypt (Cipher key) IV (blocks 16 (pkcs7_pad 16 m))).
