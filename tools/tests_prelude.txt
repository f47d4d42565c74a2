(** The [#[test]] functions of /repo/src, evaluated in the model for the target on
    which they would usually run (64-bit, overflow checks on).  Written by
    tools/gen_tests.py from the text of /repo.  These are not properties: they
    check that the model is a model of this code. *)
From Coq Require Import NArith List Bool.
From Verif Require Import Rust.
From Verif.Model Require Sha256 Hmac Pbkdf2 Salsa20 Scrypt Aes Pkcs7 AesCbc Common.
Import ListNotations.
Local Open Scope N_scope.

Definition T : target := mkTarget W64 true.

(** [assert_eq!] *)
Fixpoint list_eqb {A : Type} (eqb : A -> A -> bool) (a b : list A) : bool :=
  match a, b with
  | [], [] => true
  | x :: a', y :: b' => eqb x y && list_eqb eqb a' b'
  | _, _ => false
  end.
Definition assert (b : bool) : res unit := if b then Ret tt else Panic.
Definition assert_eq (a b : list N) : res unit := assert (list_eqb N.eqb a b).
Definition assert_eq2 (a b : list (list N)) : res unit := assert (list_eqb (list_eqb N.eqb) a b).
(** [expect] *)
Definition expect {A E : Type} (r : result A E) : res A :=
  match r with Ok a => Ret a | Err _ => Panic end.
Notation "a ;; b" := (bind a (fun _ : unit => b)) (at level 100, right associativity).

(** src/sha256.rs:385-392 *)
Definition sha256_check (inputs : list (list N)) (expected : list N) : res unit :=
  let* s := for_each inputs (fun chunk s => Sha256.sha256_update T s chunk) Sha256.sha256_new in
  let* (d, _) := Sha256.sha256_digest T s in
  assert_eq d expected.

(** src/hmac.rs:121-128 *)
Definition hmac_check (key : list N) (inputs : list (list N)) (expected : list N) : res unit :=
  let* m := Hmac.hmac_new T key in
  let* m := for_each inputs (fun chunk m => Hmac.hmac_update T m chunk) m in
  let* (d, _) := Hmac.hmac_digest T m in
  assert_eq d expected.

(** src/pbkdf2.rs:124-138 *)
Definition pbkdf2_check (password salt : list N) (c : N) (expected : list N) : res unit :=
  let* out := Pbkdf2.pbkdf2_sha256 T password salt c (repeat 0 64) in
  assert_eq out expected.

(** src/salsa20.rs:217-221, 279-283, 369-373, 459-463, 549-553 *)
Definition quarter_check (input expected : list N) : res unit :=
  let* out := Salsa20.quarterround input (repeat 0 4) in assert_eq out expected.
Definition column_check (input expected : list N) : res unit :=
  let* out := Salsa20.columnround input (repeat 0 16) in assert_eq out expected.
Definition double_check (input expected : list N) : res unit :=
  let* out := Salsa20.doubleround input (repeat 0 16) in assert_eq out expected.
Definition row_check (input expected : list N) : res unit :=
  let* out := Salsa20.rowround input (repeat 0 16) in assert_eq out expected.
Definition salsa20_check (input : list N) (rounds : N) (expected : list N) : res unit :=
  let* out := Salsa20.salsa20 input rounds (repeat 0 64) in assert_eq out expected.

(** src/scrypt.rs:309-312, 353-356, 401-417 *)
Definition check_mix (r : N) (input expected : list (list N)) : res unit :=
  let* y := Scrypt.block_mix T (Scrypt.scrypt_new r 1 1) input in assert_eq2 y expected.
Definition check_ro_mix (r n : N) (input expected : list (list N)) : res unit :=
  let* y := Scrypt.ro_mix T (Scrypt.scrypt_new r n 1) input in assert_eq2 y expected.
Definition scrypt_check (r n p : N) (passphrase salt expected : list N) : res unit :=
  let* (r, out) := Scrypt.scrypt_derive T (Scrypt.scrypt_new r n p) passphrase salt (repeat 0 64) in
  let* _ := expect r in
  assert_eq out expected.

(** src/aes.rs:416-421 *)
Definition TEST_BLOCK : list (list N) :=
  [[0x37; 0xd7; 0xa0; 0x2d]; [0x8a; 0x65; 0xc1; 0x96]; [0xda; 0xee; 0x01; 0x99]; [0xb9; 0x9e; 0x55; 0x65]].
(** src/aes.rs:424-455 *)
Definition mul_check (a b expected : N) : res unit :=
  let* x := Aes.mul a b in assert (x =? expected).
Definition inverse_sub_bytes (s0 : list (list N)) : res unit :=
  let* s := Aes.sub_bytes Aes.enc_lookup_sbox s0 in
  let* s := Aes.sub_bytes Aes.dec_lookup_sbox s in assert_eq2 s s0.
Definition inverse_mix_columns (s0 : list (list N)) : res unit :=
  let* s := Aes.mix_columns Aes.enc_mix_column s0 in
  let* s := Aes.mix_columns Aes.dec_mix_column s in assert_eq2 s s0.
Definition inverse_shift_rows (s0 : list (list N)) : res unit :=
  let* t := Aes.enc_shift_rows s0 in
  let* s := Aes.dec_shift_rows t in assert_eq2 s s0.
(** src/aes.rs:458-657 *)
Definition expand_check (key : list N) (rounds : N) (expected : list N) : res unit :=
  let* w := Aes.expand_key key rounds in assert_eq w expected.
(** src/aes.rs:660-682 *)
Definition encrypt_check (key cleartext expected : list N) : res unit :=
  let* (r, aes) := Aes.aes_init Aes.aes_new key in
  let* _ := expect r in
  let* c := Aes.aes_encrypt aes cleartext in
  let* c := expect c in
  assert_eq c expected.
(** src/aes.rs:684-693 *)
Definition hex_to_block (hex : list N) : res (list N) :=
  let* vec := Common.hex_to_vec T hex in
  let* (_, b) := for_each vec (fun elem ib =>
    let '(i, b) := ib in let* b := upd b i elem in Ret (i + 1, b)) (0, repeat 0 16) in
  Ret b.
(** src/aes.rs:695-709 *)
Definition check_cipher_vector (key input output : list N) : res unit :=
  let* key := Common.hex_to_vec T key in
  let* (r, aes) := Aes.aes_init Aes.aes_new key in
  let* _ := expect r in
  let* i := hex_to_block input in
  let* c := Aes.aes_encrypt aes i in
  let* c := expect c in
  let* o := hex_to_block output in
  assert_eq c o ;;
  let* p := Aes.aes_decrypt aes o in
  let* p := expect p in
  assert_eq p i.

(** src/pkcs7.rs:154-222: the statements of a test. *)
Inductive pad_step := pad_expect_write (buf : list N) (out : option (list N)) | pad_expect_flush (out : list N).
Inductive unpad_step :=
| unpad_expect_write (buf : list N) (out : option (list N))
| unpad_expect_flush (out : list N)
| unpad_expect_err (e : Pkcs7.UnpadError).
Notation UnfinishedBlock := Pkcs7.UnfinishedBlock.
Notation InvalidPadding := Pkcs7.InvalidPadding.
Definition same_option (a b : option (list N)) : bool :=
  match a, b with
  | None, None => true
  | Some x, Some y => list_eqb N.eqb x y
  | _, _ => false
  end.
Definition same_error (a b : Pkcs7.UnpadError) : bool :=
  match a, b with
  | Pkcs7.UnfinishedBlock, Pkcs7.UnfinishedBlock => true
  | Pkcs7.InvalidPadding, Pkcs7.InvalidPadding => true
  | _, _ => false
  end.
Definition pad_script (n : N) (steps : list pad_step) : res unit :=
  let* p := Pkcs7.pad_new T n in
  let* _ := for_each steps (fun st p =>
    match st with
    | pad_expect_write buf out =>
        let* (o, p) := Pkcs7.pad_write T p buf in
        let* _ := assert (same_option o out) in Ret p
    | pad_expect_flush out =>
        let* (o, p) := Pkcs7.pad_flush T p in
        let* _ := assert_eq o out in Ret p
    end) p in
  Ret tt.
Definition unpad_script (n : N) (steps : list unpad_step) : res unit :=
  let* p := Pkcs7.unpad_new T n in
  let* _ := for_each steps (fun st p =>
    match st with
    | unpad_expect_write buf out =>
        let* (o, p) := Pkcs7.unpad_write T p buf in
        let* _ := assert (same_option o out) in Ret p
    | unpad_expect_flush out =>
        let* (o, p) := Pkcs7.unpad_flush T p in
        match o with
        | Ok o => let* _ := assert_eq o out in Ret p
        | Err _ => Panic
        end
    | unpad_expect_err e =>
        let* (o, p) := Pkcs7.unpad_flush T p in
        match o with
        | Ok _ => Panic
        | Err e' => let* _ := assert (same_error e' e) in Ret p
        end
    end) p in
  Ret tt.

(** src/aes_cbc.rs:230-253 *)
Definition aes_cbc_check (key iv cleartext ciphertext : list N) : res unit :=
  let* key_vec := Common.hex_to_vec T key in
  let* iv_vec := Common.hex_to_vec T iv in
  let* iv_arr := copy_from_slice (repeat 0 16) iv_vec in
  let* cipher := AesCbc.cipher_new T iv_arr in
  let* (r, cipher) := AesCbc.cipher_init cipher key_vec in
  let* _ := expect r in
  let* (w, cipher) := AesCbc.cipher_write T cipher cleartext in
  let* w := expect w in
  let* (f, cipher) := AesCbc.cipher_flush T cipher in
  let* f := expect f in
  let* ct := Common.hex_to_vec T ciphertext in
  assert_eq (w ++ f) ct ;;
  let* decipher := AesCbc.decipher_new T iv_arr in
  let* (r, decipher) := AesCbc.decipher_init decipher key_vec in
  let* _ := expect r in
  let* (w, decipher) := AesCbc.decipher_write T decipher ct in
  let* w := expect w in
  let* (f, decipher) := AesCbc.decipher_flush T decipher in
  let* f := expect f in
  assert_eq (w ++ f) cleartext.

(** The doc comments of [AES], [Cipher] and [Decipher].  The last two assert nothing
    but the [unwrap]s; here the results are also compared with each other. *)
Definition doc_round_trip (key cleartext : list N) : res unit :=
  let* (r, aes) := Aes.aes_init Aes.aes_new key in
  let* _ := expect r in
  let* c := Aes.aes_encrypt aes cleartext in
  let* c := expect c in
  let* p := Aes.aes_decrypt aes c in
  let* p := expect p in
  assert_eq p cleartext.
Definition doc_ciphertext : list N :=
  [0x98; 0xba; 0x8e; 0x07; 0x5b; 0xcf; 0xa7; 0xb9; 0x3a; 0xbe; 0x45; 0x3a; 0xb1; 0x84; 0xdc; 0x68].
Definition doc_cipher (iv key cleartext : list N) : res unit :=
  let* cipher := AesCbc.cipher_new T iv in
  let* (r, cipher) := AesCbc.cipher_init cipher key in
  let* _ := expect r in
  let* (w, cipher) := AesCbc.cipher_write T cipher cleartext in
  let* w := expect w in
  let* (f, cipher) := AesCbc.cipher_flush T cipher in
  let* f := expect f in
  assert_eq (w ++ f) doc_ciphertext.
Definition doc_decipher (iv key ciphertext : list N) : res unit :=
  let* decipher := AesCbc.decipher_new T iv in
  let* (r, decipher) := AesCbc.decipher_init decipher key in
  let* _ := expect r in
  let* (w, decipher) := AesCbc.decipher_write T decipher ciphertext in
  let* w := expect w in
  let* (f, decipher) := AesCbc.decipher_flush T decipher in
  let* _ := expect f in
  assert_eq ciphertext doc_ciphertext.
