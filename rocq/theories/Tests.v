(** The [#[test]] functions of /repo/src, evaluated in the model for the target on
    which they would usually run (64-bit, overflow checks on).  Written by
    tools/gen_tests.py from the text of /repo.  These are not properties: they
    check that the model is a model of this code. *)
From Coq Require Import NArith List Bool.
From Verif Require Import Rust.
From Verif.Model Require Sha256 Hmac Pbkdf2 Salsa20 Scrypt Aes Pkcs7 AesCbc Common.
Import ListNotations.
Local Open Scope N_scope.

Definition T : target := mkTarget W64 true.

(** [assert_eq!] *)
Fixpoint list_eqb {A : Type} (eqb : A -> A -> bool) (a b : list A) : bool :=
  match a, b with
  | [], [] => true
  | x :: a', y :: b' => eqb x y && list_eqb eqb a' b'
  | _, _ => false
  end.
Definition assert (b : bool) : res unit := if b then Ret tt else Panic.
Definition assert_eq (a b : list N) : res unit := assert (list_eqb N.eqb a b).
Definition assert_eq2 (a b : list (list N)) : res unit := assert (list_eqb (list_eqb N.eqb) a b).
(** [expect] *)
Definition expect {A E : Type} (r : result A E) : res A :=
  match r with Ok a => Ret a | Err _ => Panic end.
Notation "a ;; b" := (bind a (fun _ : unit => b)) (at level 100, right associativity).

(** src/sha256.rs:385-392 *)
Definition sha256_check (inputs : list (list N)) (expected : list N) : res unit :=
  let* s := for_each inputs (fun chunk s => Sha256.sha256_update T s chunk) Sha256.sha256_new in
  let* (d, _) := Sha256.sha256_digest T s in
  assert_eq d expected.

(** src/hmac.rs:121-128 *)
Definition hmac_check (key : list N) (inputs : list (list N)) (expected : list N) : res unit :=
  let* m := Hmac.hmac_new T key in
  let* m := for_each inputs (fun chunk m => Hmac.hmac_update T m chunk) m in
  let* (d, _) := Hmac.hmac_digest T m in
  assert_eq d expected.

(** src/pbkdf2.rs:124-138 *)
Definition pbkdf2_check (password salt : list N) (c : N) (expected : list N) : res unit :=
  let* out := Pbkdf2.pbkdf2_sha256 T password salt c (repeat 0 64) in
  assert_eq out expected.

(** src/salsa20.rs:217-221, 279-283, 369-373, 459-463, 549-553 *)
Definition quarter_check (input expected : list N) : res unit :=
  let* out := Salsa20.quarterround input (repeat 0 4) in assert_eq out expected.
Definition column_check (input expected : list N) : res unit :=
  let* out := Salsa20.columnround input (repeat 0 16) in assert_eq out expected.
Definition double_check (input expected : list N) : res unit :=
  let* out := Salsa20.doubleround input (repeat 0 16) in assert_eq out expected.
Definition row_check (input expected : list N) : res unit :=
  let* out := Salsa20.rowround input (repeat 0 16) in assert_eq out expected.
Definition salsa20_check (input : list N) (rounds : N) (expected : list N) : res unit :=
  let* out := Salsa20.salsa20 input rounds (repeat 0 64) in assert_eq out expected.

(** src/scrypt.rs:309-312, 353-356, 401-417 *)
Definition check_mix (r : N) (input expected : list (list N)) : res unit :=
  let* y := Scrypt.block_mix T (Scrypt.scrypt_new r 1 1) input in assert_eq2 y expected.
Definition check_ro_mix (r n : N) (input expected : list (list N)) : res unit :=
  let* y := Scrypt.ro_mix T (Scrypt.scrypt_new r n 1) input in assert_eq2 y expected.
Definition scrypt_check (r n p : N) (passphrase salt expected : list N) : res unit :=
  let* (r, out) := Scrypt.scrypt_derive T (Scrypt.scrypt_new r n p) passphrase salt (repeat 0 64) in
  let* _ := expect r in
  assert_eq out expected.

(** src/aes.rs:416-421 *)
Definition TEST_BLOCK : list (list N) :=
  [[0x37; 0xd7; 0xa0; 0x2d]; [0x8a; 0x65; 0xc1; 0x96]; [0xda; 0xee; 0x01; 0x99]; [0xb9; 0x9e; 0x55; 0x65]].
(** src/aes.rs:424-455 *)
Definition mul_check (a b expected : N) : res unit :=
  let* x := Aes.mul a b in assert (x =? expected).
Definition inverse_sub_bytes (s0 : list (list N)) : res unit :=
  let* s := Aes.sub_bytes Aes.enc_lookup_sbox s0 in
  let* s := Aes.sub_bytes Aes.dec_lookup_sbox s in assert_eq2 s s0.
Definition inverse_mix_columns (s0 : list (list N)) : res unit :=
  let* s := Aes.mix_columns Aes.enc_mix_column s0 in
  let* s := Aes.mix_columns Aes.dec_mix_column s in assert_eq2 s s0.
Definition inverse_shift_rows (s0 : list (list N)) : res unit :=
  let* t := Aes.enc_shift_rows s0 in
  let* s := Aes.dec_shift_rows t in assert_eq2 s s0.
(** src/aes.rs:458-657 *)
Definition expand_check (key : list N) (rounds : N) (expected : list N) : res unit :=
  let* w := Aes.expand_key key rounds in assert_eq w expected.
(** src/aes.rs:660-682 *)
Definition encrypt_check (key cleartext expected : list N) : res unit :=
  let* (r, aes) := Aes.aes_init Aes.aes_new key in
  let* _ := expect r in
  let* c := Aes.aes_encrypt aes cleartext in
  let* c := expect c in
  assert_eq c expected.
(** src/aes.rs:684-693 *)
Definition hex_to_block (hex : list N) : res (list N) :=
  let* vec := Common.hex_to_vec T hex in
  let* (_, b) := for_each vec (fun elem ib =>
    let '(i, b) := ib in let* b := upd b i elem in Ret (i + 1, b)) (0, repeat 0 16) in
  Ret b.
(** src/aes.rs:695-709 *)
Definition check_cipher_vector (key input output : list N) : res unit :=
  let* key := Common.hex_to_vec T key in
  let* (r, aes) := Aes.aes_init Aes.aes_new key in
  let* _ := expect r in
  let* i := hex_to_block input in
  let* c := Aes.aes_encrypt aes i in
  let* c := expect c in
  let* o := hex_to_block output in
  assert_eq c o ;;
  let* p := Aes.aes_decrypt aes o in
  let* p := expect p in
  assert_eq p i.

(** src/pkcs7.rs:154-222: the statements of a test. *)
Inductive pad_step := pad_expect_write (buf : list N) (out : option (list N)) | pad_expect_flush (out : list N).
Inductive unpad_step :=
| unpad_expect_write (buf : list N) (out : option (list N))
| unpad_expect_flush (out : list N)
| unpad_expect_err (e : Pkcs7.UnpadError).
Notation UnfinishedBlock := Pkcs7.UnfinishedBlock.
Notation InvalidPadding := Pkcs7.InvalidPadding.
Definition same_option (a b : option (list N)) : bool :=
  match a, b with
  | None, None => true
  | Some x, Some y => list_eqb N.eqb x y
  | _, _ => false
  end.
Definition same_error (a b : Pkcs7.UnpadError) : bool :=
  match a, b with
  | Pkcs7.UnfinishedBlock, Pkcs7.UnfinishedBlock => true
  | Pkcs7.InvalidPadding, Pkcs7.InvalidPadding => true
  | _, _ => false
  end.
Definition pad_script (n : N) (steps : list pad_step) : res unit :=
  let* p := Pkcs7.pad_new T n in
  let* _ := for_each steps (fun st p =>
    match st with
    | pad_expect_write buf out =>
        let* (o, p) := Pkcs7.pad_write T p buf in
        let* _ := assert (same_option o out) in Ret p
    | pad_expect_flush out =>
        let* (o, p) := Pkcs7.pad_flush T p in
        let* _ := assert_eq o out in Ret p
    end) p in
  Ret tt.
Definition unpad_script (n : N) (steps : list unpad_step) : res unit :=
  let* p := Pkcs7.unpad_new T n in
  let* _ := for_each steps (fun st p =>
    match st with
    | unpad_expect_write buf out =>
        let* (o, p) := Pkcs7.unpad_write T p buf in
        let* _ := assert (same_option o out) in Ret p
    | unpad_expect_flush out =>
        let* (o, p) := Pkcs7.unpad_flush T p in
        match o with
        | Ok o => let* _ := assert_eq o out in Ret p
        | Err _ => Panic
        end
    | unpad_expect_err e =>
        let* (o, p) := Pkcs7.unpad_flush T p in
        match o with
        | Ok _ => Panic
        | Err e' => let* _ := assert (same_error e' e) in Ret p
        end
    end) p in
  Ret tt.

(** src/aes_cbc.rs:230-253 *)
Definition aes_cbc_check (key iv cleartext ciphertext : list N) : res unit :=
  let* key_vec := Common.hex_to_vec T key in
  let* iv_vec := Common.hex_to_vec T iv in
  let* iv_arr := copy_from_slice (repeat 0 16) iv_vec in
  let* cipher := AesCbc.cipher_new T iv_arr in
  let* (r, cipher) := AesCbc.cipher_init cipher key_vec in
  let* _ := expect r in
  let* (w, cipher) := AesCbc.cipher_write T cipher cleartext in
  let* w := expect w in
  let* (f, cipher) := AesCbc.cipher_flush T cipher in
  let* f := expect f in
  let* ct := Common.hex_to_vec T ciphertext in
  assert_eq (w ++ f) ct ;;
  let* decipher := AesCbc.decipher_new T iv_arr in
  let* (r, decipher) := AesCbc.decipher_init decipher key_vec in
  let* _ := expect r in
  let* (w, decipher) := AesCbc.decipher_write T decipher ct in
  let* w := expect w in
  let* (f, decipher) := AesCbc.decipher_flush T decipher in
  let* f := expect f in
  assert_eq (w ++ f) cleartext.

(** The doc comments of [AES], [Cipher] and [Decipher].  The last two assert nothing
    but the [unwrap]s; here the results are also compared with each other. *)
Definition doc_round_trip (key cleartext : list N) : res unit :=
  let* (r, aes) := Aes.aes_init Aes.aes_new key in
  let* _ := expect r in
  let* c := Aes.aes_encrypt aes cleartext in
  let* c := expect c in
  let* p := Aes.aes_decrypt aes c in
  let* p := expect p in
  assert_eq p cleartext.
Definition doc_ciphertext : list N :=
  [0x98; 0xba; 0x8e; 0x07; 0x5b; 0xcf; 0xa7; 0xb9; 0x3a; 0xbe; 0x45; 0x3a; 0xb1; 0x84; 0xdc; 0x68].
Definition doc_cipher (iv key cleartext : list N) : res unit :=
  let* cipher := AesCbc.cipher_new T iv in
  let* (r, cipher) := AesCbc.cipher_init cipher key in
  let* _ := expect r in
  let* (w, cipher) := AesCbc.cipher_write T cipher cleartext in
  let* w := expect w in
  let* (f, cipher) := AesCbc.cipher_flush T cipher in
  let* f := expect f in
  assert_eq (w ++ f) doc_ciphertext.
Definition doc_decipher (iv key ciphertext : list N) : res unit :=
  let* decipher := AesCbc.decipher_new T iv in
  let* (r, decipher) := AesCbc.decipher_init decipher key in
  let* _ := expect r in
  let* (w, decipher) := AesCbc.decipher_write T decipher ciphertext in
  let* w := expect w in
  let* (f, decipher) := AesCbc.decipher_flush T decipher in
  let* _ := expect f in
  assert_eq ciphertext doc_ciphertext.


(** * src/sha256.rs *)

(** src/sha256.rs:395 *)
Example sha256_it_should_compute_digest_for_abc :
  sha256_check [[97; 98; 99]] [186; 120; 22; 191; 143; 1; 207; 234; 65; 65; 64; 222; 93; 174;
    34; 35; 176; 3; 97; 163; 150; 23; 122; 156; 180; 16; 255; 97; 242; 0; 21; 173] = Ret tt.
Proof. vm_compute. reflexivity. Qed.

(** src/sha256.rs:407 *)
Example sha256_it_should_compute_digest_for_a_b_c :
  sha256_check [[97]; [98]; [99]] [186; 120; 22; 191; 143; 1; 207; 234; 65; 65; 64; 222; 93;
    174; 34; 35; 176; 3; 97; 163; 150; 23; 122; 156; 180; 16; 255; 97; 242; 0; 21; 173] = Ret tt.
Proof. vm_compute. reflexivity. Qed.

(** src/sha256.rs:419 *)
Example sha256_it_should_compute_digest_for_long_str :
  sha256_check [[97; 98; 99; 100; 98; 99; 100; 101; 99; 100; 101; 102; 100; 101; 102; 103;
    101; 102; 103; 104; 102; 103; 104; 105; 103; 104; 105; 106; 104; 105; 106; 107; 105; 106;
    107; 108; 106; 107; 108; 109; 107; 108; 109; 110; 108; 109; 110; 111; 109; 110; 111; 112;
    110; 111; 112; 113]] [36; 141; 106; 97; 210; 6; 56; 184; 229; 192; 38; 147; 12; 62; 96; 57;
    163; 60; 228; 89; 100; 255; 33; 103; 246; 236; 237; 212; 25; 219; 6; 193] = Ret tt.
Proof. vm_compute. reflexivity. Qed.

(** src/sha256.rs:431 *)
Example sha256_it_should_compute_digest_for_long_chunked_str :
  sha256_check [[97; 98; 99; 100; 98; 99; 100; 101; 99]; [100; 101; 102; 100; 101; 102; 103;
    101; 102; 103]; [104; 102; 103; 104; 105; 103; 104; 105; 106; 104; 105]; [106; 107; 105;
    106; 107; 108; 106; 107; 108; 109; 107; 108]; [109; 110; 108; 109; 110; 111; 109; 110; 111;
    112; 110; 111; 112; 113]] [36; 141; 106; 97; 210; 6; 56; 184; 229; 192; 38; 147; 12; 62; 96;
    57; 163; 60; 228; 89; 100; 255; 33; 103; 246; 236; 237; 212; 25; 219; 6; 193] = Ret tt.
Proof. vm_compute. reflexivity. Qed.

(** src/sha256.rs:449 *)
Example sha256_it_should_compute_digest_for_doubled_chunked_long_str :
  sha256_check [[97; 98; 99; 100; 98; 99; 100; 101; 99; 100; 101; 102; 100; 101; 102; 103;
    101; 102; 103; 104; 102; 103; 104; 105; 103; 104; 105; 106; 104; 105; 106; 107; 105; 106;
    107; 108; 106; 107; 108; 109; 107; 108; 109; 110; 108; 109; 110; 111; 109; 110; 111; 112;
    110; 111; 112; 113]; [97; 98; 99; 100; 98; 99; 100; 101; 99; 100; 101; 102; 100; 101; 102;
    103; 101; 102; 103; 104; 102; 103; 104; 105; 103; 104; 105; 106; 104; 105; 106; 107; 105;
    106; 107; 108; 106; 107; 108; 109; 107; 108; 109; 110; 108; 109; 110; 111; 109; 110; 111;
    112; 110; 111; 112; 113]] [89; 241; 9; 217; 83; 59; 43; 112; 231; 195; 184; 20; 162; 189;
    33; 143; 120; 234; 93; 55; 20; 69; 91; 198; 121; 135; 207; 13; 102; 67; 153; 207] = Ret tt.
Proof. vm_compute. reflexivity. Qed.

(** src/sha256.rs:464 *)
Example sha256_it_should_compute_digest_for_doubled_long_str :
  sha256_check [[97; 98; 99; 100; 98; 99; 100; 101; 99; 100; 101; 102; 100; 101; 102; 103;
    101; 102; 103; 104; 102; 103; 104; 105; 103; 104; 105; 106; 104; 105; 106; 107; 105; 106;
    107; 108; 106; 107; 108; 109; 107; 108; 109; 110; 108; 109; 110; 111; 109; 110; 111; 112;
    110; 111; 112; 113; 97; 98; 99; 100; 98; 99; 100; 101; 99; 100; 101; 102; 100; 101; 102;
    103; 101; 102; 103; 104; 102; 103; 104; 105; 103; 104; 105; 106; 104; 105; 106; 107; 105;
    106; 107; 108; 106; 107; 108; 109; 107; 108; 109; 110; 108; 109; 110; 111; 109; 110; 111;
    112; 110; 111; 112; 113]] [89; 241; 9; 217; 83; 59; 43; 112; 231; 195; 184; 20; 162; 189;
    33; 143; 120; 234; 93; 55; 20; 69; 91; 198; 121; 135; 207; 13; 102; 67; 153; 207] = Ret tt.
Proof. vm_compute. reflexivity. Qed.


(** * src/hmac.rs *)

(** src/hmac.rs:135 *)
Example hmac_it_should_compute_digest_for_vec0 :
  hmac_check [11; 11; 11; 11; 11; 11; 11; 11; 11; 11; 11; 11; 11; 11; 11; 11; 11; 11; 11; 11]
    [[72; 105; 32; 84; 104; 101; 114; 101]] [176; 52; 76; 97; 216; 219; 56; 83; 92; 168; 175;
    206; 175; 11; 241; 43; 136; 29; 194; 0; 201; 131; 61; 167; 38; 233; 55; 108; 46; 50; 207;
    247] = Ret tt.
Proof. vm_compute. reflexivity. Qed.

(** src/hmac.rs:148 *)
Example hmac_it_should_compute_digest_for_vec1 :
  hmac_check [74; 101; 102; 101] [[119; 104; 97; 116; 32; 100; 111; 32; 121; 97; 32; 119; 97;
    110; 116; 32]; [102; 111; 114; 32; 110; 111; 116; 104; 105; 110; 103; 63]] [91; 220; 193;
    70; 191; 96; 117; 78; 106; 4; 36; 38; 8; 149; 117; 199; 90; 0; 63; 8; 157; 39; 57; 131; 157;
    236; 88; 185; 100; 236; 56; 67] = Ret tt.
Proof. vm_compute. reflexivity. Qed.

(** src/hmac.rs:161 *)
Example hmac_it_should_compute_digest_for_vec2 :
  hmac_check [170; 170; 170; 170; 170; 170; 170; 170; 170; 170; 170; 170; 170; 170; 170; 170;
    170; 170; 170; 170] [[221; 221; 221; 221; 221; 221; 221; 221; 221; 221; 221; 221; 221; 221;
    221; 221]; [221; 221; 221; 221; 221; 221; 221; 221; 221; 221; 221; 221; 221; 221; 221; 221];
    [221; 221; 221; 221; 221; 221; 221; 221; 221; 221; 221; 221; 221; 221; 221; 221]; [221;
    221]] [119; 62; 169; 30; 54; 128; 14; 70; 133; 77; 184; 235; 208; 145; 129; 167; 41; 89; 9;
    139; 62; 248; 193; 34; 217; 99; 85; 20; 206; 213; 101; 254] = Ret tt.
Proof. vm_compute. reflexivity. Qed.

(** src/hmac.rs:191 *)
Example hmac_it_should_compute_digest_for_vec3 :
  hmac_check [1; 2; 3; 4; 5; 6; 7; 8; 9; 10; 11; 12; 13; 14; 15; 16; 17; 18; 19; 20; 21; 22;
    23; 24; 25] [[205; 205; 205; 205; 205; 205; 205; 205; 205; 205; 205; 205; 205; 205; 205;
    205]; [205; 205; 205; 205; 205; 205; 205; 205; 205; 205; 205; 205; 205; 205; 205; 205];
    [205; 205; 205; 205; 205; 205; 205; 205; 205; 205; 205; 205; 205; 205; 205; 205]; [205;
    205]] [130; 85; 138; 56; 154; 68; 60; 14; 164; 204; 129; 152; 153; 242; 8; 58; 133; 240;
    250; 163; 229; 120; 248; 7; 122; 46; 63; 244; 103; 41; 102; 91] = Ret tt.
Proof. vm_compute. reflexivity. Qed.

(** src/hmac.rs:221 *)
Example hmac_it_should_compute_digest_for_vec4 :
  hmac_check [170; 170; 170; 170; 170; 170; 170; 170; 170; 170; 170; 170; 170; 170; 170; 170;
    170; 170; 170; 170; 170; 170; 170; 170; 170; 170; 170; 170; 170; 170; 170; 170; 170; 170;
    170; 170; 170; 170; 170; 170; 170; 170; 170; 170; 170; 170; 170; 170; 170; 170; 170; 170;
    170; 170; 170; 170; 170; 170; 170; 170; 170; 170; 170; 170; 170; 170; 170; 170; 170; 170;
    170; 170; 170; 170; 170; 170; 170; 170; 170; 170; 170; 170; 170; 170; 170; 170; 170; 170;
    170; 170; 170; 170; 170; 170; 170; 170; 170; 170; 170; 170; 170; 170; 170; 170; 170; 170;
    170; 170; 170; 170; 170; 170; 170; 170; 170; 170; 170; 170; 170; 170; 170; 170; 170; 170;
    170; 170; 170; 170; 170; 170; 170] [[84; 101; 115; 116; 32; 85; 115; 105; 110; 103; 32; 76;
    97; 114; 103; 101]; [114; 32; 84; 104; 97; 110; 32; 66; 108; 111; 99; 107; 45; 83; 105;
    122]; [101; 32; 75; 101; 121; 32; 45; 32; 72; 97; 115; 104; 32; 75; 101; 121]; [32; 70; 105;
    114; 115; 116]] [96; 228; 49; 89; 30; 224; 182; 127; 13; 138; 38; 170; 203; 245; 183; 127;
    142; 11; 198; 33; 55; 40; 197; 20; 5; 70; 4; 15; 14; 227; 127; 84] = Ret tt.
Proof. vm_compute. reflexivity. Qed.

(** src/hmac.rs:250 *)
Example hmac_it_should_compute_digest_for_vec5 :
  hmac_check [170; 170; 170; 170; 170; 170; 170; 170; 170; 170; 170; 170; 170; 170; 170; 170;
    170; 170; 170; 170; 170; 170; 170; 170; 170; 170; 170; 170; 170; 170; 170; 170; 170; 170;
    170; 170; 170; 170; 170; 170; 170; 170; 170; 170; 170; 170; 170; 170; 170; 170; 170; 170;
    170; 170; 170; 170; 170; 170; 170; 170; 170; 170; 170; 170; 170; 170; 170; 170; 170; 170;
    170; 170; 170; 170; 170; 170; 170; 170; 170; 170; 170; 170; 170; 170; 170; 170; 170; 170;
    170; 170; 170; 170; 170; 170; 170; 170; 170; 170; 170; 170; 170; 170; 170; 170; 170; 170;
    170; 170; 170; 170; 170; 170; 170; 170; 170; 170; 170; 170; 170; 170; 170; 170; 170; 170;
    170; 170; 170; 170; 170; 170; 170] [[84; 104; 105; 115; 32; 105; 115; 32; 97; 32; 116; 101;
    115; 116; 32; 117]; [115; 105; 110; 103; 32; 97; 32; 108; 97; 114; 103; 101; 114; 32; 116;
    104]; [97; 110; 32; 98; 108; 111; 99; 107; 45; 115; 105; 122; 101; 32; 107; 101]; [121; 32;
    97; 110; 100; 32; 97; 32; 108; 97; 114; 103; 101; 114; 32; 116]; [104; 97; 110; 32; 98; 108;
    111; 99; 107; 45; 115; 105; 122; 101; 32; 100]; [97; 116; 97; 46; 32; 84; 104; 101; 32; 107;
    101; 121; 32; 110; 101; 101]; [100; 115; 32; 116; 111; 32; 98; 101; 32; 104; 97; 115; 104;
    101; 100; 32]; [98; 101; 102; 111; 114; 101; 32; 98; 101; 105; 110; 103; 32; 117; 115; 101];
    [100; 32; 98; 121; 32; 116; 104; 101; 32; 72; 77; 65; 67; 32; 97; 108]; [103; 111; 114; 105;
    116; 104; 109; 46]] [155; 9; 255; 167; 27; 148; 47; 203; 39; 99; 95; 188; 213; 176; 233; 68;
    191; 220; 99; 100; 79; 7; 19; 147; 138; 127; 81; 83; 92; 58; 53; 226] = Ret tt.
Proof. vm_compute. reflexivity. Qed.

(** src/hmac.rs:289 *)
Example hmac_it_should_compute_pbkdf2_stage_properly :
  hmac_check [80; 97; 115; 115; 119; 111; 114; 100] [[198; 0; 64; 78; 57; 201; 233; 122; 125;
    122; 116; 91; 50; 195; 231; 66; 99; 135; 179; 101; 105; 60; 127; 89; 48; 15; 216; 160; 58;
    171; 76; 110]] [190; 151; 200; 17; 73; 117; 15; 71; 101; 154; 55; 246; 35; 0; 67; 245; 121;
    181; 216; 53; 172; 221; 252; 142; 112; 215; 74; 239; 102; 149; 225; 40] = Ret tt.
Proof. vm_compute. reflexivity. Qed.


(** * src/pbkdf2.rs *)

(** src/pbkdf2.rs:124 *)
Example pbkdf2_it_should_compute_digest_for_vec0 :
  pbkdf2_check [112; 97; 115; 115; 119; 100] [115; 97; 108; 116] 1 [85; 172; 4; 110; 86; 227;
    8; 159; 236; 22; 145; 194; 37; 68; 182; 5; 249; 65; 133; 33; 109; 222; 4; 101; 230; 139;
    157; 87; 194; 13; 172; 188; 73; 202; 156; 204; 241; 121; 182; 69; 153; 22; 100; 179; 157;
    119; 239; 49; 124; 113; 184; 69; 177; 227; 11; 213; 9; 17; 32; 65; 211; 161; 151; 131] = Ret tt.
Proof. vm_compute. reflexivity. Qed.

(** src/pbkdf2.rs:141, it_should_compute_digest_for_vec1: not evaluated (80000 iterations). *)


(** * src/salsa20.rs *)

(** src/salsa20.rs:224 *)
Example salsa20_it_should_compute_quarterround_for_vec0 :
  quarter_check [0; 0; 0; 0] [0; 0; 0; 0] = Ret tt.
Proof. vm_compute. reflexivity. Qed.

(** src/salsa20.rs:232 *)
Example salsa20_it_should_compute_quarterround_for_vec1 :
  quarter_check [1; 0; 0; 0] [134250821; 128; 66048; 542113792] = Ret tt.
Proof. vm_compute. reflexivity. Qed.

(** src/salsa20.rs:240 *)
Example salsa20_it_should_compute_quarterround_for_vec2 :
  quarter_check [0; 1; 0; 0] [2281701632; 1; 512; 4202496] = Ret tt.
Proof. vm_compute. reflexivity. Qed.

(** src/salsa20.rs:248 *)
Example salsa20_it_should_compute_quarterround_for_vec3 :
  quarter_check [0; 0; 1; 0] [2147745792; 0; 1; 8192] = Ret tt.
Proof. vm_compute. reflexivity. Qed.

(** src/salsa20.rs:256 *)
Example salsa20_it_should_compute_quarterround_for_vec4 :
  quarter_check [0; 0; 0; 1] [294980; 128; 65536; 537919489] = Ret tt.
Proof. vm_compute. reflexivity. Qed.

(** src/salsa20.rs:264 *)
Example salsa20_it_should_compute_quarterround_for_vec5 :
  quarter_check [3890790406; 3304669565; 1685697714; 1757835575] [3900102443; 2472665045;
    4047897156; 2491761059] = Ret tt.
Proof. vm_compute. reflexivity. Qed.

(** src/salsa20.rs:272 *)
Example salsa20_it_should_compute_quarterround_for_vec6 :
  quarter_check [3549527131; 1441907719; 1386580602; 2408086075] [1043280012; 3641347894;
    1790093603; 679694924] = Ret tt.
Proof. vm_compute. reflexivity. Qed.

(** src/salsa20.rs:286 *)
Example salsa20_it_should_compute_columnround_for_vec0 :
  column_check [1; 0; 0; 0; 1; 0; 0; 0; 1; 0; 0; 0; 1; 0; 0; 0] [269025928; 0; 0; 0; 257; 0;
    0; 0; 132097; 0; 0; 0; 1084243969; 0; 0; 0] = Ret tt.
Proof. vm_compute. reflexivity. Qed.

(** src/salsa20.rs:328 *)
Example salsa20_it_should_compute_columnround_for_vec1 :
  column_check [139598806; 535332919; 3140134262; 983720805; 3310119515; 801590319;
    1842584771; 3658114294; 2426597949; 109024678; 112418657; 1105490734; 3898196224;
    3930948791; 258055167; 3161364058] [2359105802; 3465432208; 519629267; 321300250;
    2426536227; 3939747059; 1671467424; 4033908073; 2023424268; 3516245633; 3950859524;
    2809402204; 1209802791; 1403577525; 1277135301; 1064880584] = Ret tt.
Proof. vm_compute. reflexivity. Qed.

(** src/salsa20.rs:376 *)
Example salsa20_it_should_compute_doubleround_for_vec0 :
  double_check [1; 0; 0; 0; 0; 0; 0; 0; 0; 0; 0; 0; 0; 0; 0; 0] [2173084205; 4235908;
    2185728528; 110268497; 134217872; 37757440; 16384; 8388608; 66048; 541065216; 134250756; 0;
    542113792; 2684354624; 530442; 1630175264] = Ret tt.
Proof. vm_compute. reflexivity. Qed.

(** src/salsa20.rs:418 *)
Example salsa20_it_should_compute_doubleround_for_vec1 :
  double_check [3729789030; 1872673015; 3841703323; 1162755927; 3075817683; 1139358284;
    980363936; 1919773494; 2453927044; 2437272040; 1336529479; 3700289041; 88864069; 625858131;
    3644988269; 1739749057] [3433756274; 601448695; 2438194746; 3449446608; 1346634898;
    4034702617; 2922662560; 3746364924; 3394444329; 2390311899; 2887155917; 3573795328;
    2806721238; 3157466204; 500835527; 4002579063] = Ret tt.
Proof. vm_compute. reflexivity. Qed.

(** src/salsa20.rs:466 *)
Example salsa20_it_should_compute_rowround_for_vec0 :
  row_check [1; 0; 0; 0; 1; 0; 0; 0; 1; 0; 0; 0; 1; 0; 0; 0] [134250821; 128; 66048;
    542113792; 537919489; 294980; 128; 65536; 1; 8192; 2147745792; 0; 1; 512; 4202496;
    2281701632] = Ret tt.
Proof. vm_compute. reflexivity. Qed.

(** src/salsa20.rs:508 *)
Example salsa20_it_should_compute_rowround_for_vec1 :
  row_check [139598806; 535332919; 3140134262; 983720805; 3310119515; 801590319; 1842584771;
    3658114294; 2426597949; 109024678; 112418657; 1105490734; 3898196224; 3930948791; 258055167;
    3161364058] [2828063645; 1708594582; 3913842090; 3368708742; 2493325714; 1984657236;
    3825785273; 2051126481; 872604035; 1010496562; 1348902806; 3634294952; 4255205; 3041262542;
    3528977743; 404260909] = Ret tt.
Proof. vm_compute. reflexivity. Qed.

(** src/salsa20.rs:556 *)
Example salsa20_it_should_compute_salsa20_for_vec0 :
  salsa20_check [0; 0; 0; 0; 0; 0; 0; 0; 0; 0; 0; 0; 0; 0; 0; 0; 0; 0; 0; 0; 0; 0; 0; 0; 0; 0;
    0; 0; 0; 0; 0; 0; 0; 0; 0; 0; 0; 0; 0; 0; 0; 0; 0; 0; 0; 0; 0; 0; 0; 0; 0; 0; 0; 0; 0; 0; 0;
    0; 0; 0; 0; 0; 0; 0] 10 [0; 0; 0; 0; 0; 0; 0; 0; 0; 0; 0; 0; 0; 0; 0; 0; 0; 0; 0; 0; 0; 0;
    0; 0; 0; 0; 0; 0; 0; 0; 0; 0; 0; 0; 0; 0; 0; 0; 0; 0; 0; 0; 0; 0; 0; 0; 0; 0; 0; 0; 0; 0; 0;
    0; 0; 0; 0; 0; 0; 0; 0; 0; 0; 0] = Ret tt.
Proof. vm_compute. reflexivity. Qed.

(** src/salsa20.rs:573 *)
Example salsa20_it_should_compute_salsa20_for_vec1 :
  salsa20_check [211; 159; 13; 115; 76; 55; 82; 183; 3; 117; 222; 37; 191; 187; 234; 136; 49;
    237; 179; 48; 1; 106; 178; 219; 175; 199; 166; 48; 86; 16; 179; 207; 31; 240; 32; 63; 15;
    83; 93; 161; 116; 147; 48; 113; 238; 55; 204; 36; 79; 201; 235; 79; 3; 81; 156; 47; 203; 26;
    244; 243; 88; 118; 104; 54] 10 [109; 42; 178; 168; 156; 240; 248; 238; 168; 196; 190; 203;
    26; 110; 170; 154; 29; 29; 150; 26; 150; 30; 235; 249; 190; 163; 251; 48; 69; 144; 51; 57;
    118; 40; 152; 157; 180; 57; 27; 94; 107; 42; 236; 35; 27; 111; 114; 114; 219; 236; 232; 135;
    111; 155; 110; 18; 24; 232; 95; 158; 179; 19; 48; 202] = Ret tt.
Proof. vm_compute. reflexivity. Qed.

(** src/salsa20.rs:592 *)
Example salsa20_it_should_compute_salsa20_for_vec2 :
  salsa20_check [88; 118; 104; 54; 79; 201; 235; 79; 3; 81; 156; 47; 203; 26; 244; 243; 191;
    187; 234; 136; 211; 159; 13; 115; 76; 55; 82; 183; 3; 117; 222; 37; 86; 16; 179; 207; 49;
    237; 179; 48; 1; 106; 178; 219; 175; 199; 166; 48; 238; 55; 204; 36; 31; 240; 32; 63; 15;
    83; 93; 161; 116; 147; 48; 113] 10 [179; 19; 48; 202; 219; 236; 232; 135; 111; 155; 110; 18;
    24; 232; 95; 158; 26; 110; 170; 154; 109; 42; 178; 168; 156; 240; 248; 238; 168; 196; 190;
    203; 69; 144; 51; 57; 29; 29; 150; 26; 150; 30; 235; 249; 190; 163; 251; 48; 27; 111; 114;
    114; 118; 40; 152; 157; 180; 57; 27; 94; 107; 42; 236; 35] = Ret tt.
Proof. vm_compute. reflexivity. Qed.

(** src/salsa20.rs:613 *)
Example salsa20_it_should_compute_salsa20_for_vec3 :
  salsa20_check [126; 135; 154; 33; 79; 62; 201; 134; 124; 169; 64; 230; 65; 113; 143; 38;
    186; 238; 85; 91; 140; 97; 193; 181; 13; 248; 70; 17; 109; 205; 59; 29; 238; 36; 243; 25;
    223; 155; 61; 133; 20; 18; 30; 75; 90; 197; 170; 50; 118; 2; 29; 41; 9; 199; 72; 41; 237;
    235; 198; 141; 184; 184; 194; 94] 4 [164; 31; 133; 156; 102; 8; 204; 153; 59; 129; 202; 203;
    2; 12; 239; 5; 4; 75; 33; 129; 162; 253; 51; 125; 253; 123; 28; 99; 150; 104; 47; 41; 180;
    57; 49; 104; 227; 201; 230; 188; 254; 107; 197; 183; 160; 109; 150; 186; 228; 36; 204; 16;
    44; 145; 116; 92; 36; 173; 103; 61; 199; 97; 143; 129] = Ret tt.
Proof. vm_compute. reflexivity. Qed.


(** * src/scrypt.rs *)

(** src/scrypt.rs:315 *)
Example scrypt_it_should_compute_block_mix_for_vec0 :
  check_mix 1 [[247; 206; 11; 101; 61; 45; 114; 164; 16; 140; 245; 171; 233; 18; 255; 221;
    119; 118; 22; 219; 187; 39; 167; 14; 130; 4; 243; 174; 45; 15; 111; 173; 137; 246; 143; 72;
    17; 209; 232; 123; 204; 59; 215; 64; 10; 159; 253; 41; 9; 79; 1; 132; 99; 149; 116; 243;
    154; 229; 161; 49; 82; 23; 188; 215]; [137; 73; 145; 68; 114; 19; 187; 34; 108; 37; 181; 77;
    168; 99; 112; 251; 205; 152; 67; 128; 55; 70; 102; 187; 143; 252; 181; 191; 64; 194; 84;
    176; 103; 210; 124; 81; 206; 74; 213; 254; 216; 41; 201; 11; 80; 90; 87; 27; 127; 77; 28;
    173; 106; 82; 60; 218; 119; 14; 103; 188; 234; 175; 126; 137]] [[164; 31; 133; 156; 102; 8;
    204; 153; 59; 129; 202; 203; 2; 12; 239; 5; 4; 75; 33; 129; 162; 253; 51; 125; 253; 123; 28;
    99; 150; 104; 47; 41; 180; 57; 49; 104; 227; 201; 230; 188; 254; 107; 197; 183; 160; 109;
    150; 186; 228; 36; 204; 16; 44; 145; 116; 92; 36; 173; 103; 61; 199; 97; 143; 129]; [32;
    237; 201; 117; 50; 56; 129; 168; 5; 64; 246; 76; 22; 45; 205; 60; 33; 7; 124; 254; 95; 141;
    95; 226; 177; 164; 22; 143; 149; 54; 120; 183; 125; 59; 61; 128; 59; 96; 228; 171; 146; 9;
    150; 229; 155; 77; 83; 182; 93; 42; 34; 88; 119; 213; 237; 245; 132; 44; 185; 241; 78; 239;
    228; 37]] = Ret tt.
Proof. vm_compute. reflexivity. Qed.

(** src/scrypt.rs:359 *)
Example scrypt_it_should_compute_ro_mix_for_vec0 :
  check_ro_mix 1 16 [[247; 206; 11; 101; 61; 45; 114; 164; 16; 140; 245; 171; 233; 18; 255;
    221; 119; 118; 22; 219; 187; 39; 167; 14; 130; 4; 243; 174; 45; 15; 111; 173; 137; 246; 143;
    72; 17; 209; 232; 123; 204; 59; 215; 64; 10; 159; 253; 41; 9; 79; 1; 132; 99; 149; 116; 243;
    154; 229; 161; 49; 82; 23; 188; 215]; [137; 73; 145; 68; 114; 19; 187; 34; 108; 37; 181; 77;
    168; 99; 112; 251; 205; 152; 67; 128; 55; 70; 102; 187; 143; 252; 181; 191; 64; 194; 84;
    176; 103; 210; 124; 81; 206; 74; 213; 254; 216; 41; 201; 11; 80; 90; 87; 27; 127; 77; 28;
    173; 106; 82; 60; 218; 119; 14; 103; 188; 234; 175; 126; 137]] [[121; 204; 193; 147; 98;
    157; 235; 202; 4; 127; 11; 112; 96; 75; 246; 182; 44; 227; 221; 74; 150; 38; 227; 85; 250;
    252; 97; 152; 230; 234; 43; 70; 213; 132; 19; 103; 59; 153; 176; 41; 214; 101; 195; 87; 96;
    31; 180; 38; 160; 178; 244; 187; 162; 0; 238; 159; 10; 67; 209; 155; 87; 26; 156; 113];
    [239; 17; 66; 230; 93; 90; 38; 111; 221; 202; 131; 44; 229; 159; 170; 124; 172; 11; 156;
    241; 190; 43; 255; 202; 48; 13; 1; 238; 56; 118; 25; 196; 174; 18; 253; 68; 56; 242; 3; 160;
    228; 225; 196; 126; 195; 20; 134; 31; 78; 144; 135; 203; 51; 57; 106; 104; 115; 232; 249;
    210; 83; 154; 75; 142]] = Ret tt.
Proof. vm_compute. reflexivity. Qed.

(** src/scrypt.rs:401 *)
Example scrypt_it_should_compute_scrypt_for_vec0 :
  scrypt_check 1 16 1 [] [] [119; 214; 87; 98; 56; 101; 123; 32; 59; 25; 202; 66; 193; 138; 4;
    151; 241; 107; 72; 68; 227; 7; 74; 232; 223; 223; 250; 63; 237; 226; 20; 66; 252; 208; 6;
    157; 237; 9; 72; 248; 50; 106; 117; 58; 15; 200; 31; 23; 232; 211; 224; 251; 46; 13; 54; 40;
    207; 53; 226; 12; 56; 209; 137; 6] = Ret tt.
Proof. vm_compute. reflexivity. Qed.

(** src/scrypt.rs:420, it_should_compute_scrypt_for_vec1: not evaluated (N = 1024, r = 8, p = 16). *)

(** src/scrypt.rs:439, it_should_compute_scrypt_for_vec2: not evaluated (N = 16384, r = 8). *)

(** src/scrypt.rs:458, it_should_compute_scrypt_for_vec3: not evaluated (N = 1048576, r = 8). *)


(** * src/aes.rs *)

(** src/aes.rs:424 *)
Example aes_it_should_multiply_in_field :
  (mul_check 1 2 2 ;; mul_check 1 3 3 ;; mul_check 87 2 174 ;; mul_check 87 4 71 ;; mul_check
    87 8 142 ;; mul_check 87 16 7 ;; mul_check 87 19 254) = Ret tt.
Proof. vm_compute. reflexivity. Qed.

(** src/aes.rs:436 *)
Example aes_it_should_inverse_sub_bytes :
  inverse_sub_bytes TEST_BLOCK = Ret tt.
Proof. vm_compute. reflexivity. Qed.

(** src/aes.rs:444 *)
Example aes_it_should_inverse_mix_columns :
  inverse_mix_columns TEST_BLOCK = Ret tt.
Proof. vm_compute. reflexivity. Qed.

(** src/aes.rs:452 *)
Example aes_it_should_inverse_shift_rows :
  inverse_shift_rows TEST_BLOCK = Ret tt.
Proof. vm_compute. reflexivity. Qed.

(** src/aes.rs:458 *)
Example aes_it_should_expand_128bit_key :
  expand_check [43; 126; 21; 22; 40; 174; 210; 166; 171; 247; 21; 136; 9; 207; 79; 60] 10
    [729683222; 682545830; 2885096840; 164581180; 2700803607; 2287217841; 597899577; 711751173;
    4072838642; 2056698179; 1496678522; 1935275647; 1031817085; 1192689214; 505642564;
    1836746811; 4014253377; 2823969663; 3060868411; 3674975488; 3570517752; 2089000327;
    3404904636; 301536700; 1837671290; 285949693; 3690563137; 3389035517; 1314191118;
    1600113139; 2225491890; 1319558223; 3939660577; 3045964498; 824964448; 2139957551;
    2893506291; 435870753; 684796225; 1465647214; 3491035560; 3387827593; 3779005640;
    3059944614] = Ret tt.
Proof. vm_compute. reflexivity. Qed.

(** src/aes.rs:517 *)
Example aes_it_should_expand_192bit_key :
  expand_check [142; 115; 176; 247; 218; 14; 100; 82; 200; 16; 243; 43; 128; 144; 121; 229;
    98; 248; 234; 210; 82; 44; 107; 123] 12 [2389946615; 3658376274; 3356554027; 2156952037;
    1660480210; 1378642811; 4262236663; 604173733; 3960604302; 1820491627; 242914745;
    1549205186; 1303884989; 1773486360; 2242332566; 3911530749; 3881807172; 3137950598;
    1213919319; 569356623; 2756245209; 1299041828; 2855428960; 289091814; 2724101845;
    2209468314; 670644547; 1788147559; 3232142343; 3516769505; 3960964843; 1873168753;
    1214214194; 583763797; 3798799186; 871413683; 1086253864; 790143577; 1732760171; 1166824766;
    2816558700; 2484203999; 2183099658; 2902972243; 3393193272; 2412531718; 674043498;
    3158108085; 3918241903; 1150056252; 2395763204; 16785922] = Ret tt.
Proof. vm_compute. reflexivity. Qed.

(** src/aes.rs:584 *)
Example aes_it_should_expand_256bit_key :
  expand_check [96; 61; 235; 16; 21; 202; 113; 190; 43; 115; 174; 240; 133; 125; 119; 129; 31;
    53; 44; 7; 59; 97; 8; 215; 45; 152; 16; 163; 9; 20; 223; 244] 14 [1614670608; 365588926;
    729001712; 2239592321; 523578375; 996214999; 764940451; 152362996; 2611172369; 2389255599;
    2769980255; 543685854; 2830146586; 2479985869; 3192489070; 3076348826; 3583700152;
    1542703383; 4276699720; 3733896854; 3047764618; 645441095; 2553356841; 795638195;
    2167177645; 3672066234; 607521522; 4206408804; 2563096521; 3200063886; 646724519; 165691924;
    1744862124; 3000972054; 2531867108; 1817283968; 3356811780; 1990851466; 1344651309;
    1506116153; 3725814119; 1825331825; 4196754325; 2524245525; 1485228637; 774844887;
    2114646522; 667907011; 1956399019; 407903706; 3799350863; 1946259546; 3405425379;
    3839204148; 2598333134; 3171948813; 4266168529; 3860368651; 74314564; 1886151454] = Ret tt.
Proof. vm_compute. reflexivity. Qed.

(** src/aes.rs:660 *)
Example aes_it_should_encrypt_first_test_from_the_spec :
  encrypt_check [43; 126; 21; 22; 40; 174; 210; 166; 171; 247; 21; 136; 9; 207; 79; 60] [50;
    67; 246; 168; 136; 90; 48; 141; 49; 49; 152; 162; 224; 55; 7; 52] [57; 37; 132; 29; 2; 220;
    9; 251; 220; 17; 133; 151; 25; 106; 11; 50] = Ret tt.
Proof. vm_compute. reflexivity. Qed.

(** src/aes.rs:712 *)
Example aes_it_should_encrypt_test_vector_0 :
  check_cipher_vector [48; 48; 48; 49; 48; 50; 48; 51; 48; 52; 48; 53; 48; 54; 48; 55; 48; 56;
    48; 57; 48; 97; 48; 98; 48; 99; 48; 100; 48; 101; 48; 102] [48; 48; 49; 49; 50; 50; 51; 51;
    52; 52; 53; 53; 54; 54; 55; 55; 56; 56; 57; 57; 97; 97; 98; 98; 99; 99; 100; 100; 101; 101;
    102; 102] [54; 57; 99; 52; 101; 48; 100; 56; 54; 97; 55; 98; 48; 52; 51; 48; 100; 56; 99;
    100; 98; 55; 56; 48; 55; 48; 98; 52; 99; 53; 53; 97] = Ret tt.
Proof. vm_compute. reflexivity. Qed.

(** src/aes.rs:721 *)
Example aes_it_should_encrypt_test_vector_1 :
  check_cipher_vector [48; 48; 48; 49; 48; 50; 48; 51; 48; 52; 48; 53; 48; 54; 48; 55; 48; 56;
    48; 57; 48; 97; 48; 98; 48; 99; 48; 100; 48; 101; 48; 102; 49; 48; 49; 49; 49; 50; 49; 51;
    49; 52; 49; 53; 49; 54; 49; 55] [48; 48; 49; 49; 50; 50; 51; 51; 52; 52; 53; 53; 54; 54; 55;
    55; 56; 56; 57; 57; 97; 97; 98; 98; 99; 99; 100; 100; 101; 101; 102; 102] [100; 100; 97; 57;
    55; 99; 97; 52; 56; 54; 52; 99; 100; 102; 101; 48; 54; 101; 97; 102; 55; 48; 97; 48; 101;
    99; 48; 100; 55; 49; 57; 49] = Ret tt.
Proof. vm_compute. reflexivity. Qed.

(** src/aes.rs:730 *)
Example aes_it_should_encrypt_test_vector_2 :
  check_cipher_vector [48; 48; 48; 49; 48; 50; 48; 51; 48; 52; 48; 53; 48; 54; 48; 55; 48; 56;
    48; 57; 48; 97; 48; 98; 48; 99; 48; 100; 48; 101; 48; 102; 49; 48; 49; 49; 49; 50; 49; 51;
    49; 52; 49; 53; 49; 54; 49; 55; 49; 56; 49; 57; 49; 97; 49; 98; 49; 99; 49; 100; 49; 101;
    49; 102] [48; 48; 49; 49; 50; 50; 51; 51; 52; 52; 53; 53; 54; 54; 55; 55; 56; 56; 57; 57;
    97; 97; 98; 98; 99; 99; 100; 100; 101; 101; 102; 102] [56; 101; 97; 50; 98; 55; 99; 97; 53;
    49; 54; 55; 52; 53; 98; 102; 101; 97; 102; 99; 52; 57; 57; 48; 52; 98; 52; 57; 54; 48; 56;
    57] = Ret tt.
Proof. vm_compute. reflexivity. Qed.


(** * src/pkcs7.rs *)

(** src/pkcs7.rs:154 *)
Example pkcs7_it_should_apply_padding_to_incomplete_block :
  pad_script 4 [pad_expect_write [49; 50; 51] None; pad_expect_flush [49; 50; 51; 1]] = Ret tt.
Proof. vm_compute. reflexivity. Qed.

(** src/pkcs7.rs:162 *)
Example pkcs7_it_should_apply_padding_to_second_incomplete_block :
  pad_script 4 [pad_expect_write [49; 50; 51; 52; 53; 54] (Some [49; 50; 51; 52]);
    pad_expect_flush [53; 54; 2; 2]] = Ret tt.
Proof. vm_compute. reflexivity. Qed.

(** src/pkcs7.rs:170 *)
Example pkcs7_it_should_return_padding_block :
  pad_script 4 [pad_expect_write [49; 50; 51; 52] (Some [49; 50; 51; 52]); pad_expect_flush
    [4; 4; 4; 4]] = Ret tt.
Proof. vm_compute. reflexivity. Qed.

(** src/pkcs7.rs:178 *)
Example pkcs7_it_should_unpad_single_block :
  unpad_script 4 [unpad_expect_write [49; 50; 51; 1] None; unpad_expect_flush [49; 50; 51]] = Ret tt.
Proof. vm_compute. reflexivity. Qed.

(** src/pkcs7.rs:186 *)
Example pkcs7_it_should_unpad_two_blocks :
  unpad_script 4 [unpad_expect_write [49; 50; 51; 52] None; unpad_expect_write [53; 3; 3; 3]
    (Some [49; 50; 51; 52]); unpad_expect_flush [53]] = Ret tt.
Proof. vm_compute. reflexivity. Qed.

(** src/pkcs7.rs:195 *)
Example pkcs7_it_should_unpad_full_block :
  unpad_script 4 [unpad_expect_write [49; 50; 51; 52] None; unpad_expect_write [4; 4; 4; 4]
    (Some [49; 50; 51; 52]); unpad_expect_flush []] = Ret tt.
Proof. vm_compute. reflexivity. Qed.

(** src/pkcs7.rs:204 *)
Example pkcs7_it_should_error_on_unfinished_data :
  unpad_script 4 [unpad_expect_write [49; 50; 51] None; unpad_expect_err UnfinishedBlock] = Ret tt.
Proof. vm_compute. reflexivity. Qed.

(** src/pkcs7.rs:215 *)
Example pkcs7_it_should_error_on_invalid_padding :
  unpad_script 4 [unpad_expect_write [49; 50; 3; 2] None; unpad_expect_err InvalidPadding] = Ret tt.
Proof. vm_compute. reflexivity. Qed.


(** * src/aes_cbc.rs *)

(** src/aes_cbc.rs:256 *)
Example aes_cbc_it_should_not_fail_on_vec_0 :
  aes_cbc_check [48; 48; 48; 48; 48; 48; 48; 48; 48; 48; 48; 48; 48; 48; 48; 48; 48; 48; 48;
    48; 48; 48; 48; 48; 48; 48; 48; 48; 48; 48; 48; 48] [48; 48; 48; 48; 48; 48; 48; 48; 48; 48;
    48; 48; 48; 48; 48; 48; 48; 48; 48; 48; 48; 48; 48; 48; 48; 48; 48; 48; 48; 48; 48; 48]
    [104; 101; 108; 108; 111] [57; 56; 51; 52; 101; 100; 53; 49; 56; 99; 98; 99; 56; 102; 98;
    101; 57; 97; 102; 51; 99; 54; 101; 99; 98; 55; 53; 101; 98; 56; 99; 48] = Ret tt.
Proof. vm_compute. reflexivity. Qed.

(** src/aes_cbc.rs:266 *)
Example aes_cbc_it_should_not_fail_on_vec_1 :
  aes_cbc_check [54; 57; 99; 50; 97; 57; 101; 54; 50; 98; 54; 49; 51; 48; 54; 48; 99; 57; 55;
    57; 55; 98; 100; 99; 101; 52; 102; 54; 52; 48; 56; 101] [52; 99; 98; 52; 53; 50; 100; 54;
    55; 56; 99; 97; 57; 52; 54; 49; 57; 50; 99; 100; 99; 54; 57; 49; 98; 55; 97; 98; 54; 49; 55;
    54] [97; 101; 115; 45; 99; 98; 99; 32; 119; 105; 116; 104; 32; 105; 118] [57; 56; 98; 97;
    56; 101; 48; 55; 53; 98; 99; 102; 97; 55; 98; 57; 51; 97; 98; 101; 52; 53; 51; 97; 98; 49;
    56; 52; 100; 99; 54; 56] = Ret tt.
Proof. vm_compute. reflexivity. Qed.

(** src/aes_cbc.rs:276 *)
Example aes_cbc_it_should_not_fail_on_vec_2 :
  aes_cbc_check [53; 55; 101; 55; 57; 55; 49; 50; 102; 55; 98; 55; 56; 49; 51; 52; 57; 48; 98;
    54; 51; 52; 52; 54; 101; 49; 98; 101; 99; 51; 57; 102] [97; 51; 50; 102; 100; 50; 55; 52;
    102; 50; 100; 53; 51; 57; 50; 102; 49; 97; 50; 49; 55; 97; 97; 97; 51; 55; 97; 53; 97; 52;
    52; 100] [115; 101; 118; 101; 114; 97; 108; 32; 65; 69; 83; 32; 98; 108; 111; 99; 107; 115;
    32; 109; 101; 97; 110; 115; 32; 109; 111; 114; 101; 32; 120; 111; 114; 105; 110; 103] [100;
    49; 97; 97; 49; 100; 57; 50; 100; 54; 97; 57; 51; 99; 56; 52; 48; 51; 50; 97; 101; 51; 50;
    50; 49; 48; 50; 97; 98; 97; 54; 50; 54; 57; 50; 98; 50; 53; 52; 56; 101; 57; 50; 97; 98; 99;
    57; 102; 56; 100; 49; 57; 98; 98; 52; 50; 100; 100; 49; 55; 50; 101; 56; 52; 99; 52; 49; 48;
    50; 102; 102; 56; 100; 52; 53; 56; 56; 57; 48; 49; 49; 98; 56; 55; 100; 101; 50; 55; 102;
    54; 100; 57; 49; 97; 101; 52] = Ret tt.
Proof. vm_compute. reflexivity. Qed.


(** * Examples in doc comments *)

(** src/sha256.rs:154 *)
Example sha256_doc :
  sha256_check [[104; 101; 108; 108; 111; 32; 119; 111; 114; 108; 100]] [185; 77; 39; 185;
    147; 77; 62; 8; 165; 46; 82; 215; 218; 125; 171; 250; 196; 132; 239; 227; 122; 83; 128; 238;
    144; 136; 247; 172; 226; 239; 205; 233] = Ret tt.
Proof. vm_compute. reflexivity. Qed.

(** src/hmac.rs:16 *)
Example hmac_doc :
  hmac_check [115; 101; 99; 114; 101; 116; 32; 107; 101; 121] [[104; 101; 108; 108; 111; 32;
    119; 111; 114; 108; 100]] [198; 27; 81; 152; 223; 88; 99; 158; 219; 152; 146; 81; 71; 86;
    184; 154; 54; 133; 109; 130; 110; 93; 133; 2; 58; 177; 129; 180; 142; 165; 208; 24] = Ret tt.
Proof. vm_compute. reflexivity. Qed.

(** src/pbkdf2.rs:19: not evaluated (too long). *)

(** src/salsa20.rs:148 *)
Example salsa20_doc :
  salsa20_check (repeat 7 64) 100 [121; 110; 7; 195; 60; 132; 20; 193; 62; 42; 49; 114; 249;
    93; 87; 33; 249; 93; 87; 33; 121; 110; 7; 195; 60; 132; 20; 193; 62; 42; 49; 114; 62; 42;
    49; 114; 249; 93; 87; 33; 121; 110; 7; 195; 60; 132; 20; 193; 60; 132; 20; 193; 62; 42; 49;
    114; 249; 93; 87; 33; 121; 110; 7; 195] = Ret tt.
Proof. vm_compute. reflexivity. Qed.

(** src/scrypt.rs:52: not evaluated (too long). *)

(** src/aes.rs:291 *)
Example aes_doc :
  doc_round_trip [43; 126; 21; 22; 40; 174; 210; 166; 171; 247; 21; 136; 9; 207; 79; 60] [50;
    67; 246; 168; 136; 90; 48; 141; 49; 49; 152; 162; 224; 55; 7; 52] = Ret tt.
Proof. vm_compute. reflexivity. Qed.

(** src/aes_cbc.rs:18 *)
Example aes_cbc_doc :
  doc_cipher [76; 180; 82; 214; 120; 202; 148; 97; 146; 205; 198; 145; 183; 171; 97; 118]
    [105; 194; 169; 230; 43; 97; 48; 96; 201; 121; 123; 220; 228; 246; 64; 142] [97; 101; 115;
    45; 99; 98; 99; 32; 119; 105; 116; 104; 32; 105; 118] = Ret tt.
Proof. vm_compute. reflexivity. Qed.

(** src/aes_cbc.rs:110 *)
Example aes_cbc_doc2 :
  doc_decipher [76; 180; 82; 214; 120; 202; 148; 97; 146; 205; 198; 145; 183; 171; 97; 118]
    [105; 194; 169; 230; 43; 97; 48; 96; 201; 121; 123; 220; 228; 246; 64; 142] [152; 186; 142;
    7; 91; 207; 167; 185; 58; 190; 69; 58; 177; 132; 220; 104] = Ret tt.
Proof. vm_compute. reflexivity. Qed.
