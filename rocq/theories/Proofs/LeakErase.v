(** Forgetting the record turns each function of Leak/ into the one of Model/. *)
From Coq Require Import NArith List Arith Lia Bool.
From Verif Require Import Rust.
From Verif.Model Require Sha256 Hmac Pbkdf2 Salsa20 Scrypt Aes Pkcs7 AesCbc.
From Verif.Leak Require Ops Sha256 Hmac Pbkdf2 Salsa20 Scrypt Aes Pkcs7 AesCbc.
From Verif.Proofs Require Import Leak.
Import ListNotations.
Local Open Scope N_scope.

Lemma fill_block_er i o : erases (Leak.Sha256.fill_block i o) (Model.Sha256.fill_block i o).
Proof. unfold Leak.Sha256.fill_block, Model.Sha256.fill_block. er. Qed.
Lemma write_u64_be_er d v : erases (Leak.Sha256.write_u64_be d v) (Model.Sha256.write_u64_be d v).
Proof. unfold Leak.Sha256.write_u64_be, Model.Sha256.write_u64_be. er. Qed.
Lemma message_schedule_er b :
  erases (Leak.Sha256.message_schedule b) (Model.Sha256.message_schedule b).
Proof. unfold Leak.Sha256.message_schedule, Model.Sha256.message_schedule. er. Qed.
Lemma round_body_er w t v :
  erases (Leak.Sha256.round_body w t v) (Model.Sha256.round_body w t v).
Proof. unfold Leak.Sha256.round_body, Model.Sha256.round_body. er. Qed.
#[export] Hint Resolve fill_block_er write_u64_be_er message_schedule_er round_body_er : erase.
Lemma process_block_er h b :
  erases (Leak.Sha256.process_block h b) (Model.Sha256.process_block h b).
Proof. unfold Leak.Sha256.process_block, Model.Sha256.process_block. er. Qed.
#[export] Hint Resolve process_block_er : erase.
Lemma update_byte_er T b s : erases (Leak.Sha256.update_byte T b s) (Model.Sha256.update_byte T b s).
Proof. unfold Leak.Sha256.update_byte, Model.Sha256.update_byte. er. Qed.
#[export] Hint Resolve update_byte_er : erase.
Lemma sha256_update_er T s d :
  erases (Leak.Sha256.sha256_update T s d) (Model.Sha256.sha256_update T s d).
Proof. unfold Leak.Sha256.sha256_update, Model.Sha256.sha256_update. er. Qed.
Lemma write_digest_er h : erases (Leak.Sha256.write_digest h) (Model.Sha256.write_digest h).
Proof. unfold Leak.Sha256.write_digest, Model.Sha256.write_digest. er. Qed.
Lemma or_0x80_er b i : erases (Leak.Sha256.or_0x80 b i) (Model.Sha256.or_0x80 b i).
Proof. unfold Leak.Sha256.or_0x80, Model.Sha256.or_0x80. er. Qed.
#[export] Hint Resolve sha256_update_er write_digest_er or_0x80_er : erase.
Lemma sha256_digest_er T s :
  erases (Leak.Sha256.sha256_digest T s) (Model.Sha256.sha256_digest T s).
Proof. unfold Leak.Sha256.sha256_digest, Model.Sha256.sha256_digest. er. Qed.
#[export] Hint Resolve sha256_digest_er : erase.

Lemma hmac_new_fuel_er n : forall T k,
  erases (Leak.Hmac.hmac_new_fuel n T k) (Model.Hmac.hmac_new_fuel n T k).
Proof.
  induction n as [|n IH]; intros T k; cbn [Leak.Hmac.hmac_new_fuel Model.Hmac.hmac_new_fuel].
  - er.
  - unfold Ops.map. er; auto.
Qed.
Lemma hmac_new_er T k : erases (Leak.Hmac.hmac_new T k) (Model.Hmac.hmac_new T k).
Proof. apply hmac_new_fuel_er. Qed.
Lemma hmac_update_er T m d : erases (Leak.Hmac.hmac_update T m d) (Model.Hmac.hmac_update T m d).
Proof. unfold Leak.Hmac.hmac_update, Model.Hmac.hmac_update. er. Qed.
Lemma hmac_digest_er T m : erases (Leak.Hmac.hmac_digest T m) (Model.Hmac.hmac_digest T m).
Proof. unfold Leak.Hmac.hmac_digest, Model.Hmac.hmac_digest. er. Qed.
#[export] Hint Resolve hmac_new_er hmac_update_er hmac_digest_er : erase.

Lemma xor_us_er t u : erases (Leak.Pbkdf2.xor_us t u) (Model.Pbkdf2.xor_us t u).
Proof. unfold Leak.Pbkdf2.xor_us, Model.Pbkdf2.xor_us. er. Qed.
#[export] Hint Resolve xor_us_er : erase.
Lemma pbkdf2_block_er T p s c i :
  erases (Leak.Pbkdf2.pbkdf2_block T p s c i) (Model.Pbkdf2.pbkdf2_block T p s c i).
Proof. unfold Leak.Pbkdf2.pbkdf2_block, Model.Pbkdf2.pbkdf2_block. er. Qed.
#[export] Hint Resolve pbkdf2_block_er : erase.
Lemma pbkdf2_sha256_er T p s c o :
  erases (Leak.Pbkdf2.pbkdf2_sha256 T p s c o) (Model.Pbkdf2.pbkdf2_sha256 T p s c o).
Proof. unfold Leak.Pbkdf2.pbkdf2_sha256, Model.Pbkdf2.pbkdf2_sha256. er. Qed.
#[export] Hint Resolve pbkdf2_sha256_er : erase.

Lemma quarterround_er y z : erases (Leak.Salsa20.quarterround y z) (Model.Salsa20.quarterround y z).
Proof. unfold Leak.Salsa20.quarterround, Model.Salsa20.quarterround. er. Qed.
Lemma gather_er y a b c d : erases (Leak.Salsa20.gather y a b c d) (Model.Salsa20.gather y a b c d).
Proof. unfold Leak.Salsa20.gather, Model.Salsa20.gather. er. Qed.
Lemma scatter_er z t a b c d :
  erases (Leak.Salsa20.scatter z t a b c d) (Model.Salsa20.scatter z t a b c d).
Proof. unfold Leak.Salsa20.scatter, Model.Salsa20.scatter. er. Qed.
#[export] Hint Resolve quarterround_er gather_er scatter_er : erase.
Lemma rowround_er y z : erases (Leak.Salsa20.rowround y z) (Model.Salsa20.rowround y z).
Proof. unfold Leak.Salsa20.rowround, Model.Salsa20.rowround. er. Qed.
Lemma columnround_er y z : erases (Leak.Salsa20.columnround y z) (Model.Salsa20.columnround y z).
Proof. unfold Leak.Salsa20.columnround, Model.Salsa20.columnround. er. Qed.
#[export] Hint Resolve rowround_er columnround_er : erase.
Lemma doubleround_er y z : erases (Leak.Salsa20.doubleround y z) (Model.Salsa20.doubleround y z).
Proof. unfold Leak.Salsa20.doubleround, Model.Salsa20.doubleround. er. Qed.
Lemma littleendian_er b : erases (Leak.Salsa20.littleendian b) (Model.Salsa20.littleendian b).
Proof. unfold Leak.Salsa20.littleendian, Model.Salsa20.littleendian. er. Qed.
Lemma littleendian_inv_er x y :
  erases (Leak.Salsa20.littleendian_inv x y) (Model.Salsa20.littleendian_inv x y).
Proof. unfold Leak.Salsa20.littleendian_inv, Model.Salsa20.littleendian_inv. er. Qed.
#[export] Hint Resolve doubleround_er littleendian_er littleendian_inv_er : erase.
Lemma read_words_er i : erases (Leak.Salsa20.read_words i) (Model.Salsa20.read_words i).
Proof. unfold Leak.Salsa20.read_words, Model.Salsa20.read_words. er. Qed.
Lemma mix_er n z : erases (Leak.Salsa20.mix n z) (Model.Salsa20.mix n z).
Proof. unfold Leak.Salsa20.mix, Model.Salsa20.mix. er. Qed.
Lemma write_words_er x z o : erases (Leak.Salsa20.write_words x z o) (Model.Salsa20.write_words x z o).
Proof. unfold Leak.Salsa20.write_words, Model.Salsa20.write_words. er. Qed.
#[export] Hint Resolve read_words_er mix_er write_words_er : erase.
Lemma salsa20_er i n o : erases (Leak.Salsa20.salsa20 i n o) (Model.Salsa20.salsa20 i n o).
Proof. unfold Leak.Salsa20.salsa20, Model.Salsa20.salsa20. er. Qed.
#[export] Hint Resolve salsa20_er : erase.

Lemma integerify_er T x : erases (Leak.Scrypt.integerify T x) (Model.Scrypt.integerify T x).
Proof. unfold Leak.Scrypt.integerify, Model.Scrypt.integerify. er. Qed.
Lemma split_parity_er y : forall i,
  erases (Leak.Scrypt.split_parity i y) (Ret (Model.Scrypt.split_parity i y)).
Proof.
  induction y as [|e y IH]; intros i; cbn [Leak.Scrypt.split_parity Model.Scrypt.split_parity].
  - er.
  - er. specialize (IH (N.succ i)).
    destruct (Model.Scrypt.split_parity (N.succ i) y) as [hd tl].
    unfold Ops.branch; apply er_emit.
    destruct (i mod 2 =? 0); (eapply er_pure; [exact IH|]; er).
Qed.
Lemma xor_blocks_er x : forall v,
  erases (Leak.Scrypt.xor_blocks x v) (Ret (Model.Scrypt.xor_blocks x v)).
Proof.
  induction x as [|a x IH]; intros [|b v]; cbn [Leak.Scrypt.xor_blocks Model.Scrypt.xor_blocks]; er.
  eapply er_pure; [apply er_run|]. eapply er_pure; [apply IH|]. er.
Qed.
#[export] Hint Resolve integerify_er : erase.
Lemma block_mix_er T s b : erases (Leak.Scrypt.block_mix T s b) (Model.Scrypt.block_mix T s b).
Proof.
  unfold Leak.Scrypt.block_mix, Model.Scrypt.block_mix, Leak.Scrypt.block_xor, Ops.zip_xor. er.
  eapply er_pure; [apply split_parity_er|]. er.
Qed.
#[export] Hint Resolve block_mix_er : erase.
Lemma ro_mix_er T s b : erases (Leak.Scrypt.ro_mix T s b) (Model.Scrypt.ro_mix T s b).
Proof.
  unfold Leak.Scrypt.ro_mix, Model.Scrypt.ro_mix. er.
  eapply er_pure; [apply xor_blocks_er|]. er.
Qed.
Lemma split_blocks_er T s b : erases (Leak.Scrypt.split_blocks T s b) (Model.Scrypt.split_blocks T s b).
Proof. unfold Leak.Scrypt.split_blocks, Model.Scrypt.split_blocks. er. Qed.
#[export] Hint Resolve ro_mix_er split_blocks_er : erase.
Lemma scrypt_derive_er T s p salt o :
  erases (Leak.Scrypt.scrypt_derive T s p salt o) (Model.Scrypt.scrypt_derive T s p salt o).
Proof. unfold Leak.Scrypt.scrypt_derive, Model.Scrypt.scrypt_derive. er. Qed.

Lemma double_er b : erases (Leak.Aes.double b) (Ret (Model.Aes.double b)).
Proof.
  unfold Leak.Aes.double, Model.Aes.double, Ops.branch. apply er_emit.
  destruct (_ =? _); er.
Qed.
Lemma mul_er a b : erases (Leak.Aes.mul a b) (Model.Aes.mul a b).
Proof.
  unfold Leak.Aes.mul, Model.Aes.mul. er.
  apply er_while; [intros [[? ?] ?]; reflexivity|]. intros [[by_ r] p].
  eapply er_pure; [apply er_choose|]. eapply er_pure; [apply double_er|]. er.
Qed.
Lemma sub_word_er a : erases (Leak.Aes.sub_word a) (Model.Aes.sub_word a).
Proof. unfold Leak.Aes.sub_word, Model.Aes.sub_word. er. Qed.
#[export] Hint Resolve mul_er sub_word_er : erase.
Lemma expand_key_er k n : erases (Leak.Aes.expand_key k n) (Model.Aes.expand_key k n).
Proof. unfold Leak.Aes.expand_key, Model.Aes.expand_key. er. Qed.
Lemma add_round_key_col_er c k :
  erases (Leak.Aes.add_round_key_col c k) (Model.Aes.add_round_key_col c k).
Proof. unfold Leak.Aes.add_round_key_col, Model.Aes.add_round_key_col. er. Qed.
#[export] Hint Resolve expand_key_er add_round_key_col_er : erase.
Lemma add_round_key_er s : forall k, erases (Leak.Aes.add_round_key s k) (Model.Aes.add_round_key s k).
Proof.
  induction s as [|c s IH]; intros [|k ks];
    cbn [Leak.Aes.add_round_key Model.Aes.add_round_key]; er; apply IH.
Qed.
Lemma sub_bytes_er f f' s : (forall b, erases (f b) (f' b)) ->
  erases (Leak.Aes.sub_bytes f s) (Model.Aes.sub_bytes f' s).
Proof. intros H; unfold Leak.Aes.sub_bytes, Model.Aes.sub_bytes. er. Qed.
Lemma mix_columns_er f f' s : (forall b, erases (f b) (f' b)) ->
  erases (Leak.Aes.mix_columns f s) (Model.Aes.mix_columns f' s).
Proof. intros H; unfold Leak.Aes.mix_columns, Model.Aes.mix_columns. er. Qed.
Lemma enc_lookup_er b : erases (Leak.Aes.enc_lookup_sbox b) (Model.Aes.enc_lookup_sbox b).
Proof. apply er_idx. Qed.
Lemma dec_lookup_er b : erases (Leak.Aes.dec_lookup_sbox b) (Model.Aes.dec_lookup_sbox b).
Proof. apply er_idx. Qed.
Lemma enc_mix_column_er c : erases (Leak.Aes.enc_mix_column c) (Model.Aes.enc_mix_column c).
Proof. unfold Leak.Aes.enc_mix_column, Model.Aes.enc_mix_column. er. Qed.
Lemma dec_mix_byte_er a b c d : erases (Leak.Aes.dec_mix_byte a b c d) (Model.Aes.dec_mix_byte a b c d).
Proof. unfold Leak.Aes.dec_mix_byte, Model.Aes.dec_mix_byte. er. Qed.
#[export] Hint Resolve dec_mix_byte_er : erase.
Lemma dec_mix_column_er c : erases (Leak.Aes.dec_mix_column c) (Model.Aes.dec_mix_column c).
Proof. unfold Leak.Aes.dec_mix_column, Model.Aes.dec_mix_column. er. Qed.
Lemma enc_shift_rows_er s : erases (Leak.Aes.enc_shift_rows s) (Model.Aes.enc_shift_rows s).
Proof. unfold Leak.Aes.enc_shift_rows, Model.Aes.enc_shift_rows. er. Qed.
Lemma dec_shift_rows_er s : erases (Leak.Aes.dec_shift_rows s) (Model.Aes.dec_shift_rows s).
Proof. unfold Leak.Aes.dec_shift_rows, Model.Aes.dec_shift_rows. er. Qed.
Lemma to_block_er b : erases (Leak.Aes.to_block b) (Model.Aes.to_block b).
Proof. unfold Leak.Aes.to_block, Model.Aes.to_block. er. Qed.
Lemma from_block_er b : erases (Leak.Aes.from_block b) (Model.Aes.from_block b).
Proof. unfold Leak.Aes.from_block, Model.Aes.from_block. er. Qed.
#[export] Hint Resolve add_round_key_er sub_bytes_er mix_columns_er enc_lookup_er dec_lookup_er
  enc_mix_column_er dec_mix_column_er enc_shift_rows_er dec_shift_rows_er to_block_er
  from_block_er : erase.
Lemma aes_init_er a k : erases (Leak.Aes.aes_init a k) (Model.Aes.aes_init a k).
Proof.
  unfold Leak.Aes.aes_init, Model.Aes.aes_init.
  destruct (match len k with 16 => _ | _ => _ end); er.
Qed.
Lemma aes_encrypt_er a b : erases (Leak.Aes.aes_encrypt a b) (Model.Aes.aes_encrypt a b).
Proof. unfold Leak.Aes.aes_encrypt, Model.Aes.aes_encrypt. er. Qed.
Lemma aes_decrypt_er a b : erases (Leak.Aes.aes_decrypt a b) (Model.Aes.aes_decrypt a b).
Proof. unfold Leak.Aes.aes_decrypt, Model.Aes.aes_decrypt. er. Qed.
#[export] Hint Resolve aes_init_er aes_encrypt_er aes_decrypt_er : erase.

Lemma pad_new_er T k : erases (Leak.Pkcs7.pad_new T k) (Model.Pkcs7.pad_new T k).
Proof. unfold Leak.Pkcs7.pad_new, Model.Pkcs7.pad_new. er. Qed.
Lemma pad_write_er T p b : erases (Leak.Pkcs7.pad_write T p b) (Model.Pkcs7.pad_write T p b).
Proof. unfold Leak.Pkcs7.pad_write, Model.Pkcs7.pad_write. er. Qed.
Lemma pad_flush_er T p : erases (Leak.Pkcs7.pad_flush T p) (Model.Pkcs7.pad_flush T p).
Proof.
  unfold Leak.Pkcs7.pad_flush, Model.Pkcs7.pad_flush. er.
  apply er_while; intros; er. reflexivity.
Qed.
Lemma unpad_new_er T k : erases (Leak.Pkcs7.unpad_new T k) (Model.Pkcs7.unpad_new T k).
Proof. unfold Leak.Pkcs7.unpad_new, Model.Pkcs7.unpad_new. er. Qed.
Lemma unpad_write_er T p b : erases (Leak.Pkcs7.unpad_write T p b) (Model.Pkcs7.unpad_write T p b).
Proof.
  unfold Leak.Pkcs7.unpad_write, Model.Pkcs7.unpad_write.
  apply er_run_bind, er_branch; [er|]. apply er_bind; [er|]; intros a.
  eapply er_pure; [apply er_choose|]. er.
Qed.
Lemma unpad_flush_er T p : erases (Leak.Pkcs7.unpad_flush T p) (Model.Pkcs7.unpad_flush T p).
Proof. unfold Leak.Pkcs7.unpad_flush, Model.Pkcs7.unpad_flush. er. Qed.
#[export] Hint Resolve pad_new_er pad_write_er pad_flush_er unpad_new_er unpad_write_er
  unpad_flush_er : erase.

Lemma cipher_new_er T iv : erases (Leak.AesCbc.cipher_new T iv) (Model.AesCbc.cipher_new T iv).
Proof. unfold Leak.AesCbc.cipher_new, Model.AesCbc.cipher_new. er. Qed.
Lemma cipher_init_er c k : erases (Leak.AesCbc.cipher_init c k) (Model.AesCbc.cipher_init c k).
Proof. unfold Leak.AesCbc.cipher_init, Model.AesCbc.cipher_init. er. Qed.
Lemma encrypt_block_er c b : erases (Leak.AesCbc.encrypt_block c b) (Model.AesCbc.encrypt_block c b).
Proof.
  unfold Leak.AesCbc.encrypt_block, Model.AesCbc.encrypt_block, Ops.xor_into. er.
Qed.
#[export] Hint Resolve encrypt_block_er : erase.
Lemma cipher_write_er T c b : erases (Leak.AesCbc.cipher_write T c b) (Model.AesCbc.cipher_write T c b).
Proof. unfold Leak.AesCbc.cipher_write, Model.AesCbc.cipher_write. er. Qed.
Lemma cipher_flush_er T c : erases (Leak.AesCbc.cipher_flush T c) (Model.AesCbc.cipher_flush T c).
Proof. unfold Leak.AesCbc.cipher_flush, Model.AesCbc.cipher_flush. er. Qed.
Lemma decipher_new_er T iv : erases (Leak.AesCbc.decipher_new T iv) (Model.AesCbc.decipher_new T iv).
Proof. unfold Leak.AesCbc.decipher_new, Model.AesCbc.decipher_new. er. Qed.
Lemma decipher_init_er c k : erases (Leak.AesCbc.decipher_init c k) (Model.AesCbc.decipher_init c k).
Proof. unfold Leak.AesCbc.decipher_init, Model.AesCbc.decipher_init. er. Qed.
Lemma decipher_write_er T c b :
  erases (Leak.AesCbc.decipher_write T c b) (Model.AesCbc.decipher_write T c b).
Proof.
  unfold Leak.AesCbc.decipher_write, Model.AesCbc.decipher_write, Ops.xor_into. er.
Qed.
Lemma decipher_flush_er T c : erases (Leak.AesCbc.decipher_flush T c) (Model.AesCbc.decipher_flush T c).
Proof. unfold Leak.AesCbc.decipher_flush, Model.AesCbc.decipher_flush. er. Qed.
