(** C26-C32: the AES block cipher. *)
From Coq Require Import NArith List Arith Lia Bool.
From Verif Require Import Rust Calls.
From Verif.Model Require Import Aes.
From Verif.Spec Require Octets Aes BlockCipher.
From Verif.Proofs Require Import Base Bits Gf Aes.
Import Spec.Octets.
Import ListNotations.
Local Open Scope N_scope.

(** C26. The tables are the affine transform of the field inverse, and its
    inverse. *)
Theorem C26_sbox_conforms : forall b, b < 256 ->
  enc_lookup_sbox b = Ret (Spec.Aes.SubByte b) /\
  dec_lookup_sbox b = Ret (Spec.Aes.InvSubByte b).
Proof. intros b Hb. split; [apply sbox_ok|apply inv_sbox_ok]; assumption. Qed.
Print Assumptions C26_sbox_conforms.

Theorem C26_inverse_permutations : forall b, b < 256 ->
  (exists c, c < 256 /\ enc_lookup_sbox b = Ret c /\ dec_lookup_sbox c = Ret b) /\
  (exists c, c < 256 /\ dec_lookup_sbox b = Ret c /\ enc_lookup_sbox c = Ret b).
Proof.
  intros b Hb. split.
  - destruct (inv_sbox_sbox b Hb) as (c & H1 & H2 & H3). exists c. auto.
  - destruct (sbox_inv_sbox b Hb) as (c & H1 & H2 & H3). exists c. auto.
Qed.
Print Assumptions C26_inverse_permutations.

(** The specification's field inverse is one: every nonzero octet has it. *)
Theorem C26_field_inverse : forall b, 0 < b < 256 ->
  Spec.Aes.gf_inv b < 256 /\ Spec.Aes.gf_mul b (Spec.Aes.gf_inv b) = 1.
Proof.
  intros b Hb.
  assert (H : ((b =? 0) || (Spec.Aes.gf_inv b <? 256)
               && (Spec.Aes.gf_mul b (Spec.Aes.gf_inv b) =? 1))%bool = true).
  { apply (octet_check (fun b => (b =? 0) || (Spec.Aes.gf_inv b <? 256)
               && (Spec.Aes.gf_mul b (Spec.Aes.gf_inv b) =? 1))%bool); [|lia].
    vm_compute. reflexivity. }
  apply orb_true_iff in H. destruct H as [H|H]; [apply N.eqb_eq in H; lia|].
  apply andb_true_iff in H. destruct H as [H1 H2].
  apply N.ltb_lt in H1. apply N.eqb_eq in H2. auto.
Qed.
Print Assumptions C26_field_inverse.

(** FIPS-197, section 5.1.1: {53} is substituted by {ed}. *)
Example C26_example :
  enc_lookup_sbox 0x53 = Ret 0xed /\ Spec.Aes.SubByte 0x53 = 0xed /\
  dec_lookup_sbox 0xed = Ret 0x53 /\ Spec.Aes.gf_inv 0x53 = 0xca.
Proof. repeat split; vm_compute; reflexivity. Qed.

(** C27. Multiplication in the field, for every multiplier. *)
Theorem C27_mul_conforms : forall b by_, b < 256 -> mul b by_ = Ret (Spec.Aes.gf_mul b by_).
Proof. intros b k Hb. apply mul_ok. assumption. Qed.
Print Assumptions C27_mul_conforms.

(** The product is the remainder of the product of polynomials modulo
    x^8 + x^4 + x^3 + x + 1: it differs from the product by a multiple of it. *)
Theorem C27_mul_is_remainder : forall b by_, b < 256 ->
  exists r q, mul b by_ = Ret r /\ r < 256 /\
    Spec.Aes.poly_mul b by_ = N.lxor (Spec.Aes.poly_mul q 0x11b) r.
Proof.
  intros b k Hb. exists (Spec.Aes.gf_mul b k).
  destruct (poly_mod_quotient (Spec.Aes.poly_mul b k)) as (q & Hq). exists q.
  split; [apply mul_ok; assumption|]. split; [apply gf_mul_lt|exact Hq].
Qed.
Print Assumptions C27_mul_is_remainder.

(** FIPS-197, section 4.2: {57} * {83} = {c1}, {57} * {13} = {fe}; and a
    multiplier with more than eight bits. *)
Example C27_example :
  mul 0x57 0x83 = Ret 0xc1 /\ mul 0x57 0x13 = Ret 0xfe /\
  mul 0x57 0x12345 = Ret (Spec.Aes.gf_mul 0x57 0x12345) /\
  Spec.Aes.gf_mul 0x57 0x83 = 0xc1 /\
  Spec.Aes.poly_mul 0x57 0x83 = 0x2b79.
Proof. repeat split; vm_compute; reflexivity. Qed.

(** C28. The key schedule. *)
Theorem C28_key_expansion_conforms : forall a key, octets key -> Spec.Aes.valid_key_size key ->
  exists a', aes_init a key = Ret (Ok tt, a') /\
    round_count a' = N.of_nat (Spec.Aes.Nr key) /\
    round_keys a' = Some (map be_num (Spec.Aes.KeyExpansion key)) /\
    length (Spec.Aes.KeyExpansion key) = (4 * (Spec.Aes.Nr key + 1))%nat.
Proof.
  intros a key Hk Hsz. exists (keyed key).
  split; [apply aes_init_ok; assumption|]. split; [reflexivity|]. split; [reflexivity|].
  apply (expand_key_ok key _ Hk Hsz eq_refl).
Qed.
Print Assumptions C28_key_expansion_conforms.

(** FIPS-197, appendices A.1 to A.3: the last word of each schedule. *)
Definition key128 : list N := be_octets 16 0x2b7e151628aed2a6abf7158809cf4f3c.
Definition key192 : list N := be_octets 24 0x8e73b0f7da0e6452c810f32b809079e562f8ead2522c6b7b.
Definition key256 : list N :=
  be_octets 32 0x603deb1015ca71be2b73aef0857d77811f352c073b6108d72d9810a30914dff4.
Definition last_word (a : AES) : option N :=
  match round_keys a with Some w => nth_error w (length w - 1) | None => None end.
Example C28_example :
  Forall (fun '(key, n, w) =>
    octets key /\ Spec.Aes.valid_key_size key /\
    match aes_init aes_new key with
    | Ret (Ok _, a) => last_word a = Some w /\ option_map (@length N) (round_keys a) = Some n
    | _ => False
    end)
    [(key128, 44%nat, 0xb6630ca6); (key192, 52%nat, 0x01002202); (key256, 60%nat, 0x706c631e)].
Proof.
  repeat apply Forall_cons; try apply Forall_nil;
    (split; [apply octets_be_octets|split; [unfold Spec.Aes.valid_key_size; cbn; tauto|]];
     vm_compute; split; reflexivity).
Qed.

(** C29, C30. The two directions conform. *)
Theorem C29_encrypt_conforms : forall a key b,
  octets key -> Spec.Aes.valid_key_size key -> octets b -> length b = 16%nat ->
  (let* (r, a') := aes_init a key in
   match r with Ok _ => aes_encrypt a' b | Err e => Ret (Err e) end)
  = Ret (Ok (Spec.Aes.Cipher key b)).
Proof.
  intros a key b Hk Hsz Hb Hl. rewrite aes_init_ok by assumption. cbn [bind].
  apply aes_encrypt_ok; assumption.
Qed.
Print Assumptions C29_encrypt_conforms.

Theorem C30_decrypt_conforms : forall a key b,
  octets key -> Spec.Aes.valid_key_size key -> octets b -> length b = 16%nat ->
  (let* (r, a') := aes_init a key in
   match r with Ok _ => aes_decrypt a' b | Err e => Ret (Err e) end)
  = Ret (Ok (Spec.Aes.InvCipher key b)).
Proof.
  intros a key b Hk Hsz Hb Hl. rewrite aes_init_ok by assumption. cbn [bind].
  apply aes_decrypt_ok; assumption.
Qed.
Print Assumptions C30_decrypt_conforms.

(** FIPS-197, appendix C: the same plaintext under keys of the three sizes, also
    evaluated in the specification. *)
Definition fips_plain : list N := be_octets 16 0x00112233445566778899aabbccddeeff.
Definition fips_vectors : list (list N * list N) :=
  [(be_octets 16 0x000102030405060708090a0b0c0d0e0f,
    be_octets 16 0x69c4e0d86a7b0430d8cdb78070b4c55a);
   (be_octets 24 0x000102030405060708090a0b0c0d0e0f1011121314151617,
    be_octets 16 0xdda97ca4864cdfe06eaf70a0ec0d7191);
   (be_octets 32 0x000102030405060708090a0b0c0d0e0f101112131415161718191a1b1c1d1e1f,
    be_octets 16 0x8ea2b7ca516745bfeafc49904b496089)].
Example C29_example :
  Forall (fun '(key, c) =>
    (let* (r, a) := aes_init aes_new key in aes_encrypt a fips_plain) = Ret (Ok c) /\
    Spec.Aes.Cipher key fips_plain = c) fips_vectors.
Proof.
  repeat apply Forall_cons; try apply Forall_nil; split; vm_compute; reflexivity.
Qed.
Example C30_example :
  Forall (fun '(key, c) =>
    (let* (r, a) := aes_init aes_new key in aes_decrypt a c) = Ret (Ok fips_plain)) fips_vectors.
Proof.
  repeat apply Forall_cons; try apply Forall_nil; vm_compute; reflexivity.
Qed.

(** C31. The two directions are inverse permutations of the 16-byte blocks. *)
Theorem C31_decrypt_encrypt : forall a key a' b,
  octets key -> aes_init a key = Ret (Ok tt, a') -> octets b -> length b = 16%nat ->
  exists c, aes_encrypt a' b = Ret (Ok c) /\ octets c /\ length c = 16%nat /\
    aes_decrypt a' c = Ret (Ok b).
Proof.
  intros a key a' b Hk Hi Hb Hl.
  destruct (valid_key_size_dec key) as [Hsz|Hsz];
    [rewrite aes_init_ok in Hi by assumption|rewrite aes_init_err in Hi by assumption; discriminate].
  assert (E : a' = keyed key) by congruence. rewrite E.
  exists (Spec.Aes.Cipher key b).
  split; [apply aes_encrypt_ok; assumption|].
  split; [apply Cipher_octets; assumption|]. split; [reflexivity|].
  rewrite aes_decrypt_ok by (try assumption; try reflexivity; apply Cipher_octets; assumption).
  rewrite InvCipher_Cipher by assumption. reflexivity.
Qed.
Print Assumptions C31_decrypt_encrypt.

Theorem C31_encrypt_decrypt : forall a key a' b,
  octets key -> aes_init a key = Ret (Ok tt, a') -> octets b -> length b = 16%nat ->
  exists c, aes_decrypt a' b = Ret (Ok c) /\ octets c /\ length c = 16%nat /\
    aes_encrypt a' c = Ret (Ok b).
Proof.
  intros a key a' b Hk Hi Hb Hl.
  destruct (valid_key_size_dec key) as [Hsz|Hsz];
    [rewrite aes_init_ok in Hi by assumption|rewrite aes_init_err in Hi by assumption; discriminate].
  assert (E : a' = keyed key) by congruence. rewrite E.
  exists (Spec.Aes.InvCipher key b).
  split; [apply aes_decrypt_ok; assumption|].
  split; [apply InvCipher_octets; assumption|]. split; [reflexivity|].
  rewrite aes_encrypt_ok by (try assumption; try reflexivity; apply InvCipher_octets; assumption).
  rewrite Cipher_InvCipher by assumption. reflexivity.
Qed.
Print Assumptions C31_encrypt_decrypt.

Theorem C31_encrypt_injective : forall a key a' b b' c,
  octets key -> aes_init a key = Ret (Ok tt, a') ->
  octets b -> length b = 16%nat -> octets b' -> length b' = 16%nat ->
  aes_encrypt a' b = Ret (Ok c) -> aes_encrypt a' b' = Ret (Ok c) -> b = b'.
Proof.
  intros a key a' b b' c Hk Hi Hb Hl Hb' Hl' E E'.
  destruct (C31_decrypt_encrypt a key a' b Hk Hi Hb Hl) as (x & Ex & _ & _ & Dx).
  destruct (C31_decrypt_encrypt a key a' b' Hk Hi Hb' Hl') as (y & Ey & _ & _ & Dy).
  congruence.
Qed.
Print Assumptions C31_encrypt_injective.

Example C31_example : exists a c,
  aes_init aes_new key192 = Ret (Ok tt, a) /\ aes_encrypt a fips_plain = Ret (Ok c) /\
  c <> fips_plain /\ aes_decrypt a c = Ret (Ok fips_plain) /\
  (forall d, aes_decrypt a fips_plain = Ret (Ok d) -> d <> c).
Proof.
  eexists _, _. split; [vm_compute; reflexivity|]. split; [vm_compute; reflexivity|].
  split; [intros H; vm_compute in H; discriminate|]. split; [vm_compute; reflexivity|].
  intros d H. vm_compute in H. apply Proofs.Aes.Ret_inj in H.
  assert (E : forall x y : list N, @Ok _ AESError x = Ok y -> x = y)
    by (intros x y Exy; injection Exy; auto).
  apply E in H. rewrite <- H. vm_compute. discriminate.
Qed.

(** C32. Every history of calls on one instance behaves as the machine holding
    the key in force; no call panics. *)
Theorem C32_init_accepts_exactly : forall a key, octets key ->
  (exists a', aes_init a key = Ret (Ok tt, a')) <-> Spec.Aes.valid_key_size key.
Proof.
  intros a key Hk. destruct (valid_key_size_dec key) as [Hsz|Hsz].
  - split; [auto|]. intros _. exists (keyed key). apply aes_init_ok; assumption.
  - split; [|contradiction]. intros [a' H]. rewrite aes_init_err in H by assumption. discriminate.
Qed.
Print Assumptions C32_init_accepts_exactly.

Theorem C32_failed_init_changes_nothing : forall a key, ~ Spec.Aes.valid_key_size key ->
  aes_init a key = Ret (Err InvalidKeySize, a).
Proof. exact aes_init_err. Qed.
Print Assumptions C32_failed_init_changes_nothing.

Theorem C32_histories : forall calls, Forall aes_call_ok calls ->
  aes_run aes_new calls = map Some (BlockCipher.replies None calls).
Proof.
  intros calls Hc. apply aes_run_ok; [assumption|reflexivity].
Qed.
Print Assumptions C32_histories.

(** A failed init between two calls, and a change of key. *)
Example C32_example :
  aes_run aes_new
    [BlockCipher.Encrypt fips_plain; BlockCipher.Init (repeat 0 15);
     BlockCipher.Init (be_octets 16 0x000102030405060708090a0b0c0d0e0f);
     BlockCipher.Encrypt fips_plain; BlockCipher.Init []; BlockCipher.Encrypt fips_plain;
     BlockCipher.Init (be_octets 24 0x000102030405060708090a0b0c0d0e0f1011121314151617);
     BlockCipher.Encrypt fips_plain] =
  [Some BlockCipher.NoKey; Some BlockCipher.BadKeySize; Some BlockCipher.Accepted;
   Some (BlockCipher.Result (be_octets 16 0x69c4e0d86a7b0430d8cdb78070b4c55a));
   Some BlockCipher.BadKeySize;
   Some (BlockCipher.Result (be_octets 16 0x69c4e0d86a7b0430d8cdb78070b4c55a));
   Some BlockCipher.Accepted;
   Some (BlockCipher.Result (be_octets 16 0xdda97ca4864cdfe06eaf70a0ec0d7191))].
Proof. vm_compute. reflexivity. Qed.
