(** C107-C108: the text of scrypt.rs, and the texts of all errors, as in
    Props/Source.v: the syntax trees of Source/Tree.v, run by the interpreter of
    Source/Interp.v. *)
From Coq Require Import NArith String List Bool Arith Lia.
From Verif Require Import Rust.
From Verif.Source Require Import Syntax Interp Tree Calls Objects.
From Verif.Spec Require Import Octets.
From Verif.Spec Require Scrypt.
From Verif.Proofs Require Import SourceScrypt.
From Verif.Proofs Require Base Bits.
From Verif.Model Require Import Scrypt.
From Verif.Props Require Scrypt.
Import Props.Scrypt (admissible, sizes_ok).
Import ListNotations.
Local Open Scope string_scope.
Local Open Scope N_scope.
Local Open Scope list_scope.

(** C107. src/scrypt.rs.  For admissible parameters the text computes the scrypt
    of the draft. *)
Theorem C107_text_scrypt : forall T fuel r n p P S out, (8 <= fuel)%nat ->
  admissible r n p -> octets P -> octets S -> sizes_ok T r n p P S out ->
  derivation T fuel r n p P S out =
  Ret (VCon "Ok" [VUnit],
       VNums U8 (Spec.Scrypt.scrypt P S n (N.to_nat r) (N.to_nat p) (List.length out))).
Proof.
  intros T fuel r n p P S out Hf Ha HP HS Hs. rewrite scrypt_derivation by exact Hf.
  rewrite Props.Scrypt.C20_scrypt_conforms by assumption. reflexivity.
Qed.
Print Assumptions C107_text_scrypt.

(** It answers with an error exactly for these parameters, and leaves the output
    alone. *)
Theorem C107_text_rejects : forall T fuel r n p P S out e out', (8 <= fuel)%nat ->
  derivation T fuel r n p P S out = Ret (VCon "Err" [VCon e []], out') <->
  out' = VNums U8 out /\
  (e = "scrypt::ScryptError::RIsTooSmall" /\ r = 0 \/
   e = "scrypt::ScryptError::NIsTooSmall" /\ r <> 0 /\ n = 0 \/
   e = "scrypt::ScryptError::NIsNotAPowerOfTwo" /\ r <> 0 /\ n <> 0 /\ (forall k, n <> 2 ^ k) \/
   e = "scrypt::ScryptError::PIsTooSmall" /\ r <> 0 /\ (exists k, n = 2 ^ k) /\ p = 0).
Proof.
  intros T fuel r n p P S out e out' Hf. rewrite scrypt_derivation by exact Hf.
  pose proof (Props.Scrypt.C21_rejects_exactly T r n p P S out) as H. split.
  - destruct (scrypt_derive T (scrypt_new r n p) P S out) as [[[u|e'] o]| |]; try discriminate.
    destruct (H e' o) as [H1 _]. destruct (H1 eq_refl) as [-> H2]. cbn [bind scrypt_result].
    intros E. injection E as <- <-. split; [reflexivity|].
    destruct e'; cbn [scrypt_error_name]; auto.
  - intros [-> [[-> H1]|[[-> H1]|[[-> H1]|[-> H1]]]]].
    + rewrite (proj2 (H RIsTooSmall out) (conj eq_refl H1)). reflexivity.
    + rewrite (proj2 (H NIsTooSmall out) (conj eq_refl H1)). reflexivity.
    + rewrite (proj2 (H NIsNotAPowerOfTwo out) (conj eq_refl H1)). reflexivity.
    + rewrite (proj2 (H PIsTooSmall out) (conj eq_refl H1)). reflexivity.
Qed.
Print Assumptions C107_text_rejects.

(** Whatever the parameters, and whether it returns or not, the text does what
    the model does, so the rest of the theorems about scrypt hold of the text too. *)
Theorem C107_text_is_model : forall T fuel r n p P S out, (8 <= fuel)%nat ->
  derivation T fuel r n p P S out =
  let* (v, out') := scrypt_derive T (scrypt_new r n p) P S out in
  Ret (match v with
       | Ok _ => VCon "Ok" [VUnit]
       | Err RIsTooSmall => VCon "Err" [VCon "scrypt::ScryptError::RIsTooSmall" []]
       | Err NIsTooSmall => VCon "Err" [VCon "scrypt::ScryptError::NIsTooSmall" []]
       | Err NIsNotAPowerOfTwo => VCon "Err" [VCon "scrypt::ScryptError::NIsNotAPowerOfTwo" []]
       | Err PIsTooSmall => VCon "Err" [VCon "scrypt::ScryptError::PIsTooSmall" []]
       end, VNums U8 out').
Proof.
  intros T fuel r n p P S out Hf. rewrite scrypt_derivation by exact Hf.
  destruct (scrypt_derive T (scrypt_new r n p) P S out) as [[[u|[]] o]| |]; reflexivity.
Qed.
Print Assumptions C107_text_is_model.

(** The draft's first vector; a case with two blocks and two lanes; a rejection;
    and the panic of C24. *)
Example C107_example :
  (exists dk, derivation (mkTarget W64 true) 8 1 16 1 [] [] (repeat 0 64) =
     Ret (VCon "Ok" [VUnit], VNums U8 dk) /\ be_num dk = Props.Scrypt.draft_vector_1) /\
  derivation (mkTarget W32 false) 8 2 2 2 [112; 119] [115; 97; 108; 116] (repeat 0 20) =
    Ret (VCon "Ok" [VUnit], VNums U8 (be_octets 20 0x5d90736866c288cd5314c6768891045b6ef3a72c)) /\
  derivation (mkTarget W64 true) 8 1 12 0 [1] [2] [7; 7] =
    Ret (VCon "Err" [VCon "scrypt::ScryptError::NIsNotAPowerOfTwo" []], VNums U8 [7; 7]).
Proof.
  split; [|split].
  - destruct Props.Scrypt.C20_example as (Ha & Hs & _ & Hd).
    eexists. split; [apply C107_text_scrypt; [lia|exact Ha|constructor|constructor|exact Hs]|exact Hd].
  - rewrite C107_text_is_model by lia.
    rewrite (proj2 (proj2 Props.Scrypt.C20_example_lanes)). reflexivity.
  - rewrite C107_text_is_model by lia.
    rewrite (proj1 (proj2 (proj2 Props.Scrypt.C21_example))). reflexivity.
Qed.

(** C108. The descriptions of all errors. *)
Definition described (T : target) (fuel : nat) (type : string) (e : val) (s : string) : Prop :=
  run T fuel (type ++ "::description")%string [e] = Ret (VStr s, [None]).
Definition bad_key_size : val := VCon "aes::AESError::InvalidKeySize" [].
Definition no_key : val := VCon "aes::AESError::NotInitialized" [].
Definition incomplete : val := VCon "pkcs7::UnpadError::UnfinishedBlock" [].
Definition bad_padding : val := VCon "pkcs7::UnpadError::InvalidPadding" [].

Theorem C108_text_descriptions : forall T fuel, (2 <= fuel)%nat ->
  let aes := described T fuel "aes::AESError" in
  let unpad := described T fuel "pkcs7::UnpadError" in
  let decipher := described T fuel "aes_cbc::DecipherError" in
  let scrypt := described T fuel "scrypt::ScryptError" in
  aes bad_key_size "key size must be either of: 128, 192, or 256 bits" /\
  aes no_key "AES instance must be initialized prior to use" /\
  unpad incomplete "data length must be a multiple of block size" /\
  unpad bad_padding "final block contains invalid padding" /\
  decipher (VCon "aes_cbc::DecipherError::AES" [bad_key_size])
    "key size must be either of: 128, 192, or 256 bits" /\
  decipher (VCon "aes_cbc::DecipherError::AES" [no_key])
    "AES instance must be initialized prior to use" /\
  decipher (VCon "aes_cbc::DecipherError::PKCS7" [incomplete])
    "data length must be a multiple of block size" /\
  decipher (VCon "aes_cbc::DecipherError::PKCS7" [bad_padding])
    "final block contains invalid padding" /\
  scrypt (VCon "scrypt::ScryptError::RIsTooSmall" []) "`r` must be larger than 1" /\
  scrypt (VCon "scrypt::ScryptError::NIsTooSmall" []) "`n` must be larger than 1" /\
  scrypt (VCon "scrypt::ScryptError::NIsNotAPowerOfTwo" []) "`n` must be a power of two" /\
  scrypt (VCon "scrypt::ScryptError::PIsTooSmall" []) "`p` must be larger than 1".
Proof.
  intros T fuel Hf. do 2 (destruct fuel as [|fuel]; [lia|]). unfold described.
  repeat split; reflexivity.
Qed.
Print Assumptions C108_text_descriptions.

(** Displaying an error adds the name of its type and its description to the text
    written before, whatever that is. *)
Definition displayed (T : target) (fuel : nat) (type : string) (e : val) (s : string) : Prop :=
  forall before, run T fuel (type ++ "::fmt")%string [e; VStr before] =
    Ret (VCon "Ok" [VUnit], [None; Some (VStr (before ++ s)%string)]).

Theorem C108_text_display : forall T fuel, (3 <= fuel)%nat ->
  let aes := displayed T fuel "aes::AESError" in
  let unpad := displayed T fuel "pkcs7::UnpadError" in
  let decipher := displayed T fuel "aes_cbc::DecipherError" in
  let scrypt := displayed T fuel "scrypt::ScryptError" in
  aes bad_key_size "AESError: key size must be either of: 128, 192, or 256 bits" /\
  aes no_key "AESError: AES instance must be initialized prior to use" /\
  unpad incomplete "UnpadError: data length must be a multiple of block size" /\
  unpad bad_padding "UnpadError: final block contains invalid padding" /\
  decipher (VCon "aes_cbc::DecipherError::AES" [bad_key_size])
    "DecipherError: key size must be either of: 128, 192, or 256 bits" /\
  decipher (VCon "aes_cbc::DecipherError::AES" [no_key])
    "DecipherError: AES instance must be initialized prior to use" /\
  decipher (VCon "aes_cbc::DecipherError::PKCS7" [incomplete])
    "DecipherError: data length must be a multiple of block size" /\
  decipher (VCon "aes_cbc::DecipherError::PKCS7" [bad_padding])
    "DecipherError: final block contains invalid padding" /\
  scrypt (VCon "scrypt::ScryptError::RIsTooSmall" []) "ScryptError: `r` must be larger than 1" /\
  scrypt (VCon "scrypt::ScryptError::NIsTooSmall" []) "ScryptError: `n` must be larger than 1" /\
  scrypt (VCon "scrypt::ScryptError::NIsNotAPowerOfTwo" []) "ScryptError: `n` must be a power of two" /\
  scrypt (VCon "scrypt::ScryptError::PIsTooSmall" []) "ScryptError: `p` must be larger than 1".
Proof.
  intros T fuel Hf. do 3 (destruct fuel as [|fuel]; [lia|]). unfold displayed.
  repeat split; reflexivity.
Qed.
Print Assumptions C108_text_display.

(** An error a [Decipher] really gives, described by the text. *)
Example C108_example :
  let T := mkTarget W64 true in
  object T 70 "aes_cbc::Decipher" [VNums U8 (repeat 0 16)] [("write"%string, [VNums U8 (repeat 1 32)])] =
    Ret [VCon "Err" [VCon "aes_cbc::DecipherError::AES" [no_key]]] /\
  described T 70 "aes_cbc::DecipherError" (VCon "aes_cbc::DecipherError::AES" [no_key])
    "AES instance must be initialized prior to use" /\
  run T 70 "aes_cbc::DecipherError::fmt" [VCon "aes_cbc::DecipherError::AES" [no_key]; VStr "failed: "] =
    Ret (VCon "Ok" [VUnit],
         [None; Some (VStr "failed: DecipherError: AES instance must be initialized prior to use")]).
Proof. repeat split; vm_compute; reflexivity. Qed.
