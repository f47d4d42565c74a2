(** C104-C106: the text of pkcs7.rs, aes.rs and aes_cbc.rs, as in Props/Source.v:
    the syntax trees of Source/Tree.v, run by the interpreter of Source/Interp.v. *)
From Coq Require Import NArith String List Bool Arith Lia ZifyBool ZifyNat ZifyN.
From Verif Require Import Rust Calls.
From Verif.Source Require Import Syntax Interp Tree Calls Objects.
From Verif.Spec Require Import Octets.
From Verif.Spec Require Aes Cbc BlockCipher Stream.
From Verif.Proofs Require Import SourceObjects.
From Verif.Proofs Require Base Bits Stream Aes.
From Verif.Model Require Pkcs7 Aes AesCbc.
From Verif.Props Require Pkcs7 Aes AesCbc.
Import Props.AesCbc (good_key, good_block, session, rfc3602_key, rfc3602_iv, rfc3602_msg).
Import ListNotations.
Local Open Scope string_scope.
Local Open Scope N_scope.
Local Open Scope list_scope.
Local Opaque run.

Lemma ret_fst {A B : Type} (a a' : A) (b b' : B) : Ret (a, b) = Ret (a', b') -> a = a'.
Proof. intros E. injection E as -> _. reflexivity. Qed.

(** C104. src/pkcs7.rs.  A [Pad] for blocks of [k] bytes, written to in any
    pieces and flushed, returns the padded message. *)
Theorem C104_text_pad : forall T fuel k chunks, (1 <= k <= 255)%nat -> (k < fuel)%nat ->
  exists outs b,
    object T fuel "pkcs7::Pad" [VInt Usize (N.of_nat k)] (write_and_flush chunks) =
      Ret (map bytes_or_none outs ++ [VNums U8 b]) /\
    emitted outs ++ b = Cbc.pkcs7_pad k (concat chunks) /\
    List.length outs = List.length chunks /\ List.length b = k.
Proof.
  intros T fuel k chunks Hk Hf. rewrite pad_object by lia.
  destruct (Props.Pkcs7.C33_pad_conforms T k chunks Hk) as (outs & b & E & Hp & _).
  destruct (Props.Pkcs7.C33_complete_blocks_returned T k chunks outs b Hk E) as (H1 & H2 & _).
  rewrite E. exists outs, b. cbn [bind]. auto.
Qed.
Print Assumptions C104_text_pad.

(** An [Unpad] accepts exactly what ends in n times the byte n, n at most [k], in
    whole blocks; zero times included, as in C36. *)
Theorem C104_text_unpad : forall T fuel k chunks data, (1 <= k <= 255)%nat -> (1 <= fuel)%nat ->
  concat chunks = data ->
  exists outs v,
    object T fuel "pkcs7::Unpad" [VInt Usize (N.of_nat k)] (write_and_flush chunks) =
      Ret (map bytes_or_none outs ++ [verdict_value v]) /\
    (forall m, v = Stream.Stripped m <->
       data <> [] /\ (List.length data mod k = 0)%nat /\
       exists n, (n <= k)%nat /\ last data 256 = N.of_nat n /\
         data = (emitted outs ++ m) ++ repeat (N.of_nat n) n) /\
    (v = Stream.Incomplete <-> data = [] \/ (List.length data mod k <> 0)%nat).
Proof.
  intros T fuel k chunks data Hk Hf Hd. rewrite unpad_object by exact Hf.
  destruct (Props.Pkcs7.C35_accepts_exactly T k chunks data Hk Hd) as (outs & r & E & H1 & H2 & _).
  rewrite E. exists outs, (unpad_verdict r). cbn [bind]. split; [reflexivity|]. split.
  - intros m. rewrite <- H1. destruct r as [m'|[]]; cbn [unpad_verdict]; split; congruence.
  - rewrite <- H2. destruct r as [m'|[]]; cbn [unpad_verdict]; split; congruence.
Qed.
Print Assumptions C104_text_unpad.

(** Whatever the block size, the text does what the model does, so the rest of
    C33-C36 and C47 holds of the text too. *)
Theorem C104_text_is_model : forall T fuel k chunks, (N.to_nat k < fuel)%nat ->
  object T fuel "pkcs7::Pad" [VInt Usize k] (write_and_flush chunks) =
    (let* (outs, b) := pad_stream T k chunks in Ret (map bytes_or_none outs ++ [VNums U8 b])) /\
  object T fuel "pkcs7::Unpad" [VInt Usize k] (write_and_flush chunks) =
    (let* (outs, r) := unpad_stream T k chunks in
     Ret (map bytes_or_none outs ++ [verdict_value (unpad_verdict r)])).
Proof. intros T fuel k chunks Hf. split; [apply pad_object|apply unpad_object]; lia. Qed.
Print Assumptions C104_text_is_model.

Example C104_example :
  object (mkTarget W64 true) 5 "pkcs7::Pad" [VInt Usize 4]
    (write_and_flush [[1; 2; 3]; [4; 5]; [6; 7; 8; 9; 10; 11]]) =
  Ret [VCon "None" []; VCon "Some" [VNums U8 [1; 2; 3; 4]]; VCon "Some" [VNums U8 [5; 6; 7; 8]];
       VNums U8 [9; 10; 11; 1]] /\
  object (mkTarget W64 false) 5 "pkcs7::Unpad" [VInt Usize 4] (write_and_flush [[9; 9]; [1; 2]]) =
  Ret [VCon "None" []; VCon "None" []; VCon "Err" [VCon "pkcs7::UnpadError::InvalidPadding" []]].
Proof.
  split.
  - rewrite (proj1 (C104_text_is_model (mkTarget W64 true) 5 4 _ ltac:(lia))).
    rewrite (proj1 Props.Pkcs7.C33_example). reflexivity.
  - rewrite (proj2 (C104_text_is_model (mkTarget W64 false) 5 4 _ ltac:(lia))).
    rewrite (proj1 (proj2 Props.Pkcs7.C35_example)). reflexivity.
Qed.

(** C105. src/aes.rs: whatever is called on an [AES], in whatever order, it
    replies what the specification says; it never panics. *)
Theorem C105_text_aes : forall T fuel calls, (62 <= fuel)%nat -> Forall aes_call_ok calls ->
  object T fuel "aes::AES" [] (map aes_invocation calls) =
  Ret (map aes_value (BlockCipher.replies None calls)).
Proof. exact aes_object. Qed.
Print Assumptions C105_text_aes.

(** In particular it computes FIPS-197's Cipher and InvCipher. *)
Theorem C105_text_fips197 : forall T fuel key b c, (62 <= fuel)%nat ->
  good_key key -> good_block b -> good_block c ->
  object T fuel "aes::AES" []
    [("init", [VNums U8 key]); ("encrypt", [VNums U8 b]); ("decrypt", [VNums U8 c])] =
  Ret [VCon "Ok" [VUnit]; VCon "Ok" [VNums U8 (Spec.Aes.Cipher key b)];
       VCon "Ok" [VNums U8 (Spec.Aes.InvCipher key c)]].
Proof.
  intros T fuel key b c Hf [Hk Hs] Hb Hc.
  pose proof (C105_text_aes T fuel [BlockCipher.Init key; BlockCipher.Encrypt b; BlockCipher.Decrypt c] Hf)
    as H.
  cbn [map aes_invocation] in H.
  etransitivity; [apply H; repeat constructor; first [assumption | apply Hb | apply Hc]|].
  cbn [BlockCipher.replies BlockCipher.step].
  rewrite (proj2 (Proofs.Aes.key_size_ok_spec key) Hs). reflexivity.
Qed.
Print Assumptions C105_text_fips197.

(** The vectors of FIPS-197, appendix C, with failures in between. *)
Example C105_example :
  object (mkTarget W32 true) 62 "aes::AES" []
    [("encrypt", [VNums U8 Props.Aes.fips_plain]); ("init", [VNums U8 (repeat 0 15)]);
     ("init", [VNums U8 (be_octets 16 0x000102030405060708090a0b0c0d0e0f)]);
     ("encrypt", [VNums U8 Props.Aes.fips_plain]); ("init", [VNums U8 []]);
     ("encrypt", [VNums U8 Props.Aes.fips_plain]);
     ("init", [VNums U8 (be_octets 24 0x000102030405060708090a0b0c0d0e0f1011121314151617)]);
     ("encrypt", [VNums U8 Props.Aes.fips_plain])] =
  Ret [VCon "Err" [VCon "aes::AESError::NotInitialized" []];
       VCon "Err" [VCon "aes::AESError::InvalidKeySize" []]; VCon "Ok" [VUnit];
       VCon "Ok" [VNums U8 (be_octets 16 0x69c4e0d86a7b0430d8cdb78070b4c55a)];
       VCon "Err" [VCon "aes::AESError::InvalidKeySize" []];
       VCon "Ok" [VNums U8 (be_octets 16 0x69c4e0d86a7b0430d8cdb78070b4c55a)]; VCon "Ok" [VUnit];
       VCon "Ok" [VNums U8 (be_octets 16 0xdda97ca4864cdfe06eaf70a0ec0d7191)]].
Proof.
  pose proof Props.Aes.C32_example as E.
  match type of E with aes_run _ ?calls = _ =>
    assert (Hc : Forall aes_call_ok calls) by
      (repeat constructor; first [apply Proofs.Bits.octets_be_octets | apply Proofs.Base.octets_repeat; reflexivity | idtac]);
    rewrite (Props.Aes.C32_histories calls Hc) in E;
    pose proof (C105_text_aes (mkTarget W32 true) 62 calls ltac:(lia) Hc) as H end.
  apply (f_equal (map (fun o => match o with Some r => aes_value r | None => VUnit end))) in E.
  rewrite map_map in E. exact (eq_trans H (f_equal (@Ret _) E)).
Qed.

(** C106. src/aes_cbc.rs: histories of calls on a [Cipher] and on a [Decipher]. *)
Theorem C106_text_cipher : forall T fuel iv calls, (63 <= fuel)%nat -> good_block iv ->
  Forall stream_call_ok calls -> Forall (call_fits T) calls ->
  object T fuel "aes_cbc::Cipher" [VNums U8 iv] (map stream_invocation calls) =
  Ret (map cipher_value (fst (Stream.run Stream.cipher_step (Stream.new_cipher iv) calls))).
Proof. intros T fuel iv calls Hf [Ho Hl]. apply cipher_object; assumption. Qed.
Print Assumptions C106_text_cipher.
Theorem C106_text_decipher : forall T fuel iv calls, (63 <= fuel)%nat -> good_block iv ->
  Forall stream_call_ok calls -> Forall (call_fits T) calls ->
  object T fuel "aes_cbc::Decipher" [VNums U8 iv] (map stream_invocation calls) =
  Ret (map decipher_value (fst (Stream.run Stream.decipher_step (Stream.new_decipher iv) calls))).
Proof. intros T fuel iv calls Hf [Ho Hl]. apply decipher_object; assumption. Qed.
Print Assumptions C106_text_decipher.

(** [init], a [write] for every piece, [flush]; and the replies if all goes well. *)
Definition whole_message (key : list N) (chunks : list (list N)) : list invocation :=
  ("init", [VNums U8 key]) :: write_and_flush chunks.
Definition success (outs : list (list N)) (b : list N) : list val :=
  VCon "Ok" [VUnit] :: map (fun d => VCon "Ok" [VNums U8 d]) (outs ++ [b]).

Lemma whole_message_calls key chunks : whole_message key chunks = map stream_invocation (session key chunks).
Proof.
  unfold whole_message, session, Props.AesCbc.message, write_and_flush, writes. cbn [map stream_invocation].
  rewrite map_app, map_map. reflexivity.
Qed.
Lemma session_fits T key chunks : Forall (fun d => call_fits T (Stream.Write d)) chunks ->
  Forall (call_fits T) (session key chunks).
Proof.
  intros H. constructor; [exact I|]. apply Forall_app. split; [|repeat constructor].
  apply Forall_map. exact H.
Qed.
Lemma success_cipher outs b :
  map cipher_value (Stream.Accepted :: map Stream.Data outs ++ [Stream.Data b]) = success outs b.
Proof. cbn [map cipher_value]. unfold success. rewrite !map_app, map_map. reflexivity. Qed.
Lemma success_decipher outs b :
  map decipher_value (Stream.Accepted :: map Stream.Data outs ++ [Stream.Data b]) = success outs b.
Proof. cbn [map decipher_value]. unfold success. rewrite !map_app, map_map. reflexivity. Qed.

(** The text encrypts as SP 800-38A says, with PKCS#7 padding; ... *)
Theorem C106_text_encrypts : forall T fuel key iv chunks, (63 <= fuel)%nat ->
  good_key key -> good_block iv -> Forall octets chunks ->
  Forall (fun d => N.of_nat (List.length d) + 16 <= isize_max T) chunks ->
  exists outs b,
    object T fuel "aes_cbc::Cipher" [VNums U8 iv] (whole_message key chunks) = Ret (success outs b) /\
    concat outs ++ b = Cbc.aes_cbc_encrypt key iv (concat chunks) /\
    List.length outs = List.length chunks.
Proof.
  intros T fuel key iv chunks Hf Hk Hiv Hc Hs.
  destruct (Props.AesCbc.C37_encrypt_conforms T key iv chunks Hk Hiv Hc) as (outs & b & c & E & H1 & _ & H2 & _).
  exists outs, b. split; [|auto]. rewrite whole_message_calls.
  rewrite C106_text_cipher by (first [assumption | apply Props.AesCbc.session_ok; assumption
                                     | apply session_fits; exact Hs]).
  destruct (Props.AesCbc.C42_cipher_histories T iv (session key chunks) Hiv
    (Props.AesCbc.session_ok _ _ Hk Hc)) as (c' & E').
  rewrite E in E'. apply ret_fst in E'. rewrite <- E', success_cipher. reflexivity.
Qed.
Print Assumptions C106_text_encrypts.

(** ... and decrypts what it encrypted, cut into any pieces. *)
Theorem C106_text_round_trip : forall T T' fuel fuel' key iv chunks outs b chunks',
  (63 <= fuel)%nat -> (63 <= fuel')%nat ->
  good_key key -> good_block iv -> Forall octets chunks ->
  Forall (fun d => N.of_nat (List.length d) + 16 <= isize_max T) chunks ->
  object T fuel "aes_cbc::Cipher" [VNums U8 iv] (whole_message key chunks) = Ret (success outs b) ->
  concat chunks' = concat outs ++ b ->
  Forall (fun d => N.of_nat (List.length d) + 16 <= isize_max T') chunks' ->
  exists outs' m,
    object T' fuel' "aes_cbc::Decipher" [VNums U8 iv] (whole_message key chunks') = Ret (success outs' m) /\
    concat outs' ++ m = concat chunks.
Proof.
  intros T T' fuel fuel' key iv chunks outs b chunks' Hf Hf' Hk Hiv Hc Hs E Hcut Hs'.
  destruct (Props.AesCbc.C37_encrypt_conforms T key iv chunks Hk Hiv Hc) as (outs0 & b0 & c & E0 & H0 & _).
  destruct (C106_text_encrypts T fuel key iv chunks Hf Hk Hiv Hc Hs) as (outs1 & b1 & E1 & H1 & _).
  assert (Hout : concat outs ++ b = concat outs0 ++ b0).
  { rewrite E in E1. injection E1 as E1. rewrite H0, <- H1.
    assert (X : forall l l' : list (list N), map (fun d => VCon "Ok" [VNums U8 d]) l =
              map (fun d => VCon "Ok" [VNums U8 d]) l' -> l = l').
    { induction l as [|x l IH]; intros [|y l'] Y; try discriminate Y; [reflexivity|].
      injection Y as -> Y. f_equal. apply IH. exact Y. }
    apply X in E1. apply app_inj_tail in E1. destruct E1 as [-> ->]. reflexivity. }
  rewrite Hout in Hcut.
  destruct (Props.AesCbc.C38_round_trip T T' key iv chunks outs0 b0 c chunks' Hk Hiv Hc E0 Hcut)
    as (outs' & m & d & Ed & Hm).
  exists outs', m. split; [|exact Hm]. rewrite whole_message_calls.
  assert (Hc' : Forall octets chunks').
  { assert (Ho : octets (concat chunks')).
    { rewrite Hcut, H0. apply Proofs.Stream.is_blocks_octets, Props.AesCbc.enc_blocks; try assumption.
      apply Proofs.Stream.octets_pkcs7_pad; [lia|]. apply Props.AesCbc.octets_concat'. assumption. }
    clear -Ho. induction chunks' as [|c cs IH]; [constructor|]. cbn [concat] in Ho.
    apply Forall_app in Ho. destruct Ho. constructor; [assumption|]. apply IH. assumption. }
  rewrite C106_text_decipher by (first [assumption | apply Props.AesCbc.session_ok; assumption
                                       | apply session_fits; exact Hs']).
  destruct (Props.AesCbc.C42_decipher_histories T' iv (session key chunks') Hiv
    (Props.AesCbc.session_ok _ _ Hk Hc')) as (d' & E').
  rewrite Ed in E'. apply ret_fst in E'. rewrite <- E', success_decipher. reflexivity.
Qed.
Print Assumptions C106_text_round_trip.

(** RFC 3602, case 1, in two pieces; and a decipher that is given no key, then
    garbage. *)
Example C106_example :
  (exists b, object (mkTarget W64 true) 63 "aes_cbc::Cipher" [VNums U8 rfc3602_iv]
    (whole_message rfc3602_key [firstn 5 rfc3602_msg; skipn 5 rfc3602_msg]) =
   Ret (success [[]; be_octets 16 0xe353779c1079aeb82708942dbe77181a] b)) /\
  object (mkTarget W64 true) 63 "aes_cbc::Decipher" [VNums U8 rfc3602_iv]
    [("flush", []); ("write", [VNums U8 (repeat 0 16)]); ("init", [VNums U8 rfc3602_key]); ("flush", []);
     ("write", [VNums U8 (repeat 0 16)]); ("flush", []); ("flush", [])] =
  Ret (map decipher_value [Stream.Unfinished; Stream.NoKey; Stream.Accepted; Stream.Unfinished;
    Stream.Data []; Stream.BadPadding; Stream.BadPadding]).
Proof.
  assert (Hiv : good_block rfc3602_iv) by (split; [apply Proofs.Bits.octets_be_octets|reflexivity]).
  split.
  - destruct Props.AesCbc.C37_example as (b & c & Hk & _ & E & _). exists b.
    match type of E with cipher_run ?T ?iv (session ?key ?chunks) = _ =>
      assert (Hc : Forall octets chunks) by (repeat constructor; reflexivity) end.
    assert (Hs : Forall (fun d => call_fits (mkTarget W64 true) (Stream.Write d))
      [firstn 5 rfc3602_msg; skipn 5 rfc3602_msg]) by (repeat constructor; vm_compute; discriminate).
    pose proof (C106_text_cipher (mkTarget W64 true) 63 _ _ ltac:(lia) Hiv
      (Props.AesCbc.session_ok _ _ Hk Hc) (session_fits _ _ _ Hs)) as H.
    rewrite <- whole_message_calls in H.
    destruct (Props.AesCbc.C42_cipher_histories (mkTarget W64 true) _ _ Hiv (Props.AesCbc.session_ok _ _ Hk Hc)) as (c' & E').
    rewrite E in E'. apply ret_fst in E'. rewrite <- E' in H. exact H.
  - destruct (proj2 Props.AesCbc.C42_example) as (d & E).
    match type of E with decipher_run ?T ?iv ?calls = _ =>
      assert (Hc : Forall stream_call_ok calls) by
        (repeat constructor; first [apply Proofs.Bits.octets_be_octets | apply Proofs.Base.octets_repeat; reflexivity]);
      destruct (Props.AesCbc.C42_decipher_histories T iv calls Hiv Hc) as (d' & E');
      pose proof (C106_text_decipher T 63 iv calls ltac:(lia) Hiv Hc
        ltac:(repeat constructor; vm_compute; discriminate)) as H end.
    rewrite E in E'. apply ret_fst in E'. rewrite <- E' in H. exact H.
Qed.
