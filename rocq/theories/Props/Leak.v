(** C57-C65: what an observer of the program counter and of memory addresses
    learns.  [Leak.*] are the texts of the model written with recording operations
    (Leak/Ops.v); for each function used here it is shown first that leaving out
    the record gives back the model. *)
From Coq Require Import NArith List Arith Lia Bool.
From Verif Require Import Rust Calls.
From Verif.Model Require Sha256 Hmac Pbkdf2 Salsa20 Scrypt Aes Pkcs7 AesCbc.
From Verif.Leak Require Ops Sha256 Hmac Pbkdf2 Salsa20 Scrypt Aes Pkcs7 AesCbc Calls.
From Verif.Spec Require Octets Hasher Scrypt Aes Stream Leakage.
From Verif.Proofs Require Import Base Bits Leak LeakErase LeakAgree LeakCalls LeakUnpad.
From Verif.Proofs Require Pbkdf2 Scrypt LeakScrypt LeakAes Pkcs7 AesCbc.
From Verif.Props Require Scrypt AesKeys AesCbc.
Import Spec.Octets Spec.Leakage.
Import Leak.Ops (Read, Write, Range, Run, Branch, Alloc, Returned, Panicked, Diverged, outcome, visible).
Import ListNotations.
Local Open Scope N_scope.

(** For the examples. *)
Local Transparent Model.Sha256.K Model.Sha256.H.

(** * C57: SHA-256 *)
Theorem C57_same_results : forall T calls s,
  match outcome (Leak.Calls.sha_session T calls s) with
  | Ret ds => sha_run T calls s = map Some ds
  | _ => In None (sha_run T calls s)
  end.
Proof. intros. apply sha_session_er. Qed.
Print Assumptions C57_same_results.

(** Two histories of updates and digests on new hashers that differ only in the
    octets passed cannot be told apart. *)
Theorem C57_sha256_constant_time : forall T calls calls', same_shape calls calls' ->
  visible (Leak.Calls.sha_session T calls Model.Sha256.sha256_new) =
  visible (Leak.Calls.sha_session T calls' Model.Sha256.sha256_new).
Proof. intros. eapply agree_visible, sha_session_ag; [assumption|apply sha_like_new]. Qed.
Print Assumptions C57_sha256_constant_time.

(** The record is not empty, and shows the number of octets. *)
Example C57_example :
  let T := mkTarget W64 true in
  let see d := visible (Leak.Calls.sha_session T [Hasher.Update d] Model.Sha256.sha256_new) in
  same_shape [Hasher.Update [1; 2; 3]; Hasher.Digest] [Hasher.Update [255; 0; 9]; Hasher.Digest] /\
  length (fst (see [1; 2; 3])) = 10%nat /\ length (fst (see [1; 2; 3; 4])) = 13%nat.
Proof. split; [repeat constructor|]. split; lazy; reflexivity. Qed.

(** * C58: HMAC *)
Theorem C58_same_results : forall T key calls,
  match outcome (Leak.Calls.hmac_session T key calls), Model.Hmac.hmac_new T key with
  | Ret ds, Ret m => hmac_run T calls m = map Some ds
  | Ret _, _ => False
  | _, Ret m => In None (hmac_run T calls m)
  | r, r' => r = Panic /\ r' = Panic \/ r = Diverge /\ r' = Diverge
  end.
Proof.
  intros. unfold Leak.Calls.hmac_session. rewrite outcome_bind, hmac_new_er.
  destruct (Model.Hmac.hmac_new T key) as [m| |]; cbn [bind]; auto.
  pose proof (hmac_calls_er T calls m) as H. unfold replies_of in H.
  destruct (outcome (Leak.Calls.hmac_calls T calls m)); exact H.
Qed.
Print Assumptions C58_same_results.

Theorem C58_hmac_constant_time : forall T key key' calls calls',
  length key = length key' -> same_shape calls calls' ->
  visible (Leak.Calls.hmac_session T key calls) = visible (Leak.Calls.hmac_session T key' calls').
Proof. intros. eapply agree_visible, hmac_session_ag; assumption. Qed.
Print Assumptions C58_hmac_constant_time.

Example C58_example :
  let T := mkTarget W64 true in
  let see k := visible (Leak.Calls.hmac_session T k []) in
  length [7; 8] = length [1; 255] /\ same_shape [Hasher.Update [1]] [Hasher.Update [2]] /\
  length (fst (see [7; 8])) = 1603%nat /\ snd (see [7; 8]) = Returned.
Proof. split; [reflexivity|]. split; [repeat constructor|]. split; lazy; reflexivity. Qed.

(** * C59: PBKDF2 *)
Theorem C59_same_results : forall T P S c out,
  outcome (Leak.Pbkdf2.pbkdf2_sha256 T P S c out) = Model.Pbkdf2.pbkdf2_sha256 T P S c out.
Proof. intros. apply pbkdf2_sha256_er. Qed.
Print Assumptions C59_same_results.

Theorem C59_pbkdf2_constant_time : forall T P P' S S' c out out',
  length P = length P' -> length S = length S' -> length out = length out' ->
  visible (Leak.Pbkdf2.pbkdf2_sha256 T P S c out) = visible (Leak.Pbkdf2.pbkdf2_sha256 T P' S' c out').
Proof. intros. eapply agree_visible, pbkdf2_sha256_ag; apply bytes_length; assumption. Qed.
Print Assumptions C59_pbkdf2_constant_time.

Example C59_example :
  let T := mkTarget W32 false in
  let see P S c out := visible (Leak.Pbkdf2.pbkdf2_sha256 T P S c out) in
  length [112; 119] = length [0; 0] /\
  length (fst (see [112; 119] [1] 1 [])) = 1%nat /\ length (fst (see [112; 119] [1] 1 [0])) = 3243%nat.
Proof. split; [reflexivity|]. split; lazy; reflexivity. Qed.

(** * C60: Salsa20 *)
Theorem C60_same_results : forall input rounds out,
  outcome (Leak.Salsa20.salsa20 input rounds out) = Model.Salsa20.salsa20 input rounds out.
Proof. intros. apply salsa20_er. Qed.
Print Assumptions C60_same_results.

Theorem C60_salsa20_constant_time : forall input input' rounds out out',
  length input = length input' -> length out = length out' ->
  visible (Leak.Salsa20.salsa20 input rounds out) = visible (Leak.Salsa20.salsa20 input' rounds out').
Proof. intros. eapply agree_visible, salsa20_ag; apply bytes_length; assumption. Qed.
Print Assumptions C60_salsa20_constant_time.

Example C60_example :
  let see i n := visible (Leak.Salsa20.salsa20 i n (repeat 0 64)) in
  length (repeat 1 64) = length (repeat 255 64) /\
  length (fst (see (repeat 1 64) 2)) = 693%nat /\ snd (see (repeat 1 64) 2) = Returned.
Proof. split; [reflexivity|]. split; lazy; reflexivity. Qed.

(** * C61: scrypt *)
Theorem C61_same_results : forall T s P S out,
  outcome (Leak.Scrypt.scrypt_derive T s P S out) = Model.Scrypt.scrypt_derive T s P S out.
Proof. intros. apply scrypt_derive_er. Qed.
Print Assumptions C61_same_results.

(** Two derivations with the same parameters and lengths cannot be told apart if
    and only if they read the same positions of the table. *)
Theorem C61_scrypt_leaks_exactly_indices : forall T r n p P P' S S' out out',
  Props.Scrypt.admissible r n p -> octets P -> octets P' -> octets S -> octets S' ->
  Props.Scrypt.sizes_ok T r n p P S out ->
  length P = length P' -> length S = length S' -> length out = length out' ->
  let s := Model.Scrypt.scrypt_new r n p in
  visible (Leak.Scrypt.scrypt_derive T s P S out) = visible (Leak.Scrypt.scrypt_derive T s P' S' out') <->
  Spec.Scrypt.scrypt_indices P S n (N.to_nat r) (N.to_nat p) =
  Spec.Scrypt.scrypt_indices P' S' n (N.to_nat r) (N.to_nat p).
Proof.
  intros T r n p P P' S S' out out' Ha HP HP' HS HS' (H1 & H2 & H3 & H4 & H5) EP ES Eo s.
  assert (Hn : n < usize_mod T).
  { pose proof (isize_usize T). pose proof (Props.Scrypt.vec_size_ge T). nia. }
  destruct (Proofs.LeakScrypt.derive_cases T s P P' S S' out out') as [A D]; try assumption.
  - apply Props.Scrypt.admissible_accepted; assumption.
  - split; assumption.
  - cbn [s Model.Scrypt.sn Model.Scrypt.sr Model.Scrypt.sp Model.Scrypt.scrypt_new] in A, D.
    destruct (list_eq_dec (list_eq_dec N.eq_dec)
      (Spec.Scrypt.scrypt_indices P S n (N.to_nat r) (N.to_nat p))
      (Spec.Scrypt.scrypt_indices P' S' n (N.to_nat r) (N.to_nat p))) as [E|E].
    + split; [auto|]. intros _. eapply agree_visible, A, E.
    + split; [|intros E'; contradiction]. intros V.
      exfalso. apply (Proofs.LeakScrypt.differ_visible _ _ (D E)), V.
Qed.
Print Assumptions C61_scrypt_leaks_exactly_indices.

(** "The record does not depend on the passphrase" is false. *)
Lemma a_and_b_differ :
  visible (Leak.Scrypt.scrypt_derive (mkTarget W64 true) (Model.Scrypt.scrypt_new 1 2 1) [97] [] []) <>
  visible (Leak.Scrypt.scrypt_derive (mkTarget W64 true) (Model.Scrypt.scrypt_new 1 2 1) [98] [] []).
Proof.
  intros V. apply C61_scrypt_leaks_exactly_indices in V;
    [| |repeat constructor|repeat constructor|constructor|constructor| |reflexivity|reflexivity|reflexivity].
  - revert V. vm_compute. discriminate.
  - split; [lia|split; [exists 1; reflexivity|lia]].
  - split; [|split; [|split; [|split]]]; vm_compute; (reflexivity || discriminate).
Qed.
Theorem C61_passphrase_hidden_refuted :
  exists T r n p P P' S out, Props.Scrypt.admissible r n p /\
    Props.Scrypt.sizes_ok T r n p P S out /\ octets P /\ octets P' /\ octets S /\
    length P = length P' /\
    let s := Model.Scrypt.scrypt_new r n p in
    visible (Leak.Scrypt.scrypt_derive T s P S out) <> visible (Leak.Scrypt.scrypt_derive T s P' S out).
Proof.
  exists (mkTarget W64 true), 1, 2, 1, [97], [98], [], [].
  split; [split; [lia|split; [exists 1; reflexivity|lia]]|].
  split; [split; [|split; [|split; [|split]]]; vm_compute; (reflexivity || discriminate)|].
  split; [repeat constructor|]. split; [repeat constructor|]. split; [constructor|].
  split; [reflexivity|]. exact a_and_b_differ.
Qed.
Print Assumptions C61_passphrase_hidden_refuted.

(** A table of one entry is read at 0 only, so there "a" and "b" look the same;
    with two entries they do not. *)
Example C61_example :
  let see n P := visible (Leak.Scrypt.scrypt_derive (mkTarget W64 true) (Model.Scrypt.scrypt_new 1 n 1) P [] []) in
  see 1 [97] = see 1 [98] /\ see 2 [97] <> see 2 [98].
Proof.
  cbv zeta. split; [|exact a_and_b_differ].
  apply C61_scrypt_leaks_exactly_indices;
    [| |repeat constructor|constructor|constructor| |reflexivity|reflexivity|reflexivity|].
  - split; [lia|split; [exists 0; reflexivity|lia]].
  - repeat constructor.
  - split; [|split; [|split; [|split]]]; vm_compute; (reflexivity || discriminate).
  - unfold Spec.Scrypt.scrypt_indices.
    assert (I : forall B, Spec.Scrypt.ROMix_indices 1 B 1 = [0]).
    { intros B. unfold Spec.Scrypt.ROMix_indices. change (seq 0 (N.to_nat 1)) with [0%nat].
      cbn [map]. unfold Spec.Scrypt.ROMix_index. rewrite N.mod_1_r. reflexivity. }
    change (N.to_nat 1) with 1%nat.
    assert (M : forall l, map (fun Bi => Spec.Scrypt.ROMix_indices 1 Bi 1) l = map (fun _ => [0]) l)
      by (intros l; apply map_ext, I).
    rewrite !M. clear M I.
    assert (L : forall (A B : Type) (c : B) (l l' : list A), length l = length l' ->
                map (fun _ => c) l = map (fun _ => c) l').
    { intros A B c. induction l; intros [|y l'] E; cbn in *; try discriminate; f_equal; auto. }
    apply L. rewrite !blocks_length, !Proofs.Pbkdf2.pbkdf2_length. reflexivity.
Qed.

(** * C62: AES on one block *)
Theorem C62_same_results : forall a b,
  outcome (Leak.Aes.aes_encrypt a b) = Model.Aes.aes_encrypt a b /\
  outcome (Leak.Aes.aes_decrypt a b) = Model.Aes.aes_decrypt a b.
Proof. intros. split; [apply aes_encrypt_er|apply aes_decrypt_er]. Qed.
Print Assumptions C62_same_results.

(** "The record of an encryption or decryption does not depend on the key" is
    false for every two keys of one size: the record and the block determine the
    key. *)
Theorem C62_encrypt_record_determines_key : forall a1 a2 key key' a a' b,
  octets key -> octets key' -> length key = length key' -> octets b -> length b = 16%nat ->
  Model.Aes.aes_init a1 key = Ret (Ok tt, a) -> Model.Aes.aes_init a2 key' = Ret (Ok tt, a') ->
  visible (Leak.Aes.aes_encrypt a b) = visible (Leak.Aes.aes_encrypt a' b) -> key = key'.
Proof.
  intros a1 a2 key key' a a' b Hk Hk' El Hb Hl Hi Hi'.
  apply Props.AesKeys.init_keyed in Hi as [Hs ->]; [|assumption].
  apply Props.AesKeys.init_keyed in Hi' as [Hs' ->]; [|assumption].
  intros V. eapply (Proofs.LeakAes.encrypt_key key key' b b); (assumption || congruence || reflexivity || auto).
Qed.
Print Assumptions C62_encrypt_record_determines_key.

Theorem C62_decrypt_record_determines_key : forall a1 a2 key key' a a' b,
  octets key -> octets key' -> length key = length key' -> octets b -> length b = 16%nat ->
  Model.Aes.aes_init a1 key = Ret (Ok tt, a) -> Model.Aes.aes_init a2 key' = Ret (Ok tt, a') ->
  visible (Leak.Aes.aes_decrypt a b) = visible (Leak.Aes.aes_decrypt a' b) -> key = key'.
Proof.
  intros a1 a2 key key' a a' b Hk Hk' El Hb Hl Hi Hi'.
  apply Props.AesKeys.init_keyed in Hi as [Hs ->]; [|assumption].
  apply Props.AesKeys.init_keyed in Hi' as [Hs' ->]; [|assumption].
  intros V. eapply (Proofs.LeakAes.decrypt_key key key' b b); (assumption || congruence || reflexivity || auto).
Qed.
Print Assumptions C62_decrypt_record_determines_key.

(** Under one key the record determines the block. *)
Theorem C62_record_determines_block : forall a1 key a b b',
  octets key -> octets b -> octets b' -> length b = 16%nat -> length b' = 16%nat ->
  Model.Aes.aes_init a1 key = Ret (Ok tt, a) ->
  (visible (Leak.Aes.aes_encrypt a b) = visible (Leak.Aes.aes_encrypt a b') -> b = b') /\
  (visible (Leak.Aes.aes_decrypt a b) = visible (Leak.Aes.aes_decrypt a b') -> b = b').
Proof.
  intros a1 key a b b' Hk Hb Hb' Hl Hl' Hi.
  apply Props.AesKeys.init_keyed in Hi as [Hs ->]; [|assumption].
  split; intros V;
    [eapply (Proofs.LeakAes.encrypt_block key key b b')|eapply (Proofs.LeakAes.decrypt_block key key b b')];
    (assumption || congruence || reflexivity || auto).
Qed.
Print Assumptions C62_record_determines_block.

(** The first step of an encryption copies the block and adds the round key; the
    first reads of the substitution table are at the octets of block xor key. *)
Example C62_example :
  exists a, Model.Aes.aes_init Model.Aes.aes_new (repeat 7 16) = Ret (Ok tt, a) /\
    In (Read (N.lxor 7 0x55)) (firstn 100 (fst (visible (Leak.Aes.aes_encrypt a (repeat 0x55 16))))) /\
    snd (visible (Leak.Aes.aes_encrypt a (repeat 0x55 16))) = Returned.
Proof. eexists. split; [lazy; reflexivity|]. split; [lazy; tauto|lazy; reflexivity]. Qed.

(** * C63: AES key setup *)
Theorem C63_same_results : forall a key,
  outcome (Leak.Aes.aes_init a key) = Model.Aes.aes_init a key.
Proof. intros. apply aes_init_er. Qed.
Print Assumptions C63_same_results.

(** "The record of init does not depend on the key" is false for every two keys of
    one size: the record alone determines the key. *)
Theorem C63_init_record_determines_key : forall a a' key key',
  octets key -> octets key' -> Spec.Aes.valid_key_size key -> length key = length key' ->
  visible (Leak.Aes.aes_init a key) = visible (Leak.Aes.aes_init a' key') -> key = key'.
Proof. intros. eapply Proofs.LeakAes.init_key; (eassumption || congruence). Qed.
Print Assumptions C63_init_record_determines_key.

(** The substitution table is read at octets of the key. *)
Example C63_example :
  nth 25 (fst (visible (Leak.Aes.aes_init Model.Aes.aes_new (repeat 7 12 ++ [1; 2; 0x5a; 4])))) (Branch true) = Read 2 /\
  nth 26 (fst (visible (Leak.Aes.aes_init Model.Aes.aes_new (repeat 7 12 ++ [1; 2; 0x5a; 4])))) (Branch true) = Read 0x5a.
Proof. split; lazy; reflexivity. Qed.

(** * C64: padding *)
Theorem C64_same_results : forall T k chunks,
  outcome (Leak.Calls.pad_stream T k chunks) = pad_stream T k chunks.
Proof. intros. apply pad_stream_er. Qed.
Print Assumptions C64_same_results.

Theorem C64_pad_constant_time : forall T k chunks chunks', same_lengths chunks chunks' ->
  visible (Leak.Calls.pad_stream T k chunks) = visible (Leak.Calls.pad_stream T k chunks').
Proof. intros. eapply agree_visible, pad_stream_ag; assumption. Qed.
Print Assumptions C64_pad_constant_time.

Example C64_example :
  let T := mkTarget W64 true in
  let see c := visible (Leak.Calls.pad_stream T 4 c) in
  same_lengths [[1; 2]; [3; 4; 5]] [[9; 9]; [4; 4; 4]] /\
  see [[1; 2]; [3; 4; 5]] = see [[9; 9]; [4; 4; 4]] /\ see [[1; 2]] <> see [[1; 2; 3]].
Proof. split; [repeat constructor|]. lazy. split; [reflexivity|discriminate]. Qed.

(** * C65: unpadding *)
Theorem C65_same_results : forall T k chunks,
  outcome (Leak.Calls.unpad_stream T k chunks) = unpad_stream T k chunks.
Proof. intros. apply unpad_stream_er. Qed.
Print Assumptions C65_same_results.

(** Two streams of the same lengths cannot be told apart if and only if their
    final blocks have the same [view_of]: the kind of error, and the last octet
    unless it is larger than the block size. *)
Theorem C65_unpad_leaks_exactly_view : forall T k chunks chunks', (1 <= k <= 255)%nat ->
  same_lengths chunks chunks' ->
  visible (Leak.Calls.unpad_stream T (N.of_nat k) chunks) =
  visible (Leak.Calls.unpad_stream T (N.of_nat k) chunks') <->
  view_of k (Stream.held k (concat chunks)) = view_of k (Stream.held k (concat chunks')).
Proof.
  intros T k c1 c2 Hk Hc. assert (Hk' : (1 <= k < 256)%nat) by lia.
  pose proof (Proofs.Pkcs7.unpad_new_ok T (N.of_nat k)
    (Proofs.Pkcs7.block_size_fits T (N.of_nat k) ltac:(lia))) as En.
  destruct (Proofs.Pkcs7.unpad_writes_ok T k c1 ltac:(lia) [] ltac:(cbn; lia)) as (o1 & E1 & _).
  destruct (Proofs.Pkcs7.unpad_writes_ok T k c2 ltac:(lia) [] ltac:(cbn; lia)) as (o2 & E2 & _).
  cbn [app] in E1, E2.
  set (h1 := Stream.held k (concat c1)) in *. set (h2 := Stream.held k (concat c2)) in *.
  assert (A : Ops.trace (Leak.Calls.unpad_writes T (Model.Pkcs7.mkUnpad (N.of_nat k) []) c1) =
              Ops.trace (Leak.Calls.unpad_writes T (Model.Pkcs7.mkUnpad (N.of_nat k) []) c2)).
  { assert (A : visible (Leak.Calls.unpad_writes T (Model.Pkcs7.mkUnpad (N.of_nat k) []) c1) =
                visible (Leak.Calls.unpad_writes T (Model.Pkcs7.mkUnpad (N.of_nat k) []) c2)).
    { eapply agree_visible, unpad_writes_ag; [assumption|]. split; [reflexivity|apply bytes_refl]. }
    unfold visible in A. congruence. }
  assert (V : forall c o h,
    unpad_writes T (Model.Pkcs7.mkUnpad (N.of_nat k) []) c = Ret (o, Model.Pkcs7.mkUnpad (N.of_nat k) h) ->
    visible (Leak.Calls.unpad_stream T (N.of_nat k) c) =
    (Ops.trace (Leak.Pkcs7.unpad_new T (N.of_nat k)) ++
     Ops.trace (Leak.Calls.unpad_writes T (Model.Pkcs7.mkUnpad (N.of_nat k) []) c) ++
     flush_record k (view_of k h), Returned)).
  { intros c o h E. pose proof (flush_trace T k h Hk') as F. unfold visible in F. injection F as F _.
    unfold visible. rewrite unpad_stream_er. unfold unpad_stream. rewrite En. cbn [bind].
    rewrite E. cbn [bind]. rewrite Proofs.Pkcs7.unpad_flush_ok by lia.
    assert (U : exists r u, outcome (Leak.Pkcs7.unpad_flush T (Model.Pkcs7.mkUnpad (N.of_nat k) h)) = Ret (r, u)).
    { rewrite unpad_flush_er, Proofs.Pkcs7.unpad_flush_ok by lia. destruct (Stream.strip k h); eauto. }
    destruct U as (r & u & U).
    f_equal; [|destruct (Stream.strip k h); reflexivity].
    unfold Leak.Calls.unpad_stream.
    rewrite (trace_bind _ _ _ (eq_trans (unpad_new_er T _) En)).
    rewrite (trace_bind _ _ _ (eq_trans (unpad_writes_er T c _) E)).
    rewrite (trace_bind _ _ _ U), F. cbn. rewrite !app_nil_r. reflexivity. }
  rewrite (V _ _ _ E1), (V _ _ _ E2), A. split.
  - intros H. injection H as H. apply app_inv_head, app_inv_head, record_inj in H. exact H.
  - intros ->. reflexivity.
Qed.
Print Assumptions C65_unpad_leaks_exactly_view.

(** The same for [Decipher::flush] after any two histories, over the plaintext
    that is held back. *)
Definition flush_of (T : target) (iv : list N) (calls : list Stream.call) :=
  match decipher_run T iv calls with
  | Ret (_, d) => visible (Leak.AesCbc.decipher_flush T d)
  | _ => ([], Panicked)
  end.
Definition held_back (iv : list N) (calls : list Stream.call) : list N :=
  Stream.d_held (snd (Stream.run Stream.decipher_step (Stream.new_decipher iv) calls)).
Theorem C65_decipher_flush_leaks_exactly_view : forall T iv iv' calls calls',
  Props.AesCbc.good_block iv -> Props.AesCbc.good_block iv' ->
  Forall stream_call_ok calls -> Forall stream_call_ok calls' ->
  flush_of T iv calls = flush_of T iv' calls' <->
  view_of 16 (held_back iv calls) = view_of 16 (held_back iv' calls').
Proof.
  intros T iv iv' calls calls' Hiv Hiv' Hc Hc'.
  assert (V : forall iv calls, Props.AesCbc.good_block iv -> Forall stream_call_ok calls ->
    flush_of T iv calls =
    (flush_record 16 (view_of 16 (held_back iv calls)) ++
     [Branch (match view_of 16 (held_back iv calls) with Removed _ => true | _ => false end)], Returned)).
  { clear. intros iv calls Hiv Hc. unfold flush_of.
    destruct (Proofs.AesCbc.decipher_run_ok T iv calls Hiv Hc) as (d & -> & R).
    fold (held_back iv calls) in *. destruct R as [_ _ Hu _ _ _ _ _ _]. fold (held_back iv calls) in Hu.
    set (h := held_back iv calls) in *. unfold visible.
    pose proof (flush_trace T 16 h ltac:(lia)) as F. unfold visible in F. injection F as F _.
    pose proof (Proofs.Pkcs7.unpad_flush_ok T 16 h ltac:(lia)) as E.
    pose proof (eq_trans (unpad_flush_er T _) E) as E'. change (N.of_nat 16) with 16 in *. rewrite <- Hu in E', F.
    unfold Leak.AesCbc.decipher_flush. f_equal.
    - rewrite (trace_bind _ _ _ E'), F. f_equal. unfold view_of.
      destruct (Stream.strip 16 h); [reflexivity|reflexivity|]. destruct (Nat.leb _ _); reflexivity.
    - rewrite outcome_bind, E'. destruct (Stream.strip 16 h); reflexivity. }
  rewrite (V _ _ Hiv Hc), (V _ _ Hiv' Hc').
  set (v := view_of 16 (held_back iv calls)). set (v' := view_of 16 (held_back iv' calls')).
  split; [|intros ->; reflexivity].
  intros H. injection H as H. apply app_inj_tail in H as [H _]. apply record_inj in H. exact H.
Qed.
Print Assumptions C65_decipher_flush_leaks_exactly_view.

(** Four blocks of one length with four different records. *)
Example C65_example :
  let see b := visible (Leak.Calls.unpad_stream (mkTarget W64 true) 4 [b]) in
  view_of 4 [9; 9; 9; 9] = TooLarge /\ view_of 4 [9; 9; 3; 2] = Mismatch 2 /\
  view_of 4 [9; 9; 2; 2] = Removed 2 /\ view_of 4 [9; 9; 9; 1] = Removed 1 /\
  see [9; 9; 9; 9] = see [7; 7; 7; 7] /\ see [9; 9; 9; 9] <> see [9; 9; 3; 2] /\
  see [9; 9; 3; 2] <> see [9; 9; 2; 2] /\ see [9; 9; 2; 2] <> see [9; 9; 9; 1] /\
  see [9; 8; 2; 2] = see [1; 1; 2; 2].
Proof. lazy. repeat split; discriminate. Qed.
