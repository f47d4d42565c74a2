(** C97: what the objects of SHA-256, HMAC and AES-CBC hold in memory. *)
From Coq Require Import ZArith NArith List Arith Lia Bool ZifyBool ZifyNat ZifyN.
From Verif Require Import Rust Calls.
From Verif.Model Require Import Sha256 Hmac.
From Verif.Model Require Aes AesCbc.
From Verif.Spec Require Octets Sha256 Hmac Hasher Residue Stream Partner.
From Verif.Proofs Require Base Sha256 Sha256Main Hmac AesCbc Residue.
Import ListNotations.
Import Spec.Octets Spec.Hasher Spec.Residue.
Import Spec.Partner (inner_hash).
Import Spec.Hmac (block_key, ipad, opad).
Import Proofs.Residue (sha_after).
Local Open Scope N_scope.

(** After any history of updates and digests the hasher is known in full, field by field. *)
Theorem C97_hasher_history : forall T calls,
  Forall sha_call_ok calls ->
  match sha_after T calls sha256_new, memory_after (usize_mod T) (overflow_checks T) calls blank with
  | Ret s, Some m => s = mkSHA256 (chain (known m)) (block m) (total (known m))
  | Panic, None => True
  | _, _ => False
  end.
Proof.
  intros T calls F. pose proof (Proofs.Residue.after_holds T calls F _ _ (Proofs.Residue.blank_holds T)) as H.
  destruct (sha_after T calls sha256_new) as [s| |], (memory_after _ _ calls blank) as [m|]; try exact H.
  destruct H as [A B]. destruct s as [h b l]. cbn [sha_buffer] in B. subst b.
  rewrite <- (Proofs.Sha256.abs_h _ _ _ A), <- (Proofs.Sha256.abs_len _ _ _ A). reflexivity.
Qed.

(** For one message: before the digest the block in memory is [held], after it the last block
    of the padded message; the chaining value then is the digest itself. *)
Theorem C97_hasher_message : forall T chunks,
  Forall octets chunks -> 8 * N.of_nat (length (concat chunks)) < usize_mod T ->
  let m := concat chunks in
  exists s s', sha_updates T sha256_new chunks = Ret s /\ sha256_digest T s = Ret (Spec.Sha256.sha256 m, s') /\
    sha_buffer s = held m /\ sha_buffer s' = last_block m /\
    flat_map (be_octets 4) (sha_h s') = Spec.Sha256.sha256 m /\
    sha_length s = N.of_nat (length m) /\ sha_length s' = N.of_nat (length m).
Proof.
  intros T chunks F L m. assert (O : octets m) by (apply Base.octets_concat; exact F).
  destruct (Proofs.Residue.hash_run T m O L) as (s & s' & E & D). exists s, s'.
  rewrite Sha256Main.updates_concat. split; [exact E|]. split; [exact D|].
  destruct (Proofs.Residue.update_message T m s O ltac:(subst m; lia) E) as [-> _].
  destruct (Proofs.Residue.digest_message T m _ _ s' O L E D) as (_ & Lm & B & H & _).
  repeat apply conj; try assumption; reflexivity.
Qed.

(** What the object shows after the digest besides the digest and the length: the octets of
    the last, incomplete block if the padding fits behind them, nothing if it does not. *)
Theorem C97_shows_after_digest : forall T m m' s1 s1' d s2 s2' d',
  octets m -> octets m' -> length m = length m' -> 8 * N.of_nat (length m) < usize_mod T ->
  sha256_update T sha256_new m = Ret s1 -> sha256_digest T s1 = Ret (d, s2) ->
  sha256_update T sha256_new m' = Ret s1' -> sha256_digest T s1' = Ret (d', s2') ->
  (s2 = s2' <->
   d = d' /\ ((length m mod 64 <= 55)%nat -> skipn (64 * (length m / 64)) m = skipn (64 * (length m / 64)) m')).
Proof.
  intros T m m' s1 s1' d s2 s2' d' O O' L B E D E' D'.
  destruct (Proofs.Residue.digest_message T m s1 d s2 O B E D) as (-> & Ll & Bb & H & K).
  destruct (Proofs.Residue.digest_message T m' s1' d' s2' O' ltac:(rewrite <- L; exact B) E' D') as (-> & Ll' & Bb' & H' & K').
  pose proof (Proofs.Residue.last_block_eq m m' L) as G. unfold leftover in G. rewrite <- L in G.
  rewrite <- H, <- H', <- G, <- Bb, <- Bb'. clear - K K' Ll Ll' L. destruct s2 as [h b l], s2' as [h' b' l'].
  cbn [sha_h sha_buffer sha_length] in *. split.
  - intros X. injection X as -> -> _. split; reflexivity.
  - intros [X ->]. rewrite (Proofs.Residue.chain_inj h h' K K' X). subst l l'. rewrite L. reflexivity.
Qed.

(** An [HMac] that has not been digested holds its key: the block of the outer hasher is the
    key under a constant mask, whatever has been fed; the block of the inner one shows the
    key octets that the message has not yet overwritten. *)
Theorem C97_hmac_holds_key : forall T K chunks,
  octets K -> Forall octets chunks -> 8 * N.of_nat (length K) < usize_mod T ->
  8 * N.of_nat (64 + length (concat chunks)) < usize_mod T ->
  let m := concat chunks in
  exists h0 h, hmac_new T K = Ret h0 /\ hmac_updates T h0 chunks = Ret h /\
    xor (sha_buffer (outer h)) opad = block_key K /\
    sha_buffer (inner h) = held (xor (block_key K) ipad ++ m) /\
    ((length m < 64)%nat -> skipn (length m) (xor (sha_buffer (inner h)) ipad) = skipn (length m) (block_key K)).
Proof.
  intros T K chunks O F Lk Lm m. assert (Om : octets m) by (apply Base.octets_concat; exact F).
  destruct (Proofs.Residue.hmac_object T K chunks O F Lk Lm) as (h0 & h & E0 & E & Ei & Eo).
  destruct (Proofs.Residue.pads_ok K O) as (Oi & Oo & Li & Lo). pose proof (Proofs.Residue.big T) as B.
  exists h0, h. split; [exact E0|]. split; [exact E|].
  destruct (Proofs.Residue.update_message T _ _ Oo ltac:(rewrite Lo; lia) Eo) as [Xo _].
  destruct (Proofs.Residue.update_message T (Proofs.Residue.inner_text K m) (inner h)) as [Xi _].
  { apply Base.octets_app. split; assumption. }
  { unfold Proofs.Residue.inner_text. rewrite app_length, Li. subst m. lia. }
  { exact Ei. }
  rewrite Xo, Xi. cbn [sha_buffer]. rewrite Proofs.Residue.held_block by exact Lo.
  split; [apply Proofs.Residue.outer_key, O|]. split; [reflexivity|].
  intros S. unfold Proofs.Residue.inner_text. rewrite Proofs.Residue.held_short by assumption.
  rewrite Proofs.Residue.skipn_xor, skipn_app, skipn_all, Nat.sub_diag. cbn [app skipn].
  rewrite <- Proofs.Residue.skipn_xor. f_equal. apply Base.xor_cancel_r. rewrite Proofs.Hmac.block_key_length. reflexivity.
Qed.

(** The digest replaces both blocks.  The inner one then ends the padded message, the outer
    one is the inner hash, the padding octet and the length; the key is in neither. *)
Theorem C97_hmac_after_digest : forall T K chunks,
  octets K -> Forall octets chunks -> 8 * N.of_nat (length K) < usize_mod T ->
  8 * N.of_nat (64 + length (concat chunks)) < usize_mod T ->
  let m := concat chunks in
  exists h0 h h', hmac_new T K = Ret h0 /\ hmac_updates T h0 chunks = Ret h /\
    hmac_digest T h = Ret (Spec.Hmac.hmac K m, h') /\
    flat_map (be_octets 4) (sha_h (inner h')) = inner_hash K m /\
    flat_map (be_octets 4) (sha_h (outer h')) = Spec.Hmac.hmac K m /\
    sha_buffer (inner h') = last_block (repeat 0 64 ++ m) /\
    sha_buffer (outer h') = inner_hash K m ++ [128] ++ repeat 0 23 ++ be_octets 8 768.
Proof.
  intros T K chunks O F Lk Lm m. assert (Om : octets m) by (apply Base.octets_concat; exact F).
  destruct (Proofs.Residue.hmac_object T K chunks O F Lk Lm) as (h0 & h & E0 & E & Ei & Eo).
  destruct (Proofs.Residue.hmac_fields T K m h O Om Lm Ei Eo) as (h' & D & A1 & A2 & A3 & A4 & _).
  exists h0, h, h'. repeat apply conj; try assumption.
Qed.

(** So two keys and messages leave the same object exactly if both hashes agree and what the
    inner block shows of the messages agrees: for one message, if inner hash and MAC agree. *)
Theorem C97_hmac_shows_after_digest : forall T K K' m m' h0 h1 d h2 h0' h1' d' h2',
  octets K -> octets K' -> octets m -> octets m' -> length m = length m' ->
  8 * N.of_nat (length K) < usize_mod T -> 8 * N.of_nat (length K') < usize_mod T ->
  8 * N.of_nat (64 + length m) < usize_mod T ->
  hmac_new T K = Ret h0 -> hmac_update T h0 m = Ret h1 -> hmac_digest T h1 = Ret (d, h2) ->
  hmac_new T K' = Ret h0' -> hmac_update T h0' m' = Ret h1' -> hmac_digest T h1' = Ret (d', h2') ->
  (h2 = h2' <->
   inner_hash K m = inner_hash K' m' /\ d = d' /\
   ((length m mod 64 <= 55)%nat -> skipn (64 * (length m / 64)) m = skipn (64 * (length m / 64)) m')).
Proof.
  intros T K K' m m' h0 h1 d h2 h0' h1' d' h2' O O' Om Om' L Lk Lk' Lm N0 N1 N2 N0' N1' N2'.
  destruct (Proofs.Residue.one_run T K m h0 h1 d h2 O Om Lk Lm N0 N1 N2) as (-> & A1 & A2 & A3 & A4 & A5 & A6 & A7 & A8).
  destruct (Proofs.Residue.one_run T K' m' h0' h1' d' h2' O' Om' Lk' ltac:(rewrite <- L; exact Lm) N0' N1' N2')
    as (-> & B1 & B2 & B3 & B4 & B5 & B6 & B7 & B8).
  clear N0 N1 N2 N0' N1' N2'.
  assert (G : last_block (repeat 0 64 ++ m) = last_block (repeat 0 64 ++ m') <->
    ((length m mod 64 <= 55)%nat -> skipn (64 * (length m / 64)) m = skipn (64 * (length m / 64)) m')).
  { rewrite (Proofs.Residue.last_block_eq (repeat 0 64 ++ m) (repeat 0 64 ++ m')) by (rewrite !app_length, L; reflexivity).
    rewrite !Proofs.Sha256.leftover_app by (rewrite repeat_length; reflexivity).
    rewrite app_length, repeat_length. replace ((64 + length m) mod 64)%nat with (length m mod 64)%nat by lia.
    unfold leftover. rewrite <- L. reflexivity. }
  rewrite <- G, <- A1, <- B1, <- A2, <- B2, <- A3, <- B3.
  destruct h2 as [[hi bi li] [ho bo lo]], h2' as [[hi' bi' li'] [ho' bo' lo']].
  cbn [inner outer sha_h sha_buffer sha_length] in *. clear - A1 B1 A4 B4 A5 B5 A6 B6 A7 B7 A8 B8 L. split.
  - intros X. injection X as -> -> _ -> _ _. repeat apply conj; reflexivity.
  - intros (X & Y & ->). rewrite (Proofs.Residue.chain_inj hi hi' A7 B7 X), (Proofs.Residue.chain_inj ho ho' A8 B8 Y).
    rewrite A1, B1 in X. rewrite A4, B4, A5, B5, A6, B6, L, X. reflexivity.
Qed.

(** A cipher and a decipher hold the key in force in clear, whatever the calls were and
    whatever they replied: it is the beginning of the round keys. *)
Theorem C97_cipher_holds_key : forall T iv calls key,
  octets iv -> length iv = 16%nat -> Forall stream_call_ok calls -> key_in_force calls = Some key ->
  exists replies c w, cipher_run T iv calls = Ret (replies, c) /\
    Model.Aes.round_keys (Model.AesCbc.c_aes c) = Some w /\
    flat_map (be_octets 4) (firstn (length key / 4) w) = key.
Proof.
  intros T iv calls key Hiv L F K. destruct (Proofs.AesCbc.cipher_run_ok T iv calls (conj Hiv L) F) as (c & E & R).
  pose proof (Proofs.AesCbc.cr_key _ _ R) as H. clear R.
  rewrite (Proofs.Residue.run_key _ _ Proofs.Residue.cipher_step_key) in H.
  change (fold_left accepted calls _) with (key_in_force calls) in H. rewrite K in H.
  destruct (Proofs.Residue.holds_key _ _ H) as (w & W & X). exists (fst (Stream.run Stream.cipher_step (Stream.new_cipher iv) calls)), c, w.
  repeat apply conj; assumption.
Qed.
Theorem C97_decipher_holds_key : forall T iv calls key,
  octets iv -> length iv = 16%nat -> Forall stream_call_ok calls -> key_in_force calls = Some key ->
  exists replies c w, decipher_run T iv calls = Ret (replies, c) /\
    Model.Aes.round_keys (Model.AesCbc.d_aes c) = Some w /\
    flat_map (be_octets 4) (firstn (length key / 4) w) = key.
Proof.
  intros T iv calls key Hiv L F K. destruct (Proofs.AesCbc.decipher_run_ok T iv calls (conj Hiv L) F) as (c & E & R).
  pose proof (Proofs.AesCbc.dr_key _ _ R) as H. clear R.
  rewrite (Proofs.Residue.run_key _ _ Proofs.Residue.decipher_step_key) in H.
  change (fold_left accepted calls _) with (key_in_force calls) in H. rewrite K in H.
  destruct (Proofs.Residue.holds_key _ _ H) as (w & W & X). exists (fst (Stream.run Stream.decipher_step (Stream.new_decipher iv) calls)), c, w.
  repeat apply conj; assumption.
Qed.

(** The key 01 02 03 after the message 07: it is behind the message, and in the outer block. *)
Example C97_example :
  match hmac_new (mkTarget W64 true) [1; 2; 3] with
  | Ret h0 =>
      match hmac_update (mkTarget W64 true) h0 [7] with
      | Ret h =>
          firstn 4 (sha_buffer (inner h)) = [7; N.lxor 2 0x36; N.lxor 3 0x36; 0x36] /\
          firstn 4 (sha_buffer (outer h)) = [N.lxor 1 0x5c; N.lxor 2 0x5c; N.lxor 3 0x5c; 0x5c]
      | _ => False
      end
  | _ => False
  end.
Proof. vm_compute. split; reflexivity. Qed.
Example C97_example_keys :
  key_in_force [Stream.Init (repeat 1 16); Stream.Write [5]; Stream.Init (repeat 2 17); Stream.Flush] = Some (repeat 1 16) /\
  last_block (repeat 9 60) = repeat 0 56 ++ [0; 0; 0; 0; 0; 0; 1; 224] /\
  last_block [9; 9] = [9; 9; 128] ++ repeat 0 60 ++ [16].
Proof. vm_compute. repeat split. Qed.

Print Assumptions C97_hasher_history.
Print Assumptions C97_hasher_message.
Print Assumptions C97_shows_after_digest.
Print Assumptions C97_hmac_holds_key.
Print Assumptions C97_hmac_after_digest.
Print Assumptions C97_hmac_shows_after_digest.
Print Assumptions C97_cipher_holds_key.
Print Assumptions C97_decipher_holds_key.
