(** C86: which ciphertexts decrypt to a given message. *)
From Coq Require Import NArith List Arith Lia Bool.
From Verif Require Import Rust Calls.
From Verif.Model Require Import Aes Pkcs7 AesCbc.
From Verif.Spec Require Octets Aes Cbc Stream BlockCipher.
From Verif.Proofs Require Import Base Bits.
From Verif.Proofs Require Stream AesCbc Messages Aes.
From Verif.Props Require Import AesCbc.
From Verif.Props Require Forge.
Import Spec.Octets Spec.Cbc.
Import Spec.Stream (call, reply, Init, Write, Flush, Accepted, Data, whole).
Import ListNotations.
Local Open Scope N_scope.

(** * Statements *)

(** The ciphertext, written in these chunks, decrypts to [m]. *)
Definition yields (T : target) (key iv : list N) (chunks : list (list N)) (m : list N) : Prop :=
  exists outs b d, decipher_run T iv (session key chunks) =
    Ret (Accepted :: map Data outs ++ [Data b], d) /\ concat outs ++ b = m.

(** * Lemmas *)

Lemma cbc_encrypt_decrypt key : good_key key -> forall C iv, good_block iv ->
  Forall Proofs.Stream.is_block C ->
  cbc_encrypt (Spec.Aes.Cipher key) iv (cbc_decrypt (Spec.Aes.InvCipher key) iv C) = C.
Proof.
  intros [Hk Hs]. induction C as [|c C IH]; intros iv Hiv HC; [reflexivity|].
  inversion HC as [|? ? Hc HC']; subst. cbn [cbc_decrypt cbc_encrypt].
  assert (Hi : Proofs.Stream.is_block (Spec.Aes.InvCipher key c))
    by (apply Proofs.AesCbc.InvCipher_block; assumption).
  rewrite xor_cancel_r by (rewrite (proj2 Hi), (proj2 Hiv); reflexivity).
  rewrite Proofs.AesCbc.Cipher_InvCipher_block by assumption. rewrite IH by assumption. reflexivity.
Qed.

(** Encrypting the decryption of the complete blocks gives them back. *)
Lemma encrypt_raw key iv l : good_key key -> good_block iv -> octets l ->
  concat (cbc_encrypt (Spec.Aes.Cipher key) iv (blocks 16 (raw key iv l))) = whole 16 l.
Proof.
  intros Hk Hiv Hl. unfold raw.
  rewrite Proofs.Stream.blocks_concat_blocks by (apply dec_blocks; assumption).
  rewrite cbc_encrypt_decrypt; [|assumption|assumption|apply Proofs.Stream.blocks_are_blocks; assumption].
  apply Proofs.Stream.concat_blocks_whole. discriminate.
Qed.
Lemma raw_whole key iv l : raw key iv (whole 16 l) = raw key iv l.
Proof. unfold raw. rewrite Proofs.Stream.blocks_whole by discriminate. reflexivity. Qed.

(** The ciphertext of a message of complete blocks without the block of padding. *)
Lemma encrypt_front key iv m : good_key key -> good_block iv -> octets m -> (length m mod 16 = 0)%nat ->
  firstn (length m) (aes_cbc_encrypt key iv m) =
  concat (cbc_encrypt (Spec.Aes.Cipher key) iv (blocks 16 m)).
Proof.
  intros Hk Hiv Hm Hl. unfold aes_cbc_encrypt, pkcs7_pad. cbv zeta.
  rewrite blocks_app by (assumption || discriminate).
  rewrite Proofs.Stream.cbc_encrypt_app, concat_app.
  assert (L : length (concat (cbc_encrypt (Spec.Aes.Cipher key) iv (blocks 16 m))) = length m).
  { rewrite enc_length by assumption. pose proof (Nat.div_mod (length m) 16 ltac:(discriminate)). lia. }
  rewrite <- L at 1. rewrite firstn_app, Nat.sub_diag, firstn_O, app_nil_r. apply firstn_all.
Qed.

Lemma pad_unique (P m : list N) n : (1 <= n <= 16)%nat -> P = m ++ repeat (N.of_nat n) n ->
  (length P mod 16 = 0)%nat -> P = pkcs7_pad 16 m.
Proof.
  intros Hn -> Hl. unfold pkcs7_pad. cbv zeta. rewrite app_length, repeat_length in Hl.
  assert (E : n = (16 - length m mod 16)%nat).
  { pose proof (Nat.div_mod (length m) 16 ltac:(discriminate)).
    pose proof (Nat.mod_upper_bound (length m) 16 ltac:(discriminate)).
    pose proof (Nat.div_mod (length m + n) 16 ltac:(discriminate)). lia. }
  rewrite <- E. reflexivity.
Qed.

(** * C86.  The ciphertexts that decrypt to a message under a key and an iv, but for
    bytes after the last complete block: the encryption of the message, and for a
    message that ends in a zero byte at the end of a block also that encryption
    without its last block.  There is no other. *)
Theorem C86_ciphertexts_of_a_message : forall T key iv chunks m,
  good_key key -> good_block iv -> Forall octets chunks -> octets m ->
  let ct := whole 16 (concat chunks) in
  yields T key iv chunks m <->
  ct = aes_cbc_encrypt key iv m \/
  (m <> [] /\ (length m mod 16 = 0)%nat /\ last m 256 = 0 /\
   ct = firstn (length m) (aes_cbc_encrypt key iv m)).
Proof.
  intros T key iv chunks m Hk Hiv Hc Hm ct.
  assert (Hcc : octets (concat chunks)) by (apply octets_concat'; exact Hc).
  assert (Hct : octets ct) by (apply octets_firstn; exact Hcc).
  assert (Er : raw key iv ct = raw key iv (concat chunks)) by apply raw_whole.
  assert (Lr : length (raw key iv (concat chunks)) = (16 * (length (concat chunks) / 16))%nat)
    by (apply raw_length; assumption).
  assert (Lm : (length (raw key iv (concat chunks)) mod 16 = 0)%nat)
    by (rewrite Lr, Nat.mul_comm; apply Nat.mod_mul; discriminate).
  pose proof (encrypt_raw key iv _ Hk Hiv Hcc) as Ee. fold ct in Ee.
  destruct (C39_decrypt_outcome T key iv chunks Hk Hiv Hc) as (outs & fin & d & E & _ & _ & _ & HD & _).
  set (P := raw key iv (concat chunks)) in *.
  split.
  - intros (outs1 & b & d1 & E1 & Em).
    assert (X : outs1 = outs /\ Data b = fin) by (apply (replies_inj _ _ _ _ d1 d); congruence).
    destruct X as [-> <-]. destruct (proj1 (HD b) eq_refl) as (H16 & n & Hn & Hlast & EP).
    rewrite Em in EP. destruct n as [|n].
    + right. cbn [repeat] in EP. rewrite app_nil_r in EP.
      assert (Lmm : (length m mod 16 = 0)%nat) by (rewrite <- EP; exact Lm).
      split; [|split; [exact Lmm|split]].
      * intros Z. rewrite EP, Z in Lr. cbn [length] in Lr.
        assert (1 <= length (concat chunks) / 16)%nat by (apply Nat.div_le_lower_bound; lia). lia.
      * rewrite <- EP. exact Hlast.
      * rewrite encrypt_front by assumption. rewrite <- Ee, EP. reflexivity.
    + left. rewrite <- Ee. unfold aes_cbc_encrypt.
      rewrite <- (pad_unique P m (S n) ltac:(lia) EP Lm). reflexivity.
  - intros [Hx|(Hne & Hmod & Hz & Hx)].
    + assert (EP : P = pkcs7_pad 16 m).
      { rewrite <- Er, Hx. apply raw_encrypt; [assumption|assumption|apply Proofs.Stream.octets_pkcs7_pad; [lia|assumption]|].
        apply Proofs.Stream.pkcs7_pad_mod. discriminate. }
      apply (Forge.decrypts_to T key iv (concat chunks) m chunks Hk Hiv Hcc eq_refl EP).
    + assert (EP : P = m).
      { rewrite <- Er, Hx, encrypt_front by assumption. apply raw_encrypt; assumption. }
      assert (Hlen : (16 <= length (concat chunks))%nat).
      { destruct (Nat.le_gt_cases 16 (length (concat chunks))) as [|G]; [assumption|].
        rewrite (Nat.div_small _ _ G) in Lr. rewrite EP in Lr. destruct m; [congruence|discriminate]. }
      destruct (decrypt_session T key iv chunks Hk Hiv Hc) as (outs1 & d1 & E1 & _ & _ & Ho).
      fold P in E1, Ho. rewrite EP in E1, Ho.
      assert (X : outs1 = outs /\ Proofs.Messages.verdict_reply (Stream.strip 16 (Stream.held 16 m)) = fin)
        by (apply (replies_inj _ _ _ _ d1 d); congruence).
      destruct X as [<- Ef].
      assert (Hfin : fin = Data (Stream.held 16 m)).
      { apply HD. split; [exact Hlen|]. exists 0%nat. split; [lia|]. rewrite EP.
        split; [exact Hz|]. cbn [repeat]. rewrite app_nil_r, Ho. unfold Stream.settled, Stream.held.
        symmetry. apply firstn_skipn. }
      exists outs1, (Stream.held 16 m), d. split; [congruence|].
      rewrite Ho. unfold Stream.settled, Stream.held. apply firstn_skipn.
Qed.
Print Assumptions C86_ciphertexts_of_a_message.

(** "The ciphertext of a message is unique" and "a ciphertext that lost a block is
    rejected" are therefore false, for every key and iv. *)
Theorem C86_lost_block_is_noticed_refuted : forall T key iv p,
  good_key key -> good_block iv -> octets p -> (length p mod 16 = 15)%nat ->
  let m := p ++ [0] in
  let ct := aes_cbc_encrypt key iv m in
  let short := firstn (length ct - 16) ct in
  short <> ct /\ yields T key iv [ct] m /\ yields T key iv [short] m.
Proof.
  intros T key iv p Hk Hiv Hp Lp m ct short.
  assert (Hm : octets m) by (apply octets_app; split; [assumption|repeat constructor]).
  assert (Lm : (length m mod 16 = 0)%nat).
  { unfold m. rewrite app_length. cbn [length].
    pose proof (Nat.div_mod (length p) 16 ltac:(discriminate)) as D.
    replace (length p + 1)%nat with ((length p / 16 + 1) * 16)%nat by lia. apply Nat.mod_mul. discriminate. }
  assert (Hpad : octets (pkcs7_pad 16 m)) by (apply Proofs.Stream.octets_pkcs7_pad; [lia|assumption]).
  assert (Lc : length ct = (length m + 16)%nat).
  { unfold ct, aes_cbc_encrypt. rewrite enc_length by assumption.
    rewrite Proofs.Stream.pkcs7_pad_length by discriminate.
    rewrite (Nat.mul_comm _ (_ + 1)), Nat.div_mul by discriminate.
    pose proof (Nat.div_mod (length m) 16 ltac:(discriminate)). lia. }
  assert (Lmod : (length ct mod 16 = 0)%nat).
  { rewrite Lc. rewrite <- (Nat.mul_1_l 16) at 1. rewrite Nat.mod_add by discriminate. exact Lm. }
  assert (Hct : octets ct).
  { unfold ct, aes_cbc_encrypt. apply Proofs.Stream.is_blocks_octets, enc_blocks; assumption. }
  assert (Ls : length short = length m) by (unfold short; rewrite firstn_length; lia).
  split; [|split].
  - intros Z. rewrite Z in Ls. lia.
  - apply C86_ciphertexts_of_a_message; [assumption|assumption|repeat constructor; exact Hct|exact Hm|].
    left. cbn [concat]. rewrite app_nil_r. apply Proofs.Stream.whole_all; [discriminate|exact Lmod].
  - apply C86_ciphertexts_of_a_message; [assumption|assumption| |exact Hm|].
    + repeat constructor. apply octets_firstn. exact Hct.
    + right. split; [|split; [exact Lm|split]].
      * unfold m. destruct p; discriminate.
      * unfold m. apply last_last.
      * cbn [concat]. rewrite app_nil_r.
        rewrite (proj1 (Proofs.Stream.whole_all 16 short ltac:(discriminate) ltac:(rewrite Ls; exact Lm))).
        unfold short. rewrite Lc. f_equal. lia.
Qed.
Print Assumptions C86_lost_block_is_noticed_refuted.

(** Encrypting again what was decrypted gives the complete blocks back, followed by a
    block of padding where the padding was "zero bytes of value zero". *)
Theorem C86_encrypted_again : forall T key iv chunks m,
  good_key key -> good_block iv -> Forall octets chunks -> octets m ->
  yields T key iv chunks m ->
  let ct := whole 16 (concat chunks) in
  exists t, aes_cbc_encrypt key iv m = ct ++ t /\
    (t = [] \/ (length t = 16%nat /\ last m 256 = 0 /\ (length m mod 16 = 0)%nat)).
Proof.
  intros T key iv chunks m Hk Hiv Hc Hm Hy ct.
  apply (C86_ciphertexts_of_a_message T key iv chunks m Hk Hiv Hc Hm) in Hy. fold ct in Hy.
  destruct Hy as [->|(Hne & Hmod & Hz & ->)].
  - exists []. split; [symmetry; apply app_nil_r|left; reflexivity].
  - exists (skipn (length m) (aes_cbc_encrypt key iv m)). split; [symmetry; apply firstn_skipn|].
    right. split; [|split; assumption]. rewrite skipn_length. unfold aes_cbc_encrypt.
    rewrite enc_length; [|assumption|assumption|apply Proofs.Stream.octets_pkcs7_pad; [lia|assumption]].
    rewrite Proofs.Stream.pkcs7_pad_length by discriminate.
    rewrite (Nat.mul_comm _ (_ + 1)), Nat.div_mul by discriminate.
    pose proof (Nat.div_mod (length m) 16 ltac:(discriminate)). lia.
Qed.
Print Assumptions C86_encrypted_again.

(** Fifteen bytes and a zero: two ciphertexts.  Sixteen bytes that end in 2: the
    ciphertext without its last block is rejected. *)
Example C86_example :
  let T := mkTarget W64 true in
  let C m := match cipher_run T rfc3602_iv (session rfc3602_key [m]) with
             | Ret ([_; Data a; Data b], _) => a ++ b
             | _ => []
             end in
  let dec c := decipher_run T rfc3602_iv (session rfc3602_key [c]) in
  (exists d, dec (C (repeat 7 15 ++ [0])) = Ret ([Accepted; Data (repeat 7 15 ++ [0]); Data []], d)) /\
  (exists d, dec (firstn 16 (C (repeat 7 15 ++ [0]))) = Ret ([Accepted; Data []; Data (repeat 7 15 ++ [0])], d)) /\
  (exists d, dec (firstn 16 (C (repeat 7 15 ++ [2]))) = Ret ([Accepted; Data []; Stream.BadPadding], d)).
Proof. vm_compute. split; [|split]; eexists; reflexivity. Qed.
