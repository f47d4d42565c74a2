(** C70: what equal blocks of ciphertext give away in CBC mode. *)
From Coq Require Import NArith List Arith Lia Bool.
From Verif Require Import Rust Calls.
From Verif.Model Require Import Aes Pkcs7 AesCbc.
From Verif.Spec Require Octets Aes Cbc Stream BlockCipher.
From Verif.Proofs Require Import Base Bits.
From Verif.Proofs Require Stream AesCbc Messages Aes.
From Verif.Props Require Import AesCbc.
Import Spec.Octets Spec.Cbc.
Import Spec.Stream (call, reply, Init, Write, Flush, Accepted, Data, BadKeySize, NoKey, Unfinished,
  BadPadding, whole, rest, settled, held).
Import ListNotations.
Local Open Scope N_scope.

(** * Statements *)

(** Block [i] of a string, and the block before it ([iv] before the first). *)
Definition block (l : list N) (i : nat) : list N := firstn 16 (skipn (16 * i) l).
Definition before (iv l : list N) (i : nat) : list N :=
  match i with O => iv | S j => block l j end.

(** * Lemmas *)

Lemma block_concat L i : Forall Proofs.Stream.is_block L -> (i < length L)%nat ->
  block (concat L) i = nth i L [].
Proof.
  unfold block. revert i. induction L as [|b L IH]; intros i H Hi; [cbn in Hi; lia|].
  inversion H as [|? ? [_ Hb] HL]; subst. cbn [concat]. destruct i as [|i].
  - rewrite Nat.mul_0_r. cbn [skipn nth]. rewrite firstn_app, Hb, Nat.sub_diag.
    rewrite firstn_O, app_nil_r. apply firstn_all2. rewrite Hb. constructor.
  - rewrite skipn_app, Hb. replace (16 * S i - 16)%nat with (16 * i)%nat by lia.
    rewrite skipn_all2 by (rewrite Hb; lia). cbn [app nth]. apply IH; [assumption|]. cbn in Hi. lia.
Qed.

Lemma block_blocks l i : octets l -> (16 * i + 16 <= length l)%nat ->
  block l i = nth i (blocks 16 l) [].
Proof.
  intros Hl Hi. pose proof (Proofs.Stream.blocks_are_blocks l Hl) as HB.
  assert (Hlt : (i < length (blocks 16 l))%nat).
  { rewrite blocks_length. apply Nat.div_le_lower_bound; lia. }
  rewrite <- (block_concat (blocks 16 l) i HB Hlt).
  rewrite Proofs.Stream.concat_blocks_whole by discriminate. unfold block, whole.
  rewrite skipn_firstn_comm, firstn_firstn. f_equal.
  pose proof (Nat.div_mod (length l) 16 ltac:(discriminate)).
  rewrite blocks_length in Hlt. lia.
Qed.

Lemma nth_cbc_encrypt E IV P i : (i < length P)%nat ->
  nth i (cbc_encrypt E IV P) [] =
  E (xor (nth i P []) (match i with O => IV | S j => nth j (cbc_encrypt E IV P) [] end)).
Proof.
  revert IV i. induction P as [|p P IH]; intros IV i Hi; [cbn in Hi; lia|].
  destruct i as [|i]; [reflexivity|]. cbn [cbc_encrypt nth]. rewrite IH by (cbn in Hi; lia).
  destruct i; reflexivity.
Qed.

Lemma nth_is_block L i : Forall Proofs.Stream.is_block L -> (i < length L)%nat ->
  Proofs.Stream.is_block (nth i L []).
Proof. intros H Hi. rewrite Forall_forall in H. apply H, nth_In. assumption. Qed.

(** Block [i] of the ciphertext. *)
Lemma cipher_block key iv m i : good_key key -> good_block iv -> octets m ->
  (16 * i + 16 <= length (aes_cbc_encrypt key iv m))%nat ->
  let c := aes_cbc_encrypt key iv m in
  Proofs.Stream.is_block (block (pkcs7_pad 16 m) i) /\ Proofs.Stream.is_block (before iv c i) /\
  block c i = Spec.Aes.Cipher key (xor (block (pkcs7_pad 16 m) i) (before iv c i)).
Proof.
  intros Hk Hiv Hm Hi c. subst c.
  assert (Hp : octets (pkcs7_pad 16 m)) by (apply Proofs.Stream.octets_pkcs7_pad; [lia|assumption]).
  pose proof (enc_blocks key iv _ Hk Hiv Hp) as HB.
  unfold aes_cbc_encrypt in *. rewrite enc_length in Hi by assumption.
  assert (Hlt : (i < length (blocks 16 (pkcs7_pad 16 m)))%nat) by (rewrite blocks_length; lia).
  assert (Hlt' : (i < length (cbc_encrypt (Spec.Aes.Cipher key) iv (blocks 16 (pkcs7_pad 16 m))))%nat)
    by (rewrite Proofs.Stream.cbc_encrypt_length; assumption).
  pose proof (Nat.div_mod (length (pkcs7_pad 16 m)) 16 ltac:(discriminate)) as Hdm.
  assert (Hbf : before iv (concat (cbc_encrypt (Spec.Aes.Cipher key) iv (blocks 16 (pkcs7_pad 16 m)))) i =
    match i with O => iv | S j => nth j (cbc_encrypt (Spec.Aes.Cipher key) iv (blocks 16 (pkcs7_pad 16 m))) [] end).
  { destruct i as [|j]; [reflexivity|]. cbn [before]. apply block_concat; [assumption|lia]. }
  rewrite Hbf, block_concat by assumption. rewrite block_blocks by (try assumption; lia).
  split; [apply nth_is_block; [apply Proofs.Stream.blocks_are_blocks|]; assumption|].
  split; [destruct i as [|j]; [exact Hiv|apply nth_is_block; [assumption|lia]]|].
  apply nth_cbc_encrypt. assumption.
Qed.

Lemma Cipher_inj key a b : good_key key -> Proofs.Stream.is_block a -> Proofs.Stream.is_block b ->
  Spec.Aes.Cipher key a = Spec.Aes.Cipher key b -> a = b.
Proof.
  intros [Hk Hs] Ha Hb E.
  rewrite <- (Proofs.AesCbc.InvCipher_Cipher_block key a), <- (Proofs.AesCbc.InvCipher_Cipher_block key b)
    by assumption. congruence.
Qed.

Lemma xor_swap a b c d : length a = 16%nat -> length b = 16%nat -> length c = 16%nat -> length d = 16%nat ->
  xor a b = xor c d <-> xor a c = xor b d.
Proof.
  intros La Lb Lc Ld.
  assert (G : forall a b c d : list N, length a = 16%nat -> length b = 16%nat -> length c = 16%nat ->
    length d = 16%nat -> xor a b = xor c d -> xor a c = xor b d).
  { clear. intros a b c d La Lb Lc Ld E. apply (list_ext _ _ 0).
    - rewrite !xor_length. lia.
    - intros i Hi. rewrite xor_length in Hi.
      assert (X : nth i (xor a b) 0 = nth i (xor c d) 0) by (rewrite E; reflexivity).
      rewrite !nth_xor in X by lia. rewrite !nth_xor by lia.
      apply N.bits_inj. intros k. apply (f_equal (fun n => N.testbit n k)) in X.
      rewrite !N.lxor_spec in *.
      destruct (N.testbit (nth i a 0) k), (N.testbit (nth i b 0) k), (N.testbit (nth i c 0) k),
        (N.testbit (nth i d 0) k); cbn in *; congruence. }
  split; apply G; assumption.
Qed.

Lemma session_ciphertext T key iv chunks outs b c : good_key key -> good_block iv -> Forall octets chunks ->
  cipher_run T iv (session key chunks) = Ret (Accepted :: map Data outs ++ [Data b], c) ->
  concat outs ++ b = aes_cbc_encrypt key iv (concat chunks).
Proof.
  intros Hk Hiv Hc E.
  destruct (encrypt_session T key iv chunks Hk Hiv Hc) as (outs1 & b1 & c1 & E1 & _ & _ & H).
  destruct (replies_inj _ _ _ _ _ _ (eq_trans (eq_sym E) E1)) as [<- Eb]. congruence.
Qed.

(** * C70.  Two ciphertext blocks made under one key are equal if and only if the
    exclusive or of the two plaintext blocks is that of the two ciphertext blocks (or
    ivs) before them.  So an equality tells who sees only the ciphertexts the
    exclusive or of the plaintext blocks, and an inequality one value it is not. *)
Theorem C70_equal_blocks : forall T T' key iv iv' chunks chunks' outs b c outs' b' c' i j,
  good_key key -> good_block iv -> good_block iv' -> Forall octets chunks -> Forall octets chunks' ->
  cipher_run T iv (session key chunks) = Ret (Accepted :: map Data outs ++ [Data b], c) ->
  cipher_run T' iv' (session key chunks') = Ret (Accepted :: map Data outs' ++ [Data b'], c') ->
  let ct := concat outs ++ b in
  let ct' := concat outs' ++ b' in
  (16 * i + 16 <= length ct)%nat -> (16 * j + 16 <= length ct')%nat ->
  (block ct i = block ct' j <->
   xor (block (pkcs7_pad 16 (concat chunks)) i) (block (pkcs7_pad 16 (concat chunks')) j) =
   xor (before iv ct i) (before iv' ct' j)).
Proof.
  intros T T' key iv iv' chunks chunks' outs b c outs' b' c' i j Hk Hiv Hiv' Hc Hc' E E' ct ct' Hi Hj.
  subst ct ct'.
  rewrite (session_ciphertext _ _ _ _ _ _ _ Hk Hiv Hc E) in *.
  rewrite (session_ciphertext _ _ _ _ _ _ _ Hk Hiv' Hc' E') in *.
  destruct (cipher_block key iv (concat chunks) i) as (A1 & A2 & A3);
    try assumption; [apply octets_concat'; assumption|].
  destruct (cipher_block key iv' (concat chunks') j) as (B1 & B2 & B3);
    try assumption; [apply octets_concat'; assumption|].
  rewrite A3, B3.
  rewrite <- xor_swap by (apply A1 || apply A2 || apply B1 || apply B2). split.
  - intros X. apply Cipher_inj in X; [assumption|assumption|apply Proofs.Stream.is_block_xor; assumption..].
  - intros ->. reflexivity.
Qed.
Print Assumptions C70_equal_blocks.

(** With one key and one iv, two ciphertexts agree in exactly as many leading blocks
    as the padded messages do. *)
Theorem C70_same_iv : forall T T' key iv chunks chunks' outs b c outs' b' c' k,
  good_key key -> good_block iv -> Forall octets chunks -> Forall octets chunks' ->
  cipher_run T iv (session key chunks) = Ret (Accepted :: map Data outs ++ [Data b], c) ->
  cipher_run T' iv (session key chunks') = Ret (Accepted :: map Data outs' ++ [Data b'], c') ->
  let ct := concat outs ++ b in
  let ct' := concat outs' ++ b' in
  (16 * k <= length ct)%nat -> (16 * k <= length ct')%nat ->
  (firstn (16 * k) ct = firstn (16 * k) ct' <->
   firstn (16 * k) (pkcs7_pad 16 (concat chunks)) = firstn (16 * k) (pkcs7_pad 16 (concat chunks'))).
Proof.
  intros T T' key iv chunks chunks' outs b c outs' b' c' k Hk Hiv Hc Hc' E E'.
  cbv zeta.
  pose proof (fun i => C70_equal_blocks T T' key iv iv chunks chunks' outs b c outs' b' c' i i
    Hk Hiv Hiv Hc Hc' E E') as Q. cbv zeta in Q.
  assert (L : length (concat outs ++ b) = length (pkcs7_pad 16 (concat chunks))).
  { rewrite (session_ciphertext _ _ _ _ _ _ _ Hk Hiv Hc E). unfold aes_cbc_encrypt.
    rewrite enc_length; try assumption; [|apply Proofs.Stream.octets_pkcs7_pad; [lia|apply octets_concat'; assumption]].
    rewrite Proofs.Stream.pkcs7_pad_length by discriminate.
    rewrite (Nat.mul_comm 16 (_ + 1)), Nat.div_mul by discriminate. lia. }
  assert (L' : length (concat outs' ++ b') = length (pkcs7_pad 16 (concat chunks'))).
  { rewrite (session_ciphertext _ _ _ _ _ _ _ Hk Hiv Hc' E'). unfold aes_cbc_encrypt.
    rewrite enc_length; try assumption; [|apply Proofs.Stream.octets_pkcs7_pad; [lia|apply octets_concat'; assumption]].
    rewrite Proofs.Stream.pkcs7_pad_length by discriminate.
    rewrite (Nat.mul_comm 16 (_ + 1)), Nat.div_mul by discriminate. lia. }
  set (ct := concat outs ++ b) in *. set (ct' := concat outs' ++ b') in *.
  set (p := pkcs7_pad 16 (concat chunks)) in *. set (p' := pkcs7_pad 16 (concat chunks')) in *.
  assert (Sp : forall (l : list N) n, firstn (16 * S n) l = firstn (16 * n) l ++ block l n).
  { clear. intros l n. unfold block. replace (16 * S n)%nat with (16 * n + 16)%nat by lia.
    rewrite <- (firstn_skipn (16 * n) l) at 1.
    destruct (Nat.le_gt_cases (16 * n) (length l)) as [H|H].
    - rewrite firstn_app, firstn_firstn, firstn_length, !Nat.min_r, !Nat.min_l by lia.
      f_equal. f_equal. lia.
    - rewrite skipn_all2 by lia. rewrite firstn_nil, !app_nil_r, firstn_firstn. f_equal. lia. }
  assert (Bl : forall (l : list N) n, (16 * n + 16 <= length l)%nat -> length (block l n) = 16%nat).
  { clear. intros l n H. unfold block. rewrite firstn_length, skipn_length. lia. }
  assert (Xz : forall x y z : list N, length x = 16%nat -> length y = 16%nat -> length z = 16%nat ->
    (xor x y = xor z z <-> x = y)).
  { clear. intros x y z Lx Ly Lz. rewrite <- xor_swap by assumption. split; [|intros ->; reflexivity].
    intros X. rewrite <- (xor_cancel_r x z), <- (xor_cancel_r y z) by congruence. congruence. }
  assert (Ai : forall a a' x x' : list N, length a = length a' ->
    (a ++ x = a' ++ x' <-> a = a' /\ x = x')).
  { clear. intros a a' x x' La. split; [|intros [-> ->]; reflexivity].
    revert a' La. induction a as [|y a IH]; intros [|y' a'] La X; try discriminate; [auto|].
    cbn in X, La. assert (y = y') by congruence. destruct (IH a'); [congruence..|]. split; congruence. }
  induction k as [|k IH]; intros H1 H2; [reflexivity|].
  rewrite !Sp, !Ai by (rewrite !firstn_length; lia).
  assert (Hbf : (firstn (16 * k) ct = firstn (16 * k) ct' -> before iv ct k = before iv ct' k)).
  { destruct k as [|k']; [reflexivity|]. intros X. rewrite !Sp, Ai in X by (rewrite !firstn_length; lia).
    apply X. }
  assert (Lb : length (before iv ct k) = 16%nat).
  { destruct k as [|k']; [apply Hiv|]. apply Bl. lia. }
  rewrite IH by lia. split; intros [X Y]; (split; [exact X|]).
  - apply Q in Y; [|lia|lia]. rewrite <- Hbf in Y by (apply IH; [lia|lia|exact X]).
    apply Xz in Y; [exact Y|apply Bl; lia|apply Bl; lia|exact Lb].
  - apply Q; [lia|lia|]. rewrite <- Hbf by (apply IH; [lia|lia|exact X]).
    apply Xz; [apply Bl; lia|apply Bl; lia|exact Lb|exact Y].
Qed.
Print Assumptions C70_same_iv.

(** Two messages with the same first block and different second blocks, one key and
    one iv; and one message of two blocks whose exclusive or is that of the iv and the
    first ciphertext block. *)
Example C70_example :
  let C m := aes_cbc_encrypt rfc3602_key rfc3602_iv m in
  let c1 := C rfc3602_msg in
  let c2 := C (rfc3602_msg ++ xor rfc3602_msg (xor rfc3602_iv (block c1 0))) in
  block c1 0 = block c2 0 /\ block c1 1 <> block c2 1 /\ block c2 1 = block c2 0.
Proof. vm_compute. split; [reflexivity|split; [discriminate|reflexivity]]. Qed.
