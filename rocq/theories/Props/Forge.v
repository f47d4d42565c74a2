(** C85: making ciphertexts without the key. *)
From Coq Require Import NArith List Arith Lia Bool.
From Verif Require Import Rust Calls.
From Verif.Model Require Import Aes Pkcs7 AesCbc.
From Verif.Spec Require Octets Aes Cbc Stream BlockCipher Oracle Forge.
From Verif.Proofs Require Import Base Bits.
From Verif.Proofs Require Stream AesCbc Messages Aes Oracle.
From Verif.Props Require Import AesCbc Oracle.
Import Spec.Octets Spec.Cbc Spec.Oracle Spec.Forge.
Import Spec.Stream (call, reply, Init, Write, Flush, Accepted, Data, held, settled).
Import ListNotations.
Local Open Scope N_scope.

(** * Statements *)

(** The block decryption that the outcomes of flush give away (C49), and the number of
    outcomes it takes. *)
Definition learned (T : target) (key c : list N) : list N := fst (play (accepts T key c) attack).
Definition questions (T : target) (key c : list N) : nat := snd (play (accepts T key c) attack).

(** * Lemmas *)

Lemma forge_length D P z : length (snd (forge D P z)) = length P.
Proof.
  induction P as [|p P IH]; [reflexivity|]. cbn [forge]. destruct (forge D P z) as [c C].
  cbn [snd length] in *. lia.
Qed.

Lemma learned_ok T key c : good_key key -> good_block c ->
  learned T key c = Spec.Aes.InvCipher key c /\ (questions T key c <= 4864)%nat.
Proof.
  intros Hk Hc. destruct (C49_acceptance_reveals_nothing_refuted T key c Hk Hc) as (q & Hq & E).
  unfold learned, questions. rewrite E. split; [reflexivity|exact Hq].
Qed.

(** All blocks are blocks, and the decryption of what was built is what it was built
    for. *)
Lemma forge_ok T key z : good_key key -> good_block z ->
  forall P, Forall Proofs.Stream.is_block P ->
  let (iv, C) := forge (learned T key) P z in
  good_block iv /\ Forall Proofs.Stream.is_block C /\
  cbc_decrypt (Spec.Aes.InvCipher key) iv C = P /\
  (list_sum (map (questions T key) C) <= 4864 * length P)%nat.
Proof.
  intros Hk Hz. induction P as [|p P IH]; intros HP.
  - cbn [forge]. split; [exact Hz|]. split; [constructor|]. split; [reflexivity|]. cbn. lia.
  - inversion HP as [|? ? Hp HP']; subst. specialize (IH HP'). cbn [forge].
    destruct (forge (learned T key) P z) as [c C]. destruct IH as (Hc & HC & Ed & Hq).
    destruct (learned_ok T key c Hk Hc) as [El Hl]. rewrite El.
    assert (Hi : good_block (Spec.Aes.InvCipher key c))
      by (destruct Hk; apply Proofs.AesCbc.InvCipher_block; assumption).
    split; [apply Proofs.Stream.is_block_xor; assumption|]. split; [constructor; assumption|]. split.
    + cbn [cbc_decrypt]. rewrite Ed. rewrite xor_cancel_l; [reflexivity|].
      rewrite (proj2 Hi), (proj2 Hp). reflexivity.
    + cbn [map length]. change (list_sum (questions T key c :: map (questions T key) C))
        with (questions T key c + list_sum (map (questions T key) C))%nat. lia.
Qed.

(** A ciphertext whose decryption is a padded message. *)
Lemma decrypts_to T key iv l m chunks : good_key key -> good_block iv -> octets l ->
  concat chunks = l -> raw key iv l = pkcs7_pad 16 m ->
  exists outs b d, decipher_run T iv (session key chunks) =
    Ret (Accepted :: map Data outs ++ [Data b], d) /\ concat outs ++ b = m.
Proof.
  intros Hk Hiv Hl Hc Hr.
  destruct (decrypt_session T key iv chunks Hk Hiv) as (outs & d & E & _ & _ & Ho).
  { apply chunks_octets. rewrite Hc. exact Hl. }
  rewrite Hc, Hr in E, Ho.
  destruct (Proofs.Stream.stream_padded 16 m) as [S1 S2]; [discriminate|].
  rewrite S1 in E. rewrite S2 in Ho. cbn [Proofs.Messages.verdict_reply] in E.
  exists outs. eexists. exists d. split; [exact E|]. rewrite Ho. apply firstn_skipn.
Qed.

(** * C85.  "What decrypts without an error was made by somebody who has the key" is
    false: from outcomes of flush alone, at most 4864 for each block, comes an iv and a
    ciphertext that decrypts to any message one likes, its last block also being
    anything one likes. *)
Theorem C85_accepted_means_authentic_refuted : forall T T' key m z,
  good_key key -> octets m -> good_block z ->
  let (iv, C) := forge (learned T key) (blocks 16 (pkcs7_pad 16 m)) z in
  good_block iv /\ last C iv = z /\ length C = (length m / 16 + 1)%nat /\
  (list_sum (map (questions T key) C) <= 4864 * (length m / 16 + 1))%nat /\
  forall chunks, concat chunks = concat C ->
  exists outs b d, decipher_run T' iv (session key chunks) =
    Ret (Accepted :: map Data outs ++ [Data b], d) /\ concat outs ++ b = m.
Proof.
  intros T T' key m z Hk Hm Hz.
  assert (Hp : octets (pkcs7_pad 16 m)) by (apply Proofs.Stream.octets_pkcs7_pad; [lia|exact Hm]).
  assert (Lb : length (blocks 16 (pkcs7_pad 16 m)) = (length m / 16 + 1)%nat).
  { rewrite blocks_length, Proofs.Stream.pkcs7_pad_length by discriminate.
    rewrite (Nat.mul_comm _ (_ + 1)), Nat.div_mul by discriminate. reflexivity. }
  pose proof (forge_ok T key z Hk Hz _ (Proofs.Stream.blocks_are_blocks _ Hp)) as H.
  pose proof (forge_length (learned T key) (blocks 16 (pkcs7_pad 16 m)) z) as Lf.
  assert (Hlast : forall P iv C, forge (learned T key) P z = (iv, C) -> last C iv = z).
  { induction P as [|p P IH]; intros iv C E; cbn [forge] in E; [injection E as <- <-; reflexivity|].
    destruct (forge (learned T key) P z) as [c C'] eqn:Ef. injection E as <- <-.
    specialize (IH c C' eq_refl). destruct C' as [|x C']; [exact IH|].
    change (last (c :: x :: C') (xor (learned T key c) p)) with (last (x :: C') (xor (learned T key c) p)).
    rewrite <- IH. clear. revert x. induction C' as [|y C' IH]; intros x; [reflexivity|]. exact (IH y). }
  specialize (Hlast (blocks 16 (pkcs7_pad 16 m))).
  destruct (forge (learned T key) (blocks 16 (pkcs7_pad 16 m)) z) as [iv C].
  destruct H as (Hiv & HC & Ed & Hq). cbn [snd] in Lf. rewrite Lb in *.
  split; [exact Hiv|]. split; [apply Hlast; reflexivity|]. split; [exact Lf|]. split; [exact Hq|].
  intros chunks Hc. apply (decrypts_to T' key iv (concat C) m chunks Hk Hiv); [|exact Hc|].
  - apply Proofs.Stream.is_blocks_octets. exact HC.
  - unfold raw. rewrite Proofs.Stream.blocks_concat_blocks by exact HC. rewrite Ed.
    apply blocks_concat; [discriminate|]. apply Proofs.Stream.pkcs7_pad_mod. discriminate.
Qed.
Print Assumptions C85_accepted_means_authentic_refuted.

(** Keeping the iv out of reach does not help: the vector goes in as the first block
    of the ciphertext.  The outcomes are the same ... *)
Lemma raw_two key iv v c : good_key key -> good_block iv -> good_block v -> good_block c ->
  raw key iv (v ++ c) = xor (Spec.Aes.InvCipher key v) iv ++ xor (Spec.Aes.InvCipher key c) v.
Proof.
  intros Hk Hiv Hv Hc. unfold raw.
  replace (v ++ c) with (concat [v; c]) by (cbn [concat]; rewrite app_nil_r; reflexivity).
  rewrite Proofs.Stream.blocks_concat_blocks by (repeat constructor; apply Hv || apply Hc).
  cbn [cbc_decrypt concat]. rewrite app_nil_r. reflexivity.
Qed.
Theorem C85_oracle_without_iv : forall T T' key iv v c,
  good_key key -> good_block iv -> good_block v -> good_block c ->
  accepts T key c v = true <->
  exists x y d, decipher_run T' iv [Init key; Write (v ++ c); Flush] = Ret ([Accepted; Data x; Data y], d).
Proof.
  intros T T' key iv v c Hk Hiv Hv Hc. rewrite accepts_good by assumption.
  assert (Hvc : octets (v ++ c)) by (apply octets_app; split; [apply Hv|apply Hc]).
  destruct (decrypt_session T' key iv [v ++ c] Hk Hiv) as (outs & d & E & Hl & _ & _).
  { repeat constructor. exact Hvc. }
  cbn [concat] in E. rewrite app_nil_r in E. rewrite raw_two in E by assumption.
  assert (Hi : forall b, good_block b -> good_block (Spec.Aes.InvCipher key b))
    by (intros b Hb; destruct Hk; apply Proofs.AesCbc.InvCipher_block; assumption).
  set (x := xor (Spec.Aes.InvCipher key v) iv) in *. set (y := xor (Spec.Aes.InvCipher key c) v) in *.
  assert (Hx : good_block x) by (apply Proofs.Stream.is_block_xor; [apply Hi; assumption|assumption]).
  assert (Hy : good_block y) by (apply Proofs.Stream.is_block_xor; [apply Hi; assumption|assumption]).
  assert (Hh : held 16 (x ++ y) = y).
  { unfold held. rewrite app_length, (proj2 Hx), (proj2 Hy). change (16 * ((16 + 16 - 1) / 16))%nat with 16%nat.
    rewrite skipn_app, (proj2 Hx), skipn_all2 by (rewrite (proj2 Hx); lia). reflexivity. }
  rewrite Hh in E. destruct outs as [|o [|]]; try discriminate. unfold session, message in E.
  cbn [map app] in E. rewrite E. unfold Proofs.Oracle.good. destruct (Stream.strip 16 y) as [m| |].
  - cbn [Proofs.Messages.verdict_reply]. split; [|reflexivity]. intros _. repeat eexists.
  - split; [discriminate|]. intros (? & ? & ? & Z). discriminate Z.
  - split; [discriminate|]. intros (? & ? & ? & Z). discriminate Z.
Qed.
Print Assumptions C85_oracle_without_iv.

(** ... and the forgery is preceded by sixteen bytes that are not chosen. *)
Theorem C85_forgery_under_any_iv : forall T T' key m z iv0,
  good_key key -> octets m -> good_block z -> good_block iv0 ->
  let (iv, C) := forge (learned T key) (blocks 16 (pkcs7_pad 16 m)) z in
  forall chunks, concat chunks = concat (iv :: C) ->
  exists outs b d x, decipher_run T' iv0 (session key chunks) =
    Ret (Accepted :: map Data outs ++ [Data b], d) /\
    concat outs ++ b = x ++ m /\ length x = 16%nat.
Proof.
  intros T T' key m z iv0 Hk Hm Hz Hiv0.
  assert (Hp : octets (pkcs7_pad 16 m)) by (apply Proofs.Stream.octets_pkcs7_pad; [lia|exact Hm]).
  pose proof (forge_ok T key z Hk Hz _ (Proofs.Stream.blocks_are_blocks _ Hp)) as H.
  destruct (forge (learned T key) (blocks 16 (pkcs7_pad 16 m)) z) as [iv C].
  destruct H as (Hiv & HC & Ed & _). intros chunks Hc.
  assert (HC' : Forall Proofs.Stream.is_block (iv :: C)) by (constructor; assumption).
  assert (Hi : good_block (Spec.Aes.InvCipher key iv))
    by (destruct Hk; apply Proofs.AesCbc.InvCipher_block; assumption).
  pose proof (Proofs.Stream.is_block_xor _ _ Hi Hiv0) as Hx.
  set (x := xor (Spec.Aes.InvCipher key iv) iv0) in *.
  destruct (decrypts_to T' key iv0 (concat (iv :: C)) (x ++ m) chunks Hk Hiv0) as (outs & b & d & E & Eo).
  - apply Proofs.Stream.is_blocks_octets. exact HC'.
  - exact Hc.
  - unfold raw. rewrite Proofs.Stream.blocks_concat_blocks by exact HC'. cbn [cbc_decrypt concat].
    rewrite Ed, blocks_concat by (try apply Proofs.Stream.pkcs7_pad_mod; discriminate).
    fold x. unfold pkcs7_pad. cbv zeta. rewrite app_length, (proj2 Hx).
    replace ((16 + length m) mod 16)%nat with (length m mod 16)%nat
      by (rewrite <- (Nat.mod_add (length m) 1 16) by discriminate; f_equal; lia).
    rewrite app_assoc. reflexivity.
  - exists outs, b, d, x. split; [exact E|]. split; [exact Eo|apply Hx].
Qed.
Print Assumptions C85_forgery_under_any_iv.

(** A two-block message forged with the strategy's answers for the key 7...7 (the
    decryptions are computed by the model here), and decrypted. *)
Example C85_example :
  let T := mkTarget W64 true in
  let key := repeat 7 16 in
  let m := rfc3602_msg ++ [1; 2; 3] in
  let D c := match decipher_run T (repeat 0 16) [Init key; Write (c ++ repeat 0 16)] with
             | Ret ([_; Data p], _) => p
             | _ => []
             end in
  let (iv, C) := forge D (blocks 16 (pkcs7_pad 16 m)) (repeat 0 16) in
  length C = 2%nat /\
  exists d, decipher_run T iv (session key [concat C]) =
    Ret ([Accepted; Data rfc3602_msg; Data [1; 2; 3]], d).
Proof. vm_compute. split; [reflexivity|]. eexists. reflexivity. Qed.
