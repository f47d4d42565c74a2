(** C49: what the outcome of [Decipher::flush] tells about the plaintext. *)
From Coq Require Import NArith List Arith Lia Bool.
From Verif Require Import Rust Calls.
From Verif.Model Require Import Aes Pkcs7 AesCbc.
From Verif.Spec Require Octets Aes Cbc Stream BlockCipher Oracle.
From Verif.Proofs Require Import Base Bits.
From Verif.Proofs Require Stream AesCbc Messages Aes Oracle.
From Verif.Props Require Import AesCbc.
Import Spec.Octets Spec.Cbc Spec.Oracle.
Import Spec.Stream (call, reply, Init, Write, Flush, Accepted, Data, held).
Import ListNotations.
Local Open Scope N_scope.

(** One query: a new decipher with the secret key and a chosen initialisation
    vector is given the block [c]; did flush return [Ok]? *)
Definition accepts (T : target) (key c iv : list N) : bool :=
  match decipher_run T iv [Init key; Write c; Flush] with
  | Ret ([_; _; Data _], _) => true
  | _ => false
  end.

Lemma accepts_good T key c iv : good_key key -> good_block c -> good_block iv ->
  accepts T key c iv = Proofs.Oracle.good (xor (Spec.Aes.InvCipher key c) iv).
Proof.
  intros Hk Hc Hiv. unfold accepts.
  assert (Hok : Forall stream_call_ok [Init key; Write c; Flush]).
  { repeat constructor; [apply Hk|apply Hc]. }
  destruct (Proofs.AesCbc.decipher_run_ok T iv _ Hiv Hok) as (d & E & _).
  rewrite E, init_dkeyed by assumption. clear E.
  destruct Hc as [Hc Hl].
  assert (Hbl : blocks 16 c = [c]).
  { unfold blocks. rewrite Hl. change (16 / 16)%nat with 1%nat. cbn [groups].
    rewrite firstn_all2 by lia. reflexivity. }
  cbn [Stream.run Stream.decipher_step Stream.d_fragment Stream.d_key Stream.d_chain Stream.d_held app].
  rewrite Hl. change (Nat.ltb 16 16) with false. cbv iota.
  rewrite Hbl. cbn [cbc_decrypt concat app]. rewrite app_nil_r.
  cbn [Stream.run Stream.decipher_step Stream.d_fragment Stream.d_key Stream.d_chain Stream.d_held app].
  set (x := xor (Spec.Aes.InvCipher key c) iv).
  assert (Hx : length x = 16%nat).
  { unfold x. rewrite xor_length, Proofs.Aes.InvCipher_length, (proj2 Hiv). reflexivity. }
  assert (Hh : held 16 x = x) by (unfold held; rewrite Hx; reflexivity).
  rewrite Hh. unfold Proofs.Oracle.good. destruct (Stream.strip 16 x); reflexivity.
Qed.

(** * C49.  "Whether a ciphertext was accepted tells nothing about the plaintext"
    is false: for every key and every block there is a strategy, the same one for
    all, that computes the block's decryption from at most 4864 outcomes of flush
    and nothing else. *)
Theorem C49_acceptance_reveals_nothing_refuted : forall T key c,
  good_key key -> good_block c ->
  exists q, (q <= 4864)%nat /\
  play (accepts T key c) attack = (Spec.Aes.InvCipher key c, q).
Proof.
  intros T key c Hk Hc.
  assert (HD : Proofs.Stream.is_block (Spec.Aes.InvCipher key c)).
  { destruct Hk. apply Proofs.AesCbc.InvCipher_block; assumption. }
  destruct HD as [HD1 HD2]. destruct (Proofs.Oracle.attack_ok _ HD1 HD2) as (q & Hq & E).
  exists q. split; [assumption|]. rewrite <- E.
  apply Proofs.Oracle.play_ext with (P := Proofs.Stream.is_block); [|apply Proofs.Oracle.attack_asks].
  intros iv Hiv. apply accepts_good; assumption.
Qed.
Print Assumptions C49_acceptance_reveals_nothing_refuted.

(** Whole messages: whatever the cipher produced under any key, block by block the
    strategy and the public ciphertext give the padded plaintext. *)
Theorem C49_messages_recovered : forall T key iv chunks,
  good_key key -> good_block iv -> Forall octets chunks ->
  exists outs b c,
    cipher_run T iv (session key chunks) = Ret (Accepted :: map Data outs ++ [Data b], c) /\
    concat (cbc_decrypt (fun x => fst (play (accepts T key x) attack)) iv
              (blocks 16 (concat outs ++ b))) = pkcs7_pad 16 (concat chunks).
Proof.
  intros T key iv chunks Hk Hiv Hc.
  destruct (encrypt_session T key iv chunks Hk Hiv Hc) as (outs & b & c & E & _ & _ & EC).
  exists outs, b, c. split; [exact E|]. rewrite EC. unfold aes_cbc_encrypt.
  pose proof (octets_concat' _ Hc) as Ho.
  pose proof (Proofs.Stream.octets_pkcs7_pad 16 (concat chunks)) as Hp.
  set (l := pkcs7_pad 16 (concat chunks)) in *.
  assert (Hl : octets l) by (apply Hp; [lia|assumption]).
  assert (Hm : (length l mod 16 = 0)%nat) by (apply Proofs.Stream.pkcs7_pad_mod; lia).
  rewrite <- (raw_encrypt key iv l Hk Hiv Hl Hm) at 2. unfold raw.
  set (C := concat (cbc_encrypt (Spec.Aes.Cipher key) iv (blocks 16 l))).
  assert (HC : Forall good_block (blocks 16 C)).
  { apply Proofs.Stream.blocks_are_blocks, Proofs.Stream.is_blocks_octets, enc_blocks; assumption. }
  f_equal. clearbody C. clear - Hk HC. revert iv HC.
  induction (blocks 16 C) as [|x xs IH]; intros iv HC; [reflexivity|]. inversion HC as [|? ? Hx Hxs]; subst. cbn [cbc_decrypt].
  destruct (C49_acceptance_reveals_nothing_refuted T key x Hk Hx) as (q & _ & Eq).
  rewrite Eq. cbn [fst]. f_equal. apply IH; assumption.
Qed.
Print Assumptions C49_messages_recovered.

(** The strategy at work on a block whose decryption is known: all sixteen octets
    come out, after 425 questions. *)
Example C49_example :
  let D := [3; 1; 4; 1; 5; 9; 2; 6; 5; 3; 5; 8; 9; 7; 9; 3] in
  play (fun iv => Proofs.Oracle.good (xor D iv)) attack = (D, 425%nat) /\
  good_key (repeat 7 16) /\ good_block (repeat 9 16) /\
  accepts (mkTarget W64 true) (repeat 7 16) (repeat 9 16)
    [47; 228; 91; 219; 96; 46; 237; 233; 126; 89; 77; 41; 199; 223; 228; 244] = true /\
  accepts (mkTarget W64 true) (repeat 7 16) (repeat 9 16) (repeat 0 16) = false.
Proof.
  split; [vm_compute; reflexivity|]. split; [split; [repeat constructor|left; reflexivity]|].
  split; [split; [repeat constructor|reflexivity]|]. split; vm_compute; reflexivity.
Qed.
