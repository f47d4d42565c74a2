(** Pairs of HMAC keys whose two pads are exchanged. *)
From Coq Require Import ZArith NArith List Arith Lia Bool ZifyBool ZifyNat ZifyN.
From Verif Require Import Rust.
From Verif.Model Require Import Sha256 Hmac.
From Verif.Spec Require Octets Sha256 Hmac Partner.
From Verif.Proofs Require Import Base Hmac.
From Verif.Proofs Require Sha256Main.
Import ListNotations.
Import Spec.Octets Spec.Partner Spec.Hmac.
Local Open Scope N_scope.

Lemma partner_xor K : partner K = xor (block_key K) (repeat 0x6a 64).
Proof.
  unfold partner. rewrite <- (block_key_length K). rewrite <- map_xor_repeat. apply map_ext. intros x. apply N.lxor_comm.
Qed.
Lemma partner_length K : length (partner K) = 64%nat.
Proof. unfold partner. rewrite map_length. apply block_key_length. Qed.
Lemma octets_partner K : octets K -> octets (partner K).
Proof. intros H. rewrite partner_xor. apply octets_xor; [apply octets_block_key, H|apply octets_repeat; lia]. Qed.
Lemma block_key_64 B : length B = 64%nat -> block_key B = B.
Proof. intros L. unfold block_key. rewrite L. cbn [Nat.ltb Nat.leb Nat.sub]. cbv zeta. rewrite L. cbn. apply app_nil_r. Qed.
Lemma partner_ipad K : xor (block_key (partner K)) ipad = xor (block_key K) opad.
Proof. rewrite block_key_64, partner_xor, xor_assoc by apply partner_length. reflexivity. Qed.
Lemma partner_opad K : xor (block_key (partner K)) opad = xor (block_key K) ipad.
Proof. rewrite block_key_64, partner_xor, xor_assoc by apply partner_length. reflexivity. Qed.
Lemma partner_partner K : partner (partner K) = block_key K.
Proof.
  rewrite (partner_xor (partner K)), block_key_64, partner_xor, xor_assoc by apply partner_length.
  change (xor (repeat 0x6a 64) (repeat 0x6a 64)) with (repeat 0 64). rewrite <- (block_key_length K).
  rewrite <- map_xor_repeat. rewrite (map_ext _ (fun x => x)) by (intros; apply N.lxor_0_r). apply map_id.
Qed.
Lemma partner_differs K : partner K <> block_key K.
Proof.
  unfold partner. pose proof (block_key_length K) as L. destruct (block_key K) as [|x l]; [discriminate L|].
  cbn [map]. intros E. apply (f_equal (fun l => N.lxor (hd 0 l) x)) in E. cbn [hd] in E.
  rewrite N.lxor_assoc, N.lxor_nilpotent, N.lxor_0_r in E. discriminate E.
Qed.
(** No other key block exchanges the pads. *)
Lemma partner_only K B : length B = 64%nat -> xor B ipad = xor (block_key K) opad -> B = partner K.
Proof.
  intros L E. rewrite <- (xor_cancel_r B ipad) by (rewrite L; reflexivity). rewrite E, xor_assoc, partner_xor. reflexivity.
Qed.
Lemma inner_partner K m : inner_hash (partner K) m = outer_hash K m.
Proof. unfold inner_hash, outer_hash. rewrite partner_ipad. reflexivity. Qed.
Lemma outer_partner K m : outer_hash (partner K) m = inner_hash K m.
Proof. unfold inner_hash, outer_hash. rewrite partner_opad. reflexivity. Qed.
Lemma hmac_hashes K m : hmac K m = outer_hash K (inner_hash K m).
Proof. reflexivity. Qed.
Lemma partner_mac K m : hmac (partner K) (inner_hash K m) = inner_hash K (hmac K m).
Proof. rewrite hmac_hashes, inner_partner, outer_partner, hmac_hashes. reflexivity. Qed.
Lemma partner_chain K m n : chain n (partner K) (inner_hash K m) = inner_hash K (chain n K m).
Proof. induction n as [|n IH]; [reflexivity|]. cbn [chain]. rewrite IH. apply partner_mac. Qed.

Lemma new_block T B : length B = 64%nat ->
  hmac_new T B =
  let* i := sha256_update T sha256_new (xor B ipad) in
  let* o := sha256_update T sha256_new (xor B opad) in
  Ret (mkHMac i o).
Proof.
  intros L. unfold hmac_new. cbn [hmac_new_fuel].
  destruct (N.ltb_spec BLOCK_SIZE (len B)) as [H|_]; [unfold BLOCK_SIZE, len in H; lia|].
  rewrite key_block by lia. cbn [bind].
  assert (Z : zpad B = B) by (unfold zpad; rewrite L; apply app_nil_r). rewrite Z.
  rewrite opad_block, ipad_block by assumption. reflexivity.
Qed.
Lemma new_block_key T K : octets K -> 8 * N.of_nat (length K) < usize_mod T -> hmac_new T K = hmac_new T (block_key K).
Proof.
  intros O L. unfold block_key. destruct (Nat.ltb_spec 64 (length K)) as [H|H].
  - rewrite hmac_new_long by assumption. symmetry. apply hmac_new_zero_pad. 
    pose proof (Sha256Main.spec_sha256_length K) as E. lia.
  - symmetry. apply hmac_new_zero_pad. lia.
Qed.
Lemma partner_new T K i o : octets K -> 8 * N.of_nat (length K) < usize_mod T ->
  hmac_new T K = Ret (mkHMac i o) -> hmac_new T (partner K) = Ret (mkHMac o i).
Proof.
  intros O L. rewrite new_block_key by assumption. rewrite !new_block by (apply partner_length || apply block_key_length).
  pose proof (partner_ipad K) as P1. pose proof (partner_opad K) as P2. rewrite block_key_64 in P1, P2 by apply partner_length.
  rewrite P1, P2. destruct (sha256_update T sha256_new (xor (block_key K) ipad)) as [a| |]; [|discriminate..].
  cbn [bind]. destruct (sha256_update T sha256_new (xor (block_key K) opad)) as [b| |]; [|discriminate..].
  cbn [bind]. intros E. injection E as -> ->. reflexivity.
Qed.
