(** PBKDF2 with the pads computed once. *)
From Coq Require Import ZArith NArith List Arith Lia Bool ZifyBool ZifyNat ZifyN.
From Verif Require Import Rust.
From Verif.Spec Require Octets Sha256 Hasher Hmac Pbkdf2 Cached.
From Verif.Proofs Require Import Base Bits.
From Verif.Proofs Require Sha256 Sha256Main Hmac Pbkdf2.
Import ListNotations.
Import Spec.Octets Spec.Hasher Spec.Cached.
Import Proofs.Sha256.
Local Open Scope N_scope.

Lemma stretch_length before m : length (stretch before m) = (64 * ((length m + 72) / 64))%nat.
Proof.
  unfold stretch. rewrite !app_length, repeat_length, be_octets_length. cbn [length].
  pose proof (Nat.div_mod (length m) 64 ltac:(discriminate)) as D.
  pose proof (Nat.mod_upper_bound (length m) 64 ltac:(discriminate)) as B.
  destruct (le_lt_dec (length m mod 64) 55).
  - replace ((119 - length m mod 64) mod 64)%nat with (55 - length m mod 64)%nat by lia.
    replace ((length m + 72) / 64)%nat with (length m / 64 + 1)%nat by lia. lia.
  - replace ((119 - length m mod 64) mod 64)%nat with (119 - length m mod 64)%nat by lia.
    replace ((length m + 72) / 64)%nat with (length m / 64 + 2)%nat by lia. lia.
Qed.
Lemma hash_from_count h before m : snd (hash_from h before m) = N.of_nat ((length m + 72) / 64).
Proof.
  unfold hash_from. cbn [snd]. rewrite stretch_length, (Nat.mul_comm 64), Nat.div_mul by discriminate. reflexivity.
Qed.
(** Hashing from behind [b], which is whole blocks. *)
Lemma hash_from_ok b m : (length b mod 64 = 0)%nat ->
  fst (hash_from (absorb Spec.Sha256.H0 b) (length b) m) = Spec.Sha256.sha256 (b ++ m).
Proof.
  intros L. unfold hash_from. cbn [fst]. rewrite <- Sha256Main.sha256_with_true_length, Sha256Main.with_length_final.
  f_equal. rewrite leftover_app, absorb_app by exact L. unfold stretch. rewrite absorb_leftover.
  unfold Hasher.final. rewrite leftover_length, app_length. reflexivity.
Qed.
Lemma H0_ok : absorb Spec.Sha256.H0 [] = Spec.Sha256.H0.
Proof. reflexivity. Qed.
Lemma block_key_length P : length (Spec.Hmac.block_key P) = 64%nat.
Proof.
  unfold Spec.Hmac.block_key. rewrite app_length, repeat_length.
  destruct (Nat.ltb_spec 64 (length P)); [rewrite Sha256Main.spec_sha256_length|]; lia.
Qed.
Lemma pads_ok P :
  let B := Spec.Hmac.block_key P in
  pads P = (absorb Spec.Sha256.H0 (xor B Spec.Hmac.ipad), absorb Spec.Sha256.H0 (xor B Spec.Hmac.opad),
            (if Nat.ltb 64 (length P) then N.of_nat ((length P + 72) / 64) else 0) + 2).
Proof.
  cbn zeta.
  rewrite !absorb_one by (rewrite xor_length, block_key_length; reflexivity).
  unfold pads, Spec.Hmac.block_key.
  destruct (Nat.ltb 64 (length P)); [|reflexivity].
  pose proof (hash_from_ok [] P eq_refl) as E. rewrite H0_ok in E. cbn [length app] in E.
  pose proof (hash_from_count Spec.Sha256.H0 0 P) as C.
  destruct (hash_from Spec.Sha256.H0 0 P) as [h k]. cbn [fst snd] in E, C. subst h k. reflexivity.
Qed.
Section Key.
Variable P : list N.
Let hi := absorb Spec.Sha256.H0 (xor (Spec.Hmac.block_key P) Spec.Hmac.ipad).
Let ho := absorb Spec.Sha256.H0 (xor (Spec.Hmac.block_key P) Spec.Hmac.opad).
Lemma prf_ok m : prf hi ho m = (Spec.Hmac.hmac P m, N.of_nat ((length m + 72) / 64) + 1).
Proof.
  unfold prf, Spec.Hmac.hmac.
  set (bi := xor (Spec.Hmac.block_key P) Spec.Hmac.ipad) in *.
  set (bo := xor (Spec.Hmac.block_key P) Spec.Hmac.opad) in *.
  assert (Li : length bi = 64%nat) by (subst bi; rewrite xor_length, block_key_length; reflexivity).
  assert (Lo : length bo = 64%nat) by (subst bo; rewrite xor_length, block_key_length; reflexivity).
  assert (Ei : hash_from hi 64 m = (Spec.Sha256.sha256 (bi ++ m), N.of_nat ((length m + 72) / 64))).
  { rewrite (surjective_pairing (hash_from hi 64 m)), hash_from_count. f_equal. rewrite <- Li.
    apply hash_from_ok. rewrite Li. reflexivity. }
  rewrite Ei. set (x := Spec.Sha256.sha256 (bi ++ m)).
  assert (Lx : length x = 32%nat) by apply Sha256Main.spec_sha256_length.
  assert (Eo : hash_from ho 64 x = (Spec.Sha256.sha256 (bo ++ x), 1)).
  { rewrite (surjective_pairing (hash_from ho 64 x)), hash_from_count, Lx. f_equal. rewrite <- Lo.
    apply hash_from_ok. rewrite Lo. reflexivity. }
  rewrite Eo. reflexivity.
Qed.
Lemma iterate_ok Salt i n : forall j,
  iterate n hi ho (Spec.Pbkdf2.U P Salt i j) (Spec.Pbkdf2.F_upto P Salt i j) =
  (Spec.Pbkdf2.F_upto P Salt i (n + j), 2 * N.of_nat n).
Proof.
  induction n as [|n IH]; intros j; [reflexivity|].
  cbn [iterate]. rewrite prf_ok.
  replace (length (Spec.Pbkdf2.U P Salt i j)) with 32%nat
    by (symmetry; destruct j; apply Proofs.Pbkdf2.spec_hmac_length).
  change (Spec.Hmac.hmac P (Spec.Pbkdf2.U P Salt i j)) with (Spec.Pbkdf2.U P Salt i (S j)).
  change (xor (Spec.Pbkdf2.F_upto P Salt i j) (Spec.Pbkdf2.U P Salt i (S j))) with (Spec.Pbkdf2.F_upto P Salt i (S j)).
  rewrite IH. change (N.of_nat ((32 + 72) / 64) + 1) with 2.
  f_equal; [f_equal; lia|lia].
Qed.
Definition block_count (s c : N) : N := (s + 76) / 64 + 1 + 2 * (c - 1).
Lemma block_ok Salt c i :
  block hi ho Salt c i = (Spec.Pbkdf2.F P Salt c i, block_count (N.of_nat (length Salt)) c).
Proof.
  unfold block. rewrite prf_ok.
  change (Spec.Hmac.hmac P (Salt ++ be_octets 4 i)) with (Spec.Pbkdf2.U P Salt i 0).
  pose proof (iterate_ok Salt i (N.to_nat (c - 1)) 0) as E. cbn [Spec.Pbkdf2.F_upto] in E. rewrite E.
  rewrite Nat.add_0_r, N2Nat.id, app_length, be_octets_length. unfold Spec.Pbkdf2.F, block_count.
  f_equal. f_equal. f_equal. rewrite Nat2N.inj_div. f_equal. lia.
Qed.
Lemma all_blocks_ok Salt c is :
  all_blocks hi ho Salt c is =
  (flat_map (fun i => Spec.Pbkdf2.F P Salt c (N.of_nat i)) is,
   N.of_nat (length is) * block_count (N.of_nat (length Salt)) c).
Proof.
  induction is as [|i is IH]; [reflexivity|].
  cbn [all_blocks flat_map length]. rewrite block_ok, IH. f_equal. lia.
Qed.
End Key.

Lemma derive_ok P Salt c n :
  derive P Salt c n =
  (Spec.Pbkdf2.pbkdf2 P Salt c n,
   (if Nat.ltb 64 (length P) then N.of_nat ((length P + 72) / 64) else 0) + 2 +
   N.of_nat ((n + 31) / 32) * block_count (N.of_nat (length Salt)) c).
Proof.
  unfold derive. rewrite pads_ok. rewrite all_blocks_ok, seq_length. reflexivity.
Qed.
