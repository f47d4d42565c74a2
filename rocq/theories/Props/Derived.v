(** C68, C69: which inputs derive the same key. *)
From Coq Require Import NArith List Arith Lia.
From Verif Require Import Rust.
From Verif.Model Require Import Pbkdf2 Scrypt.
From Verif.Spec Require Octets Sha256 Hmac Pbkdf2 Scrypt Collision.
From Verif.Proofs Require Import Base Bits.
From Verif.Proofs Require Hmac Pbkdf2 Scrypt Collision.
From Verif.Props Require Pbkdf2 Scrypt Collision.
Import Spec.Octets Spec.Collision.
Import ListNotations.
Local Open Scope N_scope.

Lemma derive_same_pbkdf2 T s P P' S out :
  (forall S c out, pbkdf2_sha256 T P S c out = pbkdf2_sha256 T P' S c out) ->
  scrypt_derive T s P S out = scrypt_derive T s P' S out.
Proof.
  intros H. unfold scrypt_derive.
  destruct (sr s <? 1); [reflexivity|]. destruct (sn s <? 1); [reflexivity|].
  destruct (usub T (sn s) 1); try reflexivity. cbn [bind].
  destruct (negb _); [reflexivity|]. destruct (sp s <? 1); [reflexivity|].
  destruct (umul T (sp s) 2) as [m| |]; try reflexivity. cbn [bind].
  destruct (umul T m BLOCK_SIZE) as [m1| |]; try reflexivity. cbn [bind].
  destruct (umul T m1 (sr s)) as [m2| |]; try reflexivity. cbn [bind].
  destruct (alloc T 1 m2); try reflexivity. cbn [bind]. rewrite H.
  destruct (pbkdf2_sha256 T P' S PBKDF2_ROUNDS _) as [raw| |]; try reflexivity. cbn [bind].
  destruct (split_blocks T s raw) as [b| |]; try reflexivity. cbn [bind].
  destruct (map_res (ro_mix T s) b) as [b'| |]; try reflexivity. cbn [bind].
  rewrite H. reflexivity.
Qed.

(** C68.  Passphrases that HMAC normalises to the same block derive the same key (or
    the same error, or the same panic), whatever the parameters, salt and target. *)
Theorem C68_trailing_zeros : forall T s P z S out,
  (length P + z <= 64)%nat ->
  scrypt_derive T s (P ++ repeat 0 z) S out = scrypt_derive T s P S out.
Proof.
  intros. apply derive_same_pbkdf2. intros. apply Props.Pbkdf2.C15_trailing_zeros. assumption.
Qed.
Print Assumptions C68_trailing_zeros.

Theorem C68_long_passphrase : forall T s P S out,
  octets P -> (64 < length P)%nat -> 8 * N.of_nat (length P) < usize_mod T ->
  scrypt_derive T s P S out = scrypt_derive T s (Spec.Sha256.sha256 P) S out.
Proof.
  intros. apply derive_same_pbkdf2. intros. apply Props.Pbkdf2.C15_long_password; assumption.
Qed.
Print Assumptions C68_long_passphrase.

(** So it is not true that different passphrases derive different keys: for every
    salt, output length and parameters there are two passphrases with one key. *)
Theorem C68_different_keys_refuted : forall T s S out,
  exists P P', P <> P' /\ octets P /\ octets P' /\
    scrypt_derive T s P S out = scrypt_derive T s P' S out.
Proof.
  intros T s S out. exists ([] ++ repeat 0 1), []. split; [discriminate|].
  split; [repeat constructor|]. split; [constructor|].
  apply C68_trailing_zeros. cbn. lia.
Qed.
Print Assumptions C68_different_keys_refuted.

Example C68_example :
  (length [112; 119] + 62 <= 64)%nat /\ octets (repeat 7 65) /\ (64 < length (repeat 7 65))%nat /\
  8 * N.of_nat (length (repeat 7 65)) < usize_mod (mkTarget W32 true).
Proof. split; [cbn; lia|split; [repeat constructor|split; [cbn; lia|reflexivity]]]. Qed.

(** C69.  The converse: the texts hashed by HMAC for the first 32 bytes of a key. *)
Definition inner (K t : list N) : list N := xor (Spec.Hmac.block_key K) (repeat 0x36 64) ++ t.
Definition outer (K t : list N) : list N :=
  xor (Spec.Hmac.block_key K) (repeat 0x5c 64) ++ Spec.Sha256.sha256 (inner K t).

Lemma pbkdf2_first_block P S n : (32 <= n)%nat ->
  firstn 32 (Spec.Pbkdf2.pbkdf2 P S 1 n) = Spec.Hmac.hmac P (S ++ [0; 0; 0; 1]).
Proof.
  intros H. rewrite Proofs.Pbkdf2.pbkdf2_prefix by assumption.
  unfold Spec.Pbkdf2.pbkdf2. change (flat_map _ _) with (Spec.Hmac.hmac P (S ++ [0; 0; 0; 1]) ++ []).
  rewrite app_nil_r. apply firstn_all2. rewrite Proofs.Pbkdf2.spec_hmac_length. lia.
Qed.

Lemma octets_snoc S : octets S -> octets (S ++ [0; 0; 0; 1]).
Proof. intros H. apply octets_app. split; [assumption|repeat constructor]. Qed.

Lemma app_tail_inj (a b t : list N) : a ++ t = b ++ t -> a = b.
Proof. apply app_inv_tail. Qed.

(** Two PBKDF2 derivations with one iteration that agree in their first 32 bytes
    have the same salt and passwords that normalise to the same block, or exhibit a
    collision of SHA-256's compression function. *)
Theorem C69_pbkdf2_collisions : forall T P P' S S' out out' dk dk',
  octets P -> octets P' -> octets S -> octets S' ->
  Props.Pbkdf2.sizes_ok T P S out -> Props.Pbkdf2.sizes_ok T P' S' out' ->
  (32 <= length out)%nat -> (32 <= length out')%nat ->
  pbkdf2_sha256 T P S 1 out = Ret dk -> pbkdf2_sha256 T P' S' 1 out' = Ret dk' ->
  firstn 32 dk = firstn 32 dk' ->
  (Spec.Hmac.block_key P = Spec.Hmac.block_key P' /\ S = S') \/
  collision_within (inner P (S ++ [0; 0; 0; 1])) (inner P' (S' ++ [0; 0; 0; 1])) \/
  collision_within (outer P (S ++ [0; 0; 0; 1])) (outer P' (S' ++ [0; 0; 0; 1])).
Proof.
  intros T P P' S S' out out' dk dk' HP HP' HS HS' Hz Hz' Hl Hl' E E' EQ.
  destruct Hz as (A1 & A2 & A3). destruct Hz' as (B1 & B2 & B3).
  rewrite Proofs.Pbkdf2.pbkdf2_ok in E by (first [assumption|split; assumption]).
  rewrite Proofs.Pbkdf2.pbkdf2_ok in E' by (first [assumption|split; assumption]).
  injection E as <-. injection E' as <-.
  rewrite !pbkdf2_first_block in EQ by assumption.
  destruct (list_eq_dec N.eq_dec (Spec.Hmac.block_key P) (Spec.Hmac.block_key P')) as [EB|NB];
  destruct (list_eq_dec N.eq_dec S S') as [EC|NC]; auto; right;
    (apply Proofs.Collision.hmac_collision;
     [assumption|assumption|apply octets_snoc; assumption|apply octets_snoc; assumption
     |apply (Props.Collision.bits_61 T); rewrite app_length; cbn [length]; lia
     |apply (Props.Collision.bits_61 T); rewrite app_length; cbn [length]; lia
     |assumption|]);
    intros X; injection X as X1 X2; try apply app_tail_inj in X2; congruence.
Qed.
Print Assumptions C69_pbkdf2_collisions.

(** What scrypt mixes out of passphrase and salt before the last step. *)
Definition mixed (P S : list N) (n r p : N) : list N :=
  concat (map (fun Bi => Spec.Scrypt.ROMix (N.to_nat r) Bi n)
    (blocks (128 * N.to_nat r)
       (Spec.Pbkdf2.pbkdf2 P S 1 (N.to_nat p * 128 * N.to_nat r)))).

Lemma mixed_fits T P S n r p out : Props.Scrypt.admissible r n p -> octets P -> octets S ->
  Props.Scrypt.sizes_ok T r n p P S out ->
  octets (mixed P S n r p) /\
  8 * N.of_nat (64 + length (mixed P S n r p ++ [0; 0; 0; 1])) < usize_mod T.
Proof.
  intros Ha HP HS (H1 & H2 & H3 & H4 & H5). destruct Ha as (Hr & [k Hk] & Hp).
  pose proof (isize_usize T) as Hus. pose proof (Props.Scrypt.vec_size_ge T) as Hv.
  destruct (Proofs.Scrypt.mix_all T (scrypt_new r n p)
    (Spec.Pbkdf2.pbkdf2 P S 1 (N.to_nat p * 128 * N.to_nat r)) k) as (b & bs & _ & _ & E & O & L);
    cbn [sr sn scrypt_new]; try assumption.
  - split; [assumption|]. cbn [sr scrypt_new]. nia.
  - nia.
  - apply Proofs.Pbkdf2.octets_pbkdf2.
  - cbn [sr sn scrypt_new] in E. fold (mixed P S n r p) in E. rewrite E in O, L.
    rewrite Proofs.Pbkdf2.pbkdf2_length in L. split; [assumption|].
    rewrite app_length. cbn [length]. nia.
Qed.

(** Two scrypt derivations, whatever their parameters, that agree in their first 32
    bytes have passphrases that normalise to the same block and the same mixed
    blocks, or exhibit a collision of SHA-256's compression function. *)
Theorem C69_scrypt_collisions : forall T r n p r' n' p' P P' S S' out out' dk dk',
  Props.Scrypt.admissible r n p -> Props.Scrypt.admissible r' n' p' ->
  octets P -> octets P' -> octets S -> octets S' ->
  Props.Scrypt.sizes_ok T r n p P S out -> Props.Scrypt.sizes_ok T r' n' p' P' S' out' ->
  (32 <= length out)%nat -> (32 <= length out')%nat ->
  scrypt_derive T (scrypt_new r n p) P S out = Ret (Ok tt, dk) ->
  scrypt_derive T (scrypt_new r' n' p') P' S' out' = Ret (Ok tt, dk') ->
  firstn 32 dk = firstn 32 dk' ->
  let B := mixed P S n r p ++ [0; 0; 0; 1] in
  let B' := mixed P' S' n' r' p' ++ [0; 0; 0; 1] in
  (Spec.Hmac.block_key P = Spec.Hmac.block_key P' /\ mixed P S n r p = mixed P' S' n' r' p') \/
  collision_within (inner P B) (inner P' B') \/ collision_within (outer P B) (outer P' B').
Proof.
  intros T r n p r' n' p' P P' S S' out out' dk dk' Ha Ha' HP HP' HS HS' Hz Hz' Hl Hl' E E' EQ B B'.
  destruct (mixed_fits T P S n r p out Ha HP HS Hz) as [O1 L1].
  destruct (mixed_fits T P' S' n' r' p' out' Ha' HP' HS' Hz') as [O2 L2].
  rewrite Props.Scrypt.C20_scrypt_conforms in E by assumption.
  rewrite Props.Scrypt.C20_scrypt_conforms in E' by assumption.
  injection E as <-. injection E' as <-.
  unfold Spec.Scrypt.scrypt in EQ.
  rewrite !pbkdf2_first_block in EQ by assumption.
  fold (mixed P S n r p) in EQ. fold (mixed P' S' n' r' p') in EQ.
  change (mixed P S n r p ++ [0; 0; 0; 1]) with B in EQ, L1.
  change (mixed P' S' n' r' p' ++ [0; 0; 0; 1]) with B' in EQ, L2.
  assert (BI : B = B' -> mixed P S n r p = mixed P' S' n' r' p') by apply app_tail_inj.
  destruct (list_eq_dec N.eq_dec (Spec.Hmac.block_key P) (Spec.Hmac.block_key P')) as [EB|NB];
  destruct (list_eq_dec N.eq_dec B B') as [EC|NC]; auto; right;
    (apply Proofs.Collision.hmac_collision;
     [assumption|assumption|apply octets_snoc; assumption|apply octets_snoc; assumption
     |apply (Props.Collision.bits_61 T); assumption
     |apply (Props.Collision.bits_61 T); assumption
     |assumption|]);
    congruence.
Qed.
Print Assumptions C69_scrypt_collisions.

(** So passphrases that do not normalise to the same block derive different keys of
    32 bytes or more unless the two derivations exhibit a
    collision. *)
Theorem C69_passphrases : forall T r n p P P' S out dk,
  Props.Scrypt.admissible r n p ->
  octets P -> octets P' -> octets S ->
  Props.Scrypt.sizes_ok T r n p P S out -> Props.Scrypt.sizes_ok T r n p P' S out ->
  (32 <= length out)%nat ->
  Spec.Hmac.block_key P <> Spec.Hmac.block_key P' ->
  scrypt_derive T (scrypt_new r n p) P S out = Ret (Ok tt, dk) ->
  scrypt_derive T (scrypt_new r n p) P' S out = Ret (Ok tt, dk) ->
  let B := mixed P S n r p ++ [0; 0; 0; 1] in
  let B' := mixed P' S n r p ++ [0; 0; 0; 1] in
  collision_within (inner P B) (inner P' B') \/ collision_within (outer P B) (outer P' B').
Proof.
  intros T r n p P P' S out dk Ha HP HP' HS Hz Hz' Hl Hne E E' B B'.
  destruct (C69_scrypt_collisions T r n p r n p P P' S S out out dk dk) as [[X _]|[X|X]];
    try assumption; try reflexivity; [contradiction|left; exact X|right; exact X].
Qed.
Print Assumptions C69_passphrases.

Example C69_example :
  let T := mkTarget W64 true in
  Props.Scrypt.admissible 8 16384 1 /\
  Props.Scrypt.sizes_ok T 8 16384 1 [112; 119] [115] (repeat 0 32) /\
  octets [112; 119] /\ Spec.Hmac.block_key [112; 119] <> Spec.Hmac.block_key [112; 120] /\
  Props.Pbkdf2.sizes_ok T [112; 119] [115] (repeat 0 32).
Proof.
  split; [repeat split; try lia; exists 14; reflexivity|].
  split; [repeat split; vm_compute; (reflexivity || discriminate)|].
  split; [repeat constructor|]. split; [discriminate|].
  repeat split; vm_compute; (reflexivity || discriminate).
Qed.
