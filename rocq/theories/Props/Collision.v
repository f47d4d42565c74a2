(** C50-C53: what follows from equal digests, and from knowing a digest. *)
From Coq Require Import NArith List Arith Lia.
From Verif Require Import Rust Calls.
From Verif.Model Require Import Sha256 Hmac.
From Verif.Spec Require Octets Sha256 Hasher Hmac Collision.
From Verif.Proofs Require Import Base Sha256Core Sha256Main.
From Verif.Proofs Require Hmac Collision.
Import Spec.Octets Spec.Collision.
Import ListNotations.
Local Open Scope N_scope.

Lemma bits_61 T n : 8 * N.of_nat n < usize_mod T -> N.of_nat n < 2 ^ 61.
Proof.
  intros H. assert (usize_mod T <= 8 * 2 ^ 61) by (destruct T as [[] ?]; cbn; lia). lia.
Qed.

(** What a new hasher fed with [chunks] returns. *)
Definition hash_of (T : target) (chunks : list (list N)) (d : list N) : Prop :=
  exists s s', sha_updates T sha256_new chunks = Ret s /\ sha256_digest T s = Ret (d, s').

Lemma hash_of_spec T chunks d : octets (concat chunks) ->
  8 * N.of_nat (length (concat chunks)) < usize_mod T ->
  (hash_of T chunks d <-> d = Spec.Sha256.sha256 (concat chunks)).
Proof.
  intros Ho Hl. destruct (sha256_conforms T chunks Ho Hl) as (s & s' & E1 & E2). split.
  - intros (s1 & s1' & E3 & E4). rewrite E1 in E3. injection E3 as <-. rewrite E2 in E4. injection E4 as <- _. reflexivity.
  - intros ->. exists s, s'. split; assumption.
Qed.

(** C50.  If two different messages give the same digest, then two different inputs
    of the RFC 6234 compression function that occur in hashing them have the same
    output: the streaming, padding and length handling add no collisions of their
    own. *)
Theorem C50_collisions : forall T chunks chunks' d,
  octets (concat chunks) -> octets (concat chunks') ->
  8 * N.of_nat (length (concat chunks)) < usize_mod T ->
  8 * N.of_nat (length (concat chunks')) < usize_mod T ->
  hash_of T chunks d -> hash_of T chunks' d ->
  concat chunks <> concat chunks' ->
  collision_within (concat chunks) (concat chunks').
Proof.
  intros T chunks chunks' d Ho Ho' Hl Hl' E E' Hne.
  apply hash_of_spec in E; [|assumption..]. apply hash_of_spec in E'; [|assumption..].
  apply Proofs.Collision.sha256_collision; try assumption; try (eapply bits_61; eassumption). congruence.
Qed.
Print Assumptions C50_collisions.

(** The reference is not empty talk: the compressions listed for a message are the
    ones whose last output is its digest, and there is at least one. *)
Theorem C50_compressions_end_in_digest : forall m,
  exists ps p, compressions m = ps ++ [p] /\
    Spec.Sha256.sha256 m = flat_map (be_octets 4) (Spec.Sha256.compress (fst p) (snd p)).
Proof.
  intros m. destruct (Proofs.Collision.block_words_last m) as (Bs & b & _ & E & _).
  rewrite Proofs.Collision.compressions_eq, Proofs.Collision.sha256_padded, <- Proofs.Collision.run_absorb.
  fold (Proofs.Collision.block_words m). rewrite E, Proofs.Collision.inputs_app.
  eexists _, _. split; [reflexivity|]. unfold Proofs.Collision.run. rewrite fold_left_app. reflexivity.
Qed.
Print Assumptions C50_compressions_end_in_digest.

Example C50_example :
  let chunks := [[97]; [98; 99]] in
  octets (concat chunks) /\ 8 * N.of_nat (length (concat chunks)) < usize_mod (mkTarget W32 true) /\
  (exists d, hash_of (mkTarget W32 true) chunks d) /\
  length (compressions (repeat 0 56)) = 2%nat /\ concat chunks <> concat [[97; 98]].
Proof.
  split; [repeat constructor|]. split; [reflexivity|]. split.
  - eexists. apply hash_of_spec; [repeat constructor|reflexivity|reflexivity].
  - split; [|discriminate]. rewrite Proofs.Collision.compressions_eq. reflexivity.
Qed.

(** C51.  Refuted: the digest of a secret followed by a message authenticates the
    message.  From the digest, the message and the length of the secret alone
    [continue] computes the digest of the secret followed by a longer message. *)
Theorem C51_secret_prefix_mac_refuted : forall T secret m suffix d,
  octets secret -> octets m -> octets suffix ->
  let n := (length secret + length m)%nat in
  8 * N.of_nat (n + 72 + length suffix) < usize_mod T ->
  hash_of T [secret; m] d ->
  hash_of T [secret; m ++ glue n ++ suffix] (continue d n suffix) /\
  m ++ glue n ++ suffix <> m.
Proof.
  intros T secret m suffix d Hs Hm Hf n Hl Hd.
  assert (Hn : length (concat [secret; m]) = n) by (cbn [concat]; rewrite !app_length; cbn [length]; unfold n; lia).
  assert (Ho : octets (concat [secret; m])).
  { cbn [concat]. rewrite app_nil_r. apply octets_app. auto. }
  assert (Hg : (length (glue n) <= 72)%nat).
  { rewrite Proofs.Collision.glue_length. pose proof (Nat.mod_upper_bound (119 - n mod 64) 64). lia. }
  assert (Hg9 : (9 <= length (glue n))%nat) by (rewrite Proofs.Collision.glue_length; lia).
  apply hash_of_spec in Hd; [|assumption|rewrite Hn; lia]. subst d. split.
  - assert (E : concat [secret; m ++ glue n ++ suffix] = concat [secret; m] ++ glue n ++ suffix).
    { cbn [concat]. rewrite !app_nil_r, <- !app_assoc. reflexivity. }
    apply hash_of_spec.
    + rewrite E. apply octets_app. split; [assumption|]. apply octets_app.
      split; [apply Proofs.Collision.octets_glue|assumption].
    + rewrite E, !app_length, Hn. lia.
    + rewrite E. rewrite <- Hn at 1 2. symmetry. apply Proofs.Collision.length_extension; assumption.
  - intros E. apply (f_equal (@length N)) in E. rewrite !app_length in E. lia.
Qed.
Print Assumptions C51_secret_prefix_mac_refuted.

(** A secret "k", a message "m", and the digest that [continue] gives for the
    suffix "x" from SHA-256("km") alone. *)
Example C51_example :
  8 * N.of_nat (2 + 72 + 1) < usize_mod (mkTarget W32 true) /\
  hash_of (mkTarget W64 true) [[107]; [109]] (Spec.Sha256.sha256 [107; 109]) /\
  length (glue 2) = 62%nat.
Proof.
  split; [reflexivity|]. split; [|reflexivity].
  apply hash_of_spec; [repeat constructor|reflexivity|reflexivity].
Qed.

(** What a new HMAC with [key] fed with [chunks] returns. *)
Definition mac_of (T : target) (key : list N) (chunks : list (list N)) (d : list N) : Prop :=
  exists m m' m'', hmac_new T key = Ret m /\ hmac_updates T m chunks = Ret m' /\
    hmac_digest T m' = Ret (d, m'').

(** C52.  If two (key, message) pairs give the same MAC then the keys normalise to the
    same 64-byte block and the messages are equal, or there is a collision of the
    compression function in the two inner or the two outer hash computations. *)
Theorem C52_hmac_collisions : forall T key key' chunks chunks' d,
  octets key -> octets key' -> octets (concat chunks) -> octets (concat chunks') ->
  8 * N.of_nat (length key) < usize_mod T -> 8 * N.of_nat (length key') < usize_mod T ->
  8 * N.of_nat (64 + length (concat chunks)) < usize_mod T ->
  8 * N.of_nat (64 + length (concat chunks')) < usize_mod T ->
  mac_of T key chunks d -> mac_of T key' chunks' d ->
  let inner K t := xor (Spec.Hmac.block_key K) (repeat 0x36 64) ++ t in
  let outer K t := xor (Spec.Hmac.block_key K) (repeat 0x5c 64) ++ Spec.Sha256.sha256 (inner K t) in
  (Spec.Hmac.block_key key = Spec.Hmac.block_key key' /\ concat chunks = concat chunks') \/
  collision_within (inner key (concat chunks)) (inner key' (concat chunks')) \/
  collision_within (outer key (concat chunks)) (outer key' (concat chunks')).
Proof.
  intros T key key' chunks chunks' d Hk Hk' Ho Ho' Hl Hl' Ht Ht' E E' inner outer.
  assert (Hd : forall key chunks, octets key -> octets (concat chunks) ->
    8 * N.of_nat (length key) < usize_mod T -> 8 * N.of_nat (64 + length (concat chunks)) < usize_mod T ->
    mac_of T key chunks d -> d = Spec.Hmac.hmac key (concat chunks)).
  { clear. intros key chunks Hk Ho Hl Ht (m & m' & m'' & E1 & E2 & E3).
    destruct (Proofs.Hmac.hmac_conforms T key chunks Hk Ho Hl Ht) as (n & n' & n'' & F1 & F2 & F3).
    rewrite E1 in F1. injection F1 as <-. rewrite E2 in F2. injection F2 as <-. rewrite E3 in F3.
    injection F3 as -> _. reflexivity. }
  apply Hd in E; [|assumption..]. apply Hd in E'; [|assumption..].
  destruct (list_eq_dec N.eq_dec (Spec.Hmac.block_key key) (Spec.Hmac.block_key key')) as [EB|NB];
  destruct (list_eq_dec N.eq_dec (concat chunks) (concat chunks')) as [EC|NC]; auto; right;
    (apply Proofs.Collision.hmac_collision; try assumption;
     [eapply bits_61; eassumption|eapply bits_61; eassumption|congruence|congruence]).
Qed.
Print Assumptions C52_hmac_collisions.

Example C52_example :
  let T := mkTarget W32 true in
  octets [107] /\ octets (concat [[97]; [98]]) /\
  8 * N.of_nat (64 + length (concat [[97]; [98]])) < usize_mod T /\
  Spec.Hmac.block_key [107] <> Spec.Hmac.block_key [108] /\
  exists d, mac_of T [107] [[97]; [98]] d.
Proof.
  split; [repeat constructor|]. split; [repeat constructor|]. split; [reflexivity|].
  split; [discriminate|].
  destruct (Proofs.Hmac.hmac_conforms (mkTarget W32 true) [107] [[97]; [98]]) as (m & m' & m'' & E);
    [repeat constructor|repeat constructor|reflexivity|reflexivity|].
  eexists. exists m, m', m''. exact E.
Qed.

(** C53.  For every message block exactly one chaining value is left unchanged by
    absorbing it: processing that block any number of times from there is invisible,
    and only the length field tells the messages apart. *)
Theorem C53_fixed_points : forall block,
  length block = 16%nat -> Forall (fun x => x < 2 ^ 32) block ->
  exists h, chaining h /\ process_block h block = Ret h /\
    forall h', chaining h' -> process_block h' block = Ret h' -> h' = h.
Proof.
  intros block Hl Hw. destruct (Proofs.Collision.fixed_point block) as (h & Hh & E & U).
  exists h. split; [assumption|]. split.
  - destruct Hh. rewrite process_block_ok by assumption. rewrite E. reflexivity.
  - intros h' Hh' E'. apply U; [assumption|]. destruct Hh'. rewrite process_block_ok in E' by assumption.
    injection E' as E'. assumption.
Qed.
Print Assumptions C53_fixed_points.

(** The rounds before the final addition are a permutation of the chaining values,
    for every block: no two are merged and each one is reached. *)
Theorem C53_rounds_bijective : forall block h,
  length block = 16%nat -> Forall (fun x => x < 2 ^ 32) block -> chaining h ->
  (chaining (mix block h) /\
   process_block h block =
     Ret (map (fun p => (fst p + snd p) mod 2 ^ 32) (combine (mix block h) h))) /\
  exists h0, chaining h0 /\ mix block h0 = h /\
    forall h1, chaining h1 -> mix block h1 = h -> h1 = h0.
Proof.
  intros block h Hl Hw Hh. destruct (Proofs.Collision.mix_bijective block h Hh) as [H1 H2].
  split; [split|]; [assumption| |assumption]. destruct Hh. rewrite process_block_ok by assumption.
  rewrite Proofs.Collision.compress_mix by assumption. reflexivity.
Qed.
Print Assumptions C53_rounds_bijective.

Example C53_example :
  chaining Spec.Sha256.H0 /\ length (repeat 5 16) = 16%nat /\ Forall (fun x => x < 2 ^ 32) (repeat 5 16) /\
  mix (repeat 5 16) (repeat 0 8) <> repeat 0 8.
Proof.
  split; [split; [reflexivity|apply words_H0]|]. split; [reflexivity|]. split; [repeat constructor|].
  vm_compute. discriminate.
Qed.
