(** Exactly when the key derivation functions panic. *)
From Coq Require Import ZArith NArith List Arith Lia Bool ZifyBool ZifyNat ZifyN.
From Verif Require Import Rust.
From Verif.Model Require Import Scrypt Sha256 Hmac Pbkdf2.
From Verif.Spec Require Import Octets Hasher.
From Verif.Spec Require Mac.
From Verif.Proofs Require Import Base Bits Sha256Core Sha256 Hmac.
From Verif.Proofs Require Pbkdf2.
From Verif.Proofs Require Import Scrypt.
Import ListNotations.
Local Open Scope N_scope.
Ltac Zify.zify_post_hook ::= Z.div_mod_to_equations.

Lemma update_none limit st d : limit <= total st + N.of_nat (length d) ->
  Hasher.update limit true st d = None.
Proof. intros H. unfold Hasher.update. cbn [andb]. destruct (N.leb_spec limit (total st + N.of_nat (length d))); [reflexivity|lia]. Qed.
Lemma update_some limit ck st d : ck = false \/ total st + N.of_nat (length d) < limit ->
  exists st', Hasher.update limit ck st d = Some st' /\
    total st' = (total st + N.of_nat (length d)) mod limit.
Proof.
  intros H. unfold Hasher.update. destruct (N.leb_spec limit (total st + N.of_nat (length d))).
  - destruct H as [->|H]; [|lia]. cbn [andb]. eexists. split; reflexivity.
  - rewrite andb_false_r. eexists. split; reflexivity.
Qed.
Lemma digest_none limit st : limit <= 8 * total st -> Hasher.digest limit true st = None.
Proof. intros H. unfold Hasher.digest. cbn [andb]. destruct (N.leb_spec limit (8 * total st)); [reflexivity|lia]. Qed.
Lemma digest_some limit ck st : ck = false \/ 8 * total st < limit ->
  exists d st', Hasher.digest limit ck st = Some (d, st') /\ total st' = total st.
Proof.
  intros H. unfold Hasher.digest. destruct (N.leb_spec limit (8 * total st)).
  - destruct H as [->|H]; [|lia]. cbn [andb]. do 2 eexists. split; reflexivity.
  - rewrite andb_false_r. do 2 eexists. split; reflexivity.
Qed.

Lemma update_fresh_chain limit ck d st : Hasher.update limit ck fresh d = Some st -> state_ok (chain st).
Proof.
  unfold Hasher.update. destruct (_ && _)%bool; [discriminate|]. intros E. injection E as <-.
  apply absorb_ok. split; [apply H0_length|apply words_H0].
Qed.

Lemma pads_some limit ck K : 2 ^ 32 <= limit -> (length K <= 64)%nat ->
  exists i o, Hasher.update limit ck fresh (xor (K ++ repeat 0 (64 - length K)) Spec.Hmac.ipad) = Some i /\
    Hasher.update limit ck fresh (xor (K ++ repeat 0 (64 - length K)) Spec.Hmac.opad) = Some o /\
    total i = 64 /\ total o = 64.
Proof.
  intros Hl Hk. change (2 ^ 32) with 4294967296 in Hl. fold (zpad K).
  assert (H1 : length (xor (zpad K) Spec.Hmac.ipad) = 64%nat) by (rewrite xor_length, zpad_length by assumption; reflexivity).
  assert (H2 : length (xor (zpad K) Spec.Hmac.opad) = 64%nat) by (rewrite xor_length, zpad_length by assumption; reflexivity).
  destruct (update_some limit ck fresh (xor (zpad K) Spec.Hmac.ipad)) as (i & Ei & Hi);
    [right; rewrite H1; cbn [fresh total]; lia|].
  destruct (update_some limit ck fresh (xor (zpad K) Spec.Hmac.opad)) as (o & Eo & Ho);
    [right; rewrite H2; cbn [fresh total]; lia|].
  exists i, o. split; [exact Ei|]. split; [exact Eo|]. rewrite H1 in Hi. rewrite H2 in Ho.
  rewrite Hi, Ho. cbn [fresh total]. rewrite N.mod_small by lia. split; reflexivity.
Qed.

Lemma mac_new_none limit K : 2 ^ 32 <= limit -> limit <= 8 * N.of_nat (length K) ->
  Mac.new limit true K = None.
Proof.
  intros Hl H. change (2 ^ 32) with 4294967296 in Hl. unfold Mac.new.
  destruct (Nat.ltb_spec 64 (length K)) as [Hk|Hk]; [|exfalso; lia].
  destruct (N.le_gt_cases limit (N.of_nat (length K))) as [Hc|Hc].
  - rewrite update_none by (cbn [fresh total]; lia). reflexivity.
  - destruct (update_some limit true fresh K) as (st & -> & Ht); [right; cbn [fresh total]; lia|].
    cbn [Mac.obind]. rewrite digest_none; [reflexivity|]. rewrite Ht. cbn [fresh total].
    rewrite N.mod_small by lia. lia.
Qed.
Lemma mac_new_some limit ck K : 2 ^ 32 <= limit -> ck = false \/ 8 * N.of_nat (length K) < limit ->
  exists m, Mac.new limit ck K = Some m /\ total (Mac.inner m) = 64 /\ total (Mac.outer m) = 64.
Proof.
  intros Hl H. unfold Mac.new.
  destruct (Nat.ltb_spec 64 (length K)) as [Hk|Hk].
  - destruct (update_some limit ck fresh K) as (st & Es & Ht); [destruct H; [left; assumption|right; cbn [fresh total]; lia]|].
    rewrite Es. cbn [Mac.obind].
    destruct (digest_some limit ck st) as (d & st' & Ed & Ht').
    { destruct H as [H|H]; [left; exact H|right]. rewrite Ht. cbn [fresh total]. rewrite N.mod_small by lia. lia. }
    rewrite Ed. cbn [Mac.obind fst].
    destruct (hdigest_fst _ _ _ _ _ Ed (update_fresh_chain _ _ _ _ Es)) as [Hd _].
    destruct (pads_some limit ck d Hl ltac:(lia)) as (i & o & -> & Eo & Hi & Ho). cbn [Mac.obind].
    rewrite Eo. cbn [Mac.obind]. eexists. split; [reflexivity|]. split; assumption.
  - cbn [Mac.obind]. destruct (pads_some limit ck K Hl ltac:(lia)) as (i & o & -> & Eo & Hi & Ho). cbn [Mac.obind].
    rewrite Eo. cbn [Mac.obind]. eexists. split; [reflexivity|]. split; assumption.
Qed.

(** * HMac::new *)
Lemma hmac_new_panics T K : octets K ->
  hmac_new T K = Panic <-> overflow_checks T = true /\ usize_mod T <= 8 * N.of_nat (length K).
Proof.
  intros HK. pose proof (hmac_new_agree T K HK) as H. pose proof (usize_mod_ge T) as Hge.
  destruct (overflow_checks T) eqn:Hck; [destruct (N.le_gt_cases (usize_mod T) (8 * N.of_nat (length K))) as [Hc|Hc]|].
  - rewrite mac_new_none in H by assumption. destruct (hmac_new T K); try contradiction. tauto.
  - destruct (mac_new_some (usize_mod T) true K Hge) as (m & E & _); [right; exact Hc|]. rewrite E in H.
    destruct (hmac_new T K); try contradiction. split; [discriminate|intros [_ ?]; lia].
  - destruct (mac_new_some (usize_mod T) false K Hge) as (m & E & _); [left; reflexivity|]. rewrite E in H.
    destruct (hmac_new T K); try contradiction. split; [discriminate|intros [? _]; discriminate].
Qed.

(** * PBKDF2 *)
Lemma wrapping_update T m a d : overflow_checks T = false -> mabs T m a -> octets d ->
  exists m' a', hmac_update T m d = Ret m' /\ mabs T m' a'.
Proof.
  intros HT A Hd. pose proof (hmac_update_agree T m a d A Hd) as H. rewrite HT in H.
  unfold Mac.mac_update in H. destruct (update_some (usize_mod T) false (Mac.inner a) d) as (i & Ei & _); [left; reflexivity|].
  rewrite Ei in H. cbn [Mac.obind] in H. destruct (hmac_update T m d) as [m'| |]; try contradiction.
  eexists. eexists. split; [reflexivity|exact H].
Qed.
Lemma wrapping_digest T m a : overflow_checks T = false -> mabs T m a ->
  exists d m', hmac_digest T m = Ret (d, m') /\ length d = 32%nat /\ octets d.
Proof.
  intros HT [Ai Ao].
  pose proof (digest_agree T _ _ Ai) as H. rewrite HT in H.
  destruct (digest_some (usize_mod T) false (Mac.inner a)) as (d & i' & Ed & _); [left; reflexivity|].
  rewrite Ed in H. unfold hmac_digest.
  destruct (sha256_digest T (inner m)) as [[d1 i1]| |]; try contradiction.
  destruct H as [E1 Hi1]. cbn [fst snd] in E1, Hi1. subst d1. cbn [bind].
  destruct (hdigest_fst _ _ _ _ _ Ed (abs_ok _ _ _ Ai)) as [_ Hd].
  pose proof (update_agree T _ _ d Ao Hd) as H. rewrite HT in H.
  destruct (update_some (usize_mod T) false (Mac.outer a) d) as (o' & Eo & _); [left; reflexivity|].
  rewrite Eo in H. destruct (sha256_update T (outer m) d) as [o1| |]; try contradiction. cbn [agree] in H. cbn [bind].
  pose proof (digest_agree T _ _ H) as H2. rewrite HT in H2.
  destruct (digest_some (usize_mod T) false o') as (e & o2 & Ee & _); [left; reflexivity|].
  rewrite Ee in H2. destruct (sha256_digest T o1) as [[e1 o3]| |]; try contradiction. cbn [bind].
  destruct H2 as [E2 _]. cbn [fst] in E2. subst e1.
  destruct (hdigest_fst _ _ _ _ _ Ee (abs_ok _ _ _ H)) as [Hl Ho].
  eexists. eexists. split; [reflexivity|]. split; assumption.
Qed.
Lemma wrapping_new T K : overflow_checks T = false -> octets K -> exists m a, hmac_new T K = Ret m /\ mabs T m a.
Proof.
  intros HT HK. pose proof (hmac_new_agree T K HK) as H. rewrite HT in H.
  destruct (mac_new_some (usize_mod T) false K (usize_mod_ge T)) as (a & E & _); [left; reflexivity|].
  rewrite E in H. destruct (hmac_new T K) as [m| |]; try contradiction. exists m, a. split; [reflexivity|exact H].
Qed.

Lemma octets_ctr i : octets (ctr_bytes i).
Proof. rewrite Pbkdf2.ctr_bytes_INT. apply octets_be_octets. Qed.

Lemma block_returns T P S c i : octets P -> octets S -> overflow_checks T = false \/ Pbkdf2.fits T P S ->
  exists t, pbkdf2_block T P S c i = Ret t /\ length t = 32%nat /\ octets t.
Proof.
  intros HP HS [HT|Hf].
  2:{ rewrite Pbkdf2.block_ok by assumption. eexists. split; [reflexivity|]. split; [apply Pbkdf2.F_length|apply Pbkdf2.octets_F]. }
  unfold pbkdf2_block. destruct (wrapping_new T P HT HP) as (m & a & -> & A). cbn [bind].
  destruct (wrapping_update T m a S HT A HS) as (m1 & a1 & -> & A1). cbn [bind].
  destruct (wrapping_update T m1 a1 _ HT A1 (octets_ctr i)) as (m2 & a2 & -> & A2). cbn [bind].
  destruct (wrapping_digest T m2 a2 HT A2) as (u & m3 & -> & Hlu & Hu). cbn [bind].
  match goal with |- context [for_range_incl 2 c ?b _] => set (body := b) end.
  assert (Hloop : forall n j v t, length v = 32%nat -> octets v -> length t = 32%nat -> octets t ->
    exists v' t', for_n n j body (v, t) = Ret (v', t') /\ length t' = 32%nat /\ octets t').
  { induction n as [|n IH]; intros j v t Hlv Hv Hlt Ht; cbn [for_n].
    - exists v, t. repeat split; assumption.
    - unfold body at 1. cbn [bind].
      destruct (wrapping_update T m a v HT A Hv) as (k1 & b1 & -> & B1). cbn [bind].
      destruct (wrapping_digest T k1 b1 HT B1) as (w & k2 & -> & Hlw & Hw). cbn [bind].
      rewrite Pbkdf2.xor_us_ok by lia. cbn [bind]. apply IH; try assumption.
      + rewrite xor_length, Hlt, Hlw. reflexivity.
      + apply octets_xor; assumption. }
  unfold for_range_incl, for_range.
  destruct (Hloop (N.to_nat (c + 1 - 2)) 2 u u) as (v' & t' & -> & Hl & Ho); try assumption.
  cbn [bind]. exists t'. repeat split; assumption.
Qed.

Lemma block_panics T P S c i : octets P -> octets S -> overflow_checks T = true ->
  ~ Pbkdf2.fits T P S -> pbkdf2_block T P S c i = Panic.
Proof.
  intros HP HS HT Hf. pose proof (usize_mod_ge T) as Hge.
  unfold pbkdf2_block. destruct (N.le_gt_cases (usize_mod T) (8 * N.of_nat (length P))) as [HlP|HlP].
  { replace (hmac_new T P) with (@Panic HMac); [reflexivity|]. symmetry. apply hmac_new_panics; [assumption|]. split; assumption. }
  assert (HlS : usize_mod T <= 8 * (N.of_nat (length S) + 68)).
  { destruct (N.le_gt_cases (usize_mod T) (8 * (N.of_nat (length S) + 68))); [assumption|].
    exfalso. apply Hf. split; assumption. }
  pose proof (hmac_new_agree T P HP) as H.
  destruct (mac_new_some (usize_mod T) (overflow_checks T) P Hge) as (a & E & Hi & _); [right; exact HlP|].
  rewrite E in H. destruct (hmac_new T P) as [m| |]; try contradiction. cbn [agree] in H. cbn [bind].
  pose proof (hmac_update_agree T m a S H HS) as H1. unfold Mac.mac_update in H1. rewrite HT in H1.
  change (2 ^ 32) with 4294967296 in Hge.
  destruct (N.le_gt_cases (usize_mod T) (total (Mac.inner a) + N.of_nat (length S))) as [Hc|Hc].
  { rewrite update_none in H1 by assumption. cbn [Mac.obind] in H1.
    destruct (hmac_update T m S); try contradiction. reflexivity. }
  destruct (update_some (usize_mod T) true (Mac.inner a) S) as (i1 & E1 & Ht1); [right; exact Hc|].
  rewrite E1 in H1. cbn [Mac.obind] in H1. destruct (hmac_update T m S) as [m1| |]; try contradiction.
  cbn [agree] in H1. cbn [bind]. rewrite N.mod_small in Ht1 by assumption.
  pose proof (hmac_update_agree T m1 _ (ctr_bytes i) H1 (octets_ctr i)) as H2. unfold Mac.mac_update in H2. rewrite HT in H2.
  cbn [Mac.inner Mac.outer] in H2.
  assert (Hlc : N.of_nat (length (ctr_bytes i)) = 4) by reflexivity.
  destruct (N.le_gt_cases (usize_mod T) (total i1 + N.of_nat (length (ctr_bytes i)))) as [Hd|Hd].
  { rewrite update_none in H2 by assumption. cbn [Mac.obind] in H2.
    destruct (hmac_update T m1 _); try contradiction. reflexivity. }
  destruct (update_some (usize_mod T) true i1 (ctr_bytes i)) as (i2 & E2 & Ht2); [right; exact Hd|].
  rewrite E2 in H2. cbn [Mac.obind] in H2. destruct (hmac_update T m1 _) as [m2| |]; try contradiction.
  cbn [agree] in H2. cbn [bind]. rewrite N.mod_small in Ht2 by assumption.
  pose proof (hmac_digest_agree T m2 _ H2) as H3. unfold Mac.mac_digest in H3. rewrite HT in H3.
  cbn [Mac.inner Mac.outer] in H3. rewrite digest_none in H3 by lia. cbn [Mac.obind] in H3.
  destruct (hmac_digest T m2); try contradiction. reflexivity.
Qed.

Lemma pbkdf2_panics T P S c out : octets P -> octets S -> overflow_checks T = true ->
  ~ Pbkdf2.fits T P S -> len out <= isize_max T -> out <> [] -> pbkdf2_sha256 T P S c out = Panic.
Proof.
  intros HP HS HT Hf Hout Hne. unfold pbkdf2_sha256, DIGEST_SIZE.
  pose proof (isize_usize T) as Hus. pose proof (usize_mod_ge T) as Hge.
  change (2 ^ 32) with 4294967296 in Hge.
  rewrite uadd_ok by lia. cbn [bind]. rewrite usub_ok by lia. cbn [bind]. rewrite udiv_ok by lia. cbn [bind].
  unfold for_range_incl, for_range.
  assert (1 <= len out) by (destruct out; [contradiction|unfold len; cbn [length]; lia]).
  destruct (N.to_nat _) as [|n] eqn:En; [exfalso; lia|]. cbn [for_n].
  rewrite block_panics by assumption. reflexivity.
Qed.

Lemma pbkdf2_nil T P S c : pbkdf2_sha256 T P S c [] = Ret [].
Proof. destruct T as [[] []]; reflexivity. Qed.

Lemma pbkdf2_returns T P S c out : octets P -> octets S -> overflow_checks T = false \/ Pbkdf2.fits T P S ->
  len out <= isize_max T ->
  exists o, pbkdf2_sha256 T P S c out = Ret o /\ length o = length out /\ (octets out -> octets o).
Proof.
  intros HP HS Hf Hout. unfold pbkdf2_sha256, DIGEST_SIZE.
  pose proof (isize_usize T) as Hus. pose proof (usize_mod_ge T) as Hge.
  change (2 ^ 32) with 4294967296 in Hge.
  rewrite uadd_ok by lia. cbn [bind]. rewrite usub_ok by lia. cbn [bind]. rewrite udiv_ok by lia. cbn [bind].
  unfold for_range_incl, for_range.
  match goal with |- context [for_n _ _ ?b out] => set (body := b) end.
  assert (Hloop : forall n i o, length o = length out -> 1 <= i -> (n = 0%nat \/ 32 * (i + N.of_nat n - 2) < len out) ->
    exists o', for_n n i body o = Ret o' /\ length o' = length out /\ (octets o -> octets o')).
  { induction n as [|n IH]; intros i o Hl Hi Hn; cbn [for_n].
    - exists o. split; [reflexivity|]. split; [assumption|tauto].
    - unfold body at 1. destruct (block_returns T P S c i HP HS Hf) as (t & -> & Hlt & Ht). cbn [bind].
      assert (Hlo : len o = len out) by (unfold len; lia).
      rewrite usub_ok by lia. cbn [bind]. rewrite umul_ok by lia. cbn [bind]. rewrite umul_ok by lia. cbn [bind].
      cbv zeta. rewrite usub_ok by lia. cbn [bind]. unfold slice_to.
      unfold len in *. rewrite slice_ok by (rewrite ?Hlt; lia). cbn [bind].
      unfold with_slice. rewrite slice_ok by lia. cbn [bind].
      rewrite copy_from_slice_ok by (rewrite !firstn_length, !skipn_length, Hlt; lia). cbn [bind].
      match goal with |- context [for_n n (N.succ i) body ?x] => destruct (IH (N.succ i) x) as (o' & E' & Hl' & Ho') end; [|lia|lia|].
      + rewrite !app_length, !firstn_length, !skipn_length, Hlt. lia.
      + exists o'. split; [exact E'|]. split; [exact Hl'|]. intros Ho. apply Ho'.
        apply octets_app. split; [apply octets_firstn, Ho|]. apply octets_app.
        split; [apply octets_firstn, octets_skipn, Ht|apply octets_skipn, Ho]. }
  destruct (Hloop (N.to_nat ((len out + 32 - 1) / 32 + 1 - 1)) 1 out) as (o & E & Hl & Ho); [reflexivity|lia|lia|].
  exists o. repeat split; assumption.
Qed.

(** * Scrypt *)
Lemma ROMix_length T s k B : r_fits T (sr s) -> sn s = 2 ^ k -> sn s < usize_mod T ->
  vec_size T * sn s <= isize_max T -> octets B -> length B = (128 * N.to_nat (sr s))%nat ->
  length (Spec.Scrypt.ROMix (N.to_nat (sr s)) B (sn s)) = (128 * N.to_nat (sr s))%nat.
Proof.
  intros Hr Hk Hn Ha Ho Hl.
  destruct (ro_mix_ok T s (blocks 64 B) k) as (b & _ & Hb & Hc); try assumption; [apply vec_of_octets; assumption|].
  rewrite (concat_blocks64 (N.to_nat (sr s))) in Hc by assumption. rewrite <- Hc.
  apply vec_concat_length. exact Hb.
Qed.

Lemma mix_length T s raw k : r_fits T (sr s) -> sn s = 2 ^ k -> sn s < usize_mod T ->
  vec_size T * sn s <= isize_max T -> octets raw ->
  exists b bs, split_blocks T s raw = Ret bs /\ map_res (ro_mix T s) bs = Ret b /\
    octets (List.concat (List.concat b)) /\
    length (List.concat (List.concat b)) =
      (128 * N.to_nat (sr s) * (length raw / (128 * N.to_nat (sr s))))%nat.
Proof.
  intros Hr Hk Hn Ha Ho. destruct (mix_all T s raw k) as (b & bs & Es & Eb & Hc & Hob & _); try assumption.
  exists b, bs. split; [exact Es|]. split; [exact Eb|]. split; [exact Hob|].
  rewrite Hc, (concat_same_length _ (128 * N.to_nat (sr s))).
  - rewrite map_length, blocks_length. lia.
  - apply Forall_forall. intros g Hg. apply in_map_iff in Hg. destruct Hg as (B & <- & HB).
    apply (ROMix_length T s k); try assumption; [apply (octets_blocks _ _ _ Ho HB)|].
    apply (blocks_all_length _ _ _ HB).
Qed.

(** The lanes, whatever the arithmetic does. *)
Lemma split_lanes T s raw c : umul T 128 (sr s) = Ret c -> c <> 0 ->
  split_blocks T s raw = Ret (map (blocks 64) (blocks (N.to_nat c) raw)).
Proof.
  intros E Hc. unfold split_blocks. change (2 * Model.Scrypt.BLOCK_SIZE) with 128. rewrite E. cbn [bind].
  rewrite chunks_exact_all by assumption. cbn [bind].
  apply map_res_ok. intros g _. apply chunks_exact_all. discriminate.
Qed.
Lemma first_lane {A} c (raw : list A) : (0 < c <= length raw)%nat ->
  exists g bl, blocks c raw = g :: bl.
Proof.
  intros H. pose proof (blocks_length c raw) as Hl.
  assert (1 <= length raw / c)%nat by (apply Nat.div_le_lower_bound; lia).
  destruct (blocks c raw) as [|g bl]; [cbn [length] in Hl; lia|]. exists g, bl. reflexivity.
Qed.

Lemma vec_size_ge T : 12 <= vec_size T.
Proof. unfold vec_size, usize_bits. destruct (width T); vm_compute; discriminate. Qed.

Lemma mod_wrapped a b : b <> 0 -> b <= a -> a mod b <= a - b.
Proof.
  intros Hb H. replace a with (a - b + 1 * b) at 1 by lia. rewrite N.mod_add by assumption.
  apply N.mod_le. assumption.
Qed.
(** A lane size that wraps: no lane can be mixed. *)
Lemma block_mix_wrapped T s g : overflow_checks T = false -> usize_mod T <= 128 * sr s ->
  sr s < usize_mod T ->
  N.of_nat (length g) = (128 * sr s) mod usize_mod T / 64 -> Forall block64 g ->
  block_mix T s g = Panic.
Proof.
  intros HT Hw Hr Hl Hg. pose proof (isize_usize T) as Hus. pose proof (vec_size_ge T) as Hv.
  pose proof (usize_mod_ge T) as Hge. change (2 ^ 32) with 4294967296 in Hge.
  unfold block_mix, Block. rewrite umul_wrapping by assumption. cbn [bind].
  set (r2 := (2 * sr s) mod usize_mod T).
  destruct (usub T r2 1) as [j| |] eqn:Ej; [|reflexivity|unfold usub in Ej; destruct (_ <=? _), (overflow_checks T); discriminate].
  cbn [bind]. destruct (idx g j) as [x| |] eqn:Ex; [|reflexivity|unfold idx in Ex; destruct (nth_error _ _); discriminate].
  cbn [bind].
  unfold alloc at 1. destruct (vec_size T * r2 <=? isize_max T); [|reflexivity]. cbn [bind].
  assert (Hx : block64 x).
  { unfold idx in Ex. destruct (nth_error g (N.to_nat j)) eqn:En; [|discriminate]. injection Ex as <-.
    rewrite Forall_forall in Hg. apply Hg. eapply nth_error_In. exact En. }
  destruct (mix_loop g x [] Hx Hg) as (x' & _ & Emix). 
  match goal with |- context [for_each g ?f ?st] =>
    replace (for_each g f st) with (Ret (x', [] ++ Spec.Scrypt.Ys x g)) by (symmetry; exact Emix) end.
  cbn [bind].
  unfold alloc at 1. destruct (vec_size T * r2 <=? isize_max T); [|reflexivity]. cbn [bind].
  unfold alloc. destruct (N.leb_spec (vec_size T * sr s) (isize_max T)) as [Ha|Ha]; [exfalso|reflexivity].
  assert (H12 : 12 * sr s <= isize_max T) by nia.
  assert (Hr2 : r2 = 2 * sr s) by (unfold r2; apply N.mod_small; lia).
  unfold usub in Ej. rewrite Hr2 in Ej. destruct (N.leb_spec 1 (2 * sr s)); [|lia].
  assert (Ej1 : j = 2 * sr s - 1) by congruence.
  pose proof (mod_wrapped (128 * sr s) (usize_mod T) ltac:(lia) Hw) as Hm.
  unfold idx in Ex. destruct (nth_error g (N.to_nat j)) eqn:En; [|discriminate].
  assert (Hlt : (N.to_nat j < length g)%nat) by (apply nth_error_Some; rewrite En; discriminate).
  set (q := (128 * sr s) mod usize_mod T) in *. clearbody q.
  change Block with (list N) in *. assert (Hq : N.of_nat (length g) = q / 64) by exact Hl.
  generalize dependent (length g). intros n Hl1 Hlt Hq. clear - Hlt Hq Hm Hge Ej1 Hw. lia.
Qed.

Lemma ro_mix_wrapped T s g : overflow_checks T = false -> usize_mod T <= 128 * sr s ->
  sr s < usize_mod T -> 1 <= sn s ->
  N.of_nat (length g) = (128 * sr s) mod usize_mod T / 64 -> Forall block64 g ->
  ro_mix T s g = Panic.
Proof.
  intros HT Hw Hr Hn Hl Hg. unfold ro_mix, alloc.
  destruct (vec_size T * sn s <=? isize_max T); [|reflexivity]. cbn [bind].
  unfold for_range at 1. destruct (N.to_nat (sn s - 0)) as [|n] eqn:En; [lia|]. cbn [for_n].
  rewrite block_mix_wrapped by assumption. reflexivity.
Qed.
Lemma ro_mix_table T s g : isize_max T < vec_size T * sn s -> ro_mix T s g = Panic.
Proof.
  intros H. unfold ro_mix, alloc. destruct (N.leb_spec (vec_size T * sn s) (isize_max T)); [lia|reflexivity].
Qed.

Definition stops (T : target) (s : Scrypt) (P S out : list N) : Prop :=
  let lanes := sp s * 128 * sr s in
  if overflow_checks T then
    isize_max T < lanes \/
    usize_mod T <= 8 * N.of_nat (length P) \/ usize_mod T <= 8 * (N.of_nat (length S) + 68) \/
    isize_max T < vec_size T * sn s \/
    out <> [] /\ usize_mod T <= 8 * (lanes + 68)
  else
    let vector := lanes mod usize_mod T in
    let lane := (128 * sr s) mod usize_mod T in
    lane = 0 \/ isize_max T < vector \/
    lane <= vector /\ (usize_mod T <= 128 * sr s \/ isize_max T < vec_size T * sn s).

Lemma pbkdf2_fit_dec T P S : Pbkdf2.fits T P S \/ ~ Pbkdf2.fits T P S.
Proof.
  unfold Pbkdf2.fits.
  destruct (N.ltb_spec (8 * N.of_nat (length P)) (usize_mod T)),
    (N.ltb_spec (8 * (N.of_nat (length S) + 68)) (usize_mod T)); (left; split; assumption) || (right; lia).
Qed.

Lemma derive_checked T s P S out : overflow_checks T = true -> accepted s ->
  sn s < usize_mod T -> octets P -> octets S -> len out <= isize_max T ->
  (stops T s P S out /\ scrypt_derive T s P S out = Panic) \/
  (~ stops T s P S out /\ exists o, scrypt_derive T s P S out = Ret (Ok tt, o) /\ length o = length out).
Proof.
  intros HT Hacc Hn HP HS Hout. pose proof (isize_usize T) as Hus.
  unfold stops. rewrite HT. cbv zeta. pose proof Hacc as (Hr1 & Hn1 & [k Hk] & Hp1).
  set (m := sp s * 128 * sr s).
  assert (Hm1 : 128 * sr s <= m) by (unfold m; nia).
  destruct (N.le_gt_cases (usize_mod T) m) as [Hw|Hw].
  { left. split; [left; lia|]. apply derive_checked_panics; assumption. }
  rewrite derive_unfold, vector_size_ok by assumption. fold m. cbn [bind].
  destruct (N.le_gt_cases m (isize_max T)) as [Hi|Hi].
  2:{ left. split; [left; assumption|]. unfold alloc. destruct (N.leb_spec (1 * m) (isize_max T)); [lia|reflexivity]. }
  rewrite alloc_ok by lia. cbn [bind].
  destruct (pbkdf2_fit_dec T P S) as [Hf|Hf].
  2:{ left. split; [unfold Pbkdf2.fits in Hf; lia|]. rewrite pbkdf2_panics; try assumption; [reflexivity|rewrite len_repeat; lia|].
      intros E. apply (f_equal (@length N)) in E. rewrite repeat_length in E. cbn [length] in E. lia. }
  destruct (pbkdf2_returns T P S PBKDF2_ROUNDS (repeat 0 (N.to_nat m)) HP HS (or_intror Hf)) as (raw & -> & Hlr & Hor);
    [rewrite len_repeat; lia|]. cbn [bind]. rewrite repeat_length in Hlr. 
  assert (Hz : octets (repeat 0 (N.to_nat m))) by (apply octets_repeat; lia). specialize (Hor Hz).
  destruct (N.le_gt_cases (vec_size T * sn s) (isize_max T)) as [Ha|Ha].
  2:{ left. split; [lia|]. rewrite (split_lanes T s raw (128 * sr s)) by (try apply umul_ok; lia). cbn [bind].
      destruct (first_lane (N.to_nat (128 * sr s)) raw) as (g & bl & ->); [lia|]. cbn [map map_res].
      rewrite ro_mix_table by assumption. reflexivity. }
  assert (Hrf : r_fits T (sr s)) by (split; lia).
  destruct (mix_length T s raw k Hrf Hk Hn Ha Hor) as (b & bs & -> & E & Hob & Hlb). cbn [bind]. rewrite E. cbn [bind].
  assert (Hlen : N.of_nat (length (List.concat (List.concat b))) = m).
  { rewrite Hlb, Hlr. unfold m. replace (N.to_nat (sp s * 128 * sr s)) with (N.to_nat (sp s) * (128 * N.to_nat (sr s)))%nat by nia.
    rewrite Nat.div_mul by lia. nia. }
  destruct out as [|a out'].
  { right. split; [intros [H|[H|[H|[H|[H _]]]]]; [| destruct Hf.. | |contradiction]; lia|].
    rewrite pbkdf2_nil. exists []. split; reflexivity. }
  destruct (N.le_gt_cases (usize_mod T) (8 * (m + 68))) as [Hc|Hc].
  { left. split; [right; right; right; right; split; [discriminate|assumption]|].
    rewrite pbkdf2_panics; try assumption; [reflexivity| |discriminate]. intros [_ H]. lia. }
  right. split; [intros [H|[H|[H|[H|[_ H]]]]]; destruct Hf; lia|].
  destruct (pbkdf2_returns T P (List.concat (List.concat b)) PBKDF2_ROUNDS (a :: out') HP Hob) as (o & -> & Hlo & _);
    [right; destruct Hf; split; lia|assumption|]. exists o. split; [reflexivity|exact Hlo].
Qed.

Lemma derive_unchecked T s P S out : overflow_checks T = false -> accepted s ->
  sr s < usize_mod T -> sn s < usize_mod T -> octets P -> octets S -> len out <= isize_max T ->
  (stops T s P S out /\ scrypt_derive T s P S out = Panic) \/
  (~ stops T s P S out /\ exists o, scrypt_derive T s P S out = Ret (Ok tt, o) /\ length o = length out).
Proof.
  intros HT Hacc Hr Hn HP HS Hout. pose proof (isize_usize T) as Hus. pose proof (usize_mod_nz T) as Hnz.
  unfold stops. rewrite HT. cbv zeta. pose proof Hacc as (Hr1 & Hn1 & [k Hk] & Hp1).
  set (m := (sp s * 128 * sr s) mod usize_mod T). set (c := (128 * sr s) mod usize_mod T).
  destruct (N.eq_dec c 0) as [Hc|Hc].
  { left. split; [left; assumption|]. apply derive_chunk_zero; assumption. }
  rewrite derive_unfold, vector_size_wrapping by assumption. fold m. cbn [bind].
  destruct (N.le_gt_cases m (isize_max T)) as [Hi|Hi].
  2:{ left. split; [right; left; assumption|]. unfold alloc. destruct (N.leb_spec (1 * m) (isize_max T)); [lia|reflexivity]. }
  rewrite alloc_ok by lia. cbn [bind].
  destruct (pbkdf2_returns T P S PBKDF2_ROUNDS (repeat 0 (N.to_nat m)) HP HS (or_introl HT)) as (raw & -> & Hlr & Hor);
    [rewrite len_repeat; lia|]. cbn [bind]. rewrite repeat_length in Hlr. 
  assert (Hz : octets (repeat 0 (N.to_nat m))) by (apply octets_repeat; lia). specialize (Hor Hz).
  assert (Elane : umul T 128 (sr s) = Ret c) by (apply umul_wrapping; assumption).
  destruct (N.le_gt_cases c m) as [Hl|Hl].
  2:{ right. split; [lia|]. rewrite (split_lanes T s raw c) by assumption. cbn [bind].
      replace (blocks (N.to_nat c) raw) with (@nil (list N)).
      2:{ symmetry. apply length_zero_iff_nil. rewrite blocks_length, Hlr. apply Nat.div_small. lia. }
      cbn [map map_res bind concat].
      destruct (pbkdf2_returns T P [] PBKDF2_ROUNDS out HP) as (o & -> & Hlo & _);
        [constructor|left; exact HT|assumption|]. exists o. split; [reflexivity|exact Hlo]. }
  destruct (N.le_gt_cases (usize_mod T) (128 * sr s)) as [Hw|Hw].
  { left. split; [right; right; split; [assumption|left; assumption]|].
    rewrite (split_lanes T s raw c) by assumption. cbn [bind].
    destruct (first_lane (N.to_nat c) raw) as (g & bl & Eb); [lia|]. rewrite Eb. cbn [map map_res].
    assert (Hg : In g (blocks (N.to_nat c) raw)) by (rewrite Eb; left; reflexivity).
    pose proof (blocks_all_length _ _ _ Hg) as Hlg. pose proof (octets_blocks _ _ _ Hor Hg) as Hog.
    rewrite ro_mix_wrapped; try assumption; [reflexivity| |].
    - rewrite blocks_length, Hlg. fold c. rewrite Nat2N.inj_div, N2Nat.id. reflexivity.
    - apply Forall_forall. intros h Hh. split; [apply (blocks_all_length _ _ _ Hh)|apply (octets_blocks _ _ _ Hog Hh)]. }
  assert (Hcr : c = 128 * sr s) by (apply N.mod_small; assumption).
  destruct (N.le_gt_cases (vec_size T * sn s) (isize_max T)) as [Ha|Ha].
  2:{ left. split; [lia|]. rewrite (split_lanes T s raw c) by assumption. cbn [bind].
      destruct (first_lane (N.to_nat c) raw) as (g & bl & ->); [lia|]. cbn [map map_res].
      rewrite ro_mix_table by assumption. reflexivity. }
  right. split; [lia|].
  assert (Hrf : r_fits T (sr s)) by (split; lia).
  destruct (mix_length T s raw k Hrf Hk Hn Ha Hor) as (b & bs & -> & E & Hob & _). cbn [bind]. rewrite E. cbn [bind].
  destruct (pbkdf2_returns T P (List.concat (List.concat b)) PBKDF2_ROUNDS out HP Hob) as (o & -> & Hlo & _);
    [left; exact HT|assumption|]. exists o. split; [reflexivity|exact Hlo].
Qed.
