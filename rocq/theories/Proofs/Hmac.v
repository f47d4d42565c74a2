(** HMAC-SHA256. *)
From Coq Require Import ZArith NArith List Arith Lia Bool ZifyBool ZifyNat ZifyN.
From Verif Require Import Rust Calls.
From Verif.Model Require Import Sha256 Hmac.
From Verif.Spec Require Octets Sha256 Hmac Hasher Mac.
From Verif.Proofs Require Import Base Bits Sha256Core Sha256 Sha256Main.
Import Spec.Octets.
Import ListNotations.
Local Open Scope N_scope.
Ltac Zify.zify_post_hook ::= Z.div_mod_to_equations.

Record mabs (T : target) (m : HMac) (a : Mac.mac) : Prop := {
  mabs_inner : abs T (inner m) (Mac.inner a);
  mabs_outer : abs T (outer m) (Mac.outer a)
}.

Lemma agree_bind {A A' B B'} (R : A -> A' -> Prop) (Q : B -> B' -> Prop) m o f g :
  agree R m o -> (forall a a', R a a' -> agree Q (f a) (g a')) ->
  agree Q (bind m f) (Mac.obind o g).
Proof.
  destruct m, o; cbn [agree bind Mac.obind]; intros H Hf; try contradiction; auto.
Qed.

Lemma update_fresh_agree T d : octets d ->
  agree (abs T) (sha256_update T sha256_new d)
    (Hasher.update (usize_mod T) (overflow_checks T) Hasher.fresh d).
Proof. intros Hd. apply update_agree; [apply abs_fresh|assumption]. Qed.

(** The two pads. *)
Lemma map_xor_repeat l c : map (fun e => N.lxor e c) l = xor l (repeat c (length l)).
Proof. induction l as [|x l IH]; cbn; [reflexivity|]. rewrite IH. reflexivity. Qed.

Definition zpad (K : list N) : list N := K ++ repeat 0 (64 - length K).
Lemma zpad_length K : (length K <= 64)%nat -> length (zpad K) = 64%nat.
Proof. intros H. unfold zpad. rewrite app_length, repeat_length. lia. Qed.
Lemma octets_zpad K : octets K -> octets (zpad K).
Proof. intros H. apply octets_app. split; [assumption|apply octets_repeat; lia]. Qed.

Lemma key_block key : (length key <= 64)%nat ->
  with_slice (repeat 0 64) 0 (len key) (fun d => copy_from_slice d key) = Ret (zpad key).
Proof.
  intros Hk. unfold with_slice.
  rewrite slice_ok by (rewrite ?repeat_length; unfold len; lia). cbn [bind].
  change (N.to_nat 0) with 0%nat. rewrite Nat.sub_0_r, len_length.
  change (skipn 0 (repeat 0 64)) with (repeat 0 64).
  rewrite copy_from_slice_ok by (rewrite firstn_length, repeat_length; lia).
  cbn [bind]. change (firstn 0 (repeat 0 64)) with (@nil N). cbn [app].
  unfold zpad. do 2 f_equal.
  replace 64%nat with (length key + (64 - length key))%nat at 1 by lia.
  rewrite repeat_app, skipn_app, repeat_length, Nat.sub_diag.
  rewrite skipn_all2 by (rewrite repeat_length; lia). reflexivity.
Qed.

Lemma ipad_block B : length B = 64%nat -> map (fun e => N.lxor e 0x36) B = xor B Spec.Hmac.ipad.
Proof. intros H. rewrite map_xor_repeat, H. reflexivity. Qed.
Lemma opad_block B : length B = 64%nat ->
  map (fun e => N.lxor e (N.lxor 0x36 0x5c)) (map (fun e => N.lxor e 0x36) B) = xor B Spec.Hmac.opad.
Proof.
  intros H. rewrite map_map. change Spec.Hmac.opad with (repeat 0x5c 64).
  rewrite <- H at 1. rewrite <- map_xor_repeat.
  apply map_ext. intros e. rewrite N.lxor_assoc. f_equal.
Qed.

Lemma octets_ipad : octets Spec.Hmac.ipad.
Proof. apply octets_repeat. lia. Qed.
Lemma octets_opad : octets Spec.Hmac.opad.
Proof. apply octets_repeat. lia. Qed.

(** A key of at most one block. *)
Lemma new_short fuel T key : (length key <= 64)%nat -> octets key ->
  agree (mabs T) (hmac_new_fuel (S fuel) T key)
    (Mac.new (usize_mod T) (overflow_checks T) key).
Proof.
  intros Hk Ho. cbn [hmac_new_fuel]. unfold Mac.new.
  destruct (N.ltb_spec BLOCK_SIZE (len key)) as [H|_]; [unfold BLOCK_SIZE, len in H; lia|].
  destruct (Nat.ltb_spec 64 (length key)); [lia|]. cbn [Mac.obind].
  rewrite key_block by assumption. cbn [bind]. fold (zpad key).
  rewrite opad_block, ipad_block by (apply zpad_length; assumption).
  eapply agree_bind; [apply update_fresh_agree, octets_xor; [apply octets_zpad; assumption|apply octets_ipad]|].
  intros i i' Hi.
  eapply agree_bind; [apply update_fresh_agree, octets_xor; [apply octets_zpad; assumption|apply octets_opad]|].
  intros o o' Ho'. split; assumption.
Qed.

Lemma hdigest_fst limit checks st d st' :
  Hasher.digest limit checks st = Some (d, st') -> state_ok (chain st) -> length d = 32%nat /\ octets d.
Proof.
  unfold Hasher.digest. destruct (_ && _)%bool; [discriminate|]. intros E Hs. injection E as <- _.
  split; [apply flat_map_be4_length, absorb_ok; assumption|apply octets_flat_map_be].
Qed.

Lemma new_agree fuel T key : octets key ->
  agree (mabs T) (hmac_new_fuel (S (S fuel)) T key)
    (Mac.new (usize_mod T) (overflow_checks T) key).
Proof.
  intros Ho. destruct (Nat.le_gt_cases (length key) 64) as [Hk|Hk]; [apply new_short; assumption|].
  cbn [hmac_new_fuel]. destruct (N.ltb_spec BLOCK_SIZE (len key)) as [_|H]; [|unfold BLOCK_SIZE, len in H; lia].
  unfold Mac.new. destruct (Nat.ltb_spec 64 (length key)) as [_|]; [|lia].
  pose proof (update_fresh_agree T key Ho) as Hu.
  destruct (sha256_update T sha256_new key) as [s| |], (Hasher.update _ _ Hasher.fresh key) as [st|];
    cbn [agree] in Hu; try contradiction; cbn [bind Mac.obind]; [|exact I].
  pose proof (digest_agree T s st Hu) as Hd.
  destruct (sha256_digest T s) as [[d s']| |], (Hasher.digest _ _ st) as [[d' st']|] eqn:Ed;
    cbn [agree fst snd] in Hd; try contradiction; cbn [bind Mac.obind fst]; [|exact I].
  destruct Hd as [<- Hd]. destruct (hdigest_fst _ _ _ _ _ Ed (abs_ok _ _ _ Hu)) as [Hl Hdo].
  pose proof (new_short fuel T d ltac:(lia) Hdo) as Hn. unfold Mac.new in Hn.
  destruct (Nat.ltb_spec 64 (length d)); [lia|]. cbn [Mac.obind] in Hn. exact Hn.
Qed.

Lemma hmac_new_agree T key : octets key ->
  agree (mabs T) (hmac_new T key) (Mac.new (usize_mod T) (overflow_checks T) key).
Proof. apply new_agree. Qed.

(** The recursion depth of [hmac_new] never exceeds two. *)
Lemma hmac_new_terminates T key : octets key -> hmac_new T key <> Diverge.
Proof.
  intros Ho E. pose proof (hmac_new_agree T key Ho) as H. rewrite E in H. cbn in H.
  exact H.
Qed.

Lemma hmac_new_fuel_enough fuel T key : octets key -> (2 <= fuel)%nat ->
  hmac_new_fuel fuel T key = hmac_new T key.
Proof.
  intros Ho Hf. destruct fuel as [|[|fuel]]; try lia. unfold hmac_new. cbn [hmac_new_fuel].
  destruct (N.ltb_spec BLOCK_SIZE (len key)) as [H|H]; [|reflexivity].
  pose proof (update_fresh_agree T key Ho) as Hu.
  destruct (sha256_update T sha256_new key) as [s| |]; cbn [bind]; try reflexivity.
  destruct (Hasher.update _ _ Hasher.fresh key) as [st|]; cbn [agree] in Hu; [|contradiction].
  pose proof (digest_agree T s st Hu) as Hd.
  destruct (sha256_digest T s) as [[d s']| |]; cbn [bind]; try reflexivity.
  destruct (Hasher.digest _ _ st) as [[d' st']|] eqn:Ed; cbn [agree fst snd] in Hd; [|contradiction].
  destruct Hd as [-> Hd]. destruct (hdigest_fst _ _ _ _ _ Ed (abs_ok _ _ _ Hu)) as [Hl Hdo].
  destruct fuel; cbn [hmac_new_fuel];
    (destruct (N.ltb_spec BLOCK_SIZE (len d')) as [H1|_]; [unfold BLOCK_SIZE, len in H1; lia|reflexivity]).
Qed.

Lemma hmac_update_agree T m a d : mabs T m a -> octets d ->
  agree (mabs T) (hmac_update T m d) (Mac.mac_update (usize_mod T) (overflow_checks T) a d).
Proof.
  intros [Hi Ho] Hd. unfold hmac_update, Mac.mac_update.
  eapply agree_bind; [apply update_agree; eassumption|]. intros i i' Hii. split; assumption.
Qed.

Lemma hmac_digest_agree T m a : mabs T m a ->
  agree (fun x y => fst x = fst y /\ mabs T (snd x) (snd y))
    (hmac_digest T m) (Mac.mac_digest (usize_mod T) (overflow_checks T) a).
Proof.
  intros [Hi Ho]. unfold hmac_digest, Mac.mac_digest.
  pose proof (digest_agree T _ _ Hi) as Hd.
  destruct (sha256_digest T (inner m)) as [[d s']| |],
    (Hasher.digest _ _ (Mac.inner a)) as [[d' st']|] eqn:Ed;
    cbn [agree fst snd] in Hd; try contradiction; cbn [bind Mac.obind fst snd]; [|exact I].
  destruct Hd as [<- Hd]. destruct (hdigest_fst _ _ _ _ _ Ed (abs_ok _ _ _ Hi)) as [Hl Hdo].
  eapply agree_bind; [apply update_agree; eassumption|]. intros o o' Hoo.
  eapply agree_bind; [apply digest_agree; eassumption|].
  intros [x xs] [y ys] [Hx Hy]. cbn [fst snd agree] in *. split; [assumption|split; assumption].
Qed.

Lemma hmac_run_agree T calls : forall m a, mabs T m a -> Forall sha_call_ok calls ->
  hmac_run T calls m = Mac.mac_results (usize_mod T) (overflow_checks T) calls a.
Proof.
  induction calls as [|c cs IH]; intros m a A Hc; [reflexivity|].
  inversion Hc as [|? ? Hc1 Hcs]; subst.
  cbn [hmac_run Mac.mac_results]. destruct c as [d|].
  - pose proof (hmac_update_agree T m a d A Hc1) as Hag.
    destruct (hmac_update T m d) as [s'| |], (Mac.mac_update _ _ a d) as [st'|];
      cbn [agree] in Hag; try contradiction; [|reflexivity].
    rewrite (IH s' st' Hag Hcs). reflexivity.
  - pose proof (hmac_digest_agree T m a A) as Hag.
    destruct (hmac_digest T m) as [[d s']| |], (Mac.mac_digest _ _ a) as [[d' st']|];
      cbn [agree fst snd] in Hag; try contradiction; [|reflexivity].
    destruct Hag as [-> Hag]. rewrite (IH s' st' Hag Hcs). reflexivity.
Qed.

(** Every history, from the key on. *)
Lemma hmac_history_exact T key calls : octets key -> Forall sha_call_ok calls ->
  match hmac_new T key with
  | Ret m => exists a, Mac.new (usize_mod T) (overflow_checks T) key = Some a /\
               hmac_run T calls m = Mac.mac_results (usize_mod T) (overflow_checks T) calls a
  | Panic => Mac.new (usize_mod T) (overflow_checks T) key = None
  | Diverge => False
  end.
Proof.
  intros Hk Hc. pose proof (hmac_new_agree T key Hk) as Hn.
  destruct (hmac_new T key) as [m| |], (Mac.new _ _ key) as [a|]; cbn [agree] in Hn; try contradiction;
    [|reflexivity].
  exists a. split; [reflexivity|]. apply hmac_run_agree; assumption.
Qed.

(** * Conformance *)

Lemma block_key_length K : length (Spec.Hmac.block_key K) = 64%nat.
Proof.
  unfold Spec.Hmac.block_key. destruct (Nat.ltb_spec 64 (length K)).
  - rewrite app_length, repeat_length, spec_sha256_length. reflexivity.
  - rewrite app_length, repeat_length. lia.
Qed.
Lemma octets_block_key K : octets K -> octets (Spec.Hmac.block_key K).
Proof.
  intros Hk. unfold Spec.Hmac.block_key. apply octets_app. split; [|apply octets_repeat; lia].
  destruct (Nat.ltb 64 (length K)); [apply octets_spec_sha256|assumption].
Qed.

(** A hasher that has been fed exactly [l] (length below the counter limit). *)
Definition fed_with (T : target) (s : SHA256) (l : list N) : Prop := abs T s (fed T l).

Lemma update_fed T s l d : fed_with T s l -> octets d -> N.of_nat (length (l ++ d)) < usize_mod T ->
  exists s', sha256_update T s d = Ret s' /\ fed_with T s' (l ++ d).
Proof.
  intros A Hd Hlt. pose proof (update_agree T _ _ d A Hd) as Hag.
  unfold Hasher.update in Hag. cbn [fed total chain pending] in Hag.
  rewrite app_length in Hlt.
  destruct (N.leb_spec (usize_mod T) (N.of_nat (length l) + N.of_nat (length d))); [lia|].
  rewrite andb_false_r, N.mod_small in Hag by assumption.
  rewrite <- absorb_leftover, <- leftover_leftover in Hag.
  destruct (sha256_update T s d) as [s'| |]; cbn [agree] in Hag; try contradiction.
  exists s'. split; [reflexivity|]. unfold fed_with, fed. rewrite app_length, Nat2N.inj_add. exact Hag.
Qed.

Lemma digest_fed_ok T s l : fed_with T s l -> 8 * N.of_nat (length l) < usize_mod T ->
  exists s', sha256_digest T s = Ret (spec_sha256 l, s').
Proof.
  intros A Hlt. pose proof (digest_fed T s l A) as Hd.
  destruct (N.leb_spec (usize_mod T) (8 * N.of_nat (length l))); [lia|].
  rewrite andb_false_r in Hd. destruct Hd as (s' & ->). exists s'.
  rewrite N.mod_small by assumption. rewrite sha256_with_true_length. reflexivity.
Qed.

Lemma new_fed T l : octets l -> N.of_nat (length l) < usize_mod T ->
  exists s, sha256_update T sha256_new l = Ret s /\ fed_with T s l.
Proof. apply update_fresh. Qed.

Definition keyed (T : target) (m : HMac) (key text : list N) : Prop :=
  fed_with T (inner m) (xor (Spec.Hmac.block_key key) Spec.Hmac.ipad ++ text) /\
  fed_with T (outer m) (xor (Spec.Hmac.block_key key) Spec.Hmac.opad).

Lemma keyed_pads_length K : length (xor (Spec.Hmac.block_key K) Spec.Hmac.ipad) = 64%nat
  /\ length (xor (Spec.Hmac.block_key K) Spec.Hmac.opad) = 64%nat.
Proof. rewrite !xor_length, block_key_length. split; reflexivity. Qed.

Lemma new_keyed_short fuel T K : (length K <= 64)%nat -> octets K ->
  exists m, hmac_new_fuel (S fuel) T K = Ret m /\
    fed_with T (inner m) (xor (zpad K) Spec.Hmac.ipad) /\
    fed_with T (outer m) (xor (zpad K) Spec.Hmac.opad).
Proof.
  intros Hk Ho. cbn [hmac_new_fuel].
  destruct (N.ltb_spec BLOCK_SIZE (len K)) as [H|_]; [unfold BLOCK_SIZE, len in H; lia|].
  rewrite key_block by assumption. cbn [bind].
  rewrite opad_block, ipad_block by (apply zpad_length; assumption).
  pose proof (usize_mod_ge T) as Hge. change (2 ^ 32) with 4294967296 in Hge.
  destruct (new_fed T (xor (zpad K) Spec.Hmac.ipad)) as (i & -> & Hi).
  { apply octets_xor; [apply octets_zpad; assumption|apply octets_ipad]. }
  { rewrite xor_length, zpad_length by assumption. cbn. lia. }
  destruct (new_fed T (xor (zpad K) Spec.Hmac.opad)) as (o & -> & Ho').
  { apply octets_xor; [apply octets_zpad; assumption|apply octets_opad]. }
  { rewrite xor_length, zpad_length by assumption. cbn. lia. }
  cbn [bind]. eexists. split; [reflexivity|]. split; assumption.
Qed.

Lemma new_keyed T key : octets key -> 8 * N.of_nat (length key) < usize_mod T ->
  exists m, hmac_new T key = Ret m /\ keyed T m key [].
Proof.
  intros Ho Hlt. unfold hmac_new, keyed, Spec.Hmac.block_key. rewrite app_nil_r.
  destruct (Nat.ltb_spec 64 (length key)) as [Hk|Hk].
  - remember 1%nat as one. cbn [hmac_new_fuel]. subst one.
    destruct (N.ltb_spec BLOCK_SIZE (len key)) as [_|H]; [|unfold BLOCK_SIZE, len in H; lia].
    destruct (new_fed T key Ho) as (s & -> & Hs); [lia|]. cbn [bind].
    destruct (digest_fed_ok T s key Hs Hlt) as (s' & ->). cbn [bind].
    apply new_keyed_short; [rewrite spec_sha256_length; lia|apply octets_spec_sha256].
  - apply new_keyed_short; assumption.
Qed.

Lemma sha256_update_app T s d e :
  sha256_update T s (d ++ e) = bind (sha256_update T s d) (fun s => sha256_update T s e).
Proof. apply for_each_app. Qed.

Lemma hmac_updates_concat T chunks : forall m,
  hmac_updates T m chunks = hmac_update T m (concat chunks).
Proof.
  unfold hmac_updates. induction chunks as [|d ds IH]; intros m.
  - destruct m; reflexivity.
  - cbn [for_each concat]. unfold hmac_update. rewrite sha256_update_app, !bind_assoc.
    destruct (sha256_update T (inner m) d) as [s| |]; cbn [bind]; try reflexivity.
    exact (IH (mkHMac s (outer m))).
Qed.

Lemma update_keyed T m key text d : keyed T m key text -> octets d ->
  N.of_nat (64 + length (text ++ d)) < usize_mod T ->
  exists m', hmac_update T m d = Ret m' /\ keyed T m' key (text ++ d).
Proof.
  intros [Hi Ho] Hd Hlt. unfold hmac_update.
  destruct (keyed_pads_length key) as [Hl _].
  destruct (update_fed T _ _ d Hi Hd) as (i & -> & Hi').
  { rewrite <- app_assoc, app_length, Hl. exact Hlt. }
  cbn [bind]. eexists. split; [reflexivity|]. split; [rewrite app_assoc; exact Hi'|exact Ho].
Qed.

Lemma digest_keyed T m key text : keyed T m key text ->
  8 * N.of_nat (64 + length text) < usize_mod T ->
  exists m', hmac_digest T m = Ret (Spec.Hmac.hmac key text, m').
Proof.
  intros [Hi Ho] Hlt. unfold hmac_digest.
  destruct (keyed_pads_length key) as [Hl1 Hl2].
  pose proof (usize_mod_ge T) as Hge. change (2 ^ 32) with 4294967296 in Hge.
  destruct (digest_fed_ok T _ _ Hi) as (i & ->); [rewrite app_length, Hl1; exact Hlt|]. cbn [bind].
  destruct (update_fed T _ _ (spec_sha256 (xor (Spec.Hmac.block_key key) Spec.Hmac.ipad ++ text)) Ho)
    as (o & -> & Ho'); [apply octets_spec_sha256| |].
  { rewrite app_length, Hl2, spec_sha256_length. cbn. lia. }
  cbn [bind]. destruct (digest_fed_ok T _ _ Ho') as (o' & ->).
  { rewrite app_length, Hl2, spec_sha256_length. cbn. lia. }
  cbn [bind]. eexists. reflexivity.
Qed.

Lemma hmac_conforms T key chunks :
  octets key -> octets (concat chunks) ->
  8 * N.of_nat (length key) < usize_mod T ->
  8 * N.of_nat (64 + length (concat chunks)) < usize_mod T ->
  exists m m' m'', hmac_new T key = Ret m /\ hmac_updates T m chunks = Ret m' /\
    hmac_digest T m' = Ret (Spec.Hmac.hmac key (concat chunks), m'').
Proof.
  intros Hk Hc Hlk Hlc.
  destruct (new_keyed T key Hk Hlk) as (m & Hm & Hkd).
  destruct (update_keyed T m key [] (concat chunks) Hkd Hc) as (m' & Hm' & Hkd'); [cbn [app]; lia|].
  cbn [app] in Hkd'.
  destruct (digest_keyed T m' key _ Hkd' Hlc) as (m'' & Hm'').
  exists m, m', m''. rewrite hmac_updates_concat. repeat split; assumption.
Qed.

Lemma hmac_chunking T m chunks chunks' :
  concat chunks = concat chunks' -> hmac_updates T m chunks = hmac_updates T m chunks'.
Proof. intros E. rewrite !hmac_updates_concat, E. reflexivity. Qed.

(** * Key normalisation *)

Lemma zpad_zeros K z : (length K + z <= 64)%nat -> zpad (K ++ repeat 0 z) = zpad K.
Proof.
  intros H. unfold zpad. rewrite app_length, repeat_length, <- app_assoc, <- repeat_app.
  do 2 f_equal. lia.
Qed.

Lemma hmac_new_zero_pad T K z : (length K + z <= 64)%nat ->
  hmac_new T (K ++ repeat 0 z) = hmac_new T K.
Proof.
  intros H. unfold hmac_new. cbn [hmac_new_fuel].
  destruct (N.ltb_spec BLOCK_SIZE (len (K ++ repeat 0 z))) as [H1|_];
    [unfold BLOCK_SIZE, len in H1; rewrite app_length, repeat_length in H1; lia|].
  destruct (N.ltb_spec BLOCK_SIZE (len K)) as [H1|_]; [unfold BLOCK_SIZE, len in H1; lia|].
  rewrite !key_block by (rewrite ?app_length, ?repeat_length; lia).
  rewrite zpad_zeros by assumption. reflexivity.
Qed.

Lemma hmac_new_long T K : octets K -> (64 < length K)%nat -> 8 * N.of_nat (length K) < usize_mod T ->
  hmac_new T K = hmac_new T (spec_sha256 K).
Proof.
  intros Ho Hk Hlt. unfold hmac_new at 1. remember 1%nat as one. cbn [hmac_new_fuel].
  destruct (N.ltb_spec BLOCK_SIZE (len K)) as [_|H]; [|unfold BLOCK_SIZE, len in H; lia].
  destruct (new_fed T K Ho) as (s & -> & Hs); [lia|]. cbn [bind].
  destruct (digest_fed_ok T s K Hs Hlt) as (s' & ->). cbn [bind]. subst one.
  unfold hmac_new. cbn [hmac_new_fuel].
  destruct (N.ltb_spec BLOCK_SIZE (len (spec_sha256 K))) as [H|_]; [|reflexivity].
  unfold BLOCK_SIZE, len in H. rewrite spec_sha256_length in H. lia.
Qed.

Lemma block_key_cases K : Spec.Hmac.block_key K =
  if (length K <=? 64)%nat then K ++ repeat 0 (64 - length K)
  else Spec.Sha256.sha256 K ++ repeat 0 32.
Proof.
  unfold Spec.Hmac.block_key. destruct (Nat.leb_spec (length K) 64), (Nat.ltb_spec 64 (length K)); try lia.
  - reflexivity.
  - rewrite spec_sha256_length. reflexivity.
Qed.

Lemma hmac_not_idempotent :
  exists m m1 d m2 d' m3,
    hmac_new (mkTarget W64 true) [107] = Ret m /\
    hmac_update (mkTarget W64 true) m [97] = Ret m1 /\
    hmac_digest (mkTarget W64 true) m1 = Ret (d, m2) /\
    hmac_digest (mkTarget W64 true) m2 = Ret (d', m3) /\
    d = Spec.Hmac.hmac [107] [97] /\ d' <> d.
Proof.
  do 6 eexists. split; [vm_compute; reflexivity|]. split; [vm_compute; reflexivity|].
  split; [vm_compute; reflexivity|]. split; [vm_compute; reflexivity|].
  split; [vm_compute; reflexivity|]. vm_compute. discriminate.
Qed.
