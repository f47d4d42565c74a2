(** SHA-256: the streaming hasher against RFC 6234. *)
From Coq Require Import ZArith NArith List Arith Lia Bool ZifyBool ZifyNat ZifyN.
From Verif Require Import Rust Calls.
From Verif.Model Require Import Sha256.
From Verif.Spec Require Octets Sha256 Hasher.
From Verif.Proofs Require Import Base Bits Sha256Core Sha256.
Import Spec.Octets.
Import ListNotations.
Local Open Scope N_scope.
Ltac Zify.zify_post_hook ::= Z.div_mod_to_equations.

Notation spec_sha256 := Spec.Sha256.sha256.

(** [pad_zeros] is the smallest solution of (L + 1 + K) mod 512 = 448. *)
Lemma pad_zeros_least L :
  ((L + 1 + Spec.Sha256.pad_zeros L) mod 512 = 448)%nat /\
  forall K, ((L + 1 + K) mod 512 = 448)%nat -> (Spec.Sha256.pad_zeros L <= K)%nat.
Proof. unfold Spec.Sha256.pad_zeros. split; [lia|]. intros K HK. lia. Qed.

Lemma sha256_with_true_length m :
  Hasher.sha256_with_length m (8 * N.of_nat (length m)) = spec_sha256 m.
Proof.
  unfold Hasher.sha256_with_length, Spec.Sha256.sha256, Spec.Sha256.hash_bits.
  unfold Hasher.pad_with_length, Spec.Sha256.pad.
  replace (N.of_nat (length (bits_of_octets m))) with (8 * N.of_nat (length m)); [reflexivity|].
  rewrite bits_of_octets_length. lia.
Qed.

Lemma bits_zeros z : bits_of_octets (repeat 0 z) = repeat false (8 * z).
Proof.
  induction z as [|z IH]; [reflexivity|]. cbn [repeat bits_of_octets flat_map].
  change (flat_map bits_of_octet (repeat 0 z)) with (bits_of_octets (repeat 0 z)). rewrite IH.
  replace (8 * S z)%nat with (8 + 8 * z)%nat by lia. reflexivity.
Qed.

Lemma pad_octets m bl :
  Hasher.pad_with_length (bits_of_octets m) bl =
  bits_of_octets (m ++ [128] ++ repeat 0 ((119 - length m mod 64) mod 64) ++ be_octets 8 bl).
Proof.
  unfold Hasher.pad_with_length. rewrite bits_of_octets_app. f_equal.
  rewrite !bits_of_octets_app, bits_zeros. rewrite <- (bits_of_num_octets 8).
  rewrite bits_of_octets_length.
  replace (Spec.Sha256.pad_zeros (8 * length m)) with (7 + 8 * ((119 - length m mod 64) mod 64))%nat.
  - rewrite repeat_app. rewrite <- app_assoc. reflexivity.
  - unfold Spec.Sha256.pad_zeros. lia.
Qed.

Lemma absorb_bits h l : fold_left (fun hp b => Spec.Sha256.compress hp (Spec.Sha256.words_of_bits b))
    (blocks 512 (bits_of_octets l)) h = absorb h l.
Proof.
  change 512%nat with (8 * 64)%nat. rewrite blocks_bits by discriminate.
  unfold absorb, absorb_block. generalize (blocks 64 l) as B. intros B. revert h.
  induction B as [|b B IH]; intros h; [reflexivity|]. cbn [map fold_left]. apply IH.
Qed.

(** The final chaining value through the leftover. *)
Lemma with_length_final m bl :
  Hasher.sha256_with_length m bl =
  flat_map (be_octets 4) (absorb (absorb Spec.Sha256.H0 m) (final (leftover m) bl)).
Proof.
  unfold Hasher.sha256_with_length. rewrite pad_octets, absorb_bits.
  rewrite absorb_leftover. unfold final. rewrite leftover_length. reflexivity.
Qed.

(** State after feeding [m] to a new hasher. *)
Definition fed (T : target) (m : list N) : hasher :=
  mkHasher (absorb Spec.Sha256.H0 m) (leftover m) (N.of_nat (length m)).

Lemma updates_concat T chunks : forall s,
  sha_updates T s chunks = sha256_update T s (concat chunks).
Proof.
  unfold sha_updates. induction chunks as [|d ds IH]; intros s; [reflexivity|].
  cbn [for_each concat]. unfold sha256_update. rewrite for_each_app.
  destruct (for_each d (update_byte T) s); cbn [bind]; try reflexivity. apply IH.
Qed.

Lemma update_fresh T m : octets m -> N.of_nat (length m) < usize_mod T ->
  exists s, sha256_update T sha256_new m = Ret s /\ abs T s (fed T m).
Proof.
  intros Hm Hlt. pose proof (update_agree T _ _ m (abs_fresh T) Hm) as Hag.
  unfold Hasher.update in Hag. cbn [Hasher.fresh total chain pending app] in Hag.
  rewrite N.add_0_l in Hag. destruct (N.leb_spec (usize_mod T) (N.of_nat (length m))); [lia|].
  rewrite andb_false_r, N.mod_small in Hag by assumption.
  destruct (sha256_update T sha256_new m) as [s| |]; cbn [agree] in Hag; try contradiction.
  exists s. split; [reflexivity|exact Hag].
Qed.

(** Digest after feeding [m], for every length and target. *)
Lemma digest_fed T s m : abs T s (fed T m) ->
  if (overflow_checks T && (usize_mod T <=? 8 * N.of_nat (length m)))%bool
  then sha256_digest T s = Panic
  else exists s', sha256_digest T s =
         Ret (Hasher.sha256_with_length m ((8 * N.of_nat (length m)) mod usize_mod T), s').
Proof.
  intros A. pose proof (digest_agree T s _ A) as Hag. unfold Hasher.digest in Hag.
  cbn [fed total chain pending] in Hag.
  destruct (overflow_checks T && (usize_mod T <=? 8 * N.of_nat (length m)))%bool.
  - destruct (sha256_digest T s); cbn [agree] in Hag; try contradiction. reflexivity.
  - destruct (sha256_digest T s) as [[d s']| |]; cbn [agree fst snd] in Hag; try contradiction.
    destruct Hag as [-> _]. exists s'. rewrite with_length_final. reflexivity.
Qed.

Lemma sha256_exact T chunks :
  octets (concat chunks) -> N.of_nat (length (concat chunks)) < usize_mod T ->
  let bits := 8 * N.of_nat (length (concat chunks)) in
  exists s, sha_updates T sha256_new chunks = Ret s /\
  (bits < usize_mod T ->
     exists s', sha256_digest T s = Ret (spec_sha256 (concat chunks), s')) /\
  (usize_mod T <= bits -> overflow_checks T = true -> sha256_digest T s = Panic) /\
  (usize_mod T <= bits -> overflow_checks T = false ->
     exists s', sha256_digest T s =
       Ret (Hasher.sha256_with_length (concat chunks) (bits mod usize_mod T), s')).
Proof.
  intros Ho Hlt bits. rewrite updates_concat.
  destruct (update_fresh T _ Ho Hlt) as (s & -> & A). exists s. split; [reflexivity|].
  pose proof (digest_fed T s _ A) as Hd. fold bits in Hd.
  destruct (N.leb_spec (usize_mod T) bits) as [Hge|Hsm].
  - repeat split; intros; try lia.
    + rewrite H0 in Hd. exact Hd.
    + rewrite H0 in Hd. exact Hd.
  - rewrite andb_false_r in Hd. repeat split; intros; try lia.
    destruct Hd as (s' & ->). exists s'. rewrite N.mod_small by assumption.
    unfold bits. rewrite sha256_with_true_length. reflexivity.
Qed.

Lemma sha256_conforms T chunks :
  octets (concat chunks) -> 8 * N.of_nat (length (concat chunks)) < usize_mod T ->
  exists s s', sha_updates T sha256_new chunks = Ret s /\
    sha256_digest T s = Ret (spec_sha256 (concat chunks), s').
Proof.
  intros Ho Hlt. destruct (sha256_exact T chunks Ho) as (s & Hs & Hd & _); [lia|].
  destruct (Hd Hlt) as (s' & Hs'). exists s, s'. split; assumption.
Qed.

(** * Lengths of results and totality *)

Definition shape (c : Hasher.call) (o : option (list N)) : Prop :=
  match o with
  | None => False
  | Some d => length d = match c with Hasher.Update _ => 0%nat | Hasher.Digest => 32%nat end
  end.

Lemma flat_map_be4_length h : length h = 8%nat -> length (flat_map (be_octets 4) h) = 32%nat.
Proof.
  intros Hh. destruct (length_8 h Hh) as (a & b & c & d & e & f & g & k & ->). reflexivity.
Qed.
Lemma spec_sha256_length m : length (spec_sha256 m) = 32%nat.
Proof.
  rewrite <- sha256_with_true_length, with_length_final. apply flat_map_be4_length.
  apply absorb_ok, absorb_ok. split; [apply H0_length|apply words_H0].
Qed.
Lemma octets_flat_map_be k l : octets (flat_map (be_octets k) l).
Proof. induction l as [|x l IH]; cbn; [constructor|]. apply octets_app. split; [apply octets_be_octets|exact IH]. Qed.
Lemma octets_spec_sha256 m : octets (spec_sha256 m).
Proof. apply octets_flat_map_be. Qed.

Fixpoint has_digest (calls : list Hasher.call) : bool :=
  match calls with
  | [] => false
  | Hasher.Digest :: _ => true
  | _ :: cs => has_digest cs
  end.

Lemma results_shape limit checks calls : forall st,
  state_ok (chain st) -> total st + Hasher.bytes_fed calls < limit ->
  (checks = false \/ 8 * (total st + Hasher.bytes_fed calls) < limit \/ ~ In Hasher.Digest calls) ->
  Forall2 shape calls (Hasher.results limit checks calls st).
Proof.
  induction calls as [|c cs IH]; intros st Hst Hlt Hc; [constructor|].
  destruct c as [d|]; cbn [Hasher.results Hasher.bytes_fed] in *.
  - unfold Hasher.update. destruct (N.leb_spec limit (total st + N.of_nat (length d))); [lia|].
    rewrite andb_false_r. constructor; [reflexivity|].
    apply IH; cbn [chain total].
    + apply absorb_ok. assumption.
    + rewrite N.mod_small by lia. lia.
    + rewrite N.mod_small by lia. destruct Hc as [Hc|[Hc|Hc]]; [tauto|right; left; lia|].
      right; right. intros Hin. apply Hc. right. assumption.
  - unfold Hasher.digest. destruct (N.leb_spec limit (8 * total st)).
    + assert (checks = false) as ->.
      { destruct Hc as [Hc|[Hc|Hc]]; [assumption|lia|]. exfalso. apply Hc. left. reflexivity. }
      cbn [andb]. constructor; [apply flat_map_be4_length, absorb_ok; assumption|].
      apply IH; cbn [chain total]; [apply absorb_ok; assumption|assumption|].
      left. reflexivity.
    + rewrite andb_false_r. constructor; [apply flat_map_be4_length, absorb_ok; assumption|].
      apply IH; cbn [chain total]; [apply absorb_ok; assumption|assumption|].
      destruct Hc as [Hc|[Hc|Hc]]; [tauto|right; left; lia|].
      exfalso. apply Hc. left. reflexivity.
Qed.

Lemma sha_run_shape T calls : Forall sha_call_ok calls ->
  Hasher.bytes_fed calls < usize_mod T ->
  (overflow_checks T = false \/ 8 * Hasher.bytes_fed calls < usize_mod T \/ ~ In Hasher.Digest calls) ->
  Forall2 shape calls (sha_run T calls sha256_new).
Proof.
  intros Hok Hlt Hc. rewrite (run_agree T calls _ _ (abs_fresh T) Hok).
  apply results_shape; [|assumption|assumption].
  split; [apply H0_length|apply words_H0].
Qed.

Lemma sha_run_digest_32 T calls i d : Forall sha_call_ok calls ->
  nth_error calls i = Some Hasher.Digest ->
  nth_error (sha_run T calls sha256_new) i = Some (Some d) -> length d = 32%nat.
Proof.
  intros Hok. rewrite (run_agree T calls _ _ (abs_fresh T) Hok).
  assert (Hst : state_ok (chain Hasher.fresh)) by (split; [apply H0_length|apply words_H0]).
  revert Hst. generalize Hasher.fresh as st. clear Hok.
  revert i. induction calls as [|c cs IH]; intros i st Hst Hc Hr; [destruct i; discriminate|].
  destruct c as [x|]; cbn [Hasher.results] in Hr.
  - destruct i as [|i]; [discriminate|]. cbn in Hc.
    unfold Hasher.update in Hr. destruct (_ && _)%bool; [destruct i; discriminate|].
    cbn in Hr. eapply IH; [|exact Hc|exact Hr]. cbn. apply absorb_ok. assumption.
  - unfold Hasher.digest in Hr. destruct (_ && _)%bool.
    + destruct i as [|i]; [discriminate|]. destruct i; discriminate.
    + destruct i as [|i]; cbn in Hc, Hr.
      * injection Hr as <-. apply flat_map_be4_length, absorb_ok. assumption.
      * eapply IH; [|exact Hc|exact Hr]. cbn. apply absorb_ok. assumption.
Qed.

Lemma sha_run_exact T calls : Forall sha_call_ok calls ->
  sha_run T calls sha256_new =
  Hasher.results (usize_mod T) (overflow_checks T) calls Hasher.fresh.
Proof. intros H. apply run_agree; [apply abs_fresh|assumption]. Qed.

Lemma sha256_not_idempotent :
  exists s d s' d' s'',
    sha256_update (mkTarget W64 true) sha256_new [97; 98; 99] = Ret s /\
    sha256_digest (mkTarget W64 true) s = Ret (d, s') /\
    sha256_digest (mkTarget W64 true) s' = Ret (d', s'') /\
    d = spec_sha256 [97; 98; 99] /\ d' <> d.
Proof.
  destruct (sha256_update (mkTarget W64 true) sha256_new [97; 98; 99]) as [s| |] eqn:E1; [|vm_compute in E1; discriminate|vm_compute in E1; discriminate].
  vm_compute in E1. injection E1 as <-.
  do 5 eexists. split; [reflexivity|]. split; [vm_compute; reflexivity|].
  split; [vm_compute; reflexivity|]. split; [vm_compute; reflexivity|].
  vm_compute. discriminate.
Qed.

Lemma sha_chunking T s chunks chunks' :
  concat chunks = concat chunks' -> sha_updates T s chunks = sha_updates T s chunks'.
Proof. intros E. rewrite !updates_concat, E. reflexivity. Qed.

Lemma sha_update_nil T s : sha256_update T s [] = Ret s.
Proof. reflexivity. Qed.

Lemma limits checks :
  (forall n, 8 * n < usize_mod (mkTarget W64 checks) <-> n < 2 ^ 61) /\
  (forall n, 8 * n < usize_mod (mkTarget W32 checks) <-> n < 2 ^ 29).
Proof.
  split; intros n.
  - change (usize_mod (mkTarget W64 checks)) with (8 * 2 ^ 61). lia.
  - change (usize_mod (mkTarget W32 checks)) with (8 * 2 ^ 29). lia.
Qed.

Lemma length_repeat_N n : N.of_nat (length (repeat 0 (N.to_nat n))) = n.
Proof. rewrite repeat_length. lia. Qed.

Lemma rfc_limit_refuted :
  exists T m, octets m /\ N.of_nat (length m) < 2 ^ 61 /\
    exists s, sha256_update T sha256_new m = Ret s /\ sha256_digest T s = Panic.
Proof.
  exists (mkTarget W32 true), (repeat 0 (N.to_nat (2 ^ 29))).
  assert (Ho : octets (repeat 0 (N.to_nat (2 ^ 29)))) by (apply octets_repeat; lia).
  split; [assumption|]. rewrite length_repeat_N. split; [reflexivity|].
  destruct (update_fresh (mkTarget W32 true) _ Ho) as (s & Hs & A).
  { rewrite length_repeat_N. reflexivity. }
  exists s. split; [exact Hs|].
  pose proof (digest_fed _ _ _ A) as Hd. rewrite length_repeat_N in Hd. exact Hd.
Qed.

Lemma wrapped_length_zero m :
  N.of_nat (length m) = 2 ^ 29 -> octets m ->
  exists s s', sha256_update (mkTarget W32 false) sha256_new m = Ret s /\
    sha256_digest (mkTarget W32 false) s = Ret (Hasher.sha256_with_length m 0, s').
Proof.
  intros Hl Ho. destruct (update_fresh (mkTarget W32 false) m Ho) as (s & Hs & A).
  { rewrite Hl. reflexivity. }
  pose proof (digest_fed _ _ _ A) as Hd. rewrite Hl in Hd.
  destruct Hd as (s' & Hs'). exists s, s'. split; [exact Hs|exact Hs'].
Qed.

Lemma second_digest T m :
  octets m -> 8 * N.of_nat (length m) < usize_mod T ->
  let bits := 8 * N.of_nat (length m) in
  let padded := m ++ [128] ++ repeat 0 ((119 - length m mod 64) mod 64) ++ be_octets 8 bits in
  let rest' := firstn (length m mod 64) (skipn (length padded - 64) padded) in
  sha_run T [Hasher.Update m; Hasher.Digest; Hasher.Digest] sha256_new =
  [Some []; Some (spec_sha256 m);
   Some (flat_map (be_octets 4)
     (absorb Spec.Sha256.H0
        (padded ++ rest' ++ [128] ++ repeat 0 ((119 - length m mod 64) mod 64) ++ be_octets 8 bits)))].
Proof.
  intros Ho Hlt bits padded rest'.
  rewrite sha_run_exact by (repeat constructor; assumption).
  cbn [Hasher.results]. unfold Hasher.update. cbn [Hasher.fresh chain pending total app].
  rewrite N.add_0_l. destruct (N.leb_spec (usize_mod T) (N.of_nat (length m))); [lia|].
  rewrite andb_false_r, N.mod_small by lia.
  unfold Hasher.digest. cbn [chain pending total]. fold bits.
  destruct (N.leb_spec (usize_mod T) bits); [lia|].
  rewrite andb_false_r, N.mod_small by assumption.
  cbn [chain pending total]. fold bits.
  destruct (N.leb_spec (usize_mod T) bits); [lia|].
  rewrite andb_false_r, N.mod_small by assumption.
  rewrite <- sha256_with_true_length, with_length_final. fold bits.
  do 3 f_equal. f_equal. f_equal.
  set (f := final (leftover m) bits).
  assert (Hll : length (leftover m) = (length m mod 64)%nat) by apply leftover_length.
  assert (Hm64 : (length m mod 64 < 64)%nat) by (apply Nat.mod_upper_bound; lia).
  assert (Hfl : length f = (if Nat.ltb 55 (length (leftover m)) then 128 else 64)%nat).
  { apply final_length. lia. }
  assert (Hf64 : (64 <= length f)%nat) by (rewrite Hfl; destruct (Nat.ltb 55 _); lia).
  destruct (split_blocks_leftover m) as (m0 & Em & Hm0).
  assert (Hpad : padded = m0 ++ f).
  { unfold padded, f, final. rewrite Hll. rewrite Em at 1. rewrite <- app_assoc. reflexivity. }
  assert (Hrest : firstn (length (leftover m)) (skipn (length f - 64) f) = rest').
  { unfold rest'. rewrite Hll, Hpad. f_equal. rewrite app_length.
    rewrite skipn_app. rewrite (skipn_all2 m0) by lia. cbn [app]. f_equal. lia. }
  rewrite Hrest.
  assert (Hr'l : length rest' = (length m mod 64)%nat).
  { rewrite <- Hrest, firstn_length, skipn_length. lia. }
  rewrite (absorb_app _ padded).
  - rewrite Hpad, (absorb_app _ m0 f) by assumption.
    assert (Hc : absorb Spec.Sha256.H0 m = absorb Spec.Sha256.H0 m0).
    { rewrite Em at 1. rewrite absorb_app by assumption. apply absorb_small. lia. }
    rewrite Hc. f_equal. unfold final. rewrite Hr'l. reflexivity.
  - rewrite Hpad, app_length, Hfl. rewrite Nat.add_mod, Hm0 by lia.
    destruct (Nat.ltb 55 _); reflexivity.
Qed.
