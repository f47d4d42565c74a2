(** The model of pkcs7.rs computes the stream operations of [Spec.Stream]. *)
From Coq Require Import ZArith NArith List Arith Lia Bool ZifyBool ZifyNat ZifyN.
From Verif Require Import Rust Calls.
From Verif.Spec Require Import Octets Cbc Stream.
From Verif.Model Require Import Pkcs7.
From Verif.Proofs Require Import Base Stream.
Import ListNotations.
Local Open Scope N_scope.
Ltac Zify.zify_post_hook ::= Z.div_mod_to_equations.

Lemma of_nat_mod a b : (b <> 0)%nat -> N.of_nat a mod N.of_nat b = N.of_nat (a mod b).
Proof. intros Hb. symmetry. apply Nat2N.inj_mod. Qed.

Lemma split_off_ok {A} (l : list A) n : (n <= length l)%nat ->
  split_off l (N.of_nat n) = Ret (firstn n l, skipn n l).
Proof.
  intros H. unfold split_off, len. destruct (N.leb_spec (N.of_nat n) (N.of_nat (length l))); [|lia].
  rewrite Nat2N.id. reflexivity.
Qed.

Lemma pad_new_ok T k : 2 * k <= isize_max T -> pad_new T k = Ret (mkPad k []).
Proof.
  intros H. unfold pad_new. pose proof (isize_usize T).
  rewrite umul_ok by lia. cbn [bind]. unfold alloc.
  destruct (N.leb_spec (1 * (2 * k)) (isize_max T)); [reflexivity|lia].
Qed.
Lemma unpad_new_ok T k : 2 * k <= isize_max T -> unpad_new T k = Ret (mkUnpad k []).
Proof.
  intros H. unfold unpad_new. pose proof (isize_usize T).
  rewrite umul_ok by lia. cbn [bind]. unfold alloc.
  destruct (N.leb_spec (1 * (2 * k)) (isize_max T)); [reflexivity|lia].
Qed.
Lemma isize_max_ge T : 2147483647 <= isize_max T.
Proof. unfold isize_max, usize_bits. destruct (width T); vm_compute; discriminate. Qed.

Lemma pad_write_ok T k p buf : (k <> 0)%nat ->
  pad_write T (mkPad (N.of_nat k) p) buf =
  Ret (if Nat.ltb (length (p ++ buf)) k then None else Some (whole k (p ++ buf)),
       mkPad (N.of_nat k) (rest k (p ++ buf))).
Proof.
  intros Hk. unfold pad_write. cbn [pad_block_size pad_storage]. set (l := p ++ buf).
  unfold len. destruct (N.ltb_spec (N.of_nat (length l)) (N.of_nat k)) as [H|H];
    destruct (Nat.ltb_spec (length l) k) as [H'|H']; try lia.
  - rewrite (proj2 (whole_short k l H')). reflexivity.
  - unfold urem. destruct (N.eqb_spec (N.of_nat k) 0); [lia|]. cbn [bind].
    rewrite of_nat_mod by assumption.
    pose proof (Nat.div_mod (length l) k Hk) as D.
    rewrite usub_ok by lia. cbn [bind].
    replace (N.of_nat (length l) - N.of_nat (length l mod k))
      with (N.of_nat (k * (length l / k))) by lia.
    rewrite split_off_ok by lia. reflexivity.
Qed.

Lemma unpad_write_ok T k p buf : (k <> 0)%nat ->
  unpad_write T (mkUnpad (N.of_nat k) p) buf =
  Ret (if Nat.leb (length (p ++ buf)) k then None else Some (settled k (p ++ buf)),
       mkUnpad (N.of_nat k) (held k (p ++ buf))).
Proof.
  intros Hk. unfold unpad_write. cbn [unpad_block_size unpad_storage]. set (l := p ++ buf).
  unfold len. destruct (N.leb_spec (N.of_nat (length l)) (N.of_nat k)) as [H|H];
    destruct (Nat.leb_spec (length l) k) as [H'|H']; try lia.
  - rewrite (proj2 (settled_short k l Hk H')). reflexivity.
  - unfold urem. destruct (N.eqb_spec (N.of_nat k) 0); [lia|]. cbn [bind].
    rewrite of_nat_mod by assumption.
    pose proof (Nat.div_mod (length l) k Hk) as D.
    pose proof (Nat.mod_upper_bound (length l) k Hk) as M.
    set (t := (if N.of_nat (length l mod k) =? 0 then N.of_nat k else N.of_nat (length l mod k))).
    assert (Ht : t <= N.of_nat (length l) /\
                 N.of_nat (length l) - t = N.of_nat (k * ((length l - 1) / k))).
    { subst t. destruct (N.eqb_spec (N.of_nat (length l mod k)) 0) as [E|E].
      - assert (E' : (length l mod k = 0)%nat) by lia.
        assert (Hq : ((length l / k - 1) = (length l - 1) / k)%nat).
        { apply (Nat.div_unique (length l - 1) k (length l / k - 1) (k - 1)); [lia|].
          rewrite E' in D. clear - D H' Hk. destruct (length l / k)%nat; lia. }
        rewrite <- Hq. rewrite E' in D. clear - D H' Hk. split; [lia|].
        destruct (length l / k)%nat as [|q]; [lia|]. rewrite D.
        replace (S q - 1)%nat with q by lia. lia.
      - assert (E' : (length l mod k <> 0)%nat) by lia.
        assert (Hq : ((length l / k) = (length l - 1) / k)%nat).
        { apply (Nat.div_unique (length l - 1) k (length l / k) (length l mod k - 1)); lia. }
        rewrite <- Hq. clear - D. revert D.
        generalize (length l / k)%nat (length l mod k)%nat. intros q r D.
        assert (N.of_nat (length l) = N.of_nat (k * q) + N.of_nat r) by lia. lia. }
    clearbody t. destruct Ht as [Ht1 Ht2].
    rewrite usub_ok by assumption. cbn [bind]. rewrite Ht2.
    rewrite split_off_ok by lia. reflexivity.
Qed.

Lemma while_push fuel k (x : N) : forall p : list N, (length p <= k)%nat -> (k - length p <= fuel)%nat ->
  while_loop fuel (fun st => len st <? N.of_nat k) (fun st => Ret (st ++ [x])) p =
  Ret (p ++ repeat x (k - length p)).
Proof.
  induction fuel as [|fuel IH]; intros p Hp Hf; cbn [while_loop]; unfold len.
  - destruct (N.ltb_spec (N.of_nat (length p)) (N.of_nat k)); [lia|].
    replace (k - length p)%nat with 0%nat by lia. cbn [repeat]. rewrite app_nil_r. reflexivity.
  - destruct (N.ltb_spec (N.of_nat (length p)) (N.of_nat k)).
    + cbn [bind]. assert (L : length (p ++ [x]) = S (length p)) by (rewrite app_length; cbn; lia).
      rewrite IH by lia. rewrite L, <- app_assoc. cbn [app].
      replace (k - length p)%nat with (S (k - S (length p))) by lia. reflexivity.
    + replace (k - length p)%nat with 0%nat by lia. cbn [repeat]. rewrite app_nil_r. reflexivity.
Qed.

Lemma pad_flush_any T k p : (length p <= k)%nat ->
  pad_flush T (mkPad (N.of_nat k) p) =
  Ret (p ++ repeat (N.of_nat (k - length p) mod 256) (k - length p), mkPad (N.of_nat k) []).
Proof.
  intros Hp. unfold pad_flush. cbn [pad_block_size pad_storage]. unfold len at 1.
  rewrite usub_ok by lia. cbn [bind]. rewrite while_push by lia. cbn [bind].
  unfold as_u8. rewrite <- Nat2N.inj_sub. reflexivity.
Qed.
Lemma pad_flush_ok T k p : (k < 256)%nat -> (length p < k)%nat ->
  pad_flush T (mkPad (N.of_nat k) p) = Ret (pkcs7_pad k p, mkPad (N.of_nat k) []).
Proof.
  intros Hk Hp. rewrite pad_flush_any by lia. unfold pkcs7_pad.
  rewrite (Nat.mod_small (length p) k) by assumption. rewrite N.mod_small by lia. reflexivity.
Qed.

(** The constant-time comparison is a comparison. *)
Lemma lor_fold_zero n l acc :
  fold_left (fun acc b => N.lor acc (N.lxor n b)) l acc = 0 <->
  acc = 0 /\ forallb (N.eqb n) l = true.
Proof.
  revert acc. induction l as [|b l IH]; intros acc; cbn [fold_left forallb]; [tauto|].
  rewrite IH, N.lor_eq_0_iff, N.lxor_eq_0_iff, andb_true_iff, N.eqb_eq. tauto.
Qed.

Lemma unpad_flush_ok T k s : (1 <= k < 256)%nat ->
  unpad_flush T (mkUnpad (N.of_nat k) s) =
  Ret (match strip k s with
       | Stripped m => (Ok m, mkUnpad (N.of_nat k) [])
       | Incomplete => (Err UnfinishedBlock, mkUnpad (N.of_nat k) s)
       | Invalid => (Err InvalidPadding, mkUnpad (N.of_nat k) s)
       end).
Proof.
  intros Hk. unfold unpad_flush, strip. cbn [unpad_block_size unpad_storage].
  unfold len at 1. destruct (Nat.eqb_spec (length s) k) as [E|E];
    destruct (N.eqb_spec (N.of_nat (length s)) (N.of_nat k)); try lia; cbn [negb]; [|reflexivity].
  unfold len at 1. rewrite usub_ok by lia. cbn [bind].
  rewrite (idx_nth s _ 256) by lia. cbn [bind].
  replace (N.to_nat (N.of_nat (length s) - 1)) with (length s - 1)%nat by lia.
  rewrite <- last_nth. set (n := last s 256). unfold as_u8. rewrite N.mod_small by lia.
  destruct (N.ltb_spec (N.of_nat k) n) as [Hn|Hn];
    destruct (Nat.leb_spec (N.to_nat n) k) as [Hn'|Hn']; try lia; cbn [andb]; [reflexivity|].
  rewrite usub_ok by lia. cbn [bind]. unfold slice_from, slice_to.
  rewrite !slice_ok by (unfold len; lia). cbn [bind].
  replace (N.to_nat (N.of_nat k - n)) with (k - N.to_nat n)%nat by lia.
  cbn [N.to_nat skipn]. rewrite Nat.sub_0_r.
  rewrite (firstn_all2 (skipn _ s)) by (rewrite skipn_length; unfold len; lia).
  rewrite N2Nat.id.
  pose proof (lor_fold_zero n (skipn (k - N.to_nat n) s) 0) as F.
  destruct (forallb (N.eqb n) (skipn (k - N.to_nat n) s)).
  - rewrite (proj2 F) by auto. reflexivity.
  - destruct (N.eqb_spec (fold_left (fun acc b => N.lor acc (N.lxor n b)) (skipn (k - N.to_nat n) s) 0) 0) as [E0|E0];
      [apply F in E0; destruct E0; discriminate|reflexivity].
Qed.

(** * Whole streams *)

Definition opt_bytes (o : option (list N)) : list N := match o with Some l => l | None => [] end.

Lemma emitted_cons o os : emitted (o :: os) = opt_bytes o ++ emitted os.
Proof. reflexivity. Qed.
Lemma emitted_app a b : emitted (a ++ b) = emitted a ++ emitted b.
Proof. unfold emitted. rewrite map_app, concat_app. reflexivity. Qed.

Lemma pad_writes_ok T k chunks : (k <> 0)%nat -> forall p, (length p < k)%nat ->
  exists outs, pad_writes T (mkPad (N.of_nat k) p) chunks =
    Ret (outs, mkPad (N.of_nat k) (rest k (p ++ concat chunks))) /\
    length outs = length chunks /\
    forall i, (i <= length chunks)%nat ->
      emitted (firstn i outs) = whole k (p ++ concat (firstn i chunks)).
Proof.
  intros Hk. induction chunks as [|d ds IH]; intros p Hp.
  - exists []. cbn [pad_writes concat]. rewrite app_nil_r, (proj2 (whole_short k p Hp)).
    split; [reflexivity|]. split; [reflexivity|]. intros i _. rewrite !firstn_nil. cbn [concat].
    rewrite app_nil_r, (proj1 (whole_short k p Hp)). reflexivity.
  - cbn [pad_writes]. rewrite pad_write_ok by assumption. cbn [bind].
    destruct (IH (rest k (p ++ d)) (rest_lt k _ Hk)) as (outs & -> & Hl & Ho). cbn [bind].
    eexists. split; [|split].
    + do 3 f_equal. cbn [concat]. rewrite (app_assoc p d). symmetry. apply whole_app. assumption.
    + cbn [length]. congruence.
    + intros [|i] Hi.
      * cbn [firstn concat]. rewrite app_nil_r, (proj1 (whole_short k p Hp)). reflexivity.
      * cbn [firstn length concat] in *. rewrite emitted_cons, Ho by lia.
        rewrite (app_assoc p d), (proj1 (whole_app k (p ++ d) _ Hk)). f_equal.
        unfold opt_bytes. destruct (Nat.ltb_spec (length (p ++ d)) k) as [H|H]; [|reflexivity].
        rewrite (proj1 (whole_short k _ H)). reflexivity.
Qed.

Lemma unpad_writes_ok T k chunks : (k <> 0)%nat -> forall p, (length p <= k)%nat ->
  exists outs, unpad_writes T (mkUnpad (N.of_nat k) p) chunks =
    Ret (outs, mkUnpad (N.of_nat k) (held k (p ++ concat chunks))) /\
    length outs = length chunks /\
    forall i, (i <= length chunks)%nat ->
      emitted (firstn i outs) = settled k (p ++ concat (firstn i chunks)).
Proof.
  intros Hk. induction chunks as [|d ds IH]; intros p Hp.
  - exists []. cbn [unpad_writes concat]. rewrite app_nil_r, (proj2 (settled_short k p Hk Hp)).
    split; [reflexivity|]. split; [reflexivity|]. intros i _. rewrite !firstn_nil. cbn [concat].
    rewrite app_nil_r, (proj1 (settled_short k p Hk Hp)). reflexivity.
  - cbn [unpad_writes]. rewrite unpad_write_ok by assumption. cbn [bind].
    destruct (IH (held k (p ++ d)) (held_le k _ Hk)) as (outs & -> & Hl & Ho). cbn [bind].
    eexists. split; [|split].
    + do 3 f_equal. cbn [concat]. rewrite (app_assoc p d). symmetry. apply settled_app. assumption.
    + cbn [length]. congruence.
    + intros [|i] Hi.
      * cbn [firstn concat]. rewrite app_nil_r, (proj1 (settled_short k p Hk Hp)). reflexivity.
      * cbn [firstn length concat] in *. rewrite emitted_cons, Ho by lia.
        rewrite (app_assoc p d), (proj1 (settled_app k (p ++ d) _ Hk)). f_equal.
        unfold opt_bytes. destruct (Nat.leb_spec (length (p ++ d)) k) as [H|H]; [|reflexivity].
        rewrite (proj1 (settled_short k _ Hk H)). reflexivity.
Qed.

Lemma block_size_fits T k : k < 256 -> 2 * k <= isize_max T.
Proof. intros H. pose proof (isize_max_ge T). lia. Qed.

Lemma pad_stream_ok T k chunks : (1 <= k < 256)%nat ->
  exists outs b, pad_stream T (N.of_nat k) chunks = Ret (outs, b) /\
    length outs = length chunks /\
    (forall i, (i <= length chunks)%nat -> emitted (firstn i outs) = whole k (concat (firstn i chunks))) /\
    b = pkcs7_pad k (rest k (concat chunks)) /\
    emitted outs ++ b = pkcs7_pad k (concat chunks).
Proof.
  intros Hk. unfold pad_stream. rewrite pad_new_ok by (apply block_size_fits; lia). cbn [bind].
  destruct (pad_writes_ok T k chunks) with (p := @nil N) as (outs & -> & Hl & Ho); [lia|cbn; lia|].
  cbn [bind app] in *. rewrite pad_flush_ok by (try apply rest_lt; lia). cbn [bind].
  do 2 eexists. split; [reflexivity|]. split; [assumption|]. split; [assumption|].
  split; [reflexivity|]. rewrite (pkcs7_pad_split k (concat chunks)) by lia. f_equal.
  specialize (Ho (length chunks) (le_n _)). rewrite (firstn_all chunks), firstn_all2 in Ho by lia.
  exact Ho.
Qed.

Lemma unpad_stream_ok T k chunks : (1 <= k < 256)%nat ->
  exists outs, unpad_stream T (N.of_nat k) chunks =
    Ret (outs, match strip k (held k (concat chunks)) with
               | Stripped m => Ok m
               | Incomplete => Err UnfinishedBlock
               | Invalid => Err InvalidPadding
               end) /\
    length outs = length chunks /\
    (forall i, (i <= length chunks)%nat -> emitted (firstn i outs) = settled k (concat (firstn i chunks))) /\
    emitted outs = settled k (concat chunks).
Proof.
  intros Hk. unfold unpad_stream. rewrite unpad_new_ok by (apply block_size_fits; lia). cbn [bind].
  destruct (unpad_writes_ok T k chunks) with (p := @nil N) as (outs & -> & Hl & Ho); [lia|cbn; lia|].
  cbn [bind app] in *. rewrite unpad_flush_ok by lia. exists outs.
  split; [destruct (strip _ _); reflexivity|]. split; [assumption|]. split; [assumption|].
  specialize (Ho (length chunks) (le_n _)). rewrite (firstn_all chunks), firstn_all2 in Ho by lia.
  exact Ho.
Qed.

(** * Other block sizes *)

(** An empty stream through a padder with a block size that does not fit a
    byte, and back. *)
Lemma pad_empty_any T k : N.of_nat (2 * k) <= isize_max T ->
  pad_stream T (N.of_nat k) [] = Ret ([], repeat (N.of_nat k mod 256) k).
Proof.
  intros H. unfold pad_stream. rewrite pad_new_ok by lia. cbn [bind pad_writes].
  rewrite pad_flush_any by (cbn; lia). cbn [bind length app]. rewrite Nat.sub_0_r. reflexivity.
Qed.
