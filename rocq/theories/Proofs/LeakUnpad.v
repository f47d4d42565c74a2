(** What a run of [Unpad::flush] looks like. *)
From Coq Require Import ZArith NArith List Arith Lia Bool ZifyBool ZifyNat ZifyN.
From Verif Require Import Rust.
From Verif.Model Require Pkcs7 AesCbc.
From Verif.Leak Require Ops Pkcs7 AesCbc.
From Verif.Spec Require Octets Stream Leakage.
From Verif.Proofs Require Import Base Bits Leak LeakErase.
From Verif.Proofs Require Stream Pkcs7.
Import ListNotations.
Import Spec.Octets Spec.Stream Spec.Leakage.
Import Leak.Ops(Read, Write, Range, Run, Branch).
Local Open Scope N_scope.

(** The record of a flush. *)
Definition flush_record (k : nat) (v : flush_view) : list Ops.event :=
  match v with
  | Short => [Branch true]
  | TooLarge => [Branch false; Read (N.of_nat k - 1); Branch true]
  | Mismatch n =>
      [Branch false; Read (N.of_nat k - 1); Branch false;
       Range (N.of_nat k - n) (N.of_nat k); Run n; Branch true]
  | Removed n =>
      [Branch false; Read (N.of_nat k - 1); Branch false;
       Range (N.of_nat k - n) (N.of_nat k); Run n; Branch false;
       Range 0 (N.of_nat k - n); Run (N.of_nat k - n)]
  end.

Lemma flush_trace T k s : (1 <= k < 256)%nat ->
  Ops.visible (Leak.Pkcs7.unpad_flush T (Model.Pkcs7.mkUnpad (N.of_nat k) s)) =
  (flush_record k (view_of k s), Ops.Returned).
Proof.
  intros Hk. unfold Ops.visible. rewrite unpad_flush_er.
  rewrite Proofs.Pkcs7.unpad_flush_ok by assumption.
  f_equal.
  unfold Leak.Pkcs7.unpad_flush, view_of, strip.
  cbn [Model.Pkcs7.unpad_block_size Model.Pkcs7.unpad_storage].
  unfold len at 1. rewrite trace_branch.
  destruct (Nat.eqb_spec (length s) k) as [El|El];
    destruct (N.eqb_spec (N.of_nat (length s)) (N.of_nat k)); try lia; cbn [negb];
    [|reflexivity].
  rewrite (trace_bind _ _ (N.of_nat k - 1)).
  2: { unfold len. rewrite El. apply usub_ok. lia. }
  set (n := last s 256).
  rewrite (trace_bind _ _ n).
  2: { change (idx s (N.of_nat k - 1) = Ret n). rewrite (idx_nth s _ 256) by lia.
       replace (N.to_nat (N.of_nat k - 1)) with (length s - 1)%nat by lia.
       rewrite <- Proofs.Stream.last_nth. reflexivity. }
  rewrite trace_branch. unfold as_u8. rewrite N.mod_small by lia.
  destruct (N.ltb_spec (N.of_nat k) n) as [Hn|Hn];
    destruct (Nat.leb_spec (N.to_nat n) k) as [Hn'|Hn']; try lia; cbn [andb]; [reflexivity|].
  rewrite (trace_bind _ _ (N.of_nat k - n)) by (apply usub_ok; lia).
  set (t := skipn (k - N.to_nat n) s).
  assert (Et : slice s (N.of_nat k - n) (len s) = Ret t).
  { rewrite slice_ok by (unfold len; lia).
    replace (N.to_nat (N.of_nat k - n)) with (k - N.to_nat n)%nat by lia.
    rewrite firstn_all2 by (rewrite skipn_length; unfold len; lia). reflexivity. }
  assert (Lt : len t = n) by (unfold len, t; rewrite skipn_length; lia).
  assert (Eh : slice s 0 (N.of_nat k - n) = Ret (firstn (k - N.to_nat n) s)).
  { rewrite slice_ok by (unfold len; lia).
    replace (N.to_nat (N.of_nat k - n) - N.to_nat 0)%nat with (k - N.to_nat n)%nat by lia.
    reflexivity. }
  assert (Lh : len (firstn (k - N.to_nat n) s) = N.of_nat k - n)
    by (unfold len; rewrite firstn_length; lia).
  rewrite (trace_bind _ _ t) by exact Et.
  set (x := fold_left (fun acc b => N.lor acc (N.lxor n b)) t 0).
  rewrite (trace_bind _ _ x) by reflexivity. rewrite Lt.
  rewrite trace_branch, N2Nat.id. fold t.
  pose proof (Proofs.Pkcs7.lor_fold_zero n t 0) as F. fold x in F.
  change (Ops.trace (Ops.slice_from s (N.of_nat k - n))) with [Range (N.of_nat k - n) (len s)].
  replace (len s) with (N.of_nat k) by (unfold len; lia).
  destruct (forallb (N.eqb n) t).
  - rewrite (proj2 F) by auto. cbn [N.eqb negb].
    rewrite (trace_bind _ _ (firstn (k - N.to_nat n) s)) by exact Eh. rewrite Lh. reflexivity.
  - destruct (N.eqb_spec x 0) as [E0|E0]; [apply F in E0; destruct E0; discriminate|]. reflexivity.
Qed.

Lemma record_inj k v1 v2 : flush_record k v1 = flush_record k v2 -> v1 = v2.
Proof.
  destruct v1, v2; cbn; intros H; try discriminate; try reflexivity; injection H; intros; subst; reflexivity.
Qed.
