(** Bit strings, octet strings and numbers. *)
From Coq Require Import ZArith NArith List Arith Lia Bool ZifyBool ZifyNat ZifyN.
From Verif Require Import Rust.
From Verif.Spec Require Import Octets.
From Verif.Proofs Require Import Base.
Import ListNotations.
Local Open Scope N_scope.
Ltac Zify.zify_post_hook ::= Z.div_mod_to_equations.

(** All octets, for exhaustive checks. *)
Definition all_octets : list N := map N.of_nat (seq 0 256).
Lemma in_all_octets x : x < 256 -> In x all_octets.
Proof.
  intros Hx. apply in_map_iff. exists (N.to_nat x). split; [lia|]. apply in_seq. lia.
Qed.
Lemma octet_check (f : N -> bool) : forallb f all_octets = true -> forall x, x < 256 -> f x = true.
Proof. intros H x Hx. rewrite forallb_forall in H. apply H. apply in_all_octets. assumption. Qed.

Lemma num_of_bits_acc l acc :
  fold_left (fun acc b => 2 * acc + (if b : bool then 1 else 0)) l acc =
  acc * 2 ^ N.of_nat (length l) + num_of_bits l.
Proof.
  unfold num_of_bits. revert acc; induction l as [|b l IH]; intros acc.
  - cbn. lia.
  - cbn [fold_left length]. rewrite IH. rewrite (IH (2 * 0 + _)).
    rewrite Nat2N.inj_succ, N.pow_succ_r'. destruct b; lia.
Qed.
Lemma num_of_bits_app x y :
  num_of_bits (x ++ y) = num_of_bits x * 2 ^ N.of_nat (length y) + num_of_bits y.
Proof. unfold num_of_bits at 1. rewrite fold_left_app. apply num_of_bits_acc. Qed.

Lemma num_of_bits_octet b : b < 256 -> num_of_bits (bits_of_octet b) = b.
Proof.
  intros Hb. apply N.eqb_eq.
  apply (octet_check (fun b => num_of_bits (bits_of_octet b) =? b)); [|assumption].
  vm_compute. reflexivity.
Qed.

Lemma bits_of_octet_length b : length (bits_of_octet b) = 8%nat.
Proof. reflexivity. Qed.
Lemma bits_of_octets_length l : length (bits_of_octets l) = (8 * length l)%nat.
Proof.
  unfold bits_of_octets. induction l as [|b l IH]; [reflexivity|].
  cbn [flat_map]. rewrite app_length, IH, bits_of_octet_length. cbn [length]. lia.
Qed.
Lemma bits_of_octets_app l l' : bits_of_octets (l ++ l') = bits_of_octets l ++ bits_of_octets l'.
Proof. apply flat_map_app. Qed.

Lemma le_num_app l l' : le_num (l ++ l') = le_num l + 256 ^ N.of_nat (length l) * le_num l'.
Proof.
  induction l as [|b l IH]; cbn [le_num app length].
  - change (N.of_nat 0) with 0. rewrite N.pow_0_r. lia.
  - rewrite IH. rewrite Nat2N.inj_succ, N.pow_succ_r'. lia.
Qed.
Lemma be_num_cons b l : be_num (b :: l) = b * 256 ^ N.of_nat (length l) + be_num l.
Proof.
  unfold be_num. cbn [rev]. rewrite le_num_app. cbn [le_num]. rewrite rev_length. lia.
Qed.
Lemma le_num_lt l : octets l -> le_num l < 256 ^ N.of_nat (length l).
Proof.
  induction 1 as [|b l Hb Hl IH]; [reflexivity|].
  cbn [le_num length]. rewrite Nat2N.inj_succ, N.pow_succ_r'. lia.
Qed.
Lemma be_num_lt l : octets l -> be_num l < 256 ^ N.of_nat (length l).
Proof.
  intros Hl. unfold be_num. rewrite <- (rev_length l). apply le_num_lt.
  apply Forall_rev. assumption.
Qed.

Lemma num_of_bits_octets l : octets l -> num_of_bits (bits_of_octets l) = be_num l.
Proof.
  induction 1 as [|b l Hb Hl IH]; [reflexivity|].
  rewrite be_num_cons. cbn [bits_of_octets flat_map].
  change (flat_map bits_of_octet l) with (bits_of_octets l).
  rewrite num_of_bits_app, num_of_bits_octet, IH, bits_of_octets_length by assumption.
  replace (N.of_nat (8 * length l)) with (8 * N.of_nat (length l)) by lia.
  rewrite N.pow_mul_r. reflexivity.
Qed.

(** Blocks of bits and blocks of octets. *)
Lemma firstn_bits n l : firstn (8 * n) (bits_of_octets l) = bits_of_octets (firstn n l).
Proof.
  revert l; induction n as [|n IH]; intros l; [reflexivity|].
  destruct l as [|b l]; [rewrite firstn_nil; reflexivity|].
  replace (8 * S n)%nat with (8 + 8 * n)%nat by lia.
  cbn [bits_of_octets flat_map firstn].
  change (flat_map bits_of_octet l) with (bits_of_octets l).
  rewrite firstn_app, bits_of_octet_length.
  replace (8 + 8 * n - 8)%nat with (8 * n)%nat by lia.
  rewrite (firstn_all2 (n := 8 + 8 * n)) by (rewrite bits_of_octet_length; lia).
  rewrite IH. reflexivity.
Qed.
Lemma skipn_bits n l : skipn (8 * n) (bits_of_octets l) = bits_of_octets (skipn n l).
Proof.
  revert l; induction n as [|n IH]; intros l; [reflexivity|].
  destruct l as [|b l]; [rewrite !skipn_nil; reflexivity|].
  replace (8 * S n)%nat with (8 + 8 * n)%nat by lia.
  cbn [bits_of_octets flat_map skipn].
  change (flat_map bits_of_octet l) with (bits_of_octets l).
  rewrite skipn_app, bits_of_octet_length.
  replace (8 + 8 * n - 8)%nat with (8 * n)%nat by lia.
  rewrite (skipn_all2 (n := 8 + 8 * n)) by (rewrite bits_of_octet_length; lia).
  rewrite IH. reflexivity.
Qed.
Lemma groups_bits k n l : groups k (8 * n) (bits_of_octets l) = map bits_of_octets (groups k n l).
Proof.
  revert l; induction k as [|k IH]; intros l; [reflexivity|].
  cbn [groups map]. rewrite firstn_bits, skipn_bits, IH. reflexivity.
Qed.
Lemma blocks_bits n l : (n <> 0)%nat ->
  blocks (8 * n) (bits_of_octets l) = map bits_of_octets (blocks n l).
Proof.
  intros Hn. unfold blocks. rewrite bits_of_octets_length.
  rewrite Nat.div_mul_cancel_l by lia. apply groups_bits.
Qed.

(** Numbers to bits and octets. *)
Lemma be_octets_S k x : be_octets (S k) x = be_octets k (x / 256) ++ [x mod 256].
Proof. reflexivity. Qed.
Lemma le_octets_length k x : length (le_octets k x) = k.
Proof. revert x; induction k as [|k IH]; intros x; cbn; auto. Qed.
Lemma be_octets_length k x : length (be_octets k x) = k.
Proof. unfold be_octets. rewrite rev_length. apply le_octets_length. Qed.
Lemma octets_le_octets k x : octets (le_octets k x).
Proof.
  revert x; induction k as [|k IH]; intros x; cbn; constructor; [apply N.mod_lt; lia|apply IH].
Qed.
Lemma octets_be_octets k x : octets (be_octets k x).
Proof. apply Forall_rev. apply octets_le_octets. Qed.

Lemma le_num_le_octets k x : le_num (le_octets k x) = x mod 256 ^ N.of_nat k.
Proof.
  revert x; induction k as [|k IH]; intros x.
  - change (N.of_nat 0) with 0. rewrite N.pow_0_r, N.mod_1_r. reflexivity.
  - cbn [le_octets le_num]. rewrite IH. rewrite Nat2N.inj_succ, N.pow_succ_r'.
    rewrite N.mod_mul_r by (try apply N.pow_nonzero; lia). reflexivity.
Qed.
Lemma le_octets_le_num l : octets l -> le_octets (length l) (le_num l) = l.
Proof.
  induction 1 as [|b l Hb Hl IH]; [reflexivity|]. cbn [le_octets le_num length].
  f_equal; [lia|]. replace ((b + 256 * le_num l) / 256) with (le_num l) by lia. assumption.
Qed.
Lemma be_num_be_octets k x : be_num (be_octets k x) = x mod 256 ^ N.of_nat k.
Proof. unfold be_num, be_octets. rewrite rev_involutive. apply le_num_le_octets. Qed.
Lemma be_octets_be_num l : octets l -> be_octets (length l) (be_num l) = l.
Proof.
  intros Hl. unfold be_num, be_octets. rewrite <- (rev_length l).
  rewrite le_octets_le_num by (apply Forall_rev; assumption). apply rev_involutive.
Qed.

Lemma bits_of_octet_mod x : bits_of_octet (x mod 256) = rev (map (fun i => N.testbit x (N.of_nat i)) (seq 0 8)).
Proof.
  unfold bits_of_octet. change 256 with (2 ^ 8). cbn [map seq rev app].
  rewrite !N.mod_pow2_bits_low by lia. reflexivity.
Qed.

Lemma seq_offset a s m : seq (a + s) m = map (Nat.add a) (seq s m).
Proof.
  revert s; induction m as [|m IH]; intros s; [reflexivity|]. cbn [seq map].
  f_equal. rewrite <- IH. f_equal. lia.
Qed.

Lemma bits_of_num_octets k x : bits_of_num (8 * k) x = bits_of_octets (be_octets k x).
Proof.
  revert x; induction k as [|k IH]; intros x; [reflexivity|].
  rewrite be_octets_S, bits_of_octets_app, <- IH.
  cbn [bits_of_octets flat_map]. rewrite app_nil_r, bits_of_octet_mod.
  unfold bits_of_num. replace (8 * S k)%nat with (8 + 8 * k)%nat by lia.
  rewrite seq_app, map_app, rev_app_distr. f_equal. f_equal.
  change (0 + 8)%nat with (8 + 0)%nat. rewrite seq_offset.
  rewrite map_map. apply map_ext. intros i. change 256 with (2 ^ 8).
  rewrite N.div_pow2_bits. f_equal. lia.
Qed.

(** Big-endian words assembled with shifts. *)
Lemma shl32_small x s : x < 256 -> s <= 24 -> shl32 x s = x * 2 ^ s.
Proof.
  intros Hx Hs. unfold shl32. rewrite N.shiftl_mul_pow2. apply N.mod_small.
  apply N.lt_le_trans with (2 ^ 8 * 2 ^ 24); [|vm_compute; discriminate].
  assert (2 ^ s <= 2 ^ 24) by (apply N.pow_le_mono_r; lia).
  pose proof (pow2_pos s). change (2 ^ 8) with 256. nia.
Qed.

Lemma be_word a b c d : a < 256 -> b < 256 -> c < 256 -> d < 256 ->
  N.lor (N.lor (N.lor (shl32 a 24) (shl32 b 16)) (shl32 c 8)) d = be_num [a; b; c; d].
Proof.
  intros Ha Hb Hc Hd. rewrite !shl32_small by lia.
  rewrite lor_add_disjoint by (change (2 ^ 24) with (256 * 2 ^ 16); change (2 ^ 16) with 65536; lia).
  replace (a * 2 ^ 24 + b * 2 ^ 16) with ((a * 256 + b) * 2 ^ 16)
    by (change (2 ^ 24) with 16777216; change (2 ^ 16) with 65536; lia).
  rewrite lor_add_disjoint by (change (2 ^ 16) with 65536; change (2 ^ 8) with 256; lia).
  replace ((a * 256 + b) * 2 ^ 16 + c * 2 ^ 8) with (((a * 256 + b) * 256 + c) * 2 ^ 8)
    by (change (2 ^ 16) with 65536; change (2 ^ 8) with 256; lia).
  rewrite lor_add_disjoint by (change (2 ^ 8) with 256; lia).
  unfold be_num. cbn [rev app le_num]. change (2 ^ 8) with 256. lia.
Qed.

Lemma le_word a b c d : a < 256 -> b < 256 -> c < 256 -> d < 256 ->
  N.lor (N.lor (N.lor a (shl32 b 8)) (shl32 c 16)) (shl32 d 24) = le_num [a; b; c; d].
Proof.
  intros Ha Hb Hc Hd. rewrite !shl32_small by lia.
  rewrite (lor_add_disjoint' b a) by (change (2 ^ 8) with 256; lia).
  rewrite (lor_add_disjoint' c) by (change (2 ^ 16) with 65536; change (2 ^ 8) with 256; lia).
  rewrite lor_add_disjoint' by (change (2 ^ 24) with 16777216; change (2 ^ 16) with 65536; change (2 ^ 8) with 256; lia).
  cbn [le_num]. change (2 ^ 24) with 16777216; change (2 ^ 16) with 65536; change (2 ^ 8) with 256. lia.
Qed.

Lemma be_octets_4 x : be_octets 4 x = [as_u8 (shr x 24); as_u8 (shr x 16); as_u8 (shr x 8); as_u8 x].
Proof.
  unfold be_octets. cbn [le_octets rev app]. rewrite !shr_div. unfold as_u8.
  rewrite !N.div_div by discriminate. reflexivity.
Qed.
Lemma le_octets_4 x : le_octets 4 x = [as_u8 x; as_u8 (shr x 8); as_u8 (shr x 16); as_u8 (shr x 24)].
Proof.
  cbn [le_octets]. rewrite !shr_div. unfold as_u8.
  rewrite !N.div_div by discriminate. reflexivity.
Qed.
Lemma be_octets_8 x : be_octets 8 x =
  [as_u8 (shr x 56); as_u8 (shr x 48); as_u8 (shr x 40); as_u8 (shr x 32);
   as_u8 (shr x 24); as_u8 (shr x 16); as_u8 (shr x 8); as_u8 x].
Proof.
  unfold be_octets. cbn [le_octets rev app]. rewrite !shr_div. unfold as_u8.
  rewrite !N.div_div by discriminate. reflexivity.
Qed.
