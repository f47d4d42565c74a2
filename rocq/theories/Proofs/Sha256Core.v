(** The compression function of the model is that of RFC 6234. *)
From Coq Require Import ZArith NArith List Arith Lia Bool ZifyBool ZifyNat ZifyN.
From Verif Require Import Rust.
From Verif.Model Require Sha256.
From Verif.Spec Require Import Octets Sha256.
From Verif.Proofs Require Import Base.
Import ListNotations.
Local Open Scope N_scope.
Ltac Zify.zify_post_hook ::= Z.div_mod_to_equations.

Definition word (x : N) : Prop := x < 2 ^ 32.
Definition words (l : list N) : Prop := Forall word l.

Lemma K_Kt : Model.Sha256.K = Kt.
Proof. vm_compute. reflexivity. Qed.
Lemma H_H0 : Model.Sha256.H = H0.
Proof. vm_compute. reflexivity. Qed.
Lemma Kt_length : length Kt = 64%nat.
Proof. vm_compute. reflexivity. Qed.
Lemma words_b_spec l : forallb (fun x => x <? 2 ^ 32) l = true -> words l.
Proof. intros H. apply Forall_forall. intros x Hx. rewrite forallb_forall in H. apply N.ltb_lt, H, Hx. Qed.
Lemma words_K : words Kt.
Proof. apply words_b_spec. vm_compute. reflexivity. Qed.
Lemma words_H0 : words H0.
Proof. apply words_b_spec. vm_compute. reflexivity. Qed.
Lemma H0_length : length H0 = 8%nat.
Proof. vm_compute. reflexivity. Qed.
Global Opaque Kt H0 Model.Sha256.K Model.Sha256.H.

Lemma word_add32 a b : word (add32 a b).
Proof. apply N.mod_lt. discriminate. Qed.
Lemma word_lxor a b : word a -> word b -> word (N.lxor a b).
Proof. apply lxor_lt. Qed.
Lemma words_nth l i : words l -> word (nth i l 0).
Proof.
  intros H. destruct (Nat.lt_ge_cases i (length l)) as [Hi|Hi].
  - apply (proj1 (Forall_forall _ _) H). apply nth_In. assumption.
  - rewrite nth_overflow by assumption. reflexivity.
Qed.

Lemma rotr_ROTR x s : s <= 32 -> word x -> Model.Sha256.rotr x s = ROTR s x.
Proof.
  intros Hs Hx. unfold Model.Sha256.rotr, ROTR.
  replace s with (32 - (32 - s)) at 2 by lia.
  rewrite rot_add by (assumption || lia).
  replace (32 - (32 - s)) with s by lia. apply N.add_comm.
Qed.

Lemma word_ROTR x s : s <= 32 -> word x -> word (ROTR s x).
Proof.
  intros Hs Hx. rewrite <- rotr_ROTR by assumption. unfold Model.Sha256.rotr. apply lor_lt.
  - apply N.mod_lt. discriminate.
  - rewrite shr_div. eapply N.le_lt_trans; [|exact Hx]. apply N.div_le_upper_bound.
    + apply N.pow_nonzero; lia.
    + pose proof (pow2_pos s). nia.
Qed.

Lemma shr_SHR x s : shr x s = SHR s x.
Proof. apply shr_div. Qed.

Lemma not32_NOT x : word x -> not32 x = NOT x.
Proof.
  intros Hx. unfold not32, NOT. change (2 ^ 32 - 1) with (N.ones 32).
  destruct (N.eq_dec x 0) as [->|Hne]; [reflexivity|].
  change (N.lxor x (N.ones 32)) with (N.lnot x 32).
  apply N.lnot_sub_low. apply N.log2_lt_pow2; [lia|exact Hx].
Qed.

Lemma bsig0_eq x : word x -> Model.Sha256.bsig0 x = BSIG0 x.
Proof. intros Hx. unfold Model.Sha256.bsig0, BSIG0, XOR3. rewrite !rotr_ROTR by (assumption || lia). apply N.lxor_assoc. Qed.
Lemma bsig1_eq x : word x -> Model.Sha256.bsig1 x = BSIG1 x.
Proof. intros Hx. unfold Model.Sha256.bsig1, BSIG1, XOR3. rewrite !rotr_ROTR by (assumption || lia). apply N.lxor_assoc. Qed.
Lemma ssig0_eq x : word x -> Model.Sha256.ssig0 x = SSIG0 x.
Proof. intros Hx. unfold Model.Sha256.ssig0, SSIG0, XOR3. rewrite !rotr_ROTR, shr_SHR by (assumption || lia). apply N.lxor_assoc. Qed.
Lemma ssig1_eq x : word x -> Model.Sha256.ssig1 x = SSIG1 x.
Proof. intros Hx. unfold Model.Sha256.ssig1, SSIG1, XOR3. rewrite !rotr_ROTR, shr_SHR by (assumption || lia). apply N.lxor_assoc. Qed.
Lemma ch_eq x y z : word x -> Model.Sha256.ch x y z = CH x y z.
Proof. intros Hx. unfold Model.Sha256.ch, CH. rewrite not32_NOT by assumption. reflexivity. Qed.
Lemma maj_eq x y z : Model.Sha256.maj x y z = MAJ x y z.
Proof. unfold Model.Sha256.maj, MAJ, XOR3. apply N.lxor_assoc. Qed.

(** Sums. *)
Lemma wrapping_add32_eq a b : wrapping_add32 a b = add32 a b.
Proof. reflexivity. Qed.
Lemma add32_assoc a b c : add32 (add32 a b) c = add32 a (add32 b c).
Proof.
  unfold add32. rewrite N.add_mod_idemp_l, N.add_mod_idemp_r by discriminate.
  f_equal. lia.
Qed.
Lemma add32_comm a b : add32 a b = add32 b a.
Proof. unfold add32. f_equal. apply N.add_comm. Qed.
Lemma add32_0_r a : word a -> add32 a 0 = a.
Proof. intros Ha. unfold add32. rewrite N.add_0_r. apply N.mod_small. exact Ha. Qed.
Lemma sum32_4 a b c d : word d -> add32 (add32 (add32 a b) c) d = sum32 [a; b; c; d].
Proof. intros Hd. cbn [sum32 fold_right]. rewrite (add32_0_r d Hd), !add32_assoc. reflexivity. Qed.
Lemma sum32_5 a b c d e : word e ->
  add32 (add32 (add32 (add32 a b) c) d) e = sum32 [a; b; c; d; e].
Proof. intros He. cbn [sum32 fold_right]. rewrite (add32_0_r e He), !add32_assoc. reflexivity. Qed.

(** * The schedule *)
Lemma schedule_length n m : length (schedule n m) = (length m + n)%nat.
Proof. induction n as [|n IH]; cbn; [lia|]. rewrite app_length, IH. cbn. lia. Qed.
Lemma schedule_words n m : words m -> words (schedule n m).
Proof.
  intros Hm. induction n as [|n IH]; cbn [schedule]; [assumption|].
  apply Forall_app. split; [assumption|]. constructor; [|constructor].
  apply word_add32.
Qed.

Lemma message_schedule_ok m : length m = 16%nat -> words m ->
  Model.Sha256.message_schedule m = Ret (schedule 48 m).
Proof.
  intros Hlen Hm. unfold Model.Sha256.message_schedule, slice_to.
  rewrite slice_ok by (rewrite ?Hlen; cbn; lia).
  change (N.to_nat 16 - N.to_nat 0)%nat with 16%nat.
  change (N.to_nat 0) with 0%nat. cbn [skipn]. cbn [bind].
  rewrite firstn_all2 by lia.
  unfold with_slice. rewrite slice_ok by (rewrite ?repeat_length; cbn; lia).
  cbn [bind]. rewrite copy_from_slice_ok by (rewrite Hlen; reflexivity). cbn [bind].
  change (N.to_nat 0) with 0%nat. cbn [firstn app]. change (skipn (N.to_nat 16) (repeat 0 64)) with (repeat 0 48).
  destruct (for_range_inv
    (fun t w => w = schedule (N.to_nat t - 16) m ++ repeat 0 (64 - N.to_nat t))
    (fun t w =>
      let* w2 := idx w (t - 2) in
      let* w7 := idx w (t - 7) in
      let* w15 := idx w (t - 15) in
      let* w16 := idx w (t - 16) in
      upd w t
        (wrapping_add32 (wrapping_add32 (wrapping_add32 (Model.Sha256.ssig1 w2) w7) (Model.Sha256.ssig0 w15)) w16))
    16 64 (m ++ repeat 0 48)) as (w & -> & ->).
  - lia.
  - intros t w Ht ->.
    set (n := (N.to_nat t - 16)%nat).
    assert (Hsl : length (schedule n m) = N.to_nat t) by (rewrite schedule_length; lia).
    rewrite !idx_app_l by (rewrite Hsl; lia).
    rewrite !(idx_nth _ _ 0) by (rewrite Hsl; lia). cbn [bind].
    replace (64 - N.to_nat t)%nat with (S (64 - N.to_nat (N.succ t))) by lia.
    cbn [repeat].
    rewrite upd_app' by (unfold len; lia). eexists. split; [reflexivity|].
    replace (N.to_nat (N.succ t) - 16)%nat with (S n) by lia.
    cbn [schedule]. rewrite <- app_assoc. cbn [app].
    rewrite Hsl.
    replace (N.to_nat (t - 2)) with (N.to_nat t - 2)%nat by lia.
    replace (N.to_nat (t - 7)) with (N.to_nat t - 7)%nat by lia.
    replace (N.to_nat (t - 15)) with (N.to_nat t - 15)%nat by lia.
    replace (N.to_nat (t - 16)) with (N.to_nat t - 16)%nat by lia.
    rewrite !wrapping_add32_eq.
    pose proof (schedule_words n m Hm) as Hw.
    rewrite ssig1_eq, ssig0_eq by (apply words_nth; assumption).
    rewrite sum32_4 by (apply words_nth; assumption). reflexivity.
  - reflexivity.
  - change (64 - N.to_nat 64)%nat with 0%nat. cbn [repeat]. rewrite app_nil_r. reflexivity.
Qed.

(** * The rounds *)
Definition vars_ok (v : vars) : Prop :=
  let '(a, b, c, d, e, f, g, h) := v in
  word a /\ word b /\ word c /\ word d /\ word e /\ word f /\ word g /\ word h.

Lemma round_ok v kw : vars_ok v -> vars_ok (round v kw).
Proof.
  destruct v as [[[[[[[a b] c] d] e] f] g] h], kw as [k w]. cbn [vars_ok round].
  intros (Ha & Hb & Hc & Hd & He & Hf & Hg & Hh).
  repeat split; try assumption; apply word_add32.
Qed.

Lemma round_body_ok w t v : length w = 64%nat -> words w -> t < 64 -> vars_ok v ->
  Model.Sha256.round_body w t v = Ret (round v (nth (N.to_nat t) Kt 0, nth (N.to_nat t) w 0)).
Proof.
  intros Hlen Hw Ht. destruct v as [[[[[[[a b] c] d] e] f] g] h]. cbn [vars_ok].
  intros (Ha & Hb & Hc & Hd & He & Hf & Hg & Hh).
  unfold Model.Sha256.round_body. rewrite K_Kt.
  rewrite (idx_nth Kt _ 0) by (rewrite Kt_length; lia).
  rewrite (idx_nth w _ 0) by (rewrite Hlen; lia). cbn [bind].
  rewrite !wrapping_add32_eq.
  rewrite bsig1_eq, bsig0_eq, ch_eq, maj_eq by assumption.
  rewrite (sum32_5 h (BSIG1 e)) by (apply words_nth; assumption). reflexivity.
Qed.

Lemma rounds_ok w v : length w = 64%nat -> words w -> vars_ok v ->
  for_range 0 64 (Model.Sha256.round_body w) v = Ret (fold_left round (combine Kt w) v)
  /\ vars_ok (fold_left round (combine Kt w) v).
Proof.
  intros Hlen Hw Hv.
  assert (Hcl : length (combine Kt w) = 64%nat) by (rewrite combine_length, Kt_length, Hlen; reflexivity).
  destruct (for_range_inv
    (fun t st => st = fold_left round (firstn (N.to_nat t) (combine Kt w)) v /\ vars_ok st)
    (Model.Sha256.round_body w) 0 64 v) as (st & E & Hst & Hok).
  - lia.
  - intros t st Ht [-> Hok]. eexists. split; [apply round_body_ok; (assumption || lia)|].
    split; [|apply round_ok; assumption].
    rewrite N2Nat.inj_succ. rewrite (firstn_S_nth _ _ (0, 0)) by lia.
    rewrite fold_left_app. cbn [fold_left].
    rewrite combine_nth by (rewrite Kt_length, Hlen; reflexivity). reflexivity.
  - split; [reflexivity|assumption].
  - rewrite firstn_all2 in Hst by (rewrite Hcl; cbn; lia). subst st. split; assumption.
Qed.

Lemma length_8 (l : list N) : length l = 8%nat ->
  exists a b c d e f g h, l = [a; b; c; d; e; f; g; h].
Proof.
  intros Hl. do 8 (destruct l as [|? l]; [discriminate|]).
  destruct l; [|discriminate]. do 8 eexists. reflexivity.
Qed.

(** [process_block] is the compression function. *)
Lemma process_block_ok h m :
  length h = 8%nat -> words h -> length m = 16%nat -> words m ->
  Model.Sha256.process_block h m = Ret (compress h m).
Proof.
  intros Hhl Hh Hml Hm. unfold Model.Sha256.process_block.
  rewrite message_schedule_ok by assumption. cbn [bind].
  destruct (length_8 h Hhl) as (a & b & c & d & e & f & g & k & ->).
  unfold words in Hh. rewrite !Forall_cons_iff in Hh.
  destruct Hh as (Ha & Hb & Hc & Hd & He & Hf & Hg & Hk & _).
  change (idx [a; b; c; d; e; f; g; k] 0) with (Ret a).
  change (idx [a; b; c; d; e; f; g; k] 1) with (Ret b).
  change (idx [a; b; c; d; e; f; g; k] 2) with (Ret c).
  change (idx [a; b; c; d; e; f; g; k] 3) with (Ret d).
  change (idx [a; b; c; d; e; f; g; k] 4) with (Ret e).
  change (idx [a; b; c; d; e; f; g; k] 5) with (Ret f).
  change (idx [a; b; c; d; e; f; g; k] 6) with (Ret g).
  change (idx [a; b; c; d; e; f; g; k] 7) with (Ret k).
  cbn [bind].
  destruct (rounds_ok (schedule 48 m) (a, b, c, d, e, f, g, k)) as [-> _].
  { rewrite schedule_length. lia. }
  { apply schedule_words. assumption. }
  { cbn. tauto. }
  cbn [bind]. unfold compress.
  destruct (fold_left round (combine Kt (schedule 48 m)) (a, b, c, d, e, f, g, k))
    as [[[[[[[a' b'] c'] d'] e'] f'] g'] k'].
  cbv - [wrapping_add32 add32].
  change wrapping_add32 with add32.
  rewrite (add32_comm a a'), (add32_comm b b'), (add32_comm c c'), (add32_comm d d'),
    (add32_comm e e'), (add32_comm f f'), (add32_comm g g'), (add32_comm k k').
  reflexivity.
Qed.

Lemma compress_length h m : length h = 8%nat -> length (compress h m) = 8%nat.
Proof.
  intros Hh. destruct (length_8 h Hh) as (a & b & c & d & e & f & g & k & ->).
  unfold compress.
  destruct (fold_left round (combine Kt (schedule 48 m)) (a, b, c, d, e, f, g, k))
    as [[[[[[[a' b'] c'] d'] e'] f'] g'] k']. reflexivity.
Qed.
Lemma compress_words h m : length h = 8%nat -> words (compress h m).
Proof.
  intros Hh. destruct (length_8 h Hh) as (a & b & c & d & e & f & g & k & ->).
  unfold compress.
  destruct (fold_left round (combine Kt (schedule 48 m)) (a, b, c, d, e, f, g, k))
    as [[[[[[[a' b'] c'] d'] e'] f'] g'] k'].
  repeat constructor; apply word_add32.
Qed.
