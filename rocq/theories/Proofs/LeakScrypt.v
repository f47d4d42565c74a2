(** What a run of scrypt looks like: exactly the table positions it reads. *)
From Coq Require Import ZArith NArith List Arith Lia Bool ZifyBool ZifyNat ZifyN.
From Verif Require Import Rust.
From Verif.Model Require Pbkdf2 Salsa20 Scrypt.
From Verif.Leak Require Ops Pbkdf2 Salsa20 Scrypt.
From Verif.Spec Require Octets Pbkdf2 Salsa20 Scrypt.
From Verif.Proofs Require Import Base Bits Leak LeakErase LeakAgree.
From Verif.Proofs Require Pbkdf2 Scrypt.
Import ListNotations.
Import Spec.Octets.
Import Model.Scrypt.
Local Open Scope N_scope.
Ltac Zify.zify_post_hook ::= Z.div_mod_to_equations.

(** * Runs that return and look alike, runs that visibly differ *)
Definition meet {A} (R : A -> A -> Prop) (m1 m2 : Ops.res A) : Prop :=
  Ops.trace m1 = Ops.trace m2 /\
  exists a b, Ops.outcome m1 = Ret a /\ Ops.outcome m2 = Ret b /\ R a b.
Definition differ {A} (m1 m2 : Ops.res A) : Prop :=
  exists pre e1 e2 r1 r2, e1 <> e2 /\
    Ops.trace m1 = pre ++ e1 :: r1 /\ Ops.trace m2 = pre ++ e2 :: r2.

Lemma agree_meet {A} (R S : A -> A -> Prop) m1 m2 a b : agree R m1 m2 ->
  Ops.outcome m1 = Ret a -> Ops.outcome m2 = Ret b -> (R a b -> S a b) -> meet S m1 m2.
Proof.
  Transparent agree. intros [Ht Ho] H1 H2 HS. Opaque agree.
  split; [exact Ht|]. exists a, b. rewrite H1, H2 in Ho. auto.
Qed.
Lemma meet_agree {A} (R : A -> A -> Prop) m1 m2 : meet R m1 m2 -> agree R m1 m2.
Proof.
  Transparent agree. intros (Ht & a & b & H1 & H2 & HR). split; [exact Ht|]. rewrite H1, H2. exact HR.
  Opaque agree.
Qed.
Lemma meet_visible {A} (R : A -> A -> Prop) m1 m2 : meet R m1 m2 -> Ops.visible m1 = Ops.visible m2.
Proof. intros H; eapply agree_visible, meet_agree, H. Qed.
Lemma differ_visible {A} (m1 m2 : Ops.res A) : differ m1 m2 -> Ops.visible m1 <> Ops.visible m2.
Proof.
  intros (pre & e1 & e2 & r1 & r2 & Hne & H1 & H2) H.
  unfold Ops.visible in H. injection H as Ht _. rewrite H1, H2 in Ht.
  apply app_inv_head in Ht. congruence.
Qed.

Lemma meet_bind {A B} (R : A -> A -> Prop) (S : B -> B -> Prop) m1 m2 f1 f2 :
  meet R m1 m2 -> (forall a b, R a b -> meet S (f1 a) (f2 b)) -> meet S (Ops.bind m1 f1) (Ops.bind m2 f2).
Proof.
  destruct m1 as [t1 o1], m2 as [t2 o2]. intros (Ht & a & b & H1 & H2 & HR) Hf. cbn in Ht, H1, H2. subst.
  destruct (Hf a b HR) as (Ht & c & d & H3 & H4 & HS). unfold meet. cbn.
  destruct (f1 a), (f2 b); cbn in *. subst. split; [reflexivity|]. eauto.
Qed.
Lemma meet_differ_bind {A B} (R : A -> A -> Prop) m1 m2 (f1 f2 : A -> Ops.res B) :
  meet R m1 m2 -> (forall a b, R a b -> differ (f1 a) (f2 b)) -> differ (Ops.bind m1 f1) (Ops.bind m2 f2).
Proof.
  destruct m1 as [t1 o1], m2 as [t2 o2]. intros (Ht & a & b & H1 & H2 & HR) Hf. cbn in Ht, H1, H2. subst.
  destruct (Hf a b HR) as (pre & e1 & e2 & r1 & r2 & Hne & H3 & H4).
  exists (t2 ++ pre), e1, e2, r1, r2. split; [exact Hne|]. cbn.
  destruct (f1 a), (f2 b); cbn in *. subst. rewrite !app_assoc_reverse. auto.
Qed.
Lemma differ_bind {A B} m1 m2 (f1 f2 : A -> Ops.res B) :
  differ m1 m2 -> differ (Ops.bind m1 f1) (Ops.bind m2 f2).
Proof.
  destruct m1 as [t1 o1], m2 as [t2 o2].
  intros (pre & e1 & e2 & r1 & r2 & Hne & H1 & H2). cbn in H1, H2. subst.
  assert (H : forall t o f, exists t', Ops.trace (@Ops.bind A B (t, o) f) = t ++ t').
  { intros t o f. destruct o; cbn; [|exists []; rewrite app_nil_r; reflexivity..].
    destruct (f a); eexists; reflexivity. }
  destruct (H (pre ++ e1 :: r1) o1 f1) as [t1 E1], (H (pre ++ e2 :: r2) o2 f2) as [t2 E2].
  exists pre, e1, e2, (r1 ++ t1), (r2 ++ t2).
  split; [exact Hne|]. rewrite E1, E2, !app_assoc_reverse. auto.
Qed.
Lemma meet_emit e : meet eq (Ops.emit e) (Ops.emit e).
Proof. split; [reflexivity|]. exists tt, tt. auto. Qed.
Lemma meet_emit_bind {B} (S : B -> B -> Prop) e f1 f2 :
  meet S (f1 tt) (f2 tt) -> meet S (Ops.bind (Ops.emit e) f1) (Ops.bind (Ops.emit e) f2).
Proof. intros H; eapply meet_bind; [apply meet_emit|]. intros [] [] _; exact H. Qed.
Lemma differ_emit_bind {B} e (f1 f2 : unit -> Ops.res B) :
  differ (f1 tt) (f2 tt) -> differ (Ops.bind (Ops.emit e) f1) (Ops.bind (Ops.emit e) f2).
Proof. intros H; eapply meet_differ_bind; [apply meet_emit|]. intros [] [] _; exact H. Qed.
Lemma meet_ret {A} (R : A -> A -> Prop) a b : R a b -> meet R (Ops.Ret a) (Ops.Ret b).
Proof. intros H; split; [reflexivity|]. exists a, b. auto. Qed.
Lemma differ_read {A} (l1 l2 : list A) i1 i2 : i1 <> i2 -> differ (Ops.idx l1 i1) (Ops.idx l2 i2).
Proof.
  intros H. exists [], (Ops.Read i1), (Ops.Read i2).
  exists [], []. split; [congruence|]. auto.
Qed.

(** A loop whose iterations look alike as long as two sequences agree. *)
Lemma for_n_cases {St} (Inv : N -> St -> St -> Prop) (j1 j2 : N -> N) b1 b2 :
  (forall i s1 s2, Inv i s1 s2 ->
     (j1 i = j2 i -> meet (Inv (N.succ i)) (b1 i s1) (b2 i s2)) /\
     (j1 i <> j2 i -> differ (b1 i s1) (b2 i s2))) ->
  forall n i s1 s2, Inv i s1 s2 ->
    (map (fun k => j1 (i + N.of_nat k)) (seq 0 n) = map (fun k => j2 (i + N.of_nat k)) (seq 0 n) ->
       meet (Inv (i + N.of_nat n)) (Ops.for_n n i b1 s1) (Ops.for_n n i b2 s2)) /\
    (map (fun k => j1 (i + N.of_nat k)) (seq 0 n) <> map (fun k => j2 (i + N.of_nat k)) (seq 0 n) ->
       differ (Ops.for_n n i b1 s1) (Ops.for_n n i b2 s2)).
Proof.
  intros Hb. induction n as [|n IH]; intros i s1 s2 Hs.
  - split; [|intros H; contradiction]. intros _. cbn [Ops.for_n].
    apply meet_emit_bind, meet_ret. rewrite N.add_0_r. exact Hs.
  - cbn [Ops.for_n]. destruct (Hb i s1 s2 Hs) as [H1 H2].
    cbn [seq map]. rewrite N.add_0_r.
    assert (E : forall j : N -> N, map (fun k => j (i + N.of_nat k)) (seq 1 n) =
                map (fun k => j (N.succ i + N.of_nat k)) (seq 0 n)).
    { intros j. rewrite <- seq_shift, map_map. apply map_ext. intros k. f_equal. lia. }
    rewrite !E. split.
    + intros H. injection H as Hj Ht. apply meet_emit_bind.
      eapply meet_bind; [apply H1, Hj|]. intros a b Hab.
      replace (i + N.of_nat (S n)) with (N.succ i + N.of_nat n) by lia. apply IH; assumption.
    + intros H. apply differ_emit_bind. destruct (N.eq_dec (j1 i) (j2 i)) as [Hj|Hj].
      * eapply meet_differ_bind; [apply H1, Hj|]. intros a b Hab. apply IH; [exact Hab|]. congruence.
      * apply differ_bind, H2, Hj.
Qed.

(** A map whose elements look alike where two functions agree. *)
Lemma map_res_cases {A B C} (E : A -> A -> Prop) (R : B -> B -> Prop) (J : A -> list C) f
    (dec : forall a b : list C, {a = b} + {a <> b}) :
  (forall x1 x2, E x1 x2 -> (J x1 = J x2 -> meet R (f x1) (f x2)) /\
                            (J x1 <> J x2 -> differ (f x1) (f x2))) ->
  forall l1 l2, Forall2 E l1 l2 ->
    (map J l1 = map J l2 -> meet (Forall2 R) (Ops.map_res f l1) (Ops.map_res f l2)) /\
    (map J l1 <> map J l2 -> differ (Ops.map_res f l1) (Ops.map_res f l2)).
Proof.
  intros Hf l1 l2 Hl. induction Hl as [|x1 x2 l1 l2 Hx Hl [IH1 IH2]]; cbn [Ops.map_res map].
  - split; [|intros H; contradiction]. intros _. apply meet_emit_bind, meet_ret. constructor.
  - destruct (Hf x1 x2 Hx) as [H1 H2]. split.
    + intros H. injection H as Hj Ht. apply meet_emit_bind.
      eapply meet_bind; [apply H1, Hj|]. intros y1 y2 Hy.
      eapply meet_bind; [apply IH1, Ht|]. intros ys1 ys2 Hys. apply meet_ret. constructor; assumption.
    + intros H. apply differ_emit_bind. destruct (dec (J x1) (J x2)) as [Hj|Hj].
      * eapply meet_differ_bind; [apply H1, Hj|]. intros y1 y2 Hy. apply differ_bind, IH2. congruence.
      * apply differ_bind, H2, Hj.
Qed.

(** * BlockMix *)
Notation vecs := (Forall2 bytes).

Lemma split_parity_ag y1 y2 : vecs y1 y2 -> forall i,
  agree (both vecs vecs) (Leak.Scrypt.split_parity i y1) (Leak.Scrypt.split_parity i y2).
Proof.
  induction 1 as [|e1 e2 y1 y2 He Hy IH]; intros i; cbn [Leak.Scrypt.split_parity];
    apply agree_emit_bind; [apply agree_ret; split; constructor|].
  apply agree_branch; intros _; (eapply agree_bind; [apply IH|]);
    intros [h1 t1] [h2 t2] [Hh Ht]; cbn in Hh, Ht; apply agree_ret; split; cbn;
    try assumption; constructor; assumption.
Qed.
Lemma block_mix_ag T s b1 b2 : vecs b1 b2 ->
  agree vecs (Leak.Scrypt.block_mix T s b1) (Leak.Scrypt.block_mix T s b2).
Proof.
  intros Hb. unfold Leak.Scrypt.block_mix. do 2 ag1.
  eapply agree_bind; [apply agree_idx, Hb|]. intros x1 x2 Hx. ag1.
  eapply (agree_bind (both bytes vecs)).
  { eapply agree_for_each; [|exact Hb|split; [exact Hx|constructor]].
    intros e1 e2 [w1 y1] [w2 y2] He [Hw Hy]; cbn in Hw, Hy.
    eapply agree_bind; [apply agree_zip_xor; eassumption|]. intros t1 t2 Ht.
    eapply agree_bind; [apply salsa20_ag; eassumption|]. intros z1 z2 Hz.
    apply agree_ret. split; [exact Hz|]. apply Forall2_app; [exact Hy|]. constructor; [exact Hz|constructor]. }
  intros [w1 y1] [w2 y2] [_ Hy]; cbn in Hy. do 2 ag1.
  eapply agree_bind; [apply split_parity_ag, Hy|]. intros [h1 t1] [h2 t2] [Hh Ht]; cbn in Hh, Ht.
  assert (E : @len Block t1 = len t2) by apply (Leak.Forall2_len _ _ _ Ht).
  rewrite E. apply agree_run, Forall2_app; assumption.
Qed.
Lemma xor_blocks_ag x1 x2 : vecs x1 x2 -> forall v1 v2, vecs v1 v2 ->
  agree vecs (Leak.Scrypt.xor_blocks x1 v1) (Leak.Scrypt.xor_blocks x2 v2).
Proof.
  induction 1 as [|a1 a2 x1 x2 Ha Hx IH]; intros v1 v2 Hv; destruct Hv as [|c1 c2 v1 v2 Hc Hv];
    cbn [Leak.Scrypt.xor_blocks]; apply agree_emit_bind; [apply agree_ret; constructor..|].
  eapply agree_bind; [apply agree_zip_xor; eassumption|]. intros d1 d2 Hd.
  eapply agree_bind; [apply IH, Hv|]. intros e1 e2 He. apply agree_ret. constructor; assumption.
Qed.
Lemma integerify_ag T x1 x2 : vecs x1 x2 ->
  agree secret (Leak.Scrypt.integerify T x1) (Leak.Scrypt.integerify T x2).
Proof.
  intros Hx. unfold Leak.Scrypt.integerify.
  assert (E : @len Block x1 = len x2) by apply (Leak.Forall2_len _ _ _ Hx). rewrite E. ag1.
  eapply agree_bind; [apply agree_idx, Hx|]. intros l1 l2 Hl. rewrite (Leak.Forall2_len _ _ _ Hl). ag.
Qed.

(** * ROMix *)
Lemma vec_vecs r x1 x2 : Proofs.Scrypt.vec r x1 -> Proofs.Scrypt.vec r x2 -> vecs x1 x2.
Proof.
  intros [H1 F1] [H2 F2]. assert (Hl : length x1 = length x2) by congruence. clear H1 H2.
  revert x2 F2 Hl. induction F1 as [|a x1 [Ha _] F1 IH]; intros x2 F2 Hl; destruct F2 as [|c x2 [Hc _] F2];
    try discriminate Hl; constructor.
  - apply bytes_length. congruence.
  - apply IH; [assumption|]. cbn in Hl. congruence.
Qed.

Notation table r b n := (map (fun k => Nat.iter k (Proofs.Scrypt.mixv r) b) (seq 0 n)).

(** One iteration of step 3, on the model. *)
Lemma step3_ok T s b k st X : let r := N.to_nat (sr s) in
  Proofs.Scrypt.r_fits T (sr s) -> sn s = 2 ^ k -> sn s < usize_mod T ->
  Proofs.Scrypt.vec r b -> Proofs.Scrypt.vec r st -> concat st = X ->
  let ix := Spec.Scrypt.Integerify r X mod sn s in
  exists w b', integerify T st = Ret w /\ urem (as_usize T w) (sn s) = Ret ix /\
    @idx (list Block) (table r b (N.to_nat (sn s))) ix = Ret (Nat.iter (N.to_nat ix) (Proofs.Scrypt.mixv r) b) /\
    Proofs.Scrypt.vec r (Nat.iter (N.to_nat ix) (Proofs.Scrypt.mixv r) b) /\
    block_mix T s (xor_blocks st (Nat.iter (N.to_nat ix) (Proofs.Scrypt.mixv r) b)) = Ret b' /\
    Proofs.Scrypt.vec r b' /\
    concat b' = Spec.Scrypt.ROMix_step r (concat b) (sn s) X.
Proof.
  intros r Hr Hk Hn Hb Hst HX ix.
  assert (Hr1 : (1 <= r)%nat) by (destruct Hr; lia).
  assert (Hn0 : sn s <> 0) by (rewrite Hk; apply N.pow_nonzero; lia).
  pose proof (Proofs.Scrypt.index_ok T r st k Hr1 Hst) as Hi. rewrite <- Hk in Hi. specialize (Hi Hn).
  destruct (integerify T st) as [w| |]; try discriminate Hi. cbn [bind] in Hi. rewrite HX in Hi.
  assert (Hix : ix < sn s) by (apply N.mod_lt; assumption).
  destruct (Proofs.Scrypt.mixv_iter_vec T s b (N.to_nat ix) Hr Hb) as [Hv Hv'].
  fold r in Hv, Hv'. rewrite N2Nat.id in Hv'.
  destruct (Proofs.Scrypt.xor_blocks_ok r _ _ Hst Hv) as [Hxv Hxc].
  destruct (Proofs.Scrypt.block_mix_ok T s _ Hr Hxv) as (b' & Eb & Hb' & Hbc).
  exists w, b'. split; [reflexivity|]. split; [exact Hi|]. split.
  { rewrite (idx_nth _ _ []) by (rewrite map_length, seq_length; lia).
    rewrite (nth_map_seq (fun k => Nat.iter k (Proofs.Scrypt.mixv r) b)) by lia. reflexivity. }
  split; [exact Hv|]. split; [exact Eb|]. split; [exact Hb'|].
  fold r in Hbc. rewrite Hbc, Hxc, Hv', HX. reflexivity.
Qed.

Lemma table_rel r b1 b2 n : (forall k, Proofs.Scrypt.vec r (Nat.iter k (Proofs.Scrypt.mixv r) b1)) ->
  (forall k, Proofs.Scrypt.vec r (Nat.iter k (Proofs.Scrypt.mixv r) b2)) ->
  Forall2 vecs (table r b1 n) (table r b2 n).
Proof.
  intros H1 H2. induction (seq 0 n) as [|k l IH]; constructor; [|exact IH].
  apply (vec_vecs r); auto.
Qed.

Lemma meet_lift {A} (R : A -> A -> Prop) a b : R a b -> meet R (Ops.lift (Ret a)) (Ops.lift (Ret b)).
Proof. apply meet_ret. Qed.

Section Lane.
  Variables (T : target) (s : Scrypt) (k : N).
  Notation r := (N.to_nat (sr s)).
  Hypothesis Hr : Proofs.Scrypt.r_fits T (sr s).
  Hypothesis Hk : sn s = 2 ^ k.
  Hypothesis Hn : sn s < usize_mod T.
  Hypothesis Ha : vec_size T * sn s <= isize_max T.

  Definition lane_like (b1 b2 : list Block) : Prop :=
    Proofs.Scrypt.vec r b1 /\ Proofs.Scrypt.vec r b2.
  Definition lane_indices (b : list Block) : list N := Spec.Scrypt.ROMix_indices r (concat b) (sn s).

  Lemma iter_vec b : Proofs.Scrypt.vec r b ->
    forall i, Proofs.Scrypt.vec r (Nat.iter i (Proofs.Scrypt.mixv r) b).
  Proof. intros Hb i. apply (Proofs.Scrypt.mixv_iter_vec T s b i Hr Hb). Qed.

  Lemma fill_meet b1 b2 : lane_like b1 b2 ->
    meet (fun p q => p = (Nat.iter (N.to_nat (sn s)) (Proofs.Scrypt.mixv r) b1, table r b1 (N.to_nat (sn s))) /\
                     q = (Nat.iter (N.to_nat (sn s)) (Proofs.Scrypt.mixv r) b2, table r b2 (N.to_nat (sn s))))
      (Ops.for_range 0 (sn s) (fun _i xv =>
         let '(x, v) := xv in
         Ops.bind (Leak.Scrypt.block_mix T s x) (fun t => Ops.Ret (t, v ++ [x]))) (b1, []))
      (Ops.for_range 0 (sn s) (fun _i xv =>
         let '(x, v) := xv in
         Ops.bind (Leak.Scrypt.block_mix T s x) (fun t => Ops.Ret (t, v ++ [x]))) (b2, [])).
  Proof.
    intros [H1 H2].
    assert (Ho : forall b, Proofs.Scrypt.vec r b ->
      Ops.outcome (Ops.for_range 0 (sn s) (fun _i xv =>
         let '(x, v) := xv in
         Ops.bind (Leak.Scrypt.block_mix T s x) (fun t => Ops.Ret (t, v ++ [x]))) (b, [])) =
      Ret (Nat.iter (N.to_nat (sn s)) (Proofs.Scrypt.mixv r) b, table r b (N.to_nat (sn s)))).
    { intros b Hb. etransitivity.
      - apply er_for_range with (b' := fun _i xv =>
          let '(x, v) := xv in let* t := block_mix T s x in Ret (t, v ++ [x])).
        intros i [x v]. er.
      - unfold for_range. rewrite Proofs.Scrypt.fill_v by assumption. rewrite N.sub_0_r. reflexivity. }
    eapply (agree_meet (both vecs (Forall2 vecs)));
      [|apply Ho; assumption|apply Ho; assumption|split; reflexivity].
    apply agree_for_range; [split; [apply (vec_vecs r); assumption|constructor]|].
    intros i [x1 v1] [x2 v2] [Hx Hv]; cbn in Hx, Hv.
    eapply agree_bind; [apply block_mix_ag, Hx|]. intros t1 t2 Ht.
    apply agree_ret. split; [exact Ht|]. apply Forall2_app; [exact Hv|]. constructor; [exact Hx|constructor].
  Qed.

  Lemma ro_mix_cases b1 b2 : lane_like b1 b2 ->
    (lane_indices b1 = lane_indices b2 ->
       meet lane_like (Leak.Scrypt.ro_mix T s b1) (Leak.Scrypt.ro_mix T s b2)) /\
    (lane_indices b1 <> lane_indices b2 ->
       differ (Leak.Scrypt.ro_mix T s b1) (Leak.Scrypt.ro_mix T s b2)).
  Proof.
    intros Hb. pose proof Hb as [Hb1 Hb2].
    pose (it := fun b i => N.iter i (Spec.Scrypt.ROMix_step r (concat b) (sn s)) (Spec.Scrypt.V r (concat b) (sn s))).
    pose (j := fun b i => Spec.Scrypt.ROMix_index r (concat b) (sn s) i).
    pose (body := fun (v : list (list Block)) (_i : N) (x : list Block) =>
      Ops.bind (Leak.Scrypt.integerify T x) (fun w =>
      Ops.bind (Ops.urem (as_usize T w) (sn s)) (fun i =>
      Ops.bind (Ops.idx v i) (fun vj =>
      Ops.bind (Leak.Scrypt.xor_blocks x vj) (fun t => Leak.Scrypt.block_mix T s t))))).
    pose (Inv := fun i x1 x2 => (Proofs.Scrypt.vec r x1 /\ concat x1 = it b1 i) /\
                                (Proofs.Scrypt.vec r x2 /\ concat x2 = it b2 i)).
    assert (Hstep : forall i x1 x2, Inv i x1 x2 ->
      (j b1 i = j b2 i -> meet (Inv (N.succ i)) (body (table r b1 (N.to_nat (sn s))) i x1)
                                                (body (table r b2 (N.to_nat (sn s))) i x2)) /\
      (j b1 i <> j b2 i -> differ (body (table r b1 (N.to_nat (sn s))) i x1)
                                  (body (table r b2 (N.to_nat (sn s))) i x2))).
    { intros i x1 x2 [[Hv1 Hc1] [Hv2 Hc2]].
      destruct (step3_ok T s b1 k x1 _ Hr Hk Hn Hb1 Hv1 Hc1) as (w1 & c1 & Ew1 & Eu1 & Ei1 & Hvi1 & Eb1 & Hcv1 & Hcc1).
      destruct (step3_ok T s b2 k x2 _ Hr Hk Hn Hb2 Hv2 Hc2) as (w2 & c2 & Ew2 & Eu2 & Ei2 & Hvi2 & Eb2 & Hcv2 & Hcc2).
      change (Spec.Scrypt.Integerify r (it b1 i) mod sn s) with (j b1 i) in *.
      change (Spec.Scrypt.Integerify r (it b2 i) mod sn s) with (j b2 i) in *.
      assert (Hw : meet (fun a b => a = w1 /\ b = w2) (Leak.Scrypt.integerify T x1) (Leak.Scrypt.integerify T x2)).
      { eapply agree_meet; [apply integerify_ag, (vec_vecs r); assumption| | |split; reflexivity].
        - exact (eq_trans (integerify_er _ _) Ew1).
        - exact (eq_trans (integerify_er _ _) Ew2). }
      unfold body. split; intros Hj.
      - eapply meet_bind; [exact Hw|]. intros ? ? [-> ->]. unfold Ops.urem. rewrite Eu1, Eu2.
        eapply meet_bind with (R := fun p q => p = j b1 i /\ q = j b1 i);
          [apply meet_lift; auto|]. intros ? ? [-> ->].
        eapply meet_bind with (R := fun p q => p = Nat.iter (N.to_nat (j b1 i)) (Proofs.Scrypt.mixv r) b1 /\
                                               q = Nat.iter (N.to_nat (j b2 i)) (Proofs.Scrypt.mixv r) b2).
        { apply meet_emit_bind. rewrite Ei1. rewrite <- Hj in Ei2 |- *. rewrite Ei2.
          apply meet_lift. split; reflexivity. }
        intros ? ? [-> ->].
        eapply meet_bind with (R := fun p q => p = xor_blocks x1 (Nat.iter (N.to_nat (j b1 i)) (Proofs.Scrypt.mixv r) b1) /\
                                               q = xor_blocks x2 (Nat.iter (N.to_nat (j b2 i)) (Proofs.Scrypt.mixv r) b2)).
        { eapply agree_meet; [apply xor_blocks_ag; apply (vec_vecs r); eassumption| | |split; reflexivity];
            apply xor_blocks_er. }
        intros ? ? [-> ->].
        eapply agree_meet.
        + apply block_mix_ag, (vec_vecs r); apply Proofs.Scrypt.xor_blocks_ok; assumption.
        + exact (eq_trans (block_mix_er _ _ _) Eb1).
        + exact (eq_trans (block_mix_er _ _ _) Eb2).
        + intros _. split; (split; [assumption|]); unfold it; rewrite N.iter_succ; assumption.
      - eapply meet_differ_bind; [exact Hw|]. intros ? ? [-> ->]. unfold Ops.urem. rewrite Eu1, Eu2.
        eapply meet_differ_bind with (R := fun p q => p = j b1 i /\ q = j b2 i);
          [apply meet_lift; auto|]. intros ? ? [-> ->].
        apply differ_bind, differ_read, Hj. }
    destruct (for_n_cases Inv (j b1) (j b2) _ _ Hstep (N.to_nat (sn s)) 0
      (Nat.iter (N.to_nat (sn s)) (Proofs.Scrypt.mixv r) b1)
      (Nat.iter (N.to_nat (sn s)) (Proofs.Scrypt.mixv r) b2)) as [C1 C2].
    { destruct (Proofs.Scrypt.mixv_iter_vec T s b1 (N.to_nat (sn s)) Hr Hb1) as [H1 H1'].
      destruct (Proofs.Scrypt.mixv_iter_vec T s b2 (N.to_nat (sn s)) Hr Hb2) as [H2 H2'].
      rewrite N2Nat.id in H1', H2'. split; split; assumption. }
    assert (Hal : forall m1 m2 : Ops.res unit, m1 = Ops.alloc T (vec_size T) (sn s) -> m2 = m1 -> meet eq m1 m2).
    { intros ? ? -> ->. eapply agree_meet; [apply agree_alloc| | |intros; reflexivity];
        (etransitivity; [apply er_alloc|]); apply Proofs.Scrypt.alloc_ok; assumption. }
    unfold Leak.Scrypt.ro_mix. split; intros Hj.
    - eapply meet_bind; [apply Hal; reflexivity|]. intros _ _ _.
      eapply meet_bind; [apply fill_meet, Hb|]. intros ? ? [-> ->].
      unfold Ops.for_range. rewrite N.sub_0_r.
      assert (HC : meet (Inv (0 + N.of_nat (N.to_nat (sn s))))
        (Ops.for_n (N.to_nat (sn s)) 0 (body (table r b1 (N.to_nat (sn s))))
           (Nat.iter (N.to_nat (sn s)) (Proofs.Scrypt.mixv r) b1))
        (Ops.for_n (N.to_nat (sn s)) 0 (body (table r b2 (N.to_nat (sn s))))
           (Nat.iter (N.to_nat (sn s)) (Proofs.Scrypt.mixv r) b2))) by (apply C1; exact Hj).
      destruct HC as (Ht & x1 & x2 & O1 & O2 & [[Hx1 _] [Hx2 _]]).
      split; [exact Ht|]. exists x1, x2. split; [exact O1|]. split; [exact O2|]. split; assumption.
    - eapply meet_differ_bind; [apply Hal; reflexivity|]. intros _ _ _.
      eapply meet_differ_bind; [apply fill_meet, Hb|]. intros ? ? [-> ->].
      unfold Ops.for_range. rewrite N.sub_0_r. apply C2. exact Hj.
  Qed.
End Lane.

(** * Derivation *)
Definition cases {A} (P : Prop) (R : A -> A -> Prop) (m1 m2 : Ops.res A) : Prop :=
  (P -> agree R m1 m2) /\ (~ P -> differ m1 m2).
Lemma cases_bind {A B} P (R : A -> A -> Prop) (S : B -> B -> Prop) m1 m2 f1 f2 :
  meet R m1 m2 -> (forall a b, R a b -> cases P S (f1 a) (f2 b)) ->
  cases P S (Ops.bind m1 f1) (Ops.bind m2 f2).
Proof.
  intros Hm Hf. split; intros HP.
  - eapply agree_bind; [exact (meet_agree _ _ _ Hm)|]. intros a b H. apply (Hf a b H), HP.
  - eapply meet_differ_bind; [exact Hm|]. intros a b H. apply (Hf a b H), HP.
Qed.
Lemma cases_then {A B} P (R : A -> A -> Prop) (S : B -> B -> Prop) m1 m2 f1 f2 :
  cases P R m1 m2 -> (forall a b, R a b -> agree S (f1 a) (f2 b)) ->
  cases P S (Ops.bind m1 f1) (Ops.bind m2 f2).
Proof.
  intros [H1 H2] Hf. split; intros HP.
  - eapply agree_bind; [exact (H1 HP)|]. exact Hf.
  - apply differ_bind, H2, HP.
Qed.
Lemma cases_branch {A} P (R : A -> A -> Prop) c x1 y1 x2 y2 :
  c = false -> cases P R y1 y2 -> cases P R (Ops.branch c x1 y1) (Ops.branch c x2 y2).
Proof. intros -> H. eapply cases_bind; [apply meet_emit|]. intros _ _ _. exact H. Qed.
Lemma meet_lift_eq {A} (m : res A) a : m = Ret a -> meet (fun x y => x = a /\ y = a) (Ops.lift m) (Ops.lift m).
Proof. intros ->. apply meet_ret. auto. Qed.

Lemma pbkdf2_meet T P1 P2 S1 S2 o1 o2 c :
  length P1 = length P2 -> length S1 = length S2 -> length o1 = length o2 ->
  octets P1 -> octets P2 -> octets S1 -> octets S2 ->
  Proofs.Pbkdf2.fits T P1 S1 -> len o1 <= isize_max T ->
  meet (fun a b => a = Spec.Pbkdf2.pbkdf2 P1 S1 c (length o1) /\ b = Spec.Pbkdf2.pbkdf2 P2 S2 c (length o1))
    (Leak.Pbkdf2.pbkdf2_sha256 T P1 S1 c o1) (Leak.Pbkdf2.pbkdf2_sha256 T P2 S2 c o2).
Proof.
  intros HP HS Ho OP1 OP2 OS1 OS2 Hf Hl.
  eapply agree_meet.
  - apply pbkdf2_sha256_ag; apply bytes_length; assumption.
  - eapply eq_trans; [apply pbkdf2_sha256_er|]. apply Proofs.Pbkdf2.pbkdf2_ok; assumption.
  - eapply eq_trans; [apply pbkdf2_sha256_er|]. apply Proofs.Pbkdf2.pbkdf2_ok; try assumption.
    + unfold Proofs.Pbkdf2.fits, len in *. rewrite <- HP, <- HS. exact Hf.
    + unfold len in *. rewrite <- Ho. exact Hl.
  - intros _. rewrite Ho. auto.
Qed.

Lemma list_N_dec : forall a b : list N, {a = b} + {a <> b}.
Proof. apply list_eq_dec, N.eq_dec. Qed.

Lemma lanes_length r (b : list (list Block)) : Forall (Proofs.Scrypt.vec r) b ->
  length (List.concat (List.concat b)) = (length b * (128 * r))%nat.
Proof.
  induction 1 as [|x b Hx Hb IH]; [reflexivity|]. cbn [concat length].
  rewrite concat_app, app_length, IH, (Proofs.Scrypt.vec_concat_length r) by assumption. lia.
Qed.
Lemma derive_cases T s P1 P2 S1 S2 o1 o2 : Proofs.Scrypt.accepted s -> sn s < usize_mod T ->
  8 * (sp s * 128 * sr s + 68) < usize_mod T -> vec_size T * sn s <= isize_max T ->
  octets P1 -> octets P2 -> octets S1 -> octets S2 -> Proofs.Pbkdf2.fits T P1 S1 ->
  len o1 <= isize_max T ->
  length P1 = length P2 -> length S1 = length S2 -> length o1 = length o2 ->
  cases (Spec.Scrypt.scrypt_indices P1 S1 (sn s) (N.to_nat (sr s)) (N.to_nat (sp s)) =
         Spec.Scrypt.scrypt_indices P2 S2 (sn s) (N.to_nat (sr s)) (N.to_nat (sp s)))
    anything (Leak.Scrypt.scrypt_derive T s P1 S1 o1) (Leak.Scrypt.scrypt_derive T s P2 S2 o2).
Proof.
  intros Hacc Hn Hm Ha OP1 OP2 OS1 OS2 Hf Hout HP HS Ho.
  pose proof (isize_usize T) as Hus. destruct Hacc as (Hr & Hn1 & [k Hk] & Hp).
  pose proof (Proofs.Scrypt.vector_size_ok T s) as Hvs. unfold Proofs.Scrypt.vector_size in Hvs.
  set (r := N.to_nat (sr s)). set (p := N.to_nat (sp s)).
  unfold Leak.Scrypt.scrypt_derive.
  apply cases_branch; [apply N.ltb_ge; lia|]. apply cases_branch; [apply N.ltb_ge; lia|].
  eapply cases_bind; [apply meet_lift_eq, usub_ok, Hn1|]. intros ? ? [-> ->].
  apply cases_branch; [rewrite Hk, Proofs.Scrypt.land_pred_pow2; reflexivity|].
  apply cases_branch; [apply N.ltb_ge; lia|].
  change Scrypt.BLOCK_SIZE with 64 in *.
  eapply cases_bind; [apply meet_lift_eq, umul_ok; nia|]. intros ? ? [-> ->].
  eapply cases_bind; [apply meet_lift_eq, umul_ok; nia|]. intros ? ? [-> ->].
  eapply cases_bind; [apply meet_lift_eq, umul_ok; nia|]. intros ? ? [-> ->].
  assert (Em : sp s * 2 * 64 * sr s = sp s * 128 * sr s) by lia. rewrite Em.
  eapply (cases_bind _ eq).
  { apply meet_emit_bind. rewrite Proofs.Scrypt.alloc_ok by lia. apply meet_ret. reflexivity. }
  intros _ _ _.
  eapply cases_bind.
  { apply pbkdf2_meet; try assumption; [reflexivity|]. rewrite len_repeat. lia. }
  rewrite repeat_length. replace (N.to_nat (sp s * 128 * sr s)) with (p * 128 * r)%nat by lia.
  intros ? ? [-> ->].
  set (B1 := Spec.Pbkdf2.pbkdf2 P1 S1 PBKDF2_ROUNDS (p * 128 * r)).
  set (B2 := Spec.Pbkdf2.pbkdf2 P2 S2 PBKDF2_ROUNDS (p * 128 * r)).
  assert (HB : forall B, octets B -> length B = (p * 128 * r)%nat ->
    Ops.outcome (Leak.Scrypt.split_blocks T s B) = Ret (map (blocks 64) (blocks (128 * r) B)) /\
    Forall (Proofs.Scrypt.vec r) (map (blocks 64) (blocks (128 * r) B)) /\
    length (map (blocks 64) (blocks (128 * r) B)) = p /\
    map (lane_indices s) (map (blocks 64) (blocks (128 * r) B)) =
    map (fun Bi => Spec.Scrypt.ROMix_indices r Bi (sn s)) (blocks (128 * r) B)).
  { intros B HOB HLB. split; [|split; [|split]].
    - eapply eq_trans; [apply split_blocks_er|]. unfold split_blocks. change (2 * Scrypt.BLOCK_SIZE) with 128.
      rewrite umul_ok by nia. cbn [bind].
      rewrite Proofs.Scrypt.chunks_exact_all by lia. cbn [bind].
      replace (N.to_nat (128 * sr s)) with (128 * r)%nat by lia.
      apply map_res_ok. intros g _. apply Proofs.Scrypt.chunks_exact_all. discriminate.
    - apply Forall_forall. intros v Hv. apply in_map_iff in Hv. destruct Hv as (g & <- & Hg).
      apply Proofs.Scrypt.vec_of_octets; [eapply octets_blocks; eassumption|eapply blocks_all_length, Hg].
    - rewrite map_length, blocks_length, HLB. replace (p * 128 * r)%nat with (p * (128 * r))%nat by lia.
      apply Nat.div_mul. lia.
    - rewrite map_map. apply map_ext_in. intros g Hg. unfold lane_indices. fold r. f_equal.
      apply (Proofs.Scrypt.concat_blocks64 r). eapply blocks_all_length, Hg. }
  destruct (HB B1) as (E1 & V1 & L1 & I1); [apply Proofs.Pbkdf2.octets_pbkdf2|apply Proofs.Pbkdf2.pbkdf2_length|].
  destruct (HB B2) as (E2 & V2 & L2 & I2); [apply Proofs.Pbkdf2.octets_pbkdf2|apply Proofs.Pbkdf2.pbkdf2_length|].
  assert (HL : Forall2 (lane_like s) (map (blocks 64) (blocks (128 * r) B1)) (map (blocks 64) (blocks (128 * r) B2))).
  { clear -V1 V2 L1 L2. set (x := map _ (blocks _ B1)) in *. set (y := map _ (blocks _ B2)) in *.
    clearbody x y. assert (Hl : length x = length y) by congruence. clear L1 L2. fold r.
    revert y V2 Hl. induction V1 as [|a x Ha Hx IH]; intros y V2 Hl; destruct V2 as [|c y Hc Hy];
      try discriminate Hl; constructor; [split; assumption|]. apply IH; [assumption|].
    cbn in Hl. congruence. }
  assert (HP' : (Spec.Scrypt.scrypt_indices P1 S1 (sn s) r p = Spec.Scrypt.scrypt_indices P2 S2 (sn s) r p) =
    (map (lane_indices s) (map (blocks 64) (blocks (128 * r) B1)) =
     map (lane_indices s) (map (blocks 64) (blocks (128 * r) B2)))).
  { rewrite I1, I2. reflexivity. }
  rewrite HP'. clear HP'.
  eapply (cases_bind _ (fun a b => a = map (blocks 64) (blocks (128 * r) B1) /\
                                   b = map (blocks 64) (blocks (128 * r) B2))).
  { eapply agree_meet; [|exact E1|exact E2|split; reflexivity].
    unfold Leak.Scrypt.split_blocks. ag1.
    eapply agree_bind; [apply agree_chunks_exact, bytes_length; unfold B1, B2; rewrite !Proofs.Pbkdf2.pbkdf2_length; reflexivity|].
    intros c1 c2 Hc. eapply agree_map_res; [|exact Hc]. intros d1 d2 Hd. apply agree_chunks_exact, Hd. }
  intros ? ? [-> ->].
  eapply cases_then.
  { split; intros HI.
    - apply meet_agree, (map_res_cases (lane_like s) (lane_like s) (lane_indices s) (Leak.Scrypt.ro_mix T s) list_N_dec); [|exact HL|exact HI].
      intros; apply (ro_mix_cases T s k); try assumption. split; [lia|nia].
    - apply (map_res_cases (lane_like s) (lane_like s) (lane_indices s) (Leak.Scrypt.ro_mix T s) list_N_dec); [|exact HL|exact HI].
      intros; apply (ro_mix_cases T s k); try assumption. split; [lia|nia]. }
  intros b1 b2 Hb.
  assert (Hb' : Forall (Proofs.Scrypt.vec r) b1 /\ Forall (Proofs.Scrypt.vec r) b2 /\ length b1 = length b2).
  { clear -Hb. induction Hb as [|x y l l' [H1 H2] H IH]; [repeat split; constructor|].
    destruct IH as (A & B & C). repeat split; try (constructor; assumption). cbn. congruence. }
  destruct Hb' as (W1 & W2 & W3).
  eapply (agree_bind bytes).
  { unfold len. rewrite !(lanes_length r), W3 by assumption. apply agree_run, bytes_length.
    rewrite !(lanes_length r), W3 by assumption. reflexivity. }
  intros d1 d2 Hd. eapply (agree_bind bytes).
  { apply pbkdf2_sha256_ag; try assumption; apply bytes_length; assumption. }
  intros. apply agree_ret. exact I.
Qed.
