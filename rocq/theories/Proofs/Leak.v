(** Reasoning about the recording operations of Leak/Ops.v: erasure (forgetting
    the record gives the operation of Rust.v) and agreement (two runs record the
    same and end the same way, with related values). *)
From Coq Require Import NArith List Arith Lia Bool.
From Verif Require Rust.
From Verif.Leak Require Import Ops.
Import ListNotations.
Local Open Scope N_scope.

(** * Erasure *)
Definition erases {A} (m : res A) (m' : Rust.res A) : Prop := outcome m = m'.

Lemma outcome_bind {A B} (m : res A) (f : A -> res B) :
  outcome (bind m f) = Rust.bind (outcome m) (fun a => outcome (f a)).
Proof.
  destruct m as [t [a| |]]; cbn; try reflexivity.
  destruct (f a); reflexivity.
Qed.

Lemma trace_bind {A B} (m : res A) (f : A -> res B) a :
  outcome m = Rust.Ret a -> trace (bind m f) = trace m ++ trace (f a).
Proof.
  destruct m as [t o]. unfold outcome, trace. cbn [fst snd]. intros ->.
  cbn. destruct (f a); reflexivity.
Qed.
Lemma trace_branch {A} c (x y : res A) :
  trace (branch c x y) = Branch c :: trace (if c then x else y).
Proof. unfold branch. rewrite (trace_bind _ _ tt) by reflexivity. reflexivity. Qed.

Lemma er_lift {A} (m : Rust.res A) : erases (lift m) m.
Proof. reflexivity. Qed.
Lemma er_ret {A} (a : A) : erases (Ret a) (Rust.Ret a).
Proof. reflexivity. Qed.
Lemma er_panic {A} : erases (@Panic A) Rust.Panic.
Proof. reflexivity. Qed.
Lemma er_diverge {A} : erases (@Diverge A) Rust.Diverge.
Proof. reflexivity. Qed.
Lemma er_bind {A B} (m : res A) m' (f : A -> res B) f' :
  erases m m' -> (forall a, erases (f a) (f' a)) -> erases (bind m f) (Rust.bind m' f').
Proof.
  unfold erases; intros Hm Hf. rewrite outcome_bind, Hm.
  destruct m'; cbn; auto.
Qed.
Lemma er_emit {B} e (f : unit -> res B) k : erases (f tt) k -> erases (bind (emit e) f) k.
Proof. unfold erases; rewrite outcome_bind; auto. Qed.
Lemma er_ret_bind {A B} (a : A) (f : A -> res B) k : erases (f a) k -> erases (bind (Ret a) f) k.
Proof. unfold erases; rewrite outcome_bind; auto. Qed.
Lemma er_run {A} n (a : A) : erases (run n a) (Rust.Ret a).
Proof. reflexivity. Qed.
Lemma er_run_bind {A B} n (a : A) (f : A -> res B) k : erases (f a) k -> erases (bind (run n a) f) k.
Proof. unfold erases; rewrite outcome_bind; auto. Qed.
(** A computation that is pure in the model. *)
Lemma er_pure {A B} (m : res A) a (f : A -> res B) k :
  erases m (Rust.Ret a) -> erases (f a) k -> erases (bind m f) k.
Proof. unfold erases; rewrite outcome_bind; intros -> H; exact H. Qed.
Lemma er_branch {A} c (x y : res A) x' y' :
  erases x x' -> erases y y' -> erases (branch c x y) (if c then x' else y').
Proof. intros Hx Hy; apply er_emit; destruct c; assumption. Qed.
Lemma er_choose {A} c (x y : A) :
  erases (branch c (Ret x) (Ret y)) (Rust.Ret (if c then x else y)).
Proof. apply er_emit; destruct c; reflexivity. Qed.

Lemma er_for_n {St} n : forall i (b : N -> St -> res St) b' s,
  (forall i s, erases (b i s) (b' i s)) -> erases (for_n n i b s) (Rust.for_n n i b' s).
Proof.
  induction n as [|n IH]; intros i b b' s Hb; cbn [for_n Rust.for_n]; apply er_emit.
  - apply er_ret.
  - apply er_bind; auto.
Qed.
Lemma er_for_range {St} lo hi (b : N -> St -> res St) b' s :
  (forall i s, erases (b i s) (b' i s)) -> erases (for_range lo hi b s) (Rust.for_range lo hi b' s).
Proof. apply er_for_n. Qed.
Lemma er_for_range_incl {St} lo hi (b : N -> St -> res St) b' s :
  (forall i s, erases (b i s) (b' i s)) ->
  erases (for_range_incl lo hi b s) (Rust.for_range_incl lo hi b' s).
Proof. apply er_for_n. Qed.
Lemma er_for_range_rev {St} lo hi (b : N -> St -> res St) b' s :
  (forall i s, erases (b i s) (b' i s)) ->
  erases (for_range_rev lo hi b s) (Rust.for_range_rev lo hi b' s).
Proof.
  intros Hb; unfold for_range_rev, Rust.for_range_rev.
  generalize (N.to_nat (hi - lo)); intros n; revert s.
  induction n as [|n IH]; intros s; cbn [for_n_rev Rust.for_n_rev]; apply er_emit.
  - apply er_ret.
  - apply er_bind; auto.
Qed.
Lemma er_for_each {A St} l : forall (b : A -> St -> res St) b' s,
  (forall i s, erases (b i s) (b' i s)) -> erases (for_each l b s) (Rust.for_each l b' s).
Proof.
  induction l as [|x l IH]; intros b b' s Hb; cbn [for_each Rust.for_each]; apply er_emit.
  - apply er_ret.
  - apply er_bind; auto.
Qed.
Lemma er_for_each_try {A St E} l :
  forall (b : A -> St -> res (Rust.result unit E * St)) b' s,
  (forall i s, erases (b i s) (b' i s)) -> erases (for_each_try l b s) (Rust.for_each_try l b' s).
Proof.
  induction l as [|x l IH]; intros b b' s Hb; cbn [for_each_try Rust.for_each_try]; apply er_emit.
  - apply er_ret.
  - apply er_bind; auto. intros [[|] s']; apply er_emit; auto using er_ret.
Qed.
Lemma er_map_res {A B} (f : A -> res B) f' l :
  (forall x, erases (f x) (f' x)) -> erases (map_res f l) (Rust.map_res f' l).
Proof.
  intros Hf; induction l as [|x l IH]; cbn [map_res Rust.map_res]; apply er_emit.
  - apply er_ret.
  - apply er_bind; auto; intros y; apply er_bind; auto; intros ys; apply er_ret.
Qed.
Lemma er_while {St} fuel : forall c c' (b : St -> res St) b' s,
  (forall s, c s = c' s) -> (forall s, erases (b s) (b' s)) ->
  erases (while_loop fuel c b s) (Rust.while_loop fuel c' b' s).
Proof.
  induction fuel as [|fuel IH]; intros c c' b b' s Hc Hb; cbn [while_loop Rust.while_loop];
    rewrite Hc; apply er_branch; auto using er_ret, er_diverge.
  apply er_bind; auto.
Qed.

Lemma er_idx {A} (l : list A) i : erases (idx l i) (Rust.idx l i).
Proof. reflexivity. Qed.
Lemma er_upd {A} (l : list A) i v : erases (upd l i v) (Rust.upd l i v).
Proof. reflexivity. Qed.
Lemma er_slice {A} (l : list A) a b : erases (slice l a b) (Rust.slice l a b).
Proof. reflexivity. Qed.
Lemma er_slice_from {A} (l : list A) a : erases (slice_from l a) (Rust.slice_from l a).
Proof. reflexivity. Qed.
Lemma er_slice_to {A} (l : list A) b : erases (slice_to l b) (Rust.slice_to l b).
Proof. reflexivity. Qed.
Lemma er_copy {A} (d s : list A) : erases (copy_from_slice d s) (Rust.copy_from_slice d s).
Proof. reflexivity. Qed.
Lemma er_split_off {A} (l : list A) a : erases (split_off l a) (Rust.split_off l a).
Proof. reflexivity. Qed.
Lemma er_alloc T s n : erases (alloc T s n) (Rust.alloc T s n).
Proof. reflexivity. Qed.
Lemma er_chunks {A} (l : list A) n : erases (chunks l n) (Rust.chunks l n).
Proof. reflexivity. Qed.
Lemma er_chunks_exact {A} (l : list A) n : erases (chunks_exact l n) (Rust.chunks_exact l n).
Proof. reflexivity. Qed.
Lemma er_with_slice {A} (l : list A) a b f f' :
  (forall s, erases (f s) (f' s)) -> erases (with_slice l a b f) (Rust.with_slice l a b f').
Proof.
  intros Hf; unfold with_slice, Rust.with_slice.
  apply er_bind; [apply er_slice|]; intros s.
  apply er_bind; [apply Hf|]; intros s'; apply er_ret.
Qed.

(** Syntax-directed erasure; leaves what it has no rule for. *)
Create HintDb erase.
Ltac er1 :=
  first
    [ assumption
    | apply er_idx | apply er_upd | apply er_slice | apply er_slice_from | apply er_slice_to
    | apply er_copy | apply er_split_off | apply er_alloc | apply er_chunks
    | apply er_chunks_exact | apply er_ret | apply er_run | apply er_panic | apply er_diverge
    | solve [auto with erase nocore]
    | apply er_with_slice; intros
    | apply er_for_range; intros | apply er_for_range_incl; intros
    | apply er_for_range_rev; intros | apply er_for_each; intros
    | apply er_for_each_try; intros | apply er_map_res; intros
    | apply er_branch
    | apply er_lift
    | match goal with
      | |- erases (bind (emit _) _) _ => apply er_emit
      | |- erases (bind (run _ _) _) _ => apply er_run_bind
      | |- erases (bind _ _) (Rust.bind _ _) => apply er_bind; [|intros]
      | |- erases (let (_, _) := ?p in _) _ => destruct p
      | |- erases (match ?p with _ => _ end) (match ?p with _ => _ end) => destruct p
      end ].
Ltac er := repeat er1.

(** * Agreement of two runs *)
Definition agree {A} (R : A -> A -> Prop) (m1 m2 : res A) : Prop :=
  trace m1 = trace m2 /\
  match outcome m1, outcome m2 with
  | Rust.Ret a, Rust.Ret b => R a b
  | Rust.Panic, Rust.Panic => True
  | Rust.Diverge, Rust.Diverge => True
  | _, _ => False
  end.

Lemma agree_visible {A} R (m1 m2 : res A) : agree R m1 m2 -> visible m1 = visible m2.
Proof.
  intros [Ht Ho]; unfold visible; rewrite Ht; f_equal.
  destruct (outcome m1), (outcome m2); try reflexivity; contradiction.
Qed.

Lemma agree_weaken {A} (R S : A -> A -> Prop) m1 m2 :
  (forall a b, R a b -> S a b) -> agree R m1 m2 -> agree S m1 m2.
Proof.
  intros H [Ht Ho]; split; [exact Ht|].
  destruct (outcome m1), (outcome m2); auto.
Qed.

Lemma agree_ret {A} (R : A -> A -> Prop) a b : R a b -> agree R (Ret a) (Ret b).
Proof. split; [reflexivity|assumption]. Qed.
Lemma agree_panic {A} (R : A -> A -> Prop) : agree R Panic Panic.
Proof. split; [reflexivity|exact I]. Qed.
Lemma agree_diverge {A} (R : A -> A -> Prop) : agree R Diverge Diverge.
Proof. split; [reflexivity|exact I]. Qed.
Lemma agree_emit e : agree eq (emit e) (emit e).
Proof. split; reflexivity. Qed.
Lemma agree_bind {A B} (R : A -> A -> Prop) (S : B -> B -> Prop) m1 m2 f1 f2 :
  agree R m1 m2 -> (forall a b, R a b -> agree S (f1 a) (f2 b)) ->
  agree S (bind m1 f1) (bind m2 f2).
Proof.
  destruct m1 as [t1 o1], m2 as [t2 o2]; unfold agree, trace, outcome; cbn [fst snd].
  intros [-> Ho] Hf; destruct o1 as [a| |], o2 as [b| |]; cbn; try contradiction; auto.
  specialize (Hf a b Ho); destruct (f1 a) as [u1 p1], (f2 b) as [u2 p2]; cbn in *.
  destruct Hf as [-> Hp]; auto.
Qed.
Lemma agree_emit_bind {B} (S : B -> B -> Prop) e f1 f2 :
  agree S (f1 tt) (f2 tt) -> agree S (bind (emit e) f1) (bind (emit e) f2).
Proof. intros H; eapply agree_bind; [apply agree_emit|]; intros [] [] _; exact H. Qed.
Lemma agree_branch {A} (R : A -> A -> Prop) c x1 y1 x2 y2 :
  (c = true -> agree R x1 x2) -> (c = false -> agree R y1 y2) ->
  agree R (branch c x1 y1) (branch c x2 y2).
Proof. intros Hx Hy; apply agree_emit_bind; destruct c; auto. Qed.
Lemma agree_run {A} (R : A -> A -> Prop) n a b : R a b -> agree R (run n a) (run n b).
Proof. intros H; apply agree_emit_bind, agree_ret, H. Qed.
(** An operation without a record on public values. *)
Lemma agree_lift {A} (m : Rust.res A) : agree eq (lift m) (lift m).
Proof. split; [reflexivity|]. destruct m; cbn; auto. Qed.

(** The relations used: [eq] for public values, [secret] for anything. *)
Definition secret (a b : N) : Prop := True.
Definition bytes : list N -> list N -> Prop := Forall2 secret.

Lemma Forall2_length {A} (R : A -> A -> Prop) l1 l2 : Forall2 R l1 l2 -> length l1 = length l2.
Proof. induction 1; cbn; congruence. Qed.
Lemma Forall2_len {A} (R : A -> A -> Prop) l1 l2 : Forall2 R l1 l2 -> Rust.len l1 = Rust.len l2.
Proof. intros H; unfold Rust.len; f_equal; eapply Forall2_length, H. Qed.
Lemma bytes_length l1 l2 : bytes l1 l2 <-> length l1 = length l2.
Proof.
  split; [apply Forall2_length|].
  revert l2; induction l1 as [|x l1 IH]; intros [|y l2] H; try discriminate; constructor;
    [exact I | apply IH; cbn in H; congruence].
Qed.
Lemma Forall2_refl {A} (R : A -> A -> Prop) l : (forall x, R x x) -> Forall2 R l l.
Proof. intros H; induction l; constructor; auto. Qed.
Lemma bytes_refl l : bytes l l.
Proof. apply bytes_length; reflexivity. Qed.

Lemma Forall2_firstn {A} (R : A -> A -> Prop) n : forall l1 l2,
  Forall2 R l1 l2 -> Forall2 R (firstn n l1) (firstn n l2).
Proof. induction n; intros l1 l2 H; [constructor|]. destruct H; constructor; auto. Qed.
Lemma Forall2_skipn {A} (R : A -> A -> Prop) n : forall l1 l2,
  Forall2 R l1 l2 -> Forall2 R (skipn n l1) (skipn n l2).
Proof. induction n; intros l1 l2 H; [assumption|]. destruct H; cbn; auto. Qed.
Lemma Forall2_nth {A} (R : A -> A -> Prop) n : forall l1 l2, Forall2 R l1 l2 ->
  match nth_error l1 n, nth_error l2 n with
  | Some a, Some b => R a b
  | None, None => True
  | _, _ => False
  end.
Proof. induction n; intros l1 l2 H; destruct H; cbn; auto. apply IHn; assumption. Qed.
Lemma Forall2_set_nth {A} (R : A -> A -> Prop) a b : R a b -> forall n l1 l2,
  Forall2 R l1 l2 -> Forall2 R (Rust.set_nth l1 n a) (Rust.set_nth l2 n b).
Proof.
  intros Hab n l1 l2 H; revert n; induction H; intros [|n]; cbn; constructor; auto.
Qed.

Lemma agree_idx {A} (R : A -> A -> Prop) l1 l2 i :
  Forall2 R l1 l2 -> agree R (idx l1 i) (idx l2 i).
Proof.
  intros H; apply agree_emit_bind; split; [reflexivity|]; cbn; unfold Rust.idx.
  pose proof (Forall2_nth R (N.to_nat i) l1 l2 H) as Hn.
  destruct (nth_error l1 _), (nth_error l2 _); auto.
Qed.
Lemma agree_upd {A} (R : A -> A -> Prop) l1 l2 i a b :
  Forall2 R l1 l2 -> R a b -> agree (Forall2 R) (upd l1 i a) (upd l2 i b).
Proof.
  intros H Hab; apply agree_emit_bind; split; [reflexivity|]; cbn; unfold Rust.upd.
  rewrite (Forall2_len R l1 l2 H). destruct (i <? Rust.len l2); [|exact I].
  apply Forall2_set_nth; assumption.
Qed.
Lemma agree_slice {A} (R : A -> A -> Prop) l1 l2 a b :
  Forall2 R l1 l2 -> agree (Forall2 R) (slice l1 a b) (slice l2 a b).
Proof.
  intros H; apply agree_emit_bind; split; [reflexivity|]; cbn; unfold Rust.slice.
  rewrite (Forall2_len R l1 l2 H). destruct ((a <=? b) && (b <=? Rust.len l2)); [|exact I].
  apply Forall2_firstn, Forall2_skipn, H.
Qed.
Lemma agree_slice_from {A} (R : A -> A -> Prop) l1 l2 a :
  Forall2 R l1 l2 -> agree (Forall2 R) (slice_from l1 a) (slice_from l2 a).
Proof. intros H; unfold slice_from; rewrite (Forall2_len R l1 l2 H). apply agree_slice, H. Qed.
Lemma agree_slice_to {A} (R : A -> A -> Prop) l1 l2 b :
  Forall2 R l1 l2 -> agree (Forall2 R) (slice_to l1 b) (slice_to l2 b).
Proof. apply agree_slice. Qed.
Lemma agree_with_slice {A} (R : A -> A -> Prop) l1 l2 a b f1 f2 :
  Forall2 R l1 l2 ->
  (forall s1 s2, Forall2 R s1 s2 -> agree (Forall2 R) (f1 s1) (f2 s2)) ->
  agree (Forall2 R) (with_slice l1 a b f1) (with_slice l2 a b f2).
Proof.
  intros H Hf; unfold with_slice.
  eapply agree_bind; [apply agree_slice, H|]; intros s1 s2 Hs.
  eapply agree_bind; [apply Hf, Hs|]; intros t1 t2 Ht.
  apply agree_ret, Forall2_app; [apply Forall2_firstn, H|].
  apply Forall2_app; [exact Ht | apply Forall2_skipn, H].
Qed.
Lemma agree_copy {A} (R : A -> A -> Prop) d1 d2 s1 s2 :
  Forall2 R d1 d2 -> Forall2 R s1 s2 ->
  agree (Forall2 R) (copy_from_slice d1 s1) (copy_from_slice d2 s2).
Proof.
  intros Hd Hs; unfold copy_from_slice. rewrite (Forall2_len R s1 s2 Hs).
  apply agree_emit_bind; split; [reflexivity|]; cbn; unfold Rust.copy_from_slice.
  rewrite (Forall2_len R s1 s2 Hs), (Forall2_len R d1 d2 Hd).
  destruct (_ =? _); [exact Hs | exact I].
Qed.
Definition both {A B} (R : A -> A -> Prop) (S : B -> B -> Prop) (p q : A * B) : Prop :=
  R (fst p) (fst q) /\ S (snd p) (snd q).
Lemma agree_split_off {A} (R : A -> A -> Prop) l1 l2 a :
  Forall2 R l1 l2 -> agree (both (Forall2 R) (Forall2 R)) (split_off l1 a) (split_off l2 a).
Proof.
  intros H; unfold split_off; rewrite (Forall2_len R l1 l2 H).
  apply agree_emit_bind; split; [reflexivity|]; cbn; unfold Rust.split_off.
  rewrite (Forall2_len R l1 l2 H). destruct (_ <=? _); [|exact I].
  split; [apply Forall2_firstn | apply Forall2_skipn]; exact H.
Qed.
Lemma agree_alloc T s n : agree eq (alloc T s n) (alloc T s n).
Proof. apply agree_emit_bind, agree_lift. Qed.
Lemma chunks_fuel_rel {A} (R : A -> A -> Prop) n fuel : forall l1 l2, Forall2 R l1 l2 ->
  Forall2 (Forall2 R) (Rust.chunks_fuel fuel n l1) (Rust.chunks_fuel fuel n l2).
Proof.
  induction fuel as [|fuel IH]; intros l1 l2 H; destruct H as [|x y l1 l2 Hxy H];
    cbn [Rust.chunks_fuel]; constructor.
  - apply Forall2_firstn; constructor; assumption.
  - apply IH, Forall2_skipn; constructor; assumption.
Qed.
Lemma agree_chunks {A} (R : A -> A -> Prop) l1 l2 n :
  Forall2 R l1 l2 -> agree (Forall2 (Forall2 R)) (chunks l1 n) (chunks l2 n).
Proof.
  intros H; unfold chunks; rewrite (Forall2_len R l1 l2 H).
  apply agree_emit_bind; split; [reflexivity|]; cbn; unfold Rust.chunks.
  destruct (n =? 0); [exact I|].
  rewrite (Forall2_length R l1 l2 H). apply chunks_fuel_rel, H.
Qed.
Lemma agree_chunks_exact {A} (R : A -> A -> Prop) l1 l2 n :
  Forall2 R l1 l2 -> agree (Forall2 (Forall2 R)) (chunks_exact l1 n) (chunks_exact l2 n).
Proof.
  intros H; unfold chunks_exact; rewrite (Forall2_len R l1 l2 H).
  apply agree_emit_bind; split; [reflexivity|]; cbn; unfold Rust.chunks_exact.
  destruct (n =? 0); [exact I|].
  rewrite (Forall2_length R l1 l2 H).
  pose proof (chunks_fuel_rel R (N.to_nat n) (length l2) l1 l2 H) as Hc.
  induction Hc as [|c1 c2 cs1 cs2 Hc Hcs IH]; cbn; [constructor|].
  rewrite (Forall2_len R c1 c2 Hc). destruct (_ =? _); [constructor; assumption | assumption].
Qed.

Lemma agree_for_n {St} (R : St -> St -> Prop) n b1 b2 :
  (forall i s1 s2, R s1 s2 -> agree R (b1 i s1) (b2 i s2)) ->
  forall i s1 s2, R s1 s2 -> agree R (for_n n i b1 s1) (for_n n i b2 s2).
Proof.
  intros Hb; induction n as [|n IH]; intros i s1 s2 Hs; cbn [for_n]; apply agree_emit_bind.
  - apply agree_ret, Hs.
  - eapply agree_bind; [apply Hb, Hs|]. intros; apply IH; assumption.
Qed.
Lemma agree_for_range {St} (R : St -> St -> Prop) lo hi b1 b2 s1 s2 :
  R s1 s2 -> (forall i s1 s2, R s1 s2 -> agree R (b1 i s1) (b2 i s2)) ->
  agree R (for_range lo hi b1 s1) (for_range lo hi b2 s2).
Proof. intros; apply agree_for_n; assumption. Qed.
Lemma agree_for_range_incl {St} (R : St -> St -> Prop) lo hi b1 b2 s1 s2 :
  R s1 s2 -> (forall i s1 s2, R s1 s2 -> agree R (b1 i s1) (b2 i s2)) ->
  agree R (for_range_incl lo hi b1 s1) (for_range_incl lo hi b2 s2).
Proof. intros; apply agree_for_n; assumption. Qed.
Lemma agree_for_each {A St} (E : A -> A -> Prop) (R : St -> St -> Prop) b1 b2 :
  (forall x1 x2 s1 s2, E x1 x2 -> R s1 s2 -> agree R (b1 x1 s1) (b2 x2 s2)) ->
  forall l1 l2, Forall2 E l1 l2 -> forall s1 s2, R s1 s2 ->
  agree R (for_each l1 b1 s1) (for_each l2 b2 s2).
Proof.
  intros Hb l1 l2 Hl; induction Hl as [|x1 x2 l1 l2 Hx Hl IH]; intros s1 s2 Hs;
    cbn [for_each]; apply agree_emit_bind.
  - apply agree_ret, Hs.
  - eapply agree_bind; [apply Hb; eassumption|]. intros; apply IH; assumption.
Qed.
Lemma agree_map_res {A B} (E : A -> A -> Prop) (R : B -> B -> Prop) f1 f2 :
  (forall x1 x2, E x1 x2 -> agree R (f1 x1) (f2 x2)) ->
  forall l1 l2, Forall2 E l1 l2 -> agree (Forall2 R) (map_res f1 l1) (map_res f2 l2).
Proof.
  intros Hf l1 l2 Hl; induction Hl as [|x1 x2 l1 l2 Hx Hl IH];
    cbn [map_res]; apply agree_emit_bind.
  - apply agree_ret; constructor.
  - eapply agree_bind; [apply Hf, Hx|]. intros y1 y2 Hy.
    eapply agree_bind; [apply IH|]. intros ys1 ys2 Hys. apply agree_ret; constructor; assumption.
Qed.
Lemma agree_while {St} (R : St -> St -> Prop) c1 c2 b1 b2 :
  (forall s1 s2, R s1 s2 -> c1 s1 = c2 s2) ->
  (forall s1 s2, R s1 s2 -> agree R (b1 s1) (b2 s2)) ->
  forall fuel s1 s2, R s1 s2 -> agree R (while_loop fuel c1 b1 s1) (while_loop fuel c2 b2 s2).
Proof.
  intros Hc Hb; induction fuel as [|fuel IH]; intros s1 s2 Hs; cbn [while_loop];
    rewrite (Hc s1 s2 Hs); apply agree_branch; intros _; auto using agree_ret, agree_diverge.
  eapply agree_bind; [apply Hb, Hs|]. auto.
Qed.
Lemma zip_xor_length a : forall b, length (Rust.zip_xor a b) = Nat.min (length a) (length b).
Proof. induction a as [|x a IH]; intros [|y b]; cbn; auto. Qed.
Lemma xor_into_length a : forall b, length (Rust.xor_into a b) = length a.
Proof. induction a as [|x a IH]; intros [|y b]; cbn; auto. Qed.
Lemma agree_zip_xor a1 a2 b1 b2 : bytes a1 a2 -> bytes b1 b2 ->
  agree bytes (zip_xor a1 b1) (zip_xor a2 b2).
Proof.
  intros Ha Hb; unfold zip_xor. rewrite (Forall2_len _ _ _ Ha), (Forall2_len _ _ _ Hb).
  apply agree_run, bytes_length. rewrite !zip_xor_length.
  rewrite (Forall2_length _ _ _ Ha), (Forall2_length _ _ _ Hb); reflexivity.
Qed.
Lemma agree_map f1 f2 l1 l2 : bytes l1 l2 -> agree bytes (map f1 l1) (map f2 l2).
Proof.
  intros H; unfold map. rewrite (Forall2_len _ _ _ H).
  apply agree_run, bytes_length. rewrite !map_length. eapply Forall2_length, H.
Qed.

(** Syntax-directed agreement; leaves loops and what it has no rule for. *)
Create HintDb agree.
Lemma rel_refl_repeat n : Forall2 secret (repeat 0 n) (repeat 0 n).
Proof. apply bytes_refl. Qed.
Ltac rel :=
  first [ eassumption | exact I | reflexivity | apply rel_refl_repeat | apply bytes_refl
        | solve [auto with agree nocore] ].
Ltac ag_op :=
  first
    [ solve [auto with agree nocore]
    | solve [eauto with agree nocore]
    | apply agree_lift | apply agree_alloc
    | eapply agree_idx; rel
    | eapply (agree_upd secret); rel
    | eapply agree_slice; rel | eapply agree_slice_from; rel | eapply agree_slice_to; rel
    | eapply (agree_copy secret); rel
    | eapply agree_chunks; rel | eapply agree_chunks_exact; rel
    | eapply agree_split_off; rel
    | apply agree_map; rel | apply agree_zip_xor; rel
    | eapply (agree_with_slice secret); [rel|intros; solve [repeat ag1; try rel]] ]
with ag1 :=
  match goal with
  | |- agree _ (bind (emit _) _) (bind (emit _) _) => apply agree_emit_bind
  | |- agree _ (Ret _) (Ret _) => apply agree_ret
  | |- agree _ (run _ _) (run _ _) => apply agree_run
  | |- agree _ (branch ?c _ _) (branch ?c _ _) => apply agree_branch; intros
  | |- agree _ (bind _ _) (bind _ _) =>
      eapply agree_bind; [solve [ag_op]|];
      let H := fresh "Hr" in
      intros ? ? H;
      try (match type of H with
           | ?a = ?b => subst
           | Forall2 secret ?a ?b => change (bytes a b) in H
           end)
  | |- agree _ (let (_, _) := ?p in _) (let (_, _) := ?q in _) =>
      destruct p, q
  | |- _ => ag_op
  end.
Ltac ag := repeat ag1; try rel.
#[export] Hint Resolve bytes_refl : agree.
Global Opaque agree.
