(** The interpreter of Source/Interp.v, for all programs: more fuel changes no
    outcome, and without overflow checks every result of a checked run is the same. *)
From Coq Require Import NArith List String Bool Arith Lia.
From Verif Require Import Rust.
From Verif.Source Require Import Syntax Interp.
Import ListNotations.
Local Open Scope string_scope.
Local Open Scope N_scope.

Section Runs.

(** [loose]: whether something else may happen instead of a panic. *)
Variable loose : bool.
Definition leq {A : Type} (a b : res A) : Prop :=
  match a with
  | Ret _ => b = a
  | Panic => loose = true \/ b = Panic
  | Diverge => True
  end.
Lemma leq_refl {A} (a : res A) : leq a a.
Proof. destruct a; cbn; auto. Qed.
Lemma leq_bind {A B} (m m' : res A) (k k' : A -> res B) :
  leq m m' -> (forall x, leq (k x) (k' x)) -> leq (bind m k) (bind m' k').
Proof.
  intros H1 H2. destruct m as [x| |]; cbn in *.
  - subst m'. apply H2.
  - destruct H1 as [H1|H1]; [left; exact H1|right; rewrite H1; reflexivity].
  - exact I.
Qed.

Variables T T' : target.
Hypothesis same_width : width T' = width T.
Hypothesis checks : overflow_checks T' = overflow_checks T \/ loose = true /\ overflow_checks T = true.

Lemma same_bits t : bits T' t = bits T t.
Proof. destruct t; cbn; try reflexivity. unfold usize_bits. rewrite same_width. reflexivity. Qed.
Lemma same_mod : usize_mod T' = usize_mod T.
Proof. unfold usize_mod, usize_bits. rewrite same_width. reflexivity. Qed.
Lemma same_max : isize_max T' = isize_max T.
Proof. unfold isize_max, usize_bits. rewrite same_width. reflexivity. Qed.
Lemma same_alloc a n : alloc T' a n = alloc T a n.
Proof. unfold alloc. rewrite same_max. reflexivity. Qed.
Lemma same_size t : elem_size T' t = elem_size T t.
Proof.
  destruct t; cbn; rewrite ?same_bits; try reflexivity.
  unfold vec_size, usize_bits. rewrite same_width. reflexivity.
Qed.
Lemma same_not v : not_ T' v = not_ T v.
Proof. destruct v as [| |[]| | | | | | |]; cbn; try reflexivity. unfold usize_bits. rewrite same_width. reflexivity. Qed.
Lemma same_cast t v : cast T' t v = cast T t v.
Proof. destruct v, t; cbn; try reflexivity. unfold as_usize. rewrite same_mod. reflexivity. Qed.
Lemma same_wrapping v w : wrapping_add T' v w = wrapping_add T v w.
Proof.
  destruct v as [| |t a| | | | | | |]; try reflexivity; destruct w as [| |u y| | | | | | |]; try (destruct t; reflexivity); destruct t; try reflexivity;
    destruct u; cbn; try reflexivity; unfold usize_bits; rewrite same_width; reflexivity.
Qed.

Ltac checked :=
  destruct checks as [E|[L E]]; rewrite E; [apply leq_refl|left; exact L].
Lemma fit_leq t x : leq (fit T t x) (fit T' t x).
Proof. unfold fit. rewrite same_bits. destruct (x <? _); [reflexivity|]. checked. Qed.
Lemma fit_usize_leq x : leq (fit_usize T x) (fit_usize T' x).
Proof. unfold fit_usize. rewrite same_mod. destruct (x <? _); [reflexivity|]. checked. Qed.
Lemma add_leq t a b : leq (add T t a b) (add T' t a b).
Proof. destruct t; cbn [add]; try apply fit_leq; [apply fit_usize_leq|exact I]. Qed.
Lemma mul_leq t a b : leq (mul T t a b) (mul T' t a b).
Proof. destruct t; cbn [mul]; try apply fit_leq; [apply fit_usize_leq|exact I]. Qed.
Lemma sub_leq t a b : leq (sub T t a b) (sub T' t a b).
Proof.
  unfold sub, usub. rewrite same_bits, same_mod. destruct t; try exact I; (destruct (b <=? a); [reflexivity|]); checked.
Qed.
Lemma amount_leq t s : leq (amount T t s) (amount T' t s).
Proof. unfold amount. rewrite same_bits. destruct (below s _); [reflexivity|]. checked. Qed.
Lemma same_shl t a s : shl T' t a s = shl T t a s.
Proof. destruct t; cbn; rewrite ?same_mod; reflexivity. Qed.
Lemma arith_leq op t a b : leq (arith T op t a b) (arith T' op t a b).
Proof.
  destruct op; cbn [arith]; try apply leq_refl; apply leq_bind;
    auto using add_leq, sub_leq, mul_leq, leq_refl.
Qed.
Lemma bin_leq op v w : leq (bin T op v w) (bin T' op v w).
Proof.
  destruct v as [| |t a| | | | | | |]; try exact I. destruct w as [| |u b| | | | | | |]; try exact I.
  cbn [bin]. destruct op; try (destruct (join t u); [apply arith_leq|exact I]);
    (apply leq_bind; [apply amount_leq|]); intros s; rewrite ?same_shl; apply leq_refl.
Qed.

(** ** Steps *)

Definition mleq (m m' : M) : Prop := forall r, leq (m r) (m' r).
Lemma mleq_refl m : mleq m m.
Proof. intros r. apply leq_refl. Qed.
Lemma bindm_leq m m' k k' : mleq m m' -> (forall v, mleq (k v) (k' v)) -> mleq (bindm m k) (bindm m' k').
Proof.
  intros H1 H2 r. unfold bindm. apply leq_bind; [apply H1|]. intros [[v|v|] r']; [apply H2| |]; apply leq_refl.
Qed.
Lemma lift_leq m m' : leq m m' -> mleq (lift m) (lift m').
Proof. intros H r. unfold lift. apply leq_bind; [exact H|]. intros v. apply leq_refl. Qed.
Lemma all_leq ms ms' : Forall2 mleq ms ms' ->
  forall k k', (forall vs, mleq (k vs) (k' vs)) -> mleq (all ms k) (all ms' k').
Proof.
  induction 1 as [|m m' ms ms' Hm _ IH]; intros k k' Hk; cbn [all]; [apply Hk|].
  apply bindm_leq; [exact Hm|]. intros v. apply IH. intros vs. apply Hk.
Qed.
Lemma scoped_leq new m m' : mleq m m' -> mleq (scoped new m) (scoped new m').
Proof. intros H r. unfold scoped. apply leq_bind; [apply H|]. intros [o r']. apply leq_refl. Qed.
Lemma binding_leq p v m m' : mleq m m' -> mleq (binding p v m) (binding p v m').
Proof. intros H r. unfold binding. destruct (matches p v); [apply scoped_leq; exact H|exact I]. Qed.
Lemma first_arm_leq v arms arms' :
  Forall2 (fun a a' => fst a = fst a' /\ mleq (snd a) (snd a')) arms arms' ->
  mleq (first_arm v arms) (first_arm v arms').
Proof.
  induction 1 as [|[p m] [p' m'] l l' [Hp Hm] _ IH]; intros r; cbn [first_arm]; [exact I|].
  cbn [fst snd] in Hp, Hm. subst p'. destruct (matches p v); [apply scoped_leq; exact Hm|apply IH].
Qed.
Lemma once_leq m m' : mleq m m' -> mleq (once m) (once m').
Proof. intros H r. unfold once. apply leq_bind; [apply H|]. intros [[v|v|] r']; apply leq_refl. Qed.
Lemma for_items_leq B B' l : (forall v, mleq (B v) (B' v)) -> mleq (for_items B l) (for_items B' l).
Proof.
  intros H. induction l as [|x l IH]; cbn [for_items]; [apply mleq_refl|].
  apply bindm_leq; [apply once_leq, H|]. intros _. exact IH.
Qed.
Lemma map_items_leq B B' l : (forall v, mleq (B v) (B' v)) -> mleq (map_items B l) (map_items B' l).
Proof.
  intros H. induction l as [|x l IH]; cbn [map_items]; [apply mleq_refl|].
  apply bindm_leq; [apply H|]. intros y. apply bindm_leq; [exact IH|].
  intros []; apply mleq_refl.
Qed.
Lemma while_leq c c' b b' : mleq c c' -> mleq b b' ->
  forall n n', (n <= n')%nat -> mleq (while_m n c b) (while_m n' c' b').
Proof.
  intros Hc Hb. induction n as [|n IH]; intros n' Hn.
  - destruct n' as [|n']; cbn [while_m]; (apply bindm_leq; [exact Hc|]); intros [|[]| | | | | | | |] r; try exact I; apply leq_refl.
  - destruct n' as [|n']; [lia|]. cbn [while_m]. apply bindm_leq; [exact Hc|].
    intros [|[]| | | | | | | |] r; try exact I; [|apply leq_refl].
    apply bindm_leq; [apply once_leq; exact Hb|]. intros _. apply IH. lia.
Qed.

(** ** Expressions *)

Variables call call' : callee.
Hypothesis calls : forall f vs, leq (call f vs) (call' f vs).
Variable cst : string -> res val.
Variables n n' : nat.
Hypothesis more : (n <= n')%nat.

Lemma do_call_leq f vs : mleq (do_call call f vs) (do_call call' f vs).
Proof.
  intros r. unfold do_call. apply leq_bind; [apply leq_refl|]. intros xs.
  apply leq_bind; [apply calls|]. intros [y ws]. apply leq_refl.
Qed.
Lemma same_builtin m recv v args : mleq (builtin T m recv v args) (builtin T' m recv v args).
Proof.
  replace (builtin T' m recv v args) with (builtin T m recv v args); [apply mleq_refl|].
  unfold builtin. destruct args as [|w [|]]; rewrite ?same_wrapping; reflexivity.
Qed.

Ltac leqs :=
  match goal with
  | IH : forall e place, mleq _ _ |- mleq (eval _ _ _ _ _ ?e) _ => apply IH
  | |- mleq ?m ?m => apply mleq_refl
  | |- mleq (bindm _ _) _ => apply bindm_leq; [|intros ?v]
  | |- mleq (lift _) _ => apply lift_leq
  | |- leq ?a ?a => apply leq_refl
  | |- leq (bin _ _ _ _) _ => apply bin_leq
  | |- leq Diverge _ => exact I
  | |- mleq (fun _ => Diverge) _ => intros ?r; exact I
  | |- mleq (all _ _) _ => apply all_leq; [|intros ?vs]
  | |- mleq (do_call _ _ _) _ => apply do_call_leq
  | |- mleq (builtin _ _ _ _ _) _ => apply same_builtin
  | |- mleq (binding _ _ _) _ => apply binding_leq
  | |- mleq (scoped _ _) _ => apply scoped_leq
  | |- mleq (while_m _ _ _) _ => apply while_leq; [| |exact more]
  | |- mleq (match ?x with _ => _ end) _ => destruct x
  | |- mleq (fun r => bind _ _) _ => intros ?r; apply leq_bind; [apply leq_refl|intros ?x]
  | |- leq (for_items ?B ?l ?r) _ => apply for_items_leq; intros ?v
  | |- leq (map_items ?B ?l ?r) _ => apply map_items_leq; intros ?v
  | IHs : forall es, Forall2 mleq _ _ |- Forall2 mleq _ _ => apply IHs
  end.

Lemma eval_leq : forall e place,
  mleq (eval T call cst n place e) (eval T' call' cst n' place e).
Proof.
  fix IH 1.
  assert (IHs : forall es, Forall2 mleq (each (eval T call cst n false) es) (each (eval T' call' cst n' false) es)).
  { fix IHs 1. intros [|e es]; cbn [each]; constructor; [apply IH|apply IHs]. }
  intros e place; destruct e; cbn [eval]; repeat leqs.
  - rewrite same_not. apply leq_refl.
  - rewrite same_cast. apply leq_refl.
  - apply leq_bind; [apply leq_refl|]. intros k. rewrite same_alloc. apply leq_refl.
  - apply leq_bind; [apply leq_refl|]. intros k. rewrite same_alloc, same_size. apply leq_refl.
  - revert fs. fix IHf 1. intros [|[[x t] e] fs]; cbn [each]; constructor; [|apply IHf].
    cbn [fst snd]. apply bindm_leq; [apply IH|]. intros v. apply mleq_refl.
  - apply first_arm_leq. revert arms. fix IHa 1. intros [|[p b] arms]; cbn [each]; constructor; [|apply IHa].
    cbn [fst snd]. split; [reflexivity|apply IH].
Qed.

Lemma run_fn_leq d vs : leq (run_fn T call cst n d vs) (run_fn T' call' cst n' d vs).
Proof.
  unfold run_fn. apply leq_bind; [apply leq_refl|]. intros r.
  apply leq_bind; [apply eval_leq|]. intros [o r']. apply leq_refl.
Qed.

End Runs.

Lemma interp_leq loose T T' cs fs :
  width T' = width T -> (overflow_checks T' = overflow_checks T \/ loose = true /\ overflow_checks T = true) ->
  forall n n' f vs, (n <= n')%nat -> leq loose (interp T cs fs n f vs) (interp T' cs fs n' f vs).
Proof.
  intros Hw Hc. induction n as [|n IH]; intros n' f vs Hn; [exact I|].
  destruct n' as [|n']; [lia|]. cbn [interp]. apply leq_bind; [apply leq_refl|]. intros d.
  apply run_fn_leq; try assumption; [|lia]. intros g ws. apply IH. lia.
Qed.

(** More fuel changes no outcome. *)
Lemma interp_fuel T cs fs n n' f vs : (n <= n')%nat -> interp T cs fs n f vs <> Diverge ->
  interp T cs fs n' f vs = interp T cs fs n f vs.
Proof.
  intros Hn Hd. pose proof (interp_leq false T T cs fs eq_refl (or_introl eq_refl) n n' f vs Hn) as H.
  destruct (interp T cs fs n f vs); cbn in H; [exact H| |contradiction].
  destruct H as [H|H]; [discriminate|exact H].
Qed.

(** What a checked run returns, an unchecked one returns. *)
Lemma interp_unchecked w cs fs n f vs x :
  interp (mkTarget w true) cs fs n f vs = Ret x -> interp (mkTarget w false) cs fs n f vs = Ret x.
Proof.
  intros H. pose proof (interp_leq true (mkTarget w true) (mkTarget w false) cs fs eq_refl
    (or_intror (conj eq_refl eq_refl)) n n f vs (le_n n)) as L.
  rewrite H in L. exact L.
Qed.
