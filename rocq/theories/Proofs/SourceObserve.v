(** Source/Observe.v computes what Source/Interp.v does. *)
From Coq Require Import NArith List String Bool.
From Verif Require Import Rust.
From Verif.Source Require Import Syntax Interp Tree Calls Observe.
Import ListNotations.
Local Open Scope string_scope.
Local Open Scope N_scope.

Definition erases (m : L) (m' : M) : Prop := forall r, snd (m r) = m' r.

Lemma quiet_erases m : erases (quiet m) m.
Proof. intros r. reflexivity. Qed.
Lemma noting_erases t m m' : erases m m' -> erases (noting t m) m'.
Proof. intros H r. rewrite <- H. unfold noting. destruct (m r). reflexivity. Qed.
Lemma bindl_erases m m' k k' : erases m m' -> (forall v, erases (k v) (k' v)) -> erases (bindl m k) (bindm m' k').
Proof.
  intros H1 H2 r. unfold bindl, bindm. rewrite <- H1.
  destruct (m r) as [t [[[v|v|] r']| |]]; cbn [snd bind]; try reflexivity.
  rewrite <- H2. destruct (k v r'). reflexivity.
Qed.
Lemma alll_erases ms ms' : Forall2 erases ms ms' ->
  forall k k', (forall vs, erases (k vs) (k' vs)) -> erases (alll ms k) (all ms' k').
Proof.
  induction 1 as [|m m' ms ms' Hm _ IH]; intros k k' Hk; cbn [alll all]; [apply Hk|].
  apply bindl_erases; [exact Hm|]. intros v. apply IH. intros vs. apply Hk.
Qed.
Lemma scopedl_erases new m m' : erases m m' -> erases (scopedl new m) (scoped new m').
Proof. intros H r. unfold scopedl, scoped. rewrite <- H. destruct (m _). reflexivity. Qed.
Lemma bindingl_erases p v m m' : erases m m' -> erases (bindingl p v m) (binding p v m').
Proof. intros H r. unfold bindingl, binding. destruct (matches p v); [apply scopedl_erases; exact H|reflexivity]. Qed.
Lemma first_arml_erases v arms arms' :
  Forall2 (fun a a' => fst a = fst a' /\ erases (snd a) (snd a')) arms arms' ->
  forall k, erases (first_arml k v arms) (first_arm v arms').
Proof.
  induction 1 as [|[p m] [p' m'] l l' [Hp Hm] _ IH]; intros k r; cbn [first_arml first_arm]; [reflexivity|].
  cbn [fst snd] in Hp, Hm. subst p'. destruct (matches p v); [|apply IH].
  apply noting_erases, scopedl_erases, Hm.
Qed.
Lemma oncel_erases m m' : erases m m' -> erases (oncel m) (once m').
Proof. intros H r. unfold oncel, once. rewrite <- H. destruct (m r). reflexivity. Qed.
Lemma for_itemsl_erases B B' l : (forall v, erases (B v) (B' v)) -> erases (for_itemsl B l) (for_items B' l).
Proof.
  intros H. induction l as [|x l IH]; cbn [for_itemsl for_items]; [apply quiet_erases|].
  apply bindl_erases; [apply oncel_erases, H|]. intros _. exact IH.
Qed.
Lemma map_itemsl_erases B B' l : (forall v, erases (B v) (B' v)) -> erases (map_itemsl B l) (map_items B' l).
Proof.
  intros H. induction l as [|x l IH]; cbn [map_itemsl map_items]; [apply quiet_erases|].
  apply bindl_erases; [apply H|]. intros y. apply bindl_erases; [exact IH|]. intros ys. apply quiet_erases.
Qed.
Lemma whilel_erases c c' b b' : erases c c' -> erases b b' ->
  forall n, erases (whilel n c b) (while_m n c' b').
Proof.
  intros Hc Hb. induction n as [|n IH]; cbn [whilel while_m]; (apply bindl_erases; [exact Hc|]);
    intros v; apply noting_erases; destruct v as [|[]| | | | | | | |]; try apply quiet_erases.
  apply bindl_erases; [apply oncel_erases, Hb|]. intros _. exact IH.
Qed.

Section Erase.

Variable T : target.
Variable calll : calleel.
Variable call : callee.
Hypothesis calls : forall f vs, snd (calll f vs) = call f vs.
Variable cst : string -> res val.
Variable n : nat.

Lemma do_calll_erases f vs : erases (do_calll calll f vs) (do_call call f vs).
Proof.
  intros r. unfold do_calll, do_call. destruct (copy_in r vs) as [xs| |]; cbn [bind]; try reflexivity.
  rewrite <- calls. destruct (calll f xs). reflexivity.
Qed.

Ltac erase :=
  match goal with
  | |- erases (quiet ?m) _ => apply quiet_erases
  | IH : forall e place, erases _ _ |- erases (evall _ _ _ _ _ ?e) _ => apply IH
  | |- erases (bindl _ _) _ => apply bindl_erases; [|intros ?v]
  | |- erases (noting _ _) _ => apply noting_erases
  | |- erases (alll _ _) _ => apply alll_erases; [|intros ?vs]
  | |- erases (do_calll _ _ _) _ => apply do_calll_erases
  | |- erases (bindingl _ _ _) _ => apply bindingl_erases
  | |- erases (scopedl _ _) _ => apply scopedl_erases
  | |- erases (whilel _ _ _) _ => apply whilel_erases
  | |- erases (for_itemsl _ _) _ => apply for_itemsl_erases; intros ?v
  | |- erases (map_itemsl _ _) _ => apply map_itemsl_erases; intros ?v
  | |- erases (match items ?v with _ => _ end) _ => destruct (items v); cbn [bind]
  | |- erases (match ?x with _ => _ end) _ => destruct x
  | IHs : forall es, Forall2 erases _ _ |- Forall2 erases _ _ => apply IHs
  end.

Lemma evall_erases : forall e place, erases (evall T calll cst n place e) (eval T call cst n place e).
Proof.
  fix IH 1.
  assert (IHs : forall es, Forall2 erases (each (evall T calll cst n false) es) (each (eval T call cst n false) es)).
  { fix IHs 1. intros [|e es]; cbn [each]; constructor; [apply IH|apply IHs]. }
  intros e place; destruct e; cbn [evall eval]; repeat erase.
  - revert fs. fix IHf 1. intros [|[[x t] e] fs]; cbn [each]; constructor; [|apply IHf].
    cbn [fst snd]. apply bindl_erases; [apply IH|]. intros v. apply quiet_erases.
  - apply first_arml_erases. revert arms. fix IHa 1. intros [|[p b] arms]; cbn [each]; constructor; [|apply IHa].
    cbn [fst snd]. split; [reflexivity|apply IH].
Qed.

Lemma observe_fn_erases d vs : snd (observe_fn T calll cst n d vs) = run_fn T call cst n d vs.
Proof.
  unfold observe_fn, run_fn. destruct (frame (params d) vs) as [r| |]; cbn [bind]; try reflexivity.
  pose proof (evall_erases (body d) false r) as E.
  destruct (evall T calll cst n false (body d) r) as [t x]. cbn [snd] in E. subst x. reflexivity.
Qed.

End Erase.

Lemma observe_in_erases T cs fs : forall n f vs, snd (observe_in T cs fs n f vs) = interp T cs fs n f vs.
Proof.
  induction n as [|n IH]; intros f vs; cbn [observe_in interp]; [reflexivity|].
  destruct (find f fs) as [d| |]; cbn [bind]; try reflexivity.
  apply observe_fn_erases. intros g ws. apply IH.
Qed.

Lemma observe_erases T n f vs : snd (observe T n f vs) = run T n f vs.
Proof. apply observe_in_erases. Qed.
