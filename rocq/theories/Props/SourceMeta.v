(** C109: the fuel of the interpreter and the overflow checks of the build. *)
From Coq Require Import Arith NArith List String Bool Lia.
From Verif Require Import Rust.
From Verif.Source Require Import Syntax Interp Tree Calls Objects.
From Verif.Proofs Require SourceMeta.
Import ListNotations.
Local Open Scope string_scope.
Local Open Scope N_scope.

(** For every program, every function of it and all arguments: a run that ends,
    with a result or a panic, ends in the same way with more fuel.  So the fuel of
    the theorems C100-C108 is no part of what they say. *)
Theorem C109_more_fuel : forall T constants functions fuel fuel' f args, (fuel <= fuel')%nat ->
  interp T constants functions fuel f args <> Diverge ->
  interp T constants functions fuel' f args = interp T constants functions fuel f args.
Proof. intros T cs fs n n' f vs. apply Proofs.SourceMeta.interp_fuel. Qed.
Print Assumptions C109_more_fuel.

(** Hence a call has one outcome at most. *)
Definition ends (T : target) (f : string) (args : list val) (o : res (val * list (option val))) : Prop :=
  o <> Diverge /\ exists fuel, run T fuel f args = o.
Theorem C109_one_outcome : forall T f args o o', ends T f args o -> ends T f args o' -> o = o'.
Proof.
  intros T f args o o' [H [n E]] [H' [n' E']]. subst o o'. unfold run in *.
  destruct (Nat.le_ge_cases n n') as [L|L].
  - symmetry. apply C109_more_fuel; assumption.
  - apply C109_more_fuel; assumption.
Qed.
Print Assumptions C109_one_outcome.

(** Whatever a build with overflow checks returns, the build without them returns,
    and leaves behind the mutable references in the same state; for every program. *)
Theorem C109_unchecked_build : forall w constants functions fuel f args x,
  interp (mkTarget w true) constants functions fuel f args = Ret x ->
  interp (mkTarget w false) constants functions fuel f args = Ret x.
Proof. intros w cs fs n f vs x. apply Proofs.SourceMeta.interp_unchecked. Qed.
Print Assumptions C109_unchecked_build.

(** The same for an object of /repo and any calls on it. *)
Theorem C109_unchecked_objects : forall w fuel fuel' type args calls vs, (fuel <= fuel')%nat ->
  object (mkTarget w true) fuel type args calls = Ret vs ->
  object (mkTarget w false) fuel' type args calls = Ret vs.
Proof.
  intros w n n' type args calls vs Hn.
  assert (R : forall f xs x, run (mkTarget w true) n f xs = Ret x -> run (mkTarget w false) n' f xs = Ret x).
  { intros f xs x E. unfold run in *. apply C109_unchecked_build in E.
    rewrite (C109_more_fuel _ _ _ _ _ f xs Hn); rewrite E; [reflexivity|discriminate]. }
  assert (K : forall cs self us, talk (mkTarget w true) n type cs self = Ret us ->
    talk (mkTarget w false) n' type cs self = Ret us).
  { induction cs as [|[m xs] cs IH]; intros self us E; cbn [talk] in *; [exact E|].
    destruct (run (mkTarget w true) n _ _) as [[v refs]| |] eqn:E1; cbn [bind] in E; try discriminate.
    rewrite (R _ _ _ E1). cbn [bind]. unfold bind in E |- *.
    destruct (talk (mkTarget w true) n type cs _) as [us'| |] eqn:E2; try discriminate.
    rewrite (IH _ _ E2). exact E. }
  unfold object. intros E.
  destruct (run (mkTarget w true) n _ _) as [[self refs]| |] eqn:E1; cbn [bind] in E; try discriminate.
  rewrite (R _ _ _ E1). cbn [bind]. apply K. exact E.
Qed.
Print Assumptions C109_unchecked_objects.

(** That the two builds do the same is false: the checked one panics more. *)
Theorem C109_builds_agree_refuted : exists w type args calls vs,
  object (mkTarget w false) 70 type args calls = Ret vs /\
  object (mkTarget w true) 70 type args calls = Panic.
Proof.
  exists W32, "pkcs7::Unpad", [VInt Usize (2 ^ 31)], [("flush", [])].
  eexists. split; vm_compute; reflexivity.
Qed.
Print Assumptions C109_builds_agree_refuted.

(** Runs of one text: too little fuel, enough, more; both builds. *)
Example C109_example :
  let calls := [("write", [VNums U8 [1; 2; 3; 4; 5]]); ("flush", [])] in
  let pad checked fuel := object (mkTarget W64 checked) fuel "pkcs7::Pad" [VInt Usize 4] calls in
  let answers := Ret [VCon "Some" [VNums U8 [1; 2; 3; 4]]; VNums U8 [5; 3; 3; 3]] in
  pad true 3%nat = Diverge /\ pad true 4%nat = answers /\ pad false 4%nat = answers /\ pad false 200%nat = answers.
Proof.
  cbv zeta.
  assert (E : object (mkTarget W64 true) 4 "pkcs7::Pad" [VInt Usize 4]
    [("write", [VNums U8 [1; 2; 3; 4; 5]]); ("flush", [])] =
    Ret [VCon "Some" [VNums U8 [1; 2; 3; 4]]; VNums U8 [5; 3; 3; 3]]) by (vm_compute; reflexivity).
  split; [vm_compute; reflexivity|split; [exact E|split]].
  - exact (C109_unchecked_objects _ _ _ _ _ _ _ (le_n 4) E).
  - apply (C109_unchecked_objects _ 4 200 _ _ _ _ ltac:(lia) E).
Qed.
