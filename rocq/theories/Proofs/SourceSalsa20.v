(** The trees of src/salsa20.rs do what Model/Salsa20.v says. *)
From Coq Require Import NArith List String Bool Lia ZifyBool ZifyNat ZifyN.
From Verif Require Import Rust.
From Verif.Model Require Import Salsa20.
From Verif.Source Require Import Syntax Interp Tree.
From Verif.Proofs Require Import Base SourceBase.
Import ListNotations.
Local Open Scope string_scope.
Local Open Scope N_scope.
Local Opaque amount run idx upd slice uadd umul usub udiv urem len N.mul N.add N.sub N.lor N.lxor N.land shl32 shr wrapping_add32 N.eqb N.ltb N.leb N.min as_u8 N.shiftl N.shiftr.


Lemma src_rotl T n x s : 0 < s < 32 ->
  run T (S n) "salsa20::rotl" [VInt U32 x; VInt Lit s] =
  Ret (VInt U32 (rotl x s), [None; None]).
Proof.
  intros Hs. enter. go. go; [|lia]. go. go. done.
Qed.
Local Opaque rotl.
Ltac call_rule ::= rewrite src_rotl by lia.

Lemma src_quarterround T n y z :
  run T (S (S n)) "salsa20::quarterround" [VNums U32 y; VNums U32 z] =
  let* z' := quarterround y z in Ret (VUnit, [None; Some (VNums U32 z')]).
Proof. enter. unfold quarterround. steps. Qed.
Local Opaque quarterround.
Ltac call_rule ::= rewrite src_quarterround.

Lemma src_rowround T n y z :
  run T (S (S (S n))) "salsa20::rowround" [VNums U32 y; VNums U32 z] =
  let* z' := rowround y z in Ret (VUnit, [None; Some (VNums U32 z')]).
Proof. enter. unfold rowround, gather, scatter. steps. Qed.
Local Opaque rowround.

Lemma src_columnround T n y z :
  run T (S (S (S n))) "salsa20::columnround" [VNums U32 y; VNums U32 z] =
  let* z' := columnround y z in Ret (VUnit, [None; Some (VNums U32 z')]).
Proof. enter. unfold columnround, gather, scatter. steps. Qed.
Local Opaque columnround.
Ltac call_rule ::= first [rewrite src_columnround | rewrite src_rowround].

Lemma src_doubleround T n x y :
  run T (S (S (S (S n)))) "salsa20::doubleround" [VNums U32 x; VNums U32 y] =
  let* y' := doubleround x y in Ret (VUnit, [None; Some (VNums U32 y')]).
Proof. enter. unfold doubleround. steps. Qed.
Local Opaque doubleround.

Lemma src_littleendian T n b :
  run T (S n) "salsa20::littleendian" [VNums U8 b] =
  let* x := littleendian b in Ret (VInt U32 x, [None]).
Proof. enter. unfold littleendian. steps. Qed.
Local Opaque littleendian.

Lemma src_littleendian_inv T n x y :
  run T (S n) "salsa20::littleendian_inv" [VInt U32 x; VNums U8 y] =
  let* y' := littleendian_inv x y in Ret (VUnit, [None; Some (VNums U8 y')]).
Proof. enter. unfold littleendian_inv. steps. Qed.
Local Opaque littleendian_inv.
Ltac call_rule ::=
  first [rewrite src_doubleround | rewrite src_littleendian | rewrite src_littleendian_inv].


Lemma scatter_length z t a b c d z' : scatter z t a b c d = Ret z' -> List.length z' = List.length z.
Proof.
  unfold scatter. intros H.
  repeat match type of H with
  | bind ?m _ = _ => let E := fresh "E" in destruct m eqn:E; try discriminate; cbn [bind] in H
  end.
  repeat match goal with E : upd _ _ _ = Ret _ |- _ => apply upd_length in E end. congruence.
Qed.
Local Transparent rowround doubleround.
Lemma rowround_length y z z' : rowround y z = Ret z' -> List.length z' = List.length z.
Proof.
  unfold rowround. intros H.
  repeat match type of H with
  | bind ?m _ = _ => let E := fresh "E" in destruct m eqn:E; try discriminate; cbn [bind] in H
  end.
  repeat match goal with E : scatter _ _ _ _ _ _ = Ret _ |- _ => apply scatter_length in E end.
  congruence.
Qed.
Lemma doubleround_length x y y' : doubleround x y = Ret y' -> List.length y' = List.length y.
Proof.
  unfold doubleround. cbv zeta. destruct (columnround _ _); try discriminate. apply rowround_length.
Qed.
Local Opaque rowround doubleround.

Ltac prim_rule x ::=
  lazymatch x with
  | umul ?T ?a ?b => rewrite (umul_ok T a b) by (pose proof (usize_mod_ge T); lia)
  | uadd ?T ?a ?b => rewrite (uadd_ok T a b) by (pose proof (usize_mod_ge T); lia)
  end.

Lemma src_salsa20 T n input rounds output :
  run T (S (S (S (S (S n))))) "salsa20::salsa20"
    [VNums U8 input; VInt Usize rounds; VNums U8 output] =
  let* o := salsa20 input rounds output in Ret (VUnit, [None; None; Some (VNums U8 o)]).
Proof.
  enter. do 2 go. lengths. change (N.to_nat (len (repeat 0 16))) with 16%nat.
  rewrite enumerate_count, map_map.
  loop_count (fun i => VTup [VInt Usize i; VRef (mkPath "x" [SIndex i])])
    (fun x : list N => [("x", VNums U32 x); ("input", VNums U8 input); ("rounds", VInt Usize rounds);
       ("output", VRef (mkPath "*output" [])); ("*output", VNums U8 output)])
    (fun i x => let from := i * 4 in let to := from + 4 in
       let* s := slice input from to in let* w := littleendian s in upd x i w)
    (fun (_ : N) (_ : list N) => True) 16%nat 0 (repeat 0 16).
  { intros i s Hi _. cbv beta zeta. steps. }
  { auto. } { auto. } { reflexivity. }
  unfold salsa20.
  change (for_n _ _ _ _) with (read_words input).
  assert (Hx : forall x, read_words input = Ret x -> List.length x = 16%nat).
  { intros x. unfold read_words, for_range. cbv zeta. 
    apply (for_n_keeps (fun x => List.length x = 16%nat)).
    - intros i s s' Hs. destruct (slice _ _ _); try discriminate. cbn [bind].
      destruct (littleendian _); try discriminate. cbn [bind]. intros E.
      apply upd_length in E. congruence.
    - reflexivity. }
  Local Opaque read_words.
  go. specialize (Hx _ eq_refl). go.
  loop_count (VInt Usize)
    (fun z : list N => [("z", VNums U32 z); ("x", VNums U32 a); ("input", VNums U8 input);
       ("rounds", VInt Usize rounds);
       ("output", VRef (mkPath "*output" [])); ("*output", VNums U8 output)])
    (fun (_ : N) z => doubleround z (repeat 0 16))
    (fun (_ : N) (_ : list N) => True) (N.to_nat (rounds - 0)) 0 a.
  { intros i s Hi _. cbv beta zeta. steps. }
  { auto. } { auto. } { reflexivity. }
  change (for_n _ _ _ a) with (mix rounds a).
  assert (Hz : forall z, mix rounds a = Ret z -> List.length z = 16%nat).
  { intros z. unfold mix, for_range. cbv zeta.
    apply (for_n_keeps (fun x => List.length x = 16%nat)); [|exact Hx].
    intros i s s' _ E1. apply doubleround_length in E1. rewrite E1. reflexivity. }
  Local Opaque mix.
  go. specialize (Hz _ eq_refl). go.
  rewrite map_length, Hx.
  loop_count
    (fun i => VTup [VTup [VInt Usize i; VInt U32 (nth (N.to_nat i) a 0)];
                    VInt U32 (nth (N.to_nat i) a0 0)])
    (fun o : list N => [("z", VNums U32 a0); ("x", VNums U32 a); ("input", VNums U8 input);
       ("rounds", VInt Usize rounds);
       ("output", VRef (mkPath "*output" [])); ("*output", VNums U8 o)])
    (fun i output => let from := i * 4 in let to := from + 4 in
      let* x_elem := idx a i in let* z_elem := idx a0 i in
      with_slice output from to (littleendian_inv (wrapping_add32 x_elem z_elem)))
    (fun (_ : N) (_ : list N) => True) 16%nat 0 output.
  { intros i s Hi _. cbv beta zeta. unfold with_slice. 
    rewrite (idx_nth a i 0), (idx_nth a0 i 0) by lia. cbn [bind]. steps. }
  { auto. } { auto. }
  { rewrite (items_nth U32 a 16 Hx), (items_nth U32 a0 16 Hz).
    match goal with |- _ = map _ (combine (map _ (combine ?c _)) _) =>
      change c with (count 16 0); rewrite (count_items 16 0) at 2 end.
    rewrite combine_count, map_map, combine_count, map_map. reflexivity. }
  change (for_n _ _ _ output) with (write_words a a0 output).
  Local Opaque write_words.
  steps.
Qed.
