(** The trees of src/sha256.rs do what Model/Sha256.v says. *)
From Coq Require Import NArith List String Bool Lia ZifyBool ZifyNat ZifyN.
From Verif Require Import Rust.
From Verif.Model Require Import Sha256.
From Verif.Source Require Import Syntax Interp Tree.
From Verif.Proofs Require Import Base SourceBase.
Import ListNotations.
Local Open Scope string_scope.
Local Open Scope N_scope.
Local Opaque amount run constant idx upd slice uadd umul usub udiv urem len N.mul N.add N.sub N.lor
  N.lxor N.land shl32 shr not32 wrapping_add32 N.eqb N.ltb N.leb N.min as_u8 as_u64 N.shiftl N.shiftr
  copy_from_slice K.

Ltac prim_rule x ::=
  lazymatch x with
  | umul ?T ?a ?b => rewrite (umul_ok T a b) by (pose proof (usize_mod_ge T); lia)
  | uadd ?T ?a ?b => rewrite (uadd_ok T a b) by (pose proof (usize_mod_ge T); lia)
  | usub ?T ?a ?b => rewrite (usub_ok T a b) by lia
  end.

Lemma cst_K : constant constants "sha256::K" = Ret (VNums U32 K).
Proof. vm_compute. reflexivity. Qed.
Lemma cst_H : constant constants "sha256::H" = Ret (VNums U32 H).
Proof. vm_compute. reflexivity. Qed.
Ltac const_rule ::= first [rewrite cst_K | rewrite cst_H].
Local Opaque H.

Lemma src_ch T n x y z :
  run T (S n) "sha256::ch" [VInt U32 x; VInt U32 y; VInt U32 z] =
  Ret (VInt U32 (ch x y z), [None; None; None]).
Proof. enter. steps. Qed.
Lemma src_maj T n x y z :
  run T (S n) "sha256::maj" [VInt U32 x; VInt U32 y; VInt U32 z] =
  Ret (VInt U32 (maj x y z), [None; None; None]).
Proof. enter. steps. Qed.
Lemma src_rotr T n x s : 0 < s < 32 ->
  run T (S n) "sha256::rotr" [VInt U32 x; VInt Lit s] =
  Ret (VInt U32 (rotr x s), [None; None]).
Proof. intros Hs. enter. repeat (go; try (exfalso; lia)). reflexivity. Qed.
Local Opaque ch maj rotr.
Ltac call_rule ::= rewrite src_rotr by lia.

Lemma src_bsig0 T n x :
  run T (S (S n)) "sha256::bsig0" [VInt U32 x] = Ret (VInt U32 (bsig0 x), [None]).
Proof. enter. steps. Qed.
Lemma src_bsig1 T n x :
  run T (S (S n)) "sha256::bsig1" [VInt U32 x] = Ret (VInt U32 (bsig1 x), [None]).
Proof. enter. steps. Qed.
Lemma src_ssig0 T n x :
  run T (S (S n)) "sha256::ssig0" [VInt U32 x] = Ret (VInt U32 (ssig0 x), [None]).
Proof. enter. steps. Qed.
Lemma src_ssig1 T n x :
  run T (S (S n)) "sha256::ssig1" [VInt U32 x] = Ret (VInt U32 (ssig1 x), [None]).
Proof. enter. steps. Qed.
Local Opaque bsig0 bsig1 ssig0 ssig1.
Ltac call_rule ::= first
  [ rewrite src_ch | rewrite src_maj | rewrite src_bsig0 | rewrite src_bsig1
  | rewrite src_ssig0 | rewrite src_ssig1 ].

Lemma src_fill_block T n input output : len output <= 16 ->
  run T (S n) "sha256::fill_block" [VNums U8 input; VNums U32 output] =
  let* o := fill_block input output in Ret (VUnit, [None; Some (VNums U32 o)]).
Proof.
  intros Ho. enter. go. 
  loop_count (VInt Usize)
    (fun o : list N => [("input", VNums U8 input);
       ("output", VRef (mkPath "*output" [])); ("*output", VNums U32 o)])
    (fun i output =>
       let* i0 := idx input (i * 4) in
       let* i1 := idx input (i * 4 + 1) in
       let* i2 := idx input (i * 4 + 2) in
       let* i3 := idx input (i * 4 + 3) in
       upd output i
         (N.lor (N.lor (N.lor (shl32 i0 24) (shl32 i1 16)) (shl32 i2 8)) i3))
    (fun (_ : N) (_ : list N) => True) (N.to_nat (len output - 0)) 0 output.
  { intros i s Hi _. cbv beta zeta. steps. }
  { auto. } { auto. } { reflexivity. }
  change (for_n _ _ _ output) with (fill_block input output).
  Local Opaque fill_block.
  steps.
Qed.

Lemma src_write_u64_be T n data v :
  run T (S n) "sha256::write_u64_be" [VNums U8 data; VInt U64 v] =
  let* d := write_u64_be data v in Ret (VUnit, [Some (VNums U8 d); None]).
Proof. enter. unfold write_u64_be. steps. Qed.
Local Opaque write_u64_be.

(** The fields of a hasher. *)
Definition sha_val (s : SHA256) : val :=
  VStruct "sha256::SHA256"
    [("h", VNums U32 (sha_h s)); ("buffer", VNums U8 (sha_buffer s));
     ("length", VInt Usize (sha_length s))].

Lemma src_sha256_new T n :
  run T (S n) "sha256::SHA256::new" [] = Ret (sha_val sha256_new, []).
Proof. enter. steps. Qed.
Ltac call_rule ::= rewrite src_sha256_new.
Lemma src_sha256_default T n :
  run T (S (S n)) "sha256::SHA256::default" [] = Ret (sha_val sha256_default, []).
Proof. enter. steps. Qed.
Ltac call_rule ::= first
  [ rewrite src_ch | rewrite src_maj | rewrite src_bsig0 | rewrite src_bsig1
  | rewrite src_ssig0 | rewrite src_ssig1 ].

Lemma src_process_block T n h buf k block :
  run T (S (S (S n))) "sha256::SHA256::process_block"
    [VStruct "sha256::SHA256" [("h", VNums U32 h); ("buffer", VNums U8 buf); ("length", VInt Usize k)];
     VNums U32 block] =
  let* h' := process_block h block in
  Ret (VUnit,
    [Some (VStruct "sha256::SHA256"
       [("h", VNums U32 h'); ("buffer", VNums U8 buf); ("length", VInt Usize k)]); None]).
Proof.
  enter. unfold process_block, message_schedule, slice_to, with_slice.
  cbv zeta.
  go. lengths. do 3 go. lengths.
  match goal with |- context [("w", VNums U32 ?l)] => set (w0 := l) end.
  loop_count (VInt Usize)
    (fun w : list N => [("h", VUnit); ("g", VUnit); ("f", VUnit); ("e", VUnit); ("d", VUnit);
       ("c", VUnit); ("b", VUnit); ("a", VUnit); ("w", VNums U32 w);
       ("self", VRef (mkPath "*self" []));
       ("*self", VStruct "sha256::SHA256"
          [("h", VNums U32 h); ("buffer", VNums U8 buf); ("length", VInt Usize k)]);
       ("block", VNums U32 block)])
    (fun t w =>
      let* w2 := idx w (t - 2) in
      let* w7 := idx w (t - 7) in
      let* w15 := idx w (t - 15) in
      let* w16 := idx w (t - 16) in
      upd w t
        (wrapping_add32 (wrapping_add32 (wrapping_add32 (ssig1 w2) w7) (ssig0 w15)) w16))
    (fun (_ : N) (_ : list N) => True) (N.to_nat (64 - 16)) 16 w0.
  { intros i s Hi _. assert (16 <= i < 64) by lia. cbv beta zeta. steps. }
  { auto. } { auto. } { reflexivity. }
  change (for_range 16 64 ?f w0) with (for_n (N.to_nat (64 - 16)) 16 f w0).
  match goal with |- context [for_n ?a ?b ?c w0] => generalize (for_n a b c w0) end.
  intros [w| |]; [|reflexivity..]. cbn [bind].
  do 9 go.
  loop_count (VInt Usize)
    (fun v : vars => let '(a, b, c, d, e, f, g, h0) := v in
       [("h", VInt U32 h0); ("g", VInt U32 g); ("f", VInt U32 f); ("e", VInt U32 e);
       ("d", VInt U32 d); ("c", VInt U32 c); ("b", VInt U32 b); ("a", VInt U32 a);
       ("w", VNums U32 w);
       ("self", VRef (mkPath "*self" []));
       ("*self", VStruct "sha256::SHA256"
          [("h", VNums U32 h); ("buffer", VNums U8 buf); ("length", VInt Usize k)]);
       ("block", VNums U32 block)])
    (round_body w)
    (fun (_ : N) (_ : vars) => True) (N.to_nat (64 - 0)) 0 (a2, a3, a4, a5, a6, a7, a8, a9).
  { intros i s Hi _. destruct s as [[[[[[[va vb] vc] vd] ve] vf] vg] vh].
    unfold round_body. cbv beta zeta. steps. }
  { auto. } { auto. } { reflexivity. }
  change (for_range 0 64 (round_body w) ?v) with (for_n (N.to_nat (64 - 0)) 0 (round_body w) v).
  match goal with |- context [for_n ?a ?b ?c ?d] => generalize (for_n a b c d) end.
  intros [v| |]; [|reflexivity..]. destruct v as [[[[[[[va vb] vc] vd] ve] vf] vg] vh].
  cbn [bind]. steps.
Qed.
