(** The trees of src/pkcs7.rs do what Model/Pkcs7.v says. *)
From Coq Require Import NArith List String Bool Lia ZifyBool ZifyNat ZifyN.
From Verif Require Import Rust.
From Verif.Model Require Import Pkcs7.
From Verif.Source Require Import Syntax Interp Tree.
From Verif.Proofs Require Import Base Pkcs7 SourceBase.
Import ListNotations.
Local Open Scope string_scope.
Local Open Scope N_scope.

Lemma push_all (l : list N) : forall s, for_each l (fun b s => Ret (s ++ [b])%list) s = Ret (s ++ l)%list.
Proof.
  induction l as [|b l IH]; intros s; cbn [for_each bind].
  - rewrite app_nil_r. reflexivity.
  - rewrite IH, <- app_assoc. reflexivity.
Qed.
Lemma while_fuel (bs x : N) (p : list N) fuel : (N.to_nat bs <= fuel)%nat ->
  while_loop fuel (fun st => len st <? bs) (fun st => Ret (st ++ [x])%list) p =
  while_loop (S (N.to_nat bs)) (fun st => len st <? bs) (fun st => Ret (st ++ [x])%list) p.
Proof.
  intros Hf. destruct (len p <? bs) eqn:E.
  - rewrite <- (N2Nat.id bs). unfold len in E. rewrite !while_push by lia. reflexivity.
  - destruct fuel; cbn [while_loop]; rewrite E; reflexivity.
Qed.

Local Opaque amount run constant idx upd slice uadd umul usub udiv urem len N.mul N.add N.sub N.lor
  N.lxor N.land shl32 shr not32 wrapping_add32 N.eqb N.ltb N.leb N.min as_u8 as_u64 N.shiftl N.shiftr
  copy_from_slice split_off alloc app while_loop.

Definition pad_val (p : Pad) : val :=
  VStruct "pkcs7::Pad" [("block_size", VInt Usize (pad_block_size p)); ("storage", VNums U8 (pad_storage p))].
Definition unpad_val (p : Unpad) : val :=
  VStruct "pkcs7::Unpad"
    [("block_size", VInt Usize (unpad_block_size p)); ("storage", VNums U8 (unpad_storage p))].
Definition option_val (o : option (list N)) : val :=
  match o with Some l => VCon "Some" [VNums U8 l] | None => VCon "None" [] end.

Lemma src_pad_new T n bs :
  run T (S n) "pkcs7::Pad::new" [VInt Usize bs] = let* p := pad_new T bs in Ret (pad_val p, [None]).
Proof. enter. unfold pad_new. steps. Qed.
Lemma src_unpad_new T n bs :
  run T (S n) "pkcs7::Unpad::new" [VInt Usize bs] = let* p := unpad_new T bs in Ret (unpad_val p, [None]).
Proof. enter. unfold unpad_new. steps. Qed.

Lemma src_pad_write T n p buf :
  run T (S n) "pkcs7::Pad::write" [pad_val p; VNums U8 buf] =
  let* (o, p') := pad_write T p buf in Ret (option_val o, [Some (pad_val p'); None]).
Proof.
  destruct p as [bs st]. unfold pad_val at 1. cbn [pad_block_size pad_storage].
  enter. unfold pad_write. cbn [pad_block_size pad_storage]. cbv zeta. go.
  loop_each (VInt U8)
    (fun st : list N => [("self", VRef (mkPath "*self" []));
       ("*self", VStruct "pkcs7::Pad" [("block_size", VInt Usize bs); ("storage", VNums U8 st)]);
       ("buf", VNums U8 buf)])
    (fun b (s : list N) => Ret (s ++ [b])%list) (fun _ : list N => True) buf st.
  { intros b s Hi _. cbv beta zeta. steps. }
  { auto. } { auto. } { reflexivity. }
  rewrite push_all. cbn [bind]. steps.
Qed.

Lemma src_unpad_write T n p buf :
  run T (S n) "pkcs7::Unpad::write" [unpad_val p; VNums U8 buf] =
  let* (o, p') := unpad_write T p buf in Ret (option_val o, [Some (unpad_val p'); None]).
Proof.
  destruct p as [bs st]. unfold unpad_val at 1. cbn [unpad_block_size unpad_storage].
  enter. unfold unpad_write. cbn [unpad_block_size unpad_storage]. cbv zeta. go.
  loop_each (VInt U8)
    (fun st : list N => [("self", VRef (mkPath "*self" []));
       ("*self", VStruct "pkcs7::Unpad" [("block_size", VInt Usize bs); ("storage", VNums U8 st)]);
       ("buf", VNums U8 buf)])
    (fun b (s : list N) => Ret (s ++ [b])%list) (fun _ : list N => True) buf st.
  { intros b s Hi _. cbv beta zeta. steps. }
  { auto. } { auto. } { reflexivity. }
  rewrite push_all. cbn [bind]. steps.
Qed.

Lemma src_pad_flush T n p : (N.to_nat (pad_block_size p) <= n)%nat ->
  run T (S n) "pkcs7::Pad::flush" [pad_val p] =
  let* (o, p') := pad_flush T p in Ret (VNums U8 o, [Some (pad_val p')]).
Proof.
  destruct p as [bs st]. unfold pad_val at 1. cbn [pad_block_size pad_storage]. intros Hn.
  enter. unfold pad_flush. cbn [pad_block_size pad_storage]. cbv zeta. do 2 go. 
  loop_while
    (fun st : list N => [("len", VInt Usize a); ("self", VRef (mkPath "*self" []));
       ("*self", VStruct "pkcs7::Pad" [("block_size", VInt Usize bs); ("storage", VNums U8 st)])])
    (fun st : list N => len st <? bs) (fun st : list N => Ret (st ++ [as_u8 a])%list) st.
  { intros s. steps. }
  { intros s Hs. steps. }
  rewrite while_fuel by exact Hn.
  steps.
Qed.

Definition unpad_error_val (e : UnpadError) : val :=
  match e with
  | UnfinishedBlock => VCon "pkcs7::UnpadError::UnfinishedBlock" []
  | InvalidPadding => VCon "pkcs7::UnpadError::InvalidPadding" []
  end.
Definition unpad_result_val (r : result (list N) UnpadError) : val :=
  match r with Ok l => VCon "Ok" [VNums U8 l] | Err e => VCon "Err" [unpad_error_val e] end.

Lemma src_unpad_description T n e :
  run T (S n) "pkcs7::UnpadError::description" [unpad_error_val e] =
  Ret (VStr (unpad_error_description e), [None]).
Proof. destruct e; enter; steps. Qed.

Lemma fold_or n (l : list N) : forall a,
  for_each l (fun b a => Ret (N.lor a (N.lxor n b))) a =
  Ret (fold_left (fun acc b => N.lor acc (N.lxor n b)) l a).
Proof. induction l as [|b l IH]; intros a; [reflexivity|]. cbn [for_each bind fold_left]. apply IH. Qed.

Lemma src_unpad_flush T n p :
  run T (S n) "pkcs7::Unpad::flush" [unpad_val p] =
  let* (o, p') := unpad_flush T p in Ret (unpad_result_val o, [Some (unpad_val p')]).
Proof.
  destruct p as [bs st]. unfold unpad_val at 1. cbn [unpad_block_size unpad_storage].
  enter. unfold unpad_flush, slice_from, slice_to. cbn [unpad_block_size unpad_storage]. cbv zeta.
  repeat go; [reflexivity| |reflexivity].
  loop_each (VInt U8)
    (fun same : N => [("is_same", VInt U8 same); ("pad_off", VInt Usize a1); ("len", VInt U8 a0);
       ("self", VRef (mkPath "*self" []));
       ("*self", VStruct "pkcs7::Unpad" [("block_size", VInt Usize bs); ("storage", VNums U8 st)])])
    (fun b (same : N) => Ret (N.lor same (N.lxor a0 b))) (fun _ : N => True) a2 0.
  { intros b s Hi _. cbv beta zeta. steps. }
  { auto. } { auto. } { reflexivity. }
  rewrite fold_or. cbn [bind]. generalize (fold_left (fun acc b => N.lor acc (N.lxor a0 b)) a2 0).
  intros same. steps.
Qed.
