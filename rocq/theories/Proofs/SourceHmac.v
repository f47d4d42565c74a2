(** The trees of src/hmac.rs do what Model/Hmac.v says. *)
From Coq Require Import NArith List String Bool Lia ZifyBool ZifyNat ZifyN.
From Verif Require Import Rust.
From Verif.Model Require Import Sha256 Hmac.
From Verif.Source Require Import Syntax Interp Tree.
From Verif.Proofs Require Import Base SourceBase SourceSha256 SourceHasher.
Import ListNotations.
Local Open Scope string_scope.
Local Open Scope N_scope.

(** * Hashers stay well-shaped *)

(** The lengths of the arrays in a hasher's fields. *)
Definition hasher_ok (s : SHA256) : Prop :=
  hasher_shape s /\ List.length (sha_h s) = 8%nat.

Lemma new_ok : hasher_ok sha256_new.
Proof. split; reflexivity. Qed.
Lemma update_byte_ok T b s s' : hasher_ok s -> update_byte T b s = Ret s' -> hasher_ok s'.
Proof.
  unfold hasher_ok, hasher_shape, update_byte. intros [Hb Hh] E. inv_binds E.
  apply upd_length in X0. destruct (negb _).
  - injection E as <-. cbn. split; congruence.
  - inv_binds E. injection E as <-. cbn. apply process_block_length in X4. split; congruence.
Qed.
Lemma update_ok T data : forall s s', hasher_ok s -> sha256_update T s data = Ret s' -> hasher_ok s'.
Proof.
  unfold sha256_update. induction data as [|b data IH]; intros s s' Hs E; cbn [for_each] in E.
  - injection E as <-. exact Hs.
  - inv_binds E. eapply IH; [|exact E]. eapply update_byte_ok; eauto.
Qed.
Lemma or_0x80_length b i b' : or_0x80 b i = Ret b' -> List.length b' = List.length b.
Proof. unfold or_0x80. intros E. inv_binds E. apply upd_length in E. exact E. Qed.
Lemma write_digest_length h d : write_digest h = Ret d -> List.length d = 32%nat.
Proof.
  unfold write_digest, for_range. cbv zeta.
  apply (for_n_keeps (fun b : list N => List.length b = 32%nat)); [|reflexivity].
  intros i s s' Hs E. inv_binds E.
  repeat match goal with X : upd _ _ _ = Ret _ |- _ => apply upd_length in X end. congruence.
Qed.
Lemma digest_ok T s d s' : hasher_ok s -> sha256_digest T s = Ret (d, s') ->
  hasher_ok s' /\ List.length d = 32%nat.
Proof.
  unfold hasher_ok, hasher_shape, sha256_digest. intros [Hb Hh] E.
  destruct (urem (sha_length s) BLOCK_SIZE) as [off| |]; try discriminate E. cbn [bind] in E.
  destruct (for_range off (len (sha_buffer s)) (fun i buf => upd buf i 0) (sha_buffer s))
    as [buf| |] eqn:Ez; try discriminate E. cbn [bind] in E.
  assert (Hz : List.length buf = 64%nat).
  { unfold for_range in Ez.
    refine (for_n_keeps (fun b => List.length b = 64%nat) _ _ _ _ _ _ Hb Ez).
    intros i b b' Hl E1. apply upd_length in E1. congruence. }
  clear Ez.
  destruct (uadd T off 9) as [off9| |]; try discriminate E. cbn [bind] in E.
  set (m := if BLOCK_SIZE <? off9 then _ else _) in E.
  assert (Hm : forall h o b, m = Ret (h, o, b) -> List.length h = 8%nat /\ List.length b = 64%nat).
  { intros h o b Em. unfold m in Em. destruct (BLOCK_SIZE <? off9).
    - inv_binds Em. injection Em as <- <- <-. apply process_block_length in X1.
      split; [congruence|reflexivity].
    - injection Em as <- <- <-. split; assumption. }
  clearbody m. destruct m as [[[h o] b]| |]; try discriminate E. cbn [bind] in E.
  destruct (Hm _ _ _ eq_refl) as [Hh' Hb'].
  unfold with_slice in E. inv_binds E. injection E as <- <-. cbn.
  apply write_digest_length in X5. apply process_block_length in X4.
  assert (Ha : List.length a1 = 64%nat).
  { inv_binds X1. injection X1 as <-.
    pose proof (slice_all_length _ _ _ X6) as Hl. apply write_u64_be_length in X7.
    rewrite !app_length in *. lia. }
  split; [split|]; try congruence.
  destruct (negb _).
  - apply or_0x80_length in X2. congruence.
  - injection X2 as <-. assumption.
Qed.

(** Rewriting every element of an array in place. *)
Lemma for_n_map (f : N -> N) (l : list N) :
  for_n (List.length l) 0 (fun i l => let* x := idx l i in upd l i (f x)) l = Ret (map f l).
Proof.
  pose proof (fill_loop (fun _ x => f x) (fun i l => let* x := idx l i in upd l i (f x)) l 0) as H.
  unfold for_range in H. rewrite N.sub_0_r, len_length in H. rewrite H.
  - f_equal. apply (list_ext _ _ 0); [rewrite !map_length, seq_length; reflexivity|].
    intros i Hi. rewrite map_length, seq_length in Hi. rewrite nth_map_seq by assumption.
    rewrite (nth_indep (map f l) 0 (f 0)) by (rewrite map_length; assumption). symmetry. apply map_nth.
  - intros i o Hi Ho. rewrite (idx_nth o (N.of_nat i) 0) by lia. rewrite Nat2N.id. reflexivity.
Qed.

Lemma src_update T n s data : hasher_ok s ->
  run T (S (S (S (S n)))) "sha256::SHA256::update" [sha_val s; VNums U8 data] =
  let* s' := sha256_update T s data in Ret (VUnit, [Some (sha_val s'); None]).
Proof. intros [H _]. apply src_sha256_update. exact H. Qed.
Lemma src_digest T n s : hasher_ok s ->
  run T (S (S (S (S n)))) "sha256::SHA256::digest" [sha_val s] =
  let* (d, s') := sha256_digest T s in Ret (VNums U8 d, [Some (sha_val s')]).
Proof. intros [H H']. apply src_sha256_digest; assumption. Qed.

Ltac hok :=
  lazymatch goal with
  | H : hasher_ok ?s |- hasher_ok ?s => exact H
  | |- hasher_ok sha256_new => exact new_ok
  | H : sha256_update _ ?s0 _ = Ret ?s |- hasher_ok ?s =>
      refine (update_ok _ _ _ _ _ H); clear H; hok
  | H : sha256_digest _ ?s0 = Ret (?d, ?s) |- hasher_ok ?s =>
      refine (proj1 (digest_ok _ _ _ _ _ H)); clear H; hok
  end.

Lemma len_of {A} (l : list A) : len l = N.of_nat (List.length l).
Proof. reflexivity. Qed.

(** * MACs *)

Local Opaque amount run constant idx upd slice uadd umul usub udiv urem len N.mul N.add N.sub N.lor
  N.lxor N.land shl32 shr not32 wrapping_add32 N.eqb N.ltb N.leb N.min as_u8 as_u64 N.shiftl N.shiftr
  copy_from_slice sha256_update sha256_digest sha256_new.

Definition hmac_val (m : HMac) : val :=
  VStruct "hmac::HMac" [("inner", sha_val (inner m)); ("outer", sha_val (outer m))].

Ltac call_rule ::= first
  [ rewrite src_sha256_new | rewrite src_update by hok | rewrite src_digest by hok ].

Lemma src_hmac_update T n m data : hasher_ok (inner m) ->
  run T (S (S (S (S (S n))))) "hmac::HMac::update" [hmac_val m; VNums U8 data] =
  let* m' := hmac_update T m data in Ret (VUnit, [Some (hmac_val m'); None]).
Proof.
  intros Hm. destruct m as [i o]. cbn [inner outer] in *. unfold hmac_val at 1. cbn [inner outer].
  enter. unfold hmac_update. cbn [inner outer]. steps.
Qed.

Lemma src_hmac_digest T n m : hasher_ok (inner m) -> hasher_ok (outer m) ->
  run T (S (S (S (S (S n))))) "hmac::HMac::digest" [hmac_val m] =
  let* (d, m') := hmac_digest T m in Ret (VNums U8 d, [Some (hmac_val m')]).
Proof.
  intros Hi Ho. destruct m as [i o]. cbn [inner outer] in *. unfold hmac_val at 1. cbn [inner outer].
  enter. unfold hmac_digest. cbn [inner outer]. 
  steps.
Qed.

(** A key of at most a block. *)
Lemma src_hmac_new_short T n key : len key <= 64 ->
  run T (S (S (S (S (S n))))) "hmac::HMac::new" [VNums U8 key] =
  let* m := hmac_new_fuel 1 T key in Ret (hmac_val m, [None]).
Proof.
  intros Hk. enter. cbn [hmac_new_fuel]. unfold BLOCK_SIZE, with_slice. cbv zeta.
  assert (E0 : (64 <? len key) = false) by lia.
  do 9 go.
  match goal with |- context [("block", VNums U8 ?b)] => set (b0 := b) end.
  loop_count (fun i : N => VRef (mkPath "block" [SIndex i]))
    (fun b : list N => [("outer", sha_val sha256_new); ("inner", sha_val sha256_new);
       ("block", VNums U8 b); ("key", VNums U8 key)])
    (fun i l => let* x := idx l i in upd l i (N.lxor x 54))
    (fun (_ : N) (_ : list N) => True) (N.to_nat (len b0)) 0 b0.
  { intros i s Hi _. cbv beta zeta. steps. }
  { auto. } { auto. } { reflexivity. }
  rewrite len_length, (for_n_map (fun x => N.lxor x 54)). cbn [bind].
  match goal with |- context [("block", VNums U8 ?b)] => set (b1 := b) end.
  change (map (fun elem => N.lxor elem 54) b0) with b1.
  do 3 go.
  loop_count (fun i : N => VRef (mkPath "block" [SIndex i]))
    (fun b : list N => [("outer", sha_val sha256_new); ("inner", sha_val a1);
       ("block", VNums U8 b); ("key", VNums U8 key)])
    (fun i l => let* x := idx l i in upd l i (N.lxor x (N.lxor 54 92)))
    (fun (_ : N) (_ : list N) => True) (N.to_nat (len b1)) 0 b1.
  { intros i s Hi _. cbv beta zeta. steps. }
  { auto. } { auto. } { reflexivity. }
  rewrite len_length, (for_n_map (fun x => N.lxor x (N.lxor 54 92))). cbn [bind].
  match goal with |- context [("block", VNums U8 ?b)] => set (b2 := b) end.
  steps.
Qed.

Lemma hmac_new_long k T key : (64 <? len key) = true ->
  hmac_new_fuel (S k) T key =
  let* tmp := sha256_update T sha256_new key in
  let* (d, _) := sha256_digest T tmp in
  hmac_new_fuel k T d.
Proof. intros H. cbn [hmac_new_fuel]. unfold BLOCK_SIZE. rewrite H. reflexivity. Qed.
Lemma hmac_new_small k k' T key : (64 <? len key) = false ->
  hmac_new_fuel (S k) T key = hmac_new_fuel (S k') T key.
Proof. intros H. cbn [hmac_new_fuel]. unfold BLOCK_SIZE. rewrite H. reflexivity. Qed.
Local Opaque hmac_new_fuel.

Lemma src_hmac_new T n key :
  run T (S (S (S (S (S (S n)))))) "hmac::HMac::new" [VNums U8 key] =
  let* m := hmac_new T key in Ret (hmac_val m, [None]).
Proof.
  unfold hmac_new. destruct (64 <? len key) eqn:Ek.
  - enter. rewrite (hmac_new_long 1 T key Ek).
    do 9 go.
    match goal with E : sha256_digest T _ = Ret (?d, _) |- _ =>
      assert (Hd : List.length d = 32%nat) by (refine (proj2 (digest_ok _ _ _ _ _ E)); hok) end.
    rewrite src_hmac_new_short by (rewrite len_of; lia).
    steps.
  - rewrite src_hmac_new_short by lia. rewrite (hmac_new_small 0 1 T key Ek). reflexivity.
Qed.
