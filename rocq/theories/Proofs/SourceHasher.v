(** The trees of src/sha256.rs do what Model/Sha256.v says: updating and finishing
    a hash. *)
From Coq Require Import NArith List String Bool Lia ZifyBool ZifyNat ZifyN.
From Verif Require Import Rust.
From Verif.Model Require Import Sha256.
From Verif.Source Require Import Syntax Interp Tree.
From Verif.Proofs Require Import Base SourceBase SourceSha256.
Import ListNotations.
Local Open Scope string_scope.
Local Open Scope N_scope.
Local Opaque amount run constant idx upd slice uadd umul usub udiv urem len N.mul N.add N.sub N.lor
  N.lxor N.land shl32 shr not32 wrapping_add32 N.eqb N.ltb N.leb N.min as_u8 as_u64 N.shiftl N.shiftr
  copy_from_slice K H ch maj rotr bsig0 bsig1 ssig0 ssig1 fill_block write_u64_be process_block.

Ltac prim_rule x ::=
  lazymatch x with
  | umul ?T ?a ?b => rewrite (umul_ok T a b) by (pose proof (usize_mod_ge T); lia)
  | uadd ?T ?a ?b => rewrite (uadd_ok T a b) by (pose proof (usize_mod_ge T); lia)
  | usub ?T ?a ?b => rewrite (usub_ok T a b) by lia
  | udiv 64 4 => change_no_check (udiv 64 4) with (@Ret N 16)
  end.

Local Transparent len.
Lemma len_16 (l : list N) : List.length l = 16%nat -> len l <= 16.
Proof. unfold len. lia. Qed.
Local Opaque len.
Ltac call_rule ::= first
  [ rewrite src_fill_block by (apply len_16; (assumption || reflexivity)) | rewrite src_process_block
  | rewrite src_write_u64_be ].

(** The scratch array is overwritten completely. *)
Local Transparent fill_block.
Lemma fill_block_scratch buf blk : List.length buf = 64%nat -> List.length blk = 16%nat ->
  fill_block buf blk = fill_block buf (repeat 0 16).
Proof.
  intros Hb Hl. unfold fill_block.
  set (f := fun (i : nat) (_ : N) => N.lor (N.lor (N.lor
    (shl32 (nth (4 * i) buf 0) 24) (shl32 (nth (4 * i + 1) buf 0) 16))
    (shl32 (nth (4 * i + 2) buf 0) 8)) (nth (4 * i + 3) buf 0)).
  assert (Hbody : forall out : list N, List.length out = 16%nat ->
    forall i o, (i < List.length out)%nat -> List.length o = List.length out ->
      (let* i0 := idx buf (N.of_nat i * 4) in
       let* i1 := idx buf (N.of_nat i * 4 + 1) in
       let* i2 := idx buf (N.of_nat i * 4 + 2) in
       let* i3 := idx buf (N.of_nat i * 4 + 3) in
       upd o (N.of_nat i)
         (N.lor (N.lor (N.lor (shl32 i0 24) (shl32 i1 16)) (shl32 i2 8)) i3)) =
      upd o (N.of_nat i) (f i (nth i o 0))).
  { intros out Ho i o Hi Hlo. unfold f.
    rewrite (idx_nth buf (N.of_nat i * 4) 0), (idx_nth buf (N.of_nat i * 4 + 1) 0),
      (idx_nth buf (N.of_nat i * 4 + 2) 0), (idx_nth buf (N.of_nat i * 4 + 3) 0) by lia.
    cbn [bind]. repeat f_equal; lia. }
  rewrite (fill_loop f _ blk 0 (Hbody blk Hl)).
  rewrite (fill_loop f _ (repeat 0 16) 0 (Hbody (repeat 0 16) eq_refl)).
  f_equal. rewrite Hl. reflexivity.
Qed.
Local Opaque fill_block.
Local Transparent fill_block.
Lemma fill_block_length buf blk b : fill_block buf blk = Ret b -> List.length b = List.length blk.
Proof.
  unfold fill_block, for_range.
  apply (for_n_keeps (fun b => List.length b = List.length blk)); [|reflexivity].
  intros i s s' Hs E. inv_binds E. apply upd_length in E. congruence.
Qed.
Local Opaque fill_block.

(** One byte, with the scratch array. *)
Definition byte_step (T : target) (b : N) (st : SHA256 * list N) : res (SHA256 * list N) :=
  let '(s, blk) := st in
  let* off := urem (sha_length s) 64 in
  let* buffer := upd (sha_buffer s) off b in
  let* length := uadd T (sha_length s) 1 in
  let* r := urem length 64 in
  if negb (r =? 0) then Ret (mkSHA256 (sha_h s) buffer length, blk)
  else
    let* block := fill_block buffer blk in
    let* h := process_block (sha_h s) block in
    Ret (mkSHA256 h buffer length, block).
Definition hasher_shape (s : SHA256) : Prop := List.length (sha_buffer s) = 64%nat.

Lemma byte_step_shape T b s blk s' blk' : hasher_shape s -> List.length blk = 16%nat ->
  byte_step T b (s, blk) = Ret (s', blk') -> hasher_shape s' /\ List.length blk' = 16%nat.
Proof.
  unfold hasher_shape, byte_step. intros Hs Hb E. inv_binds E.
  apply upd_length in X0.
  destruct (negb _).
  - injection E as <- <-. cbn. split; congruence.
  - inv_binds E. injection E as <- <-. cbn. apply fill_block_length in X3. split; congruence.
Qed.
Lemma byte_step_model T b s blk : hasher_shape s -> List.length blk = 16%nat ->
  (let* st := byte_step T b (s, blk) in Ret (fst st)) = update_byte T b s.
Proof.
  unfold hasher_shape, byte_step, update_byte, BLOCK_SIZE. intros Hs Hb.
  destruct (urem _ _); [|reflexivity..]. cbn [bind].
  destruct (upd _ _ _) eqn:E; [|reflexivity..]. cbn [bind]. apply upd_length in E.
  destruct (uadd _ _ _); [|reflexivity..]. cbn [bind].
  destruct (urem _ _); [|reflexivity..]. cbn [bind].
  destruct (negb _); [reflexivity|].
  rewrite fill_block_scratch by congruence.
  destruct (fill_block _ _); [|reflexivity..]. cbn [bind].
  destruct (process_block _ _); reflexivity.
Qed.
Lemma bytes_model T data : forall s blk, hasher_shape s -> List.length blk = 16%nat ->
  (let* st := for_each data (byte_step T) (s, blk) in Ret (fst st)) = sha256_update T s data.
Proof.
  unfold sha256_update. induction data as [|b data IH]; intros s blk Hs Hb; [reflexivity|].
  cbn [for_each]. rewrite <- (byte_step_model T b s blk Hs Hb).
  destruct (byte_step T b (s, blk)) as [[s1 blk1]| |] eqn:E; [|reflexivity..].
  cbn [bind fst]. apply byte_step_shape in E; auto. apply IH; apply E.
Qed.

Lemma src_sha256_update T n s data : hasher_shape s ->
  run T (S (S (S (S n)))) "sha256::SHA256::update" [sha_val s; VNums U8 data] =
  let* s' := sha256_update T s data in Ret (VUnit, [Some (sha_val s'); None]).
Proof.
  intros Hs. unfold sha_val at 1. enter. do 3 go. lengths.
  loop_each (VInt U8)
    (fun st : SHA256 * list N =>
       [("block", VNums U32 (snd st));
        ("self", VRef (mkPath "*self" []));
        ("*self", VStruct "sha256::SHA256"
          [("h", VNums U32 (sha_h (fst st))); ("buffer", VNums U8 (sha_buffer (fst st)));
           ("length", VInt Usize (sha_length (fst st)))]);
        ("data", VNums U8 data)])
    (byte_step T)
    (fun st : SHA256 * list N => hasher_shape (fst st) /\ List.length (snd st) = 16%nat)
    data (s, repeat 0 16).
  { intros b [[h buf k] blk] _ [_ Hb]. cbn [fst snd sha_h sha_buffer sha_length] in *.
    unfold byte_step. cbn [sha_h sha_buffer sha_length]. cbv beta zeta.
    steps. }
  { intros b [s1 blk1] [s2 blk2] _ [H1 H2] E. exact (byte_step_shape _ _ _ _ _ _ H1 H2 E). }
  { split; [exact Hs|reflexivity]. }
  { reflexivity. }
  rewrite <- (bytes_model T data s (repeat 0 16) Hs eq_refl).
  destruct (for_each data (byte_step T) (s, repeat 0 16)) as [[s' blk]| |]; [|reflexivity..].
  steps.
Qed.

Local Transparent process_block.
Lemma process_block_length h b h' : process_block h b = Ret h' -> List.length h' = List.length h.
Proof.
  unfold process_block. intros E. inv_binds E.
  destruct a8 as [[[[[[[va vb] vc] vd] ve] vf] vg] vh]. inv_binds E.
  repeat match goal with X : upd _ _ _ = Ret _ |- _ => apply upd_length in X end. congruence.
Qed.
Local Opaque process_block.
Local Transparent write_u64_be.
Lemma write_u64_be_length d v d' : write_u64_be d v = Ret d' -> List.length d' = List.length d.
Proof.
  unfold write_u64_be. intros E. inv_binds E.
  repeat match goal with X : upd _ _ _ = Ret _ |- _ => apply upd_length in X end. congruence.
Qed.
Local Opaque write_u64_be.
Local Transparent slice len.
Lemma slice_all_length (l : list N) a s : slice l a (len l) = Ret s ->
  List.length (firstn (N.to_nat a) l ++ s ++ skipn (N.to_nat (len l)) l)%list = List.length l.
Proof.
  unfold slice. destruct ((a <=? len l) && (len l <=? len l)) eqn:E; [|discriminate].
  unfold len in *. intros [= <-].
  rewrite !app_length, firstn_length, firstn_length, !skipn_length. lia.
Qed.
Lemma len_8 (l : list N) : List.length l = 8%nat -> len l = 8.
Proof. unfold len. lia. Qed.
Local Opaque slice len.

(** The end of [digest]: the state as bytes. *)
Ltac write_out :=
  lazymatch goal with |- context [for_items _ _
    [("out", _); ?v1; ?v2; ?v3; ?v4; ?v5;
     ("*self", VStruct "sha256::SHA256"
        [("h", VNums U32 ?h'); ("buffer", VNums U8 ?b'); ("length", VInt Usize ?k)])]] =>
    rewrite (len_8 h') by congruence;
    loop_count (VInt Usize)
      (fun out : list N => [("out", VNums U8 out); v1; v2; v3; v4; v5;
         ("*self", VStruct "sha256::SHA256"
        [("h", VNums U32 h'); ("buffer", VNums U8 b'); ("length", VInt Usize k)])])
      (fun (i : N) (out : list N) =>
        let* x := idx h' i in
        let* out := upd out (i * 4) (as_u8 (shr x 24)) in
        let* out := upd out (i * 4 + 1) (as_u8 (shr x 16)) in
        let* out := upd out (i * 4 + 2) (as_u8 (shr x 8)) in
        upd out (i * 4 + 3) (as_u8 x))
      (fun (_ : N) (_ : list N) => True) 8%nat 0 (repeat 0 32);
    [ intros i s Hi _; cbv beta zeta; steps | auto | auto | reflexivity | ];
    unfold write_digest, for_range; rewrite (len_8 h') by congruence;
    change (N.to_nat (8 - 0)) with 8%nat;
    steps
  end.

Lemma src_sha256_digest T n s : hasher_shape s -> List.length (sha_h s) = 8%nat ->
  run T (S (S (S (S n)))) "sha256::SHA256::digest" [sha_val s] =
  let* (d, s') := sha256_digest T s in Ret (VNums U8 d, [Some (sha_val s')]).
Proof.
  intros Hs Hh. destruct s as [h buf k]. unfold hasher_shape in Hs. cbn in Hs, Hh.
  unfold sha_val at 1. cbn [sha_h sha_buffer sha_length].
  enter. unfold sha256_digest, BLOCK_SIZE, or_0x80, with_slice. cbn [sha_h sha_buffer sha_length].
  do 4 go. lengths. do 1 go.
  loop_count (VInt Usize)
    (fun buf : list N =>
       [("off", VInt Usize a); ("block", VNums U32 (repeat 0 16));
        ("self", VRef (mkPath "*self" []));
        ("*self", VStruct "sha256::SHA256"
          [("h", VNums U32 h); ("buffer", VNums U8 buf); ("length", VInt Usize k)])])
    (fun (i : N) (buf0 : list N) => upd buf0 i 0)
    (fun (_ : N) (_ : list N) => True) (N.to_nat (len buf - a)) a buf.
  { intros i s Hi _. cbv beta zeta. steps. }
  { auto. } { auto. } { reflexivity. }
  change (for_range a (len buf) ?f buf) with (for_n (N.to_nat (len buf - a)) a f buf).
  destruct (for_n _ _ _ buf) as [buf1| |] eqn:Ez; [|reflexivity..].
  assert (Hb1 : List.length buf1 = 64%nat).
  { refine (for_n_keeps (fun b => List.length b = 64%nat) _ _ _ _ _ _ Hs Ez).
    intros i s s' Hl E1. apply upd_length in E1. congruence. }
  clear Ez. cbn [bind].
  go. go. go.
  - do 6 go. lengths.
    assert (Hu : usub T (len (repeat 0 64)) 8 = Ret 56) by (apply usub_ok; vm_compute; discriminate).
    do 7 go.
    match goal with Hx : write_u64_be _ _ = Ret _, Hy : slice _ _ _ = Ret _ |- _ =>
      pose proof (write_u64_be_length _ _ _ Hx) as Hw; pose proof (slice_all_length _ _ _ Hy) as Hl
    end.
    rewrite !app_length in Hl. rewrite <- Hw in Hl. rewrite <- !app_length in Hl.
    match goal with Hx : fill_block _ _ = Ret _ |- _ => pose proof (fill_block_length _ _ _ Hx) as Hf end.
    change (N.to_nat 56) with 56%nat in Hl. go.
    match goal with Hx : fill_block _ _ = Ret ?blk |- context [fill_block ?b ?blk] =>
      rewrite (fill_block_scratch b blk) by (try exact Hf; rewrite Hl; reflexivity) end.
    do 5 go.
    repeat match goal with Hx : process_block _ _ = Ret _ |- _ => apply process_block_length in Hx end.
    write_out.
  - do 13 go.
    repeat match goal with Hx : process_block _ _ = Ret _ |- _ => apply process_block_length in Hx end.
    write_out.
Qed.
