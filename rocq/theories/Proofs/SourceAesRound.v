(** The trees of src/aes.rs do what Model/Aes.v says: bytes, words and the steps
    of a round. *)
From Coq Require Import NArith List String Bool Lia ZifyBool ZifyNat ZifyN.
From Verif Require Import Rust.
From Verif.Source Require Import Syntax Interp Tree.
From Verif.Model Require Import Aes.
From Verif.Proofs Require Import Base SourceBase.
Import ListNotations.
Local Open Scope string_scope.
Local Open Scope N_scope.

(** * Loops *)

Lemma while_more {St} (c : St -> bool) (step : St -> res St) f : forall f' s,
  (f <= f')%nat -> while_loop f c step s <> Diverge ->
  while_loop f' c step s = while_loop f c step s.
Proof.
  induction f as [|f IH]; intros f' s Hf H.
  - destruct f'; cbn [while_loop] in *; destruct (c s); congruence.
  - destruct f' as [|f']; [lia|]. cbn [while_loop] in *.
    destruct (c s); [|reflexivity].
    destruct (step s) as [s'| |]; [|reflexivity|reflexivity]. cbn [bind] in *. apply IH; [lia|exact H].
Qed.

(** A [while] loop that counts. *)
Lemma while_m_count {St : Type} (C B : M) (emb : N -> St -> env) (hi : N)
    (step : N -> St -> res St) (I : N -> St -> Prop) (n : nat) : forall (lo : N) (fuel : nat) (s : St),
  hi = lo + N.of_nat n -> (n <= fuel)%nat ->
  (forall i s, lo <= i <= hi -> I i s -> C (emb i s) = Ret (Val (VBool (i <? hi)), emb i s)) ->
  (forall i s, lo <= i < hi -> I i s ->
     once B (emb i s) = let* s' := step i s in Ret (Val VUnit, emb (i + 1) s')) ->
  (forall i s s', lo <= i < hi -> I i s -> step i s = Ret s' -> I (i + 1) s') ->
  I lo s ->
  while_m fuel C B (emb lo s) = let* s' := for_n n lo step s in Ret (Val VUnit, emb hi s').
Proof.
  induction n as [|n IH]; intros lo fuel s Hh Hf Hc Hb Hi Is.
  - assert (hi = lo) as -> by lia. cbn [for_n bind].
    destruct fuel; cbn [while_m]; unfold bindm at 1; rewrite Hc by (auto; lia);
      cbn [bind]; rewrite N.ltb_irrefl; reflexivity.
  - destruct fuel as [|fuel]; [lia|]. cbn [while_m for_n]. unfold bindm at 1.
    rewrite Hc by (auto; lia). cbn [bind].
    replace (lo <? hi) with true by lia. unfold bindm. rewrite Hb by (auto; lia). rewrite !bind_assoc.
    destruct (step lo s) as [s'| |] eqn:E; [|reflexivity|reflexivity]. cbn [bind].
    replace (N.succ lo) with (lo + 1) by lia. apply IH.
    + lia.
    + lia.
    + intros; apply Hc; auto; lia.
    + intros; apply Hb; auto; lia.
    + intros; eapply Hi; eauto; lia.
    + eapply Hi; eauto; lia.
Qed.
Ltac loop_while_count emb hi step I n lo s :=
  lazymatch goal with |- context [while_m ?f ?C ?B ?r] =>
    let H := fresh "L" in
    assert (H : while_m f C B r = let* s' := for_n n lo step s in Ret (Val VUnit, emb hi s'));
    [ apply (while_m_count C B emb hi step I n lo f s) | rewrite H; clear H ]
  end.

Local Opaque amount run constant idx upd slice uadd umul usub udiv urem len N.mul N.add N.sub N.lor
  N.lxor N.land shl32 shl8 shr not32 wrapping_add32 N.eqb N.ltb N.leb N.min as_u8 as_u64 N.shiftl N.shiftr
  copy_from_slice split_off alloc app while_loop as_usize.

(** * Bytes and words *)

Lemma src_double T n b : (1 <= n)%nat ->
  run T n "aes::double" [VInt U8 b] = Ret (VInt U8 (double b), [None]).
Proof. intros H. destruct n as [|n]; [lia|]. clear H. enter. unfold double. steps. Qed.
Local Opaque double.

Ltac call_rule ::= first [ rewrite src_double by lia ].

Local Transparent while_loop shr.
Lemma mul_ends f : forall y r p, (N.size_nat y <= f)%nat ->
  while_loop f (fun st : N * N * N => let '(y, _, _) := st in negb (y =? 0))
    (fun st : N * N * N => let '(y, r, p) := st in
       Ret (shr y 1, (if negb (N.land y 1 =? 0) then N.lxor r p else r), double p)) (y, r, p) <> Diverge.
Proof.
  assert (Hs : forall y, y <> 0 -> N.size_nat y = S (N.size_nat (shr y 1))).
  { intros y Hy. unfold shr. rewrite <- N.div2_spec. destruct y as [|[y|y|]]; reflexivity || congruence. }
  induction f as [|f IH]; intros y r p H; cbn [while_loop]; destruct (y =? 0) eqn:E; cbn [negb].
  - discriminate.
  - rewrite Hs in H by lia. lia.
  - discriminate.
  - rewrite Hs in H by lia. cbn [bind]. apply IH. lia.
Qed.
Local Opaque while_loop shr.

Lemma src_mul T n t b by_ : t = Lit \/ t = Usize ->
  (S (N.size_nat by_) <= n)%nat -> (2 <= n)%nat ->
  run T n "aes::mul" [VInt U8 b; VInt t by_] =
  let* r := Aes.mul b by_ in Ret (VInt U8 r, [None; None]).
Proof.
  intros Ht Hn H2. destruct n as [|n]; [lia|].
  assert (H1 : (1 <= n)%nat) by lia. clear H2.
  transitivity (run T (S n) "aes::mul" [VInt U8 b; VInt Usize by_]).
  { destruct Ht; subst t; reflexivity. }
  enter. unfold Aes.mul. cbv zeta.
  repeat go.
  loop_while
    (fun st : N * N * N => let '(y, r, p) := st in
      [("power", VInt U8 p); ("res", VInt U8 r); ("b", VInt U8 b); ("by", VInt Usize y)])
    (fun st : N * N * N => let '(y, _, _) := st in negb (y =? 0))
    (fun st : N * N * N => let '(y, r, p) := st in
       Ret (shr y 1, (if negb (N.land y 1 =? 0) then N.lxor r p else r), double p))
    (by_, 0, b).
  { intros [[y r] p]. steps. }
  { intros [[y r] p] Hy. steps. }
  rewrite (while_more _ _ (N.size_nat by_)); [|lia|apply mul_ends; lia].
  destruct (while_loop _ _ _ _) as [[[y r] p]| |]; steps.
Qed.

Lemma as_usize_id T x : x < 2 ^ 32 -> as_usize T x = x.
Proof.
  Local Transparent as_usize.
  intros H. unfold as_usize. apply N.mod_small. unfold usize_mod, usize_bits. destruct (width T); lia.
  Local Opaque as_usize.
Qed.
Lemma shr_le x s : shr x s <= x.
Proof.
  Local Transparent shr.
  unfold shr. rewrite N.shiftr_div_pow2. apply N.div_le_upper_bound; [lia|].
  assert (2 ^ s <> 0) by (apply N.pow_nonzero; lia). nia.
  Local Opaque shr.
Qed.
Lemma src_rot_word T n b : (1 <= n)%nat ->
  run T n "aes::rot_word" [VInt U32 b] = Ret (VInt U32 (rot_word b), [None]).
Proof. intros H. destruct n as [|n]; [lia|]. clear H. enter. unfold rot_word. steps. Qed.

(** The constant tables, by name. *)
Lemma sbox_const : constant constants "aes::SBOX" = Ret (VNums U8 SBOX).
Proof. reflexivity. Qed.
Lemma inv_sbox_const : constant constants "aes::INV_SBOX" = Ret (VNums U8 INV_SBOX).
Proof. reflexivity. Qed.
Lemma rcon_const : constant constants "aes::RCON" = Ret (VNums U32 RCON).
Proof. reflexivity. Qed.
Ltac const_rule ::= first [rewrite sbox_const | rewrite inv_sbox_const | rewrite rcon_const].
Local Opaque SBOX INV_SBOX RCON.

Ltac small := first
  [ lia
  | eapply N.le_lt_trans; [apply shr_le|lia]
  | apply land_lt_l; eapply N.le_lt_trans; [apply shr_le|lia]
  | apply land_lt_l; lia ].
Ltac prim_rule x ::=
  lazymatch x with
  | idx _ (as_usize ?T ?e) => rewrite (as_usize_id T e) by small
  end.

Lemma src_sub_word T n b : (1 <= n)%nat -> b < 2 ^ 32 ->
  run T n "aes::sub_word" [VInt U32 b] = let* r := sub_word b in Ret (VInt U32 r, [None]).
Proof.
  intros H Hb. destruct n as [|n]; [lia|]. clear H. enter. unfold sub_word. cbv zeta. steps.
Qed.
Local Opaque sub_word rot_word Aes.mul.

Definition block_val (s : Block) : val := VSeq (map (VNums U8) s).

(** ** Lists known element by element *)
Ltac nth_of l n :=
  lazymatch l with
  | ?x :: ?l' => lazymatch n with O => x | S ?m => nth_of l' m end
  end.
Ltac set_of l n v :=
  lazymatch l with
  | ?x :: ?l' => lazymatch n with
                 | O => constr:(v :: l')
                 | S ?m => let r := set_of l' m v in constr:(x :: r)
                 end
  end.
Ltac nat_of i := eval vm_compute in (N.to_nat i).
Ltac known x :=
  lazymatch x with
  | idx ?l ?i => let n := nat_of i in let e := nth_of l n in change_no_check x with (Ret e)
  | upd ?l ?i ?v => let n := nat_of i in let l' := set_of l n v in change_no_check x with (Ret l')
  end.
Ltac prim_rule x ::= known x.
Ltac call_rule ::= first
  [ rewrite src_double by lia
  | rewrite src_mul by (auto; vm_compute; lia) ].

Lemma src_enc_lookup T n b : (1 <= n)%nat ->
  run T n "aes::AESEncrypt::lookup_sbox" [VInt U8 b] =
  let* c := enc_lookup_sbox b in Ret (VInt U8 c, [None]).
Proof. intros H. destruct n as [|n]; [lia|]. clear H. enter. unfold enc_lookup_sbox. steps. Qed.
Lemma src_dec_lookup T n b : (1 <= n)%nat ->
  run T n "aes::AESDecrypt::lookup_sbox" [VInt U8 b] =
  let* c := dec_lookup_sbox b in Ret (VInt U8 c, [None]).
Proof. intros H. destruct n as [|n]; [lia|]. clear H. enter. unfold dec_lookup_sbox. steps. Qed.

Lemma src_enc_mix_column T n c0 c1 c2 c3 : (6 <= n)%nat ->
  run T n "aes::AESEncrypt::mix_column" [VNums U8 [c0; c1; c2; c3]] =
  let* c := enc_mix_column [c0; c1; c2; c3] in Ret (VNums U8 c, [None]).
Proof.
  intros H. destruct n as [|n]; [lia|]. enter. unfold enc_mix_column. cbv zeta. steps.
Qed.
Lemma src_dec_mix_column T n c0 c1 c2 c3 : (6 <= n)%nat ->
  run T n "aes::AESDecrypt::mix_column" [VNums U8 [c0; c1; c2; c3]] =
  let* c := dec_mix_column [c0; c1; c2; c3] in Ret (VNums U8 c, [None]).
Proof.
  intros H. destruct n as [|n]; [lia|]. enter. unfold dec_mix_column, dec_mix_byte. cbv zeta. steps.
Qed.

Local Opaque enc_mix_column dec_mix_column enc_lookup_sbox dec_lookup_sbox.
Ltac call_rule ::= first
  [ rewrite src_double by lia
  | rewrite src_mul by (auto; vm_compute; lia)
  | rewrite src_enc_lookup by lia | rewrite src_dec_lookup by lia
  | rewrite src_enc_mix_column by lia | rewrite src_dec_mix_column by lia ].

(** A loop over a list that is known is run turn by turn. *)
Ltac unroll :=
  lazymatch goal with
  | |- context [for_items ?b (map ?f ?l) ?r] =>
      let l' := eval vm_compute in (map f l) in
      change_no_check (for_items b (map f l) r) with (for_items b l' r)
  end.
Ltac go_all := repeat first [unroll | go].

Section Block.
Variables (T : target) (n : nat).
Variables s00 s01 s02 s03 s10 s11 s12 s13 s20 s21 s22 s23 s30 s31 s32 s33 : N.
Let block : Block := [[s00; s01; s02; s03]; [s10; s11; s12; s13]; [s20; s21; s22; s23]; [s30; s31; s32; s33]].

Lemma src_enc_shift_rows : (1 <= n)%nat ->
  run T n "aes::AESEncrypt::shift_rows" [block_val block] =
  let* s := enc_shift_rows block in Ret (block_val s, [None]).
Proof.
  intros H. destruct n as [|m]; [lia|]. clear H. unfold block, block_val. cbn [map]. enter.
  unfold enc_shift_rows. cbv zeta. steps.
Qed.
Lemma src_dec_shift_rows : (1 <= n)%nat ->
  run T n "aes::AESDecrypt::shift_rows" [block_val block] =
  let* s := dec_shift_rows block in Ret (block_val s, [None]).
Proof.
  intros H. destruct n as [|m]; [lia|]. clear H. unfold block, block_val. cbn [map]. enter.
  unfold dec_shift_rows. cbv zeta. steps.
Qed.
Lemma src_from_block : (1 <= n)%nat ->
  run T n "aes::from_block" [block_val block] =
  let* b := from_block block in Ret (VNums U8 b, [None]).
Proof.
  intros H. destruct n as [|m]; [lia|]. clear H. unfold block, block_val. cbn [map]. enter.
  unfold from_block. cbv zeta. steps.
Qed.
Lemma src_to_block b : (1 <= n)%nat -> len b = 16 ->
  run T n "aes::to_block" [VNums U8 b] =
  let* s := to_block b in Ret (block_val s, [None]).
Proof.
  intros H Hb. destruct n as [|m]; [lia|]. clear H.
  assert (L : List.length b = 16%nat) by (apply (f_equal N.to_nat) in Hb; rewrite len_length in Hb; exact Hb).
  do 16 (destruct b as [|? b]; [discriminate|]). destruct b; [|discriminate]. clear Hb L.
  enter. unfold to_block. cbv zeta. steps.
Qed.

Lemma src_enc_sub_bytes : (2 <= n)%nat ->
  run T n "aes::AESEncrypt::sub_bytes" [block_val block] =
  let* s := sub_bytes enc_lookup_sbox block in Ret (VUnit, [Some (block_val s)]).
Proof.
  intros H. destruct n as [|m]; [lia|]. unfold block, block_val. cbn [map]. enter.
  unfold sub_bytes. cbn [map_res]. cbv zeta. go_all. reflexivity.
Qed.
Lemma src_dec_sub_bytes : (2 <= n)%nat ->
  run T n "aes::AESDecrypt::sub_bytes" [block_val block] =
  let* s := sub_bytes dec_lookup_sbox block in Ret (VUnit, [Some (block_val s)]).
Proof.
  intros H. destruct n as [|m]; [lia|]. unfold block, block_val. cbn [map]. enter.
  unfold sub_bytes. cbn [map_res]. cbv zeta. go_all. reflexivity.
Qed.
Lemma src_enc_mix_columns : (7 <= n)%nat ->
  run T n "aes::AESEncrypt::mix_columns" [block_val block] =
  let* s := mix_columns enc_mix_column block in Ret (VUnit, [Some (block_val s)]).
Proof.
  intros H. destruct n as [|m]; [lia|]. unfold block, block_val. cbn [map]. enter.
  unfold mix_columns. cbn [map_res]. cbv zeta. go_all. reflexivity.
Qed.
Lemma src_dec_mix_columns : (7 <= n)%nat ->
  run T n "aes::AESDecrypt::mix_columns" [block_val block] =
  let* s := mix_columns dec_mix_column block in Ret (VUnit, [Some (block_val s)]).
Proof.
  intros H. destruct n as [|m]; [lia|]. unfold block, block_val. cbn [map]. enter.
  unfold mix_columns. cbn [map_res]. cbv zeta. go_all. reflexivity.
Qed.
Lemma src_enc_add_round_key k0 k1 k2 k3 : (1 <= n)%nat ->
  run T n "aes::AESEncrypt::add_round_key" [block_val block; VNums U32 [k0; k1; k2; k3]] =
  let* s := add_round_key block [k0; k1; k2; k3] in Ret (VUnit, [Some (block_val s); None]).
Proof.
  intros H. destruct n as [|m]; [lia|]. unfold block, block_val. cbn [map]. enter.
  cbn [add_round_key add_round_key_col]. cbv zeta. go_all. reflexivity.
Qed.
Lemma src_dec_add_round_key k0 k1 k2 k3 : (1 <= n)%nat ->
  run T n "aes::AESDecrypt::add_round_key" [block_val block; VNums U32 [k0; k1; k2; k3]] =
  let* s := add_round_key block [k0; k1; k2; k3] in Ret (VUnit, [Some (block_val s); None]).
Proof.
  intros H. destruct n as [|m]; [lia|]. unfold block, block_val. cbn [map]. enter.
  cbn [add_round_key add_round_key_col]. cbv zeta. go_all. reflexivity.
Qed.
End Block.
