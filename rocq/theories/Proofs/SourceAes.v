(** The trees of src/aes.rs do what Model/Aes.v says: the key schedule and the
    cipher.  The parts are in SourceAesRound.v. *)
From Coq Require Import NArith List String Bool Lia ZifyBool ZifyNat ZifyN.
From Verif Require Import Rust.
From Verif.Source Require Import Syntax Interp Tree.
From Verif.Model Require Import Aes.
From Verif.Spec Require Import Octets.
From Verif.Proofs Require Import Base SourceBase SourceAesRound.
Import ListNotations.
Local Open Scope string_scope.
Local Open Scope N_scope.

Local Opaque amount run constant idx upd slice uadd umul usub udiv urem len N.mul N.add N.sub N.lor
  N.lxor N.land shl32 shl8 shr not32 wrapping_add32 N.eqb N.ltb N.leb N.min as_u8 as_u64 N.shiftl N.shiftr
  copy_from_slice split_off alloc app while_loop as_usize double sub_word rot_word Aes.mul SBOX INV_SBOX
  RCON enc_mix_column dec_mix_column enc_lookup_sbox dec_lookup_sbox.

(** * The key schedule *)

Lemma usize_mod_32 T : 4294967296 <= usize_mod T.
Proof. unfold usize_mod, usize_bits. destruct (width T); vm_compute; discriminate. Qed.
Lemma alloc_small T size n : size * n <= 65536 -> alloc T size n = Ret tt.
Proof.
  Local Transparent alloc.
  intros H. unfold alloc.
  assert (65536 <= isize_max T) by (unfold isize_max, usize_bits; destruct (width T); vm_compute; discriminate).
  destruct (N.leb_spec (size * n) (isize_max T)); [reflexivity|lia].
  Local Opaque alloc.
Qed.

(** Words stay words. *)
Definition word (x : N) : Prop := x < 4294967296.
Lemma word_lor a b : word a -> word b -> word (N.lor a b).
Proof. exact (lor_lt a b 32). Qed.
Lemma word_lxor a b : word a -> word b -> word (N.lxor a b).
Proof. exact (lxor_lt a b 32). Qed.
Lemma word_shl32 a s : word (shl32 a s).
Proof. Local Transparent shl32. apply N.mod_lt. discriminate. Local Opaque shl32. Qed.
Lemma word_shr a s : word a -> word (shr a s).
Proof. unfold word. intros H. pose proof (shr_le a s). lia. Qed.
Lemma word_octet a : a < 256 -> word a.
Proof. unfold word. lia. Qed.
Lemma idx_forall {A} (P : A -> Prop) l i x : Forall P l -> idx l i = Ret x -> P x.
Proof.
  Local Transparent idx. unfold idx. intros H E. destruct (nth_error l (N.to_nat i)) eqn:X; [|discriminate].
  injection E as <-. rewrite Forall_forall in H. apply H. eapply nth_error_In; eauto. Local Opaque idx.
Qed.
Lemma sbox_octets : Forall (fun b => b < 256) SBOX.
Proof. Local Transparent SBOX. repeat constructor. Local Opaque SBOX. Qed.
Lemma rcon_words : Forall word RCON.
Proof. Local Transparent RCON. repeat constructor. Local Opaque RCON. Qed.
Lemma word_rot a : word a -> word (rot_word a).
Proof. Local Transparent rot_word. intros H. apply word_lor; [apply word_shl32|apply word_shr, H]. Local Opaque rot_word. Qed.
Lemma word_sub a r : sub_word a = Ret r -> word r.
Proof.
  Local Transparent sub_word. unfold sub_word. cbv zeta. intros H. inv_binds H. injection H as <-.
  apply word_lor; [|eapply word_octet, (idx_forall (fun b => b < 256)); [apply sbox_octets|eassumption]].
  repeat apply word_lor; apply word_shl32. Local Opaque sub_word.
Qed.

Lemma for_n_holds {St} (I : N -> St -> Prop) (step : N -> St -> res St) n : forall lo s s',
  (forall i s s', lo <= i < lo + N.of_nat n -> I i s -> step i s = Ret s' -> I (i + 1) s') ->
  I lo s -> for_n n lo step s = Ret s' -> I (lo + N.of_nat n) s'.
Proof.
  induction n as [|n IH]; intros lo s s' H Hs E; cbn [for_n] in E.
  - injection E as <-. replace (lo + N.of_nat 0) with lo by lia. exact Hs.
  - destruct (step lo s) as [s1| |] eqn:E1; try discriminate. cbn [bind] in E.
    replace (lo + N.of_nat (S n)) with (N.succ lo + N.of_nat n) by lia.
    eapply IH; [|replace (N.succ lo) with (lo + 1) by lia; eapply H; eauto; lia|exact E].
    intros; eapply H; eauto; lia.
Qed.

Ltac call_rule ::= first
  [ rewrite src_rot_word by lia
  | rewrite src_sub_word by (first [lia | assumption]) ].
Ltac prim_rule x ::= fail.

Lemma src_expand_key T n key nk rc : (61 <= n)%nat ->
  len key = 4 * nk -> 4 <= nk <= 8 -> nk <= 4 * (rc + 1) -> rc <= 14 -> octets key ->
  run T n "aes::expand_key" [VNums U8 key; VInt Usize rc] =
  let* w := expand_key key rc in Ret (VNums U32 w, [None; None]).
Proof.
  intros Hn Hk Hnk Hlo Hrc Ho. destruct n as [|n]; [lia|].
  pose proof (usize_mod_32 T) as HU.
  assert (E1 : udiv (len key) 4 = Ret nk).
  { Local Transparent udiv. unfold udiv. cbn [N.eqb]. Local Opaque udiv. rewrite Hk. f_equal.
    rewrite N.mul_comm. apply N.div_mul. lia. }
  assert (E2 : uadd T rc 1 = Ret (rc + 1)) by (apply uadd_ok; lia).
  assert (E3 : umul T 4 (rc + 1) = Ret (4 * (rc + 1))) by (apply umul_ok; lia).
  assert (E4 : alloc T 4 (4 * (rc + 1)) = Ret tt) by (apply alloc_small; lia).
  enter. unfold expand_key, for_range. cbv zeta. change NB with 4.
  replace (len key / 4) with nk by (rewrite Hk, N.mul_comm, N.div_mul; lia).
  assert (Hinv : forall (i : N) (u u' : list N), 0 <= i < nk -> len u = i /\ Forall word u ->
    (let* k0 := idx key (4 * i) in
     let* k1 := idx key (4 * i + 1) in
     let* k2 := idx key (4 * i + 2) in
     let* k3 := idx key (4 * i + 3) in
     Ret (u ++ [N.lor (N.lor (N.lor (shl32 k0 24) (shl32 k1 16)) (shl32 k2 8)) k3])%list) = Ret u' ->
    len u' = i + 1 /\ Forall word u').
  { intros i u u' Hi [Hl Hu] E. inv_binds E. injection E as <-. split.
    - rewrite len_app. subst i. reflexivity.
    - apply Forall_app. split; [exact Hu|]. constructor; [|constructor].
      apply word_lor; [repeat apply word_lor; apply word_shl32|].
      eapply word_octet, (idx_forall (fun b => b < 256)); eauto. }
  repeat go.
  loop_while_count
    (fun (i : N) (w : list N) => [("i", VInt Usize i); ("w", VNums U32 w); ("nk", VInt Usize nk);
       ("key", VNums U8 key); ("round_count", VInt Usize rc)])
    nk
    (fun (i : N) (w : list N) =>
      let* k0 := idx key (4 * i) in
      let* k1 := idx key (4 * i + 1) in
      let* k2 := idx key (4 * i + 2) in
      let* k3 := idx key (4 * i + 3) in
      Ret (w ++ [N.lor (N.lor (N.lor (shl32 k0 24) (shl32 k1 16)) (shl32 k2 8)) k3])%list)
    (fun (i : N) (w : list N) => len w = i /\ Forall word w) (N.to_nat nk) 0 (@nil N).
  { lia. } { lia. }
  { intros i w Hi _. steps. }
  { intros i w Hi _.
    assert (F1 : umul T 4 i = Ret (4 * i)) by (apply umul_ok; lia).
    assert (F2 : uadd T (4 * i) 1 = Ret (4 * i + 1)) by (apply uadd_ok; lia).
    assert (F3 : uadd T (4 * i) 2 = Ret (4 * i + 2)) by (apply uadd_ok; lia).
    assert (F4 : uadd T (4 * i) 3 = Ret (4 * i + 3)) by (apply uadd_ok; lia).
    assert (F5 : uadd T i 1 = Ret (i + 1)) by (apply uadd_ok; lia).
    steps. }
  { exact Hinv. }
  { split; [reflexivity|constructor]. }
  replace (nk - 0) with nk by lia.
  match goal with |- _ = bind (bind ?m _) _ => destruct m as [w| |] eqn:Ew; [|reflexivity|reflexivity] end.
  cbn [bind].
  assert (Hw : len w = nk /\ Forall word w).
  { assert (X : len w = 0 + N.of_nat (N.to_nat nk) /\ Forall word w).
    { eapply (for_n_holds (fun i w => len w = i /\ Forall word w)); [| |exact Ew]; [|split; [reflexivity|constructor]].
      cbv beta. intros i u u' Hi Hu E. apply (Hinv i u u'); auto; lia. }
    rewrite N2Nat.id in X. exact X. }
  repeat go.
  loop_while_count
    (fun (i : N) (w : list N) => [("i", VInt Usize i); ("w", VNums U32 w); ("nk", VInt Usize nk);
       ("key", VNums U8 key); ("round_count", VInt Usize rc)])
    (4 * (rc + 1))
    (fun (i : N) (w : list N) =>
      let* temp := idx w (i - 1) in
      let* m := urem i nk in
      let* temp :=
        (if m =? 0 then
           let* q := udiv i nk in
           let* s := sub_word (rot_word temp) in
           let* rc := idx RCON (q - 1) in
           Ret (N.lxor s rc)
         else if (6 <? nk) && (m =? 4) then sub_word temp
         else Ret temp)%bool in
      let* prev := idx w (i - nk) in
      Ret (w ++ [N.lxor prev temp])%list)
    (fun (i : N) (w : list N) => len w = i /\ Forall word w) (N.to_nat (4 * (rc + 1) - nk)) nk w.
  { lia. } { lia. }
  { intros i u Hi _. steps. }
  { intros i u Hi [Hl Hu].
    assert (F1 : usub T i 1 = Ret (i - 1)) by (apply usub_ok; lia).
    assert (F2 : usub T i nk = Ret (i - nk)) by (apply usub_ok; lia).
    assert (F5 : uadd T i 1 = Ret (i + 1)) by (apply uadd_ok; lia).
    assert (F6 : udiv i nk = Ret (i / nk)).
    { Local Transparent udiv. unfold udiv. Local Opaque udiv. destruct (N.eqb_spec nk 0); [lia|reflexivity]. }
    assert (F7 : 1 <= i / nk) by (apply N.div_le_lower_bound; lia).
    assert (F8 : usub T (i / nk) 1 = Ret (i / nk - 1)) by (apply usub_ok; lia).
    assert (exists x, idx u (i - 1) = Ret x) as [x Ex].
    { eexists. apply (idx_nth u (i - 1) 0). pose proof (len_length u). lia. }
    assert (W1 : word x) by (eapply idx_forall; eauto).
    assert (W2 : word (rot_word x)) by (apply word_rot, W1).
    unfold word in W1, W2.
    rewrite Ex, F6. cbn [bind]. destruct (6 <? nk) eqn:E6; cbn [andb]; steps. }
  { intros i u u' Hi [Hl Hu] E. inv_binds E. injection E as <-. split.
    - rewrite len_app. subst i. reflexivity.
    - apply Forall_app. split; [exact Hu|]. constructor; [|constructor].
      apply word_lxor; [eapply idx_forall; eauto|].
      destruct (a0 =? 0); [inv_binds X1; injection X1 as <-; apply word_lxor;
        [eapply word_sub; eauto|eapply idx_forall; [apply rcon_words|eauto]]|].
      destruct ((6 <? nk) && (a0 =? 4))%bool; [eapply word_sub; eauto|].
      injection X1 as <-. eapply idx_forall; eauto. }
  { exact Hw. }
  steps.
Qed.
Local Opaque expand_key.

(** * The cipher *)

Definition aes_val (a : AES) : val :=
  VStruct "aes::AES"
    [("round_count", VInt Usize (round_count a));
     ("round_keys", match round_keys a with Some w => VCon "Some" [VNums U32 w] | None => VCon "None" [] end)].
Definition aes_error_val (e : AESError) : val :=
  match e with
  | InvalidKeySize => VCon "aes::AESError::InvalidKeySize" []
  | NotInitialized => VCon "aes::AESError::NotInitialized" []
  end.
Definition unit_result_val (r : result unit AESError) : val :=
  match r with Ok _ => VCon "Ok" [VUnit] | Err e => VCon "Err" [aes_error_val e] end.
Definition block_result_val (r : result (list N) AESError) : val :=
  match r with Ok b => VCon "Ok" [VNums U8 b] | Err e => VCon "Err" [aes_error_val e] end.

Lemma src_aes_description T n e : (1 <= n)%nat ->
  run T n "aes::AESError::description" [aes_error_val e] = Ret (VStr (aes_error_description e), [None]).
Proof. intros H. destruct n as [|n]; [lia|]. destruct e; enter; steps. Qed.
Lemma src_aes_new T n : (1 <= n)%nat -> run T n "aes::AES::new" [] = Ret (aes_val aes_new, []).
Proof. intros H. destruct n as [|n]; [lia|]. enter. steps. Qed.
Ltac call_rule ::= first [rewrite src_aes_new by lia].
Lemma src_aes_default T n : (2 <= n)%nat ->
  run T n "aes::AES::default" [] = Ret (aes_val aes_default, []).
Proof. intros H. destruct n as [|n]; [lia|]. enter. steps. Qed.

Ltac call_rule ::=
  lazymatch goal with
  | H : len ?key = 4 * ?nk |- context [run ?T ?n "aes::expand_key" [VNums U8 ?key; VInt Usize ?rc]] =>
      rewrite (src_expand_key T n key nk rc) by (first [assumption | lia])
  end.
Lemma src_aes_init T n a key : (62 <= n)%nat -> octets key ->
  run T n "aes::AES::init" [aes_val a; VNums U8 key] =
  let* (r, a') := aes_init a key in Ret (unit_result_val r, [Some (aes_val a'); None]).
Proof.
  intros Hn Ho. destruct n as [|n]; [lia|]. destruct a as [rc ks]. unfold aes_val at 1. cbn [round_count round_keys].
  destruct (N.eq_dec (len key) 16) as [Hk|H1].
  { assert (F1 : (16 =? len key) = true) by lia.
    unfold aes_init. rewrite Hk. change 16 with (4 * 4) in Hk.
    enter. cbv iota zeta. steps. }
  destruct (N.eq_dec (len key) 24) as [Hk|H2].
  { assert (F1 : (16 =? len key) = false) by lia. assert (F2 : (24 =? len key) = true) by lia.
    unfold aes_init. rewrite Hk. change 24 with (4 * 6) in Hk.
    enter. cbv iota zeta. steps. }
  destruct (N.eq_dec (len key) 32) as [Hk|H3].
  { assert (F1 : (16 =? len key) = false) by lia. assert (F2 : (24 =? len key) = false) by lia.
    assert (F3 : (32 =? len key) = true) by lia.
    unfold aes_init. rewrite Hk. change 32 with (4 * 8) in Hk.
    enter. cbv iota zeta. steps. }
  assert (F1 : (16 =? len key) = false) by lia. assert (F2 : (24 =? len key) = false) by lia.
  assert (F3 : (32 =? len key) = false) by lia.
  assert (X : aes_init (mkAES rc ks) key = Ret (Err InvalidKeySize, mkAES rc ks)).
  { unfold aes_init. revert H1 H2 H3. generalize (len key). intros l H1 H2 H3.
    destruct l as [|p]; [reflexivity|].
    do 6 (try (destruct p as [p|p|]; try reflexivity)); congruence. }
  rewrite X. enter. steps.
Qed.

Local Opaque sub_bytes mix_columns enc_shift_rows dec_shift_rows add_round_key to_block from_block.

(** A block is four columns of four bytes. *)
Definition shape (s : Block) : Prop :=
  List.length s = 4%nat /\ Forall (fun c => List.length c = 4%nat) s.
Lemma four {A} (l : list A) : List.length l = 4%nat -> exists a b c d, l = [a; b; c; d].
Proof.
  intros H. do 4 (destruct l as [|? l]; [discriminate|]). destruct l; [|discriminate]. eauto.
Qed.
Lemma shape_cells s : shape s -> exists s00 s01 s02 s03 s10 s11 s12 s13 s20 s21 s22 s23 s30 s31 s32 s33,
  s = [[s00; s01; s02; s03]; [s10; s11; s12; s13]; [s20; s21; s22; s23]; [s30; s31; s32; s33]].
Proof.
  intros [H1 H2]. destruct (four s H1) as (a & b & c & d & ->).
  apply Forall_cons_iff in H2; destruct H2 as [Ha H2].
  apply Forall_cons_iff in H2; destruct H2 as [Hb H2].
  apply Forall_cons_iff in H2; destruct H2 as [Hc H2].
  apply Forall_cons_iff in H2; destruct H2 as [Hd _].
  destruct (four a Ha) as (? & ? & ? & ? & ->). destruct (four b Hb) as (? & ? & ? & ? & ->).
  destruct (four c Hc) as (? & ? & ? & ? & ->). destruct (four d Hd) as (? & ? & ? & ? & ->).
  repeat eexists.
Qed.
Ltac cells H :=
  apply shape_cells in H;
  destruct H as (? & ? & ? & ? & ? & ? & ? & ? & ? & ? & ? & ? & ? & ? & ? & ? & ->).
Ltac shaped := split; [reflexivity|repeat constructor].

Section Steps.
Local Transparent sub_bytes mix_columns enc_shift_rows dec_shift_rows add_round_key to_block from_block
  enc_mix_column dec_mix_column.
Lemma shape_sub_bytes f s s' : shape s -> sub_bytes f s = Ret s' -> shape s'.
Proof.
  intros H E. cells H. unfold sub_bytes in E. cbn [map_res] in E.
  repeat match type of E with
  | bind (bind _ _) _ = _ => rewrite bind_assoc in E
  | bind (Ret _) _ = _ => cbn [bind] in E
  | bind ?m _ = _ => destruct m; [cbn [bind] in E|discriminate E|discriminate E]
  end.
  injection E as <-. shaped.
Qed.
Lemma map_res_length {A B} (f : A -> res B) l : forall l', map_res f l = Ret l' -> List.length l' = List.length l.
Proof.
  induction l as [|x l IH]; intros l' E; cbn [map_res] in E.
  - injection E as <-. reflexivity.
  - destruct (f x); try discriminate. cbn [bind] in E. destruct (map_res f l) eqn:X; try discriminate.
    cbn [bind] in E. injection E as <-. cbn [List.length]. f_equal. auto.
Qed.
Lemma map_res_all {A B} (P : B -> Prop) (f : A -> res B) l : (forall x y, f x = Ret y -> P y) ->
  forall l', map_res f l = Ret l' -> Forall P l'.
Proof.
  intros H. induction l as [|x l IH]; intros l' E; cbn [map_res] in E.
  - injection E as <-. constructor.
  - destruct (f x) eqn:Y; try discriminate. cbn [bind] in E. destruct (map_res f l) eqn:X; try discriminate.
    cbn [bind] in E. injection E as <-. constructor; eauto.
Qed.
Lemma shape_mix f s s' : (forall c c', f c = Ret c' -> List.length c' = 4%nat) ->
  shape s -> mix_columns f s = Ret s' -> shape s'.
Proof.
  intros Hf [H _] E. split.
  - rewrite <- H. exact (map_res_length _ _ _ E).
  - exact (map_res_all _ _ _ Hf _ E).
Qed.
Lemma enc_mix_length c c' : enc_mix_column c = Ret c' -> List.length c' = 4%nat.
Proof.
  unfold enc_mix_column. intros E.
  do 4 (destruct c as [|? c]; [discriminate|]). destruct c; [|discriminate].
  inv_binds E. injection E as <-. reflexivity.
Qed.
Lemma dec_mix_length c c' : dec_mix_column c = Ret c' -> List.length c' = 4%nat.
Proof.
  unfold dec_mix_column. intros E.
  do 4 (destruct c as [|? c]; [discriminate|]). destruct c; [|discriminate].
  inv_binds E. injection E as <-. reflexivity.
Qed.
Lemma shape_enc_mix s s' : shape s -> mix_columns enc_mix_column s = Ret s' -> shape s'.
Proof. apply shape_mix. exact enc_mix_length. Qed.
Lemma shape_dec_mix s s' : shape s -> mix_columns dec_mix_column s = Ret s' -> shape s'.
Proof. apply shape_mix. exact dec_mix_length. Qed.
Lemma shape_enc_shift s s' : shape s -> enc_shift_rows s = Ret s' -> shape s'.
Proof. intros H E. cells H. injection E as <-. shaped. Qed.
Lemma shape_dec_shift s s' : shape s -> dec_shift_rows s = Ret s' -> shape s'.
Proof. intros H E. cells H. injection E as <-. shaped. Qed.
Lemma shape_add_round_key k s s' : shape s -> add_round_key s k = Ret s' -> shape s'.
Proof.
  intros H E. cells H.
  do 4 (destruct k as [|? k]; [injection E as <-; shaped|]). cbn [add_round_key add_round_key_col bind] in E.
  injection E as <-. shaped.
Qed.
Lemma shape_to_block b s : to_block b = Ret s -> shape s.
Proof.
  unfold to_block. intros E.
  do 16 (destruct b as [|? b]; [discriminate|]). destruct b; [|discriminate]. injection E as <-. shaped.
Qed.
End Steps.

Definition cols (s : Block) : list val := map (VNums U8) s.
Section Run.
Variables (T : target) (n : nat) (s : Block).
Hypothesis Hs : shape s.
Lemma call_enc_shift_rows : (1 <= n)%nat ->
  run T n "aes::AESEncrypt::shift_rows" [VSeq (cols s)] =
  let* s := enc_shift_rows s in Ret (VSeq (cols s), [None]).
Proof. cells Hs. apply src_enc_shift_rows. Qed.
Lemma call_dec_shift_rows : (1 <= n)%nat ->
  run T n "aes::AESDecrypt::shift_rows" [VSeq (cols s)] =
  let* s := dec_shift_rows s in Ret (VSeq (cols s), [None]).
Proof. cells Hs. apply src_dec_shift_rows. Qed.
Lemma call_from_block : (1 <= n)%nat ->
  run T n "aes::from_block" [VSeq (cols s)] = let* b := from_block s in Ret (VNums U8 b, [None]).
Proof. cells Hs. apply src_from_block. Qed.
Lemma call_enc_sub_bytes : (2 <= n)%nat ->
  run T n "aes::AESEncrypt::sub_bytes" [VSeq (cols s)] =
  let* s := sub_bytes enc_lookup_sbox s in Ret (VUnit, [Some (VSeq (cols s))]).
Proof. cells Hs. apply src_enc_sub_bytes. Qed.
Lemma call_dec_sub_bytes : (2 <= n)%nat ->
  run T n "aes::AESDecrypt::sub_bytes" [VSeq (cols s)] =
  let* s := sub_bytes dec_lookup_sbox s in Ret (VUnit, [Some (VSeq (cols s))]).
Proof. cells Hs. apply src_dec_sub_bytes. Qed.
Lemma call_enc_mix_columns : (7 <= n)%nat ->
  run T n "aes::AESEncrypt::mix_columns" [VSeq (cols s)] =
  let* s := mix_columns enc_mix_column s in Ret (VUnit, [Some (VSeq (cols s))]).
Proof. cells Hs. apply src_enc_mix_columns. Qed.
Lemma call_dec_mix_columns : (7 <= n)%nat ->
  run T n "aes::AESDecrypt::mix_columns" [VSeq (cols s)] =
  let* s := mix_columns dec_mix_column s in Ret (VUnit, [Some (VSeq (cols s))]).
Proof. cells Hs. apply src_dec_mix_columns. Qed.
Lemma call_enc_add_round_key k : List.length k = 4%nat -> (1 <= n)%nat ->
  run T n "aes::AESEncrypt::add_round_key" [VSeq (cols s); VNums U32 k] =
  let* s := add_round_key s k in Ret (VUnit, [Some (VSeq (cols s)); None]).
Proof.
  intros Hk. destruct (four k Hk) as (? & ? & ? & ? & ->). cells Hs. apply src_enc_add_round_key.
Qed.
Lemma call_dec_add_round_key k : List.length k = 4%nat -> (1 <= n)%nat ->
  run T n "aes::AESDecrypt::add_round_key" [VSeq (cols s); VNums U32 k] =
  let* s := add_round_key s k in Ret (VUnit, [Some (VSeq (cols s)); None]).
Proof.
  intros Hk. destruct (four k Hk) as (? & ? & ? & ? & ->). cells Hs. apply src_dec_add_round_key.
Qed.
End Run.
Local Opaque cols.

Lemma slice_length {A} (l : list A) a b k m : slice l a b = Ret k -> b = a + N.of_nat m ->
  List.length k = m.
Proof.
  Local Transparent slice. unfold slice. Local Opaque slice.
  destruct (N.leb_spec a b), (N.leb_spec b (len l)); try discriminate. intros E Hb.
  injection E as <-. rewrite firstn_length, skipn_length. pose proof (len_length l). lia.
Qed.

(** The words there are when the instance has a key. *)
Definition aes_ok (a : AES) : Prop :=
  match round_keys a with
  | None => True
  | Some w => 1 <= round_count a <= 14 /\ len w = 4 * (round_count a + 1)
  end.

Ltac shape_of :=
  first
  [ assumption
  | match goal with
    | H : sub_bytes _ ?s = Ret ?s' |- shape ?s' => apply (fun X => shape_sub_bytes _ s s' X H); shape_of
    | H : mix_columns enc_mix_column ?s = Ret ?s' |- shape ?s' => apply (shape_enc_mix s s'); [shape_of|exact H]
    | H : mix_columns dec_mix_column ?s = Ret ?s' |- shape ?s' => apply (shape_dec_mix s s'); [shape_of|exact H]
    | H : enc_shift_rows ?s = Ret ?s' |- shape ?s' => apply (shape_enc_shift s s'); [shape_of|exact H]
    | H : dec_shift_rows ?s = Ret ?s' |- shape ?s' => apply (shape_dec_shift s s'); [shape_of|exact H]
    | H : add_round_key ?s ?k = Ret ?s' |- shape ?s' => apply (shape_add_round_key k s s'); [shape_of|exact H]
    | H : to_block ?b = Ret ?s' |- shape ?s' => apply (shape_to_block b s'); exact H
    end ].
Ltac slice_of :=
  match goal with
  | H : slice ?l ?a ?b = Ret ?k |- List.length ?k = _ => apply (slice_length l a b k _ H); lia
  end.
Lemma call_to_block T n b : (1 <= n)%nat -> len b = 16 ->
  run T n "aes::to_block" [VNums U8 b] = let* s := to_block b in Ret (VSeq (cols s), [None]).
Proof. exact (src_to_block T n b). Qed.
Ltac call_rule ::= first
  [ rewrite call_to_block by (first [lia | assumption])
  | rewrite call_enc_shift_rows by (first [lia | shape_of])
  | rewrite call_dec_shift_rows by (first [lia | shape_of])
  | rewrite call_from_block by (first [lia | shape_of])
  | rewrite call_enc_sub_bytes by (first [lia | shape_of])
  | rewrite call_dec_sub_bytes by (first [lia | shape_of])
  | rewrite call_enc_mix_columns by (first [lia | shape_of])
  | rewrite call_dec_mix_columns by (first [lia | shape_of])
  | rewrite call_enc_add_round_key by (first [lia | slice_of | shape_of])
  | rewrite call_dec_add_round_key by (first [lia | slice_of | shape_of]) ].

Lemma src_aes_encrypt T n a b : (8 <= n)%nat -> aes_ok a -> len b = 16 ->
  run T n "aes::AES::encrypt" [aes_val a; VNums U8 b] =
  let* r := aes_encrypt a b in Ret (block_result_val r, [None; None]).
Proof.
  intros Hn Ha Hb. destruct n as [|n]; [lia|]. destruct a as [nr ks]. unfold aes_val at 1. cbn [round_count round_keys].
  unfold aes_encrypt. cbn [round_count round_keys]. cbv zeta.
  destruct ks as [w|].
  2:{ enter. steps. }
  destruct Ha as [Hnr Hw]. cbn [round_count round_keys] in Hnr, Hw.
  pose proof (usize_mod_32 T) as HU.
  assert (E1 : umul T nr 4 = Ret (nr * 4)) by (apply umul_ok; lia).
  unfold slice_from, for_range. change NB with 4.
  enter. repeat go.
  loop_count (VInt Usize)
    (fun s : Block => [("round_keys", VNums U32 w); ("state", VSeq (cols s)); ("nr", VInt Usize nr);
       ("self", VStruct "aes::AES"
          [("round_count", VInt Usize nr); ("round_keys", VCon "Some" [VNums U32 w])]);
       ("b", VNums U8 b)])
    (fun (round : N) (state : Block) =>
        let* state := sub_bytes enc_lookup_sbox state in
        let* state := enc_shift_rows state in
        let* state := mix_columns enc_mix_column state in
        let* k := slice w (round * 4) ((round + 1) * 4) in
        add_round_key state k)
    (fun (_ : N) s => shape s) (N.to_nat (nr - 1)) 1 a1.
  { intros i s Hi Is. cbv beta zeta.
    assert (F1 : umul T i 4 = Ret (i * 4)) by (apply umul_ok; lia).
    assert (F2 : uadd T i 1 = Ret (i + 1)) by (apply uadd_ok; lia).
    assert (F3 : umul T (i + 1) 4 = Ret ((i + 1) * 4)) by (apply umul_ok; lia).
    steps. }
  { intros i s s' Hi Is E'. inv_binds E'. shape_of. }
  { shape_of. }
  { reflexivity. }
  match goal with |- _ = bind (bind ?m _) _ => destruct m as [s| |] eqn:Es; [|reflexivity|reflexivity] end.
  assert (Hs : shape s).
  { refine (for_n_keeps shape _ _ _ _ _ _ _ Es); [|shape_of].
    intros i u u' Iu E'. inv_binds E'. shape_of. }
  cbn [bind]. steps.
Qed.

Local Transparent app.
Lemma for_n_rev_each {St} (step : N -> St -> res St) n : forall lo s,
  for_n_rev n lo step s = for_each (rev (count n lo)) step s.
Proof.
  assert (C : forall n lo, count (S n) lo = (count n lo ++ [lo + N.of_nat n])%list).
  { clear. induction n as [|n IH]; intros lo; [cbn [count app]; f_equal; lia|].
    cbn [count app]. f_equal. specialize (IH (N.succ lo)). cbn [count] in IH. rewrite IH.
    do 2 f_equal. lia. }
  induction n as [|n IH]; intros lo s; [reflexivity|].
  rewrite C, rev_app_distr. cbn [rev app for_n_rev for_each].
  destruct (step _ s); [|reflexivity|reflexivity]. cbn [bind]. apply IH.
Qed.
Local Opaque app.
Lemma in_count n : forall lo i, In i (count n lo) -> lo <= i < lo + N.of_nat n.
Proof.
  induction n as [|n IH]; intros lo i H; cbn [count In] in H; [tauto|].
  destruct H as [<-|H]; [lia|]. apply IH in H. lia.
Qed.
Lemma for_each_keeps {A St} (P : St -> Prop) (step : A -> St -> res St) l : forall s s',
  (forall i s s', P s -> step i s = Ret s' -> P s') -> P s -> for_each l step s = Ret s' -> P s'.
Proof.
  induction l as [|x l IH]; intros s s' H Hs E; cbn [for_each] in E.
  - injection E as <-. exact Hs.
  - destruct (step x s) as [s1| |] eqn:E1; try discriminate. exact (IH _ _ H (H _ _ _ Hs E1) E).
Qed.

Lemma src_aes_decrypt T n a b : (8 <= n)%nat -> aes_ok a -> len b = 16 ->
  run T n "aes::AES::decrypt" [aes_val a; VNums U8 b] =
  let* r := aes_decrypt a b in Ret (block_result_val r, [None; None]).
Proof.
  intros Hn Ha Hb. destruct n as [|n]; [lia|]. destruct a as [nr ks]. unfold aes_val at 1. cbn [round_count round_keys].
  unfold aes_decrypt. cbn [round_count round_keys]. cbv zeta.
  destruct ks as [w|].
  2:{ enter. steps. }
  destruct Ha as [Hnr Hw]. cbn [round_count round_keys] in Hnr, Hw.
  pose proof (usize_mod_32 T) as HU.
  assert (E1 : umul T nr 4 = Ret (nr * 4)) by (apply umul_ok; lia).
  unfold slice_from, for_range_rev. change NB with 4.
  enter. repeat go.
  loop_each (VInt Usize)
    (fun s : Block => [("round_keys", VNums U32 w); ("state", VSeq (cols s)); ("nr", VInt Usize nr);
       ("self", VStruct "aes::AES"
          [("round_count", VInt Usize nr); ("round_keys", VCon "Some" [VNums U32 w])]);
       ("b", VNums U8 b)])
    (fun (round : N) (state : Block) =>
        let* state := dec_shift_rows state in
        let* state := sub_bytes dec_lookup_sbox state in
        let* k := slice w (round * 4) ((round + 1) * 4) in
        let* state := add_round_key state k in
        mix_columns dec_mix_column state)
    shape (rev (count (N.to_nat (nr - 1)) 1)) a1.
  { intros i s Hi Is. cbv beta zeta. apply in_rev, in_count in Hi.
    assert (F1 : umul T i 4 = Ret (i * 4)) by (apply umul_ok; lia).
    assert (F2 : uadd T i 1 = Ret (i + 1)) by (apply uadd_ok; lia).
    assert (F3 : umul T (i + 1) 4 = Ret ((i + 1) * 4)) by (apply umul_ok; lia).
    steps. }
  { intros i s s' Hi Is E'. inv_binds E'. shape_of. }
  { shape_of. }
  { reflexivity. }
  rewrite for_n_rev_each.
  match goal with |- _ = bind (bind ?m _) _ => destruct m as [s| |] eqn:Es; [|reflexivity|reflexivity] end.
  assert (Hs : shape s).
  { refine (for_each_keeps shape _ _ _ _ _ _ Es); [|shape_of].
    intros i u u' Iu E'. inv_binds E'. shape_of. }
  cbn [bind]. steps.
Qed.
