(** The trees of src/aes_cbc.rs do what Model/AesCbc.v says. *)
From Coq Require Import NArith List String Bool Lia ZifyBool ZifyNat ZifyN.
From Verif Require Import Rust.
From Verif.Source Require Import Syntax Interp Tree.
From Verif.Spec Require Import Octets.
From Verif.Model Require Import Aes Pkcs7 AesCbc.
From Verif.Proofs Require Import Base SourceBase SourceAesRound SourceAes SourcePkcs7.
Import ListNotations.
Local Open Scope string_scope.
Local Open Scope N_scope.

(** * What stays as it is *)

Lemma aes_encrypt_length a b o : aes_encrypt a b = Ret (Ok o) -> len o = 16.
Proof.
  unfold aes_encrypt. intros E. inv_binds E. destruct (round_keys a); [|discriminate].
  inv_binds E. injection E as <-. unfold from_block in *.
  repeat match goal with
  | X : match ?l with _ => _ end = Ret _ |- _ => destruct l; try discriminate X
  end.
  injection X7 as <-. reflexivity.
Qed.
Lemma aes_decrypt_length a b o : aes_decrypt a b = Ret (Ok o) -> len o = 16.
Proof.
  unfold aes_decrypt. intros E. inv_binds E. destruct (round_keys a); [|discriminate].
  inv_binds E. injection E as <-. unfold from_block in *.
  repeat match goal with
  | X : match ?l with _ => _ end = Ret _ |- _ => destruct l; try discriminate X
  end.
  injection X7 as <-. reflexivity.
Qed.

(** XORing a block in place. *)
Lemma xor_into_map b iv : List.length b = List.length iv ->
  xor_into b iv = map (fun i => N.lxor (nth i b 0) (nth i iv 0)) (seq 0 (List.length b)).
Proof.
  revert iv. induction b as [|x b IH]; intros [|y iv] H; try discriminate; [reflexivity|].
  cbn [xor_into List.length seq map nth]. f_equal. rewrite <- seq_shift, map_map.
  rewrite IH by (cbn in H; congruence). reflexivity.
Qed.
Lemma xor_loop b iv n : List.length b = n -> List.length iv = n ->
  for_n n 0 (fun i l => let* x := idx l i in upd l i (N.lxor x (nth (N.to_nat i) iv 0))) b =
  Ret (xor_into b iv).
Proof.
  intros Hb Hi. rewrite xor_into_map by congruence.
  pose proof (fill_loop (fun i x => N.lxor x (nth i iv 0))
    (fun i l => let* x := idx l i in upd l i (N.lxor x (nth (N.to_nat i) iv 0))) b 0) as H.
  unfold for_range in H. rewrite N.sub_0_r, len_length, Hb in H. rewrite Hb. apply H.
  intros i o Hl Ho. rewrite (idx_nth o (N.of_nat i) 0) by lia. rewrite Nat2N.id. reflexivity.
Qed.
Lemma xor_into_length b : forall iv, List.length (xor_into b iv) = List.length b.
Proof. induction b as [|x b IH]; intros [|y iv]; cbn; auto. Qed.

Lemma copy_length {A} (d s r : list A) : copy_from_slice d s = Ret r -> len r = len d.
Proof.
  unfold copy_from_slice. destruct (N.eqb_spec (len d) (len s)); [|discriminate].
  injection 1 as <-. congruence.
Qed.

Lemma pad_write_size T p b o p' : pad_write T p b = Ret (o, p') ->
  pad_block_size p' = pad_block_size p /\
  match o with Some l => len l <= len (pad_storage p) + len b | None => True end.
Proof.
  unfold pad_write. cbv zeta. destruct (_ <? _); [injection 1 as <- <-; split; [reflexivity|exact I]|].
  intros E. inv_binds E. destruct a1 as [h t]. injection E as <- <-. split; [reflexivity|].
  unfold split_off in X1. destruct (_ <=? _); [|discriminate]. injection X1 as <- _.
  unfold len. rewrite firstn_length, app_length. lia.
Qed.
Lemma pad_flush_size T p o p' : pad_flush T p = Ret (o, p') -> pad_block_size p' = pad_block_size p.
Proof.
  unfold pad_flush. cbv zeta. intros E. inv_binds E. 
  repeat match goal with X : (let '(_, _) := ?x in _) = Ret _ |- _ => destruct x end.
  injection E as _ <-. reflexivity.
Qed.

Local Opaque amount run constant idx upd slice uadd umul usub udiv urem len N.mul N.add N.sub N.lor
  N.lxor N.land shl32 shl8 shr not32 wrapping_add32 N.eqb N.ltb N.leb N.min as_u8 as_u64 N.shiftl N.shiftr
  copy_from_slice split_off alloc app while_loop as_usize chunks
  aes_new aes_init aes_encrypt aes_decrypt pad_new pad_write pad_flush unpad_new unpad_write unpad_flush.

(** * Encrypting *)

Definition cipher_val (c : Cipher) : val :=
  VStruct "aes_cbc::Cipher" [("aes", aes_val (c_aes c)); ("pad", pad_val (c_pad c)); ("iv", VNums U8 (c_iv c))].
Definition cipher_ok (c : Cipher) : Prop :=
  aes_ok (c_aes c) /\ pad_block_size (c_pad c) = 16 /\ len (c_iv c) = 16.

Lemma call_pad_new T n bs : (1 <= n)%nat ->
  run T n "pkcs7::Pad::new" [VInt Usize bs] = let* p := pad_new T bs in Ret (pad_val p, [None]).
Proof. destruct n; [lia|]. intros _. apply src_pad_new. Qed.
Lemma call_unpad_new T n bs : (1 <= n)%nat ->
  run T n "pkcs7::Unpad::new" [VInt Usize bs] = let* p := unpad_new T bs in Ret (unpad_val p, [None]).
Proof. destruct n; [lia|]. intros _. apply src_unpad_new. Qed.
Lemma call_pad_write T n p buf : (1 <= n)%nat ->
  run T n "pkcs7::Pad::write" [pad_val p; VNums U8 buf] =
  let* (o, p') := pad_write T p buf in Ret (option_val o, [Some (pad_val p'); None]).
Proof. destruct n; [lia|]. intros _. apply src_pad_write. Qed.
Lemma call_unpad_write T n p buf : (1 <= n)%nat ->
  run T n "pkcs7::Unpad::write" [unpad_val p; VNums U8 buf] =
  let* (o, p') := unpad_write T p buf in Ret (option_val o, [Some (unpad_val p'); None]).
Proof. destruct n; [lia|]. intros _. apply src_unpad_write. Qed.
Lemma call_pad_flush T n p : (17 <= n)%nat -> pad_block_size p = 16 ->
  run T n "pkcs7::Pad::flush" [pad_val p] =
  let* (o, p') := pad_flush T p in Ret (VNums U8 o, [Some (pad_val p')]).
Proof. destruct n; [lia|]. intros H Hp. apply src_pad_flush. lia. Qed.
Lemma call_unpad_flush T n p : (1 <= n)%nat ->
  run T n "pkcs7::Unpad::flush" [unpad_val p] =
  let* (o, p') := unpad_flush T p in Ret (unpad_result_val o, [Some (unpad_val p')]).
Proof. destruct n; [lia|]. intros _. apply src_unpad_flush. Qed.

Lemma zip_items (g : N -> val) iv n : List.length iv = n ->
  map (fun x : val * val => VTup [let (y, _) := x in y; let (_, y) := x in y])
    (combine (map g (count n 0)) (map (VInt U8) iv)) =
  map (fun i => VTup [g i; VInt U8 (nth (N.to_nat i) iv 0)]) (count n 0).
Proof.
  intros H. rewrite (items_nth U8 iv n H), combine_count, map_map. reflexivity.
Qed.

Ltac fact := first [assumption | lia].
Ltac call_rule ::= first
  [ rewrite src_aes_new by lia
  | rewrite src_aes_init by fact
  | rewrite src_aes_encrypt by fact
  | rewrite src_aes_decrypt by fact
  | rewrite call_pad_new by lia | rewrite call_unpad_new by lia
  | rewrite call_pad_write by lia | rewrite call_unpad_write by lia
  | rewrite call_pad_flush by fact | rewrite call_unpad_flush by lia ].
Ltac prim_rule x ::= fail.
Ltac const_rule ::= fail.

Lemma src_cipher_new T n iv : (2 <= n)%nat ->
  run T n "aes_cbc::Cipher::new" [VNums U8 iv] =
  let* c := cipher_new T iv in Ret (cipher_val c, [None]).
Proof. intros H. destruct n as [|n]; [lia|]. enter. unfold cipher_new, BLOCK_SIZE. steps. Qed.

Lemma src_cipher_init T n c key : (63 <= n)%nat -> octets key ->
  run T n "aes_cbc::Cipher::init" [cipher_val c; VNums U8 key] =
  let* (r, c') := cipher_init c key in Ret (unit_result_val r, [Some (cipher_val c'); None]).
Proof.
  intros H Hk. destruct n as [|n]; [lia|]. destruct c as [a p iv]. unfold cipher_val at 1. cbn [c_aes c_pad c_iv].
  enter. unfold cipher_init. cbn [c_aes c_pad c_iv]. repeat go.
  destruct r; steps.
Qed.

Lemma src_encrypt_block T n c b : (9 <= n)%nat -> cipher_ok c ->
  run T n "aes_cbc::Cipher::encrypt_block" [cipher_val c; VNums U8 b] =
  let* (r, c') := encrypt_block c b in Ret (block_result_val r, [Some (cipher_val c'); None]).
Proof.
  intros H (Ha & Hp & Hv). destruct n as [|n]; [lia|]. destruct c as [a p iv]. cbn [c_aes c_pad c_iv] in *.
  unfold cipher_val at 1. cbn [c_aes c_pad c_iv].
  enter. unfold encrypt_block. cbn [c_aes c_pad c_iv]. cbv zeta. repeat go.
  assert (L0 : len a0 = 16) by (match goal with X : copy_from_slice _ _ = Ret a0 |- _ =>
    rewrite (copy_length _ _ _ X) end; reflexivity).
  assert (L1 : List.length a0 = 16%nat) by (rewrite <- len_length, L0; reflexivity).
  assert (L2 : List.length iv = 16%nat) by (rewrite <- len_length, Hv; reflexivity).
  rewrite L0. change (N.to_nat 16) with 16%nat.
  loop_count (fun i : N => VTup [VRef (mkPath "block" [SIndex i]); VInt U8 (nth (N.to_nat i) iv 0)])
    (fun l : list N => [("block", VNums U8 l); ("self", VRef (mkPath "*self" []));
       ("*self", VStruct "aes_cbc::Cipher" [("aes", aes_val a); ("pad", pad_val p); ("iv", VNums U8 iv)]);
       ("b", VNums U8 b)])
    (fun (i : N) (l : list N) => let* x := idx l i in upd l i (N.lxor x (nth (N.to_nat i) iv 0)))
    (fun (_ : N) (_ : list N) => True) 16%nat 0 a0.
  { intros i l Hi _. cbv beta zeta. generalize (nth (N.to_nat i) iv 0). intros y. steps. }
  { auto. } { auto. } { symmetry. apply zip_items, L2. }
  rewrite (xor_loop a0 iv 16 L1 L2). cbn [bind].
  assert (L3 : len (xor_into a0 iv) = 16)
    by (rewrite <- (N2Nat.id (len (xor_into a0 iv))), len_length, xor_into_length, L1; reflexivity).
  revert L3. generalize (xor_into a0 iv). intros blk L3.
  repeat go. destruct a1 as [o|[]]; steps.
Qed.

Lemma encrypt_block_ok c b r c' : cipher_ok c -> encrypt_block c b = Ret (r, c') -> cipher_ok c'.
Proof.
  intros Hc E. unfold encrypt_block in E. cbv zeta in E. inv_binds E. destruct a0 as [o|e].
  - injection E as _ <-. destruct Hc as (Ha & Hp & Hv). repeat split; cbn [c_aes c_pad c_iv]; try assumption.
    eapply aes_encrypt_length; eauto.
  - injection E as _ <-. exact Hc.
Qed.
Local Opaque encrypt_block.
Ltac call_rule ::= first
  [ rewrite call_pad_write by lia
  | rewrite call_pad_flush by fact
  | rewrite src_encrypt_block by (first [lia | assumption]) ].

(** Replacing a loop that can return from the function. *)
Ltac loop_try f emb step err I l' s :=
  lazymatch goal with |- context [for_items ?B ?l ?r] =>
    let H := fresh "L" in
    assert (H : for_items B l r = let* (q, s') := for_each_try l' step s in
      Ret (match q with Ok _ => Val VUnit | Err e => Return (err e) end, emb s'));
    [ apply (for_items_try f B emb step err l' s I) | rewrite H; clear H ]
  end.

Lemma src_cipher_write T n c b : (10 <= n)%nat -> cipher_ok c ->
  len (pad_storage (c_pad c)) + len b <= isize_max T ->
  run T n "aes_cbc::Cipher::write" [cipher_val c; VNums U8 b] =
  let* (r, c') := cipher_write T c b in Ret (block_result_val r, [Some (cipher_val c'); None]).
Proof.
  intros H Hc Hl. destruct n as [|n]; [lia|]. destruct c as [a p iv]. cbn [c_aes c_pad c_iv] in *.
  unfold cipher_val at 1. cbn [c_aes c_pad c_iv].
  enter. unfold cipher_write, BLOCK_SIZE. cbn [c_aes c_pad c_iv]. cbv zeta. repeat go.
  match goal with X : pad_write _ _ _ = Ret (?o, ?p') |- _ =>
    destruct (pad_write_size _ _ _ _ _ X) as [Hp' Ho]; destruct o as [blocks|] end.
  2:{ steps. }
  assert (A0 : alloc T 1 (len blocks) = Ret tt).
  { Local Transparent alloc. unfold alloc. Local Opaque alloc.
    destruct (N.leb_spec (1 * len blocks) (isize_max T)); [reflexivity|lia]. }
  repeat go.
  loop_try (VNums U8)
    (fun st : list N * Cipher => [("result", VNums U8 (fst st)); ("blocks", VNums U8 blocks);
       ("self", VRef (mkPath "*self" [])); ("*self", cipher_val (snd st)); ("b", VNums U8 b)])
    (fun (block : list N) (st : list N * Cipher) =>
          let '(out, c) := st in
          let* (r, c) := encrypt_block c block in
          match r with
          | Ok ciphertext => Ret (Ok tt, ((out ++ ciphertext)%list, c))
          | Err e => Ret (Err e, (out, c))
          end)
    (fun e => VCon "Err" [aes_error_val e])
    (fun st : list N * Cipher => cipher_ok (snd st)) a0 (@nil N, mkCipher a p0 iv).
  { intros block [out c] _ Hc'. cbn [fst snd] in *. cbv beta zeta. repeat go.
    destruct r as [o|[]]; steps. }
  { intros block [out c] r [out' c'] _ Hc' E'. cbn [fst snd] in *. inv_binds E'. destruct a1 as [[o|e] c1];
      injection E' as _ _ <-; eapply encrypt_block_ok; eauto. }
  { destruct Hc as (Ha & Hp & Hv). cbn [c_aes c_pad c_iv] in *. repeat split; cbn [snd c_aes c_pad c_iv]; congruence || assumption. }
  match goal with |- _ = bind (bind ?m _) _ => destruct m as [[r [out c]]| |] eqn:Es; [|reflexivity|reflexivity] end.
  cbn [bind fst snd]. destruct r as [u|[]]; steps.
Qed.

Lemma src_cipher_flush T n c : (18 <= n)%nat -> cipher_ok c ->
  run T n "aes_cbc::Cipher::flush" [cipher_val c] =
  let* (r, c') := cipher_flush T c in Ret (block_result_val r, [Some (cipher_val c')]).
Proof.
  intros H (Ha & Hp & Hv). destruct n as [|n]; [lia|]. destruct c as [a p iv]. cbn [c_aes c_pad c_iv] in *.
  unfold cipher_val at 1. cbn [c_aes c_pad c_iv].
  enter. unfold cipher_flush. cbn [c_aes c_pad c_iv]. cbv zeta. repeat go.
  match goal with X : pad_flush _ _ = Ret (?o, ?p') |- _ =>
    pose proof (pad_flush_size _ _ _ _ X) as Hp';
    change (VStruct "aes_cbc::Cipher" [("aes", aes_val a); ("pad", pad_val p'); ("iv", VNums U8 iv)])
      with (cipher_val (mkCipher a p' iv));
    assert (Hc : cipher_ok (mkCipher a p' iv)) by (repeat split; cbn [c_aes c_pad c_iv]; congruence || assumption)
  end.
  repeat go.
  destruct r as [o|[]]; steps.
Qed.

(** * Decrypting *)

Definition decipher_val (d : Decipher) : val :=
  VStruct "aes_cbc::Decipher" [("aes", aes_val (d_aes d)); ("unpad", unpad_val (d_unpad d));
    ("iv", VNums U8 (d_iv d)); ("buffer", pad_val (d_buffer d))].
Definition decipher_ok (d : Decipher) : Prop :=
  aes_ok (d_aes d) /\ len (d_iv d) = 16.
Definition decipher_error_val (e : DecipherError) : val :=
  match e with
  | EAES e => VCon "aes_cbc::DecipherError::AES" [aes_error_val e]
  | EPKCS7 e => VCon "aes_cbc::DecipherError::PKCS7" [unpad_error_val e]
  end.
Definition text_result_val (r : result (list N) DecipherError) : val :=
  match r with Ok b => VCon "Ok" [VNums U8 b] | Err e => VCon "Err" [decipher_error_val e] end.

Ltac call_rule ::= first
  [ rewrite src_aes_new by lia
  | rewrite src_aes_init by fact
  | rewrite src_aes_decrypt by fact
  | rewrite call_pad_new by lia | rewrite call_unpad_new by lia
  | rewrite call_pad_write by lia | rewrite call_unpad_write by lia
  | rewrite call_unpad_flush by lia
  | rewrite src_aes_description by lia ].

Lemma src_decipher_new T n iv : (2 <= n)%nat ->
  run T n "aes_cbc::Decipher::new" [VNums U8 iv] =
  let* d := decipher_new T iv in Ret (decipher_val d, [None]).
Proof. intros H. destruct n as [|n]; [lia|]. enter. unfold decipher_new, BLOCK_SIZE. steps. Qed.

Lemma src_decipher_init T n d key : (63 <= n)%nat -> octets key ->
  run T n "aes_cbc::Decipher::init" [decipher_val d; VNums U8 key] =
  let* (r, d') := decipher_init d key in Ret (unit_result_val r, [Some (decipher_val d'); None]).
Proof.
  intros H Hk. destruct n as [|n]; [lia|]. destruct d as [a u iv p]. unfold decipher_val at 1.
  cbn [d_aes d_unpad d_iv d_buffer].
  enter. unfold decipher_init. cbn [d_aes d_unpad d_iv d_buffer]. repeat go.
  destruct r as [o|[]]; steps.
Qed.

Lemma src_decipher_flush T n d : (2 <= n)%nat ->
  run T n "aes_cbc::Decipher::flush" [decipher_val d] =
  let* (r, d') := decipher_flush T d in Ret (text_result_val r, [Some (decipher_val d')]).
Proof.
  intros H. destruct n as [|n]; [lia|]. destruct d as [a u iv p]. unfold decipher_val at 1.
  cbn [d_aes d_unpad d_iv d_buffer].
  enter. unfold decipher_flush. cbn [d_aes d_unpad d_iv d_buffer]. repeat go.
  destruct r as [o|[]]; steps.
Qed.

Lemma src_decipher_write T n d b : (9 <= n)%nat -> decipher_ok d ->
  len (pad_storage (d_buffer d)) + len b <= isize_max T ->
  run T n "aes_cbc::Decipher::write" [decipher_val d; VNums U8 b] =
  let* (r, d') := decipher_write T d b in Ret (text_result_val r, [Some (decipher_val d'); None]).
Proof.
  intros H [Ha Hv] Hl. destruct n as [|n]; [lia|]. destruct d as [a u iv p].
  unfold decipher_val at 1. cbn [d_aes d_unpad d_iv d_buffer] in *.
  enter. unfold decipher_write, BLOCK_SIZE. cbn [d_aes d_unpad d_iv d_buffer]. cbv zeta. repeat go.
  match goal with X : pad_write _ _ _ = Ret (?o, ?p') |- _ =>
    destruct (pad_write_size _ _ _ _ _ X) as [Hp' Ho]; destruct o as [blocks|] end.
  2:{ steps. }
  assert (A0 : alloc T 1 (len blocks) = Ret tt).
  { Local Transparent alloc. unfold alloc. Local Opaque alloc.
    destruct (N.leb_spec (1 * len blocks) (isize_max T)); [reflexivity|lia]. }
  repeat go.
  loop_try (VNums U8)
    (fun st : list N * list N => [("padded_result", VNums U8 (fst st)); ("blocks", VNums U8 blocks);
       ("self", VRef (mkPath "*self" []));
       ("*self", VStruct "aes_cbc::Decipher" [("aes", aes_val a); ("unpad", unpad_val u);
          ("iv", VNums U8 (snd st)); ("buffer", pad_val p0)]); ("b", VNums U8 b)])
    (fun (ciphertext : list N) (st : list N * list N) =>
          let '(padded_result, iv) := st in
          let* block := copy_from_slice (repeat 0 16) ciphertext in
          let* r := aes_decrypt a block in
          match r with
          | Err err => Ret (Err (EAES err), (padded_result, iv))
          | Ok cleartext => Ret (Ok tt, ((padded_result ++ xor_into cleartext iv)%list, block))
          end)
    (fun e => VCon "Err" [decipher_error_val e])
    (fun st : list N * list N => len (snd st) = 16) a0 (@nil N, iv).
  { intros ct [out v] _ Hv'. cbn [fst snd] in *. cbv beta zeta. repeat go.
    match goal with X : copy_from_slice _ _ = Ret ?k |- _ => rename k into blk;
      assert (L0 : len blk = 16) by (rewrite (copy_length _ _ _ X); reflexivity) end.
    repeat go.
    match goal with X : aes_decrypt _ _ = Ret ?k |- _ => destruct k as [clear|[]] end; [|steps|steps].
    repeat go.
    assert (L1 : len clear = 16) by (eapply aes_decrypt_length; eauto).
    assert (L2 : List.length clear = 16%nat) by (rewrite <- len_length, L1; reflexivity).
    assert (L3 : List.length v = 16%nat) by (rewrite <- len_length, Hv'; reflexivity).
    rewrite L1. change (N.to_nat 16) with 16%nat.
    loop_count (fun i : N => VTup [VRef (mkPath "cleartext" [SIndex i]); VInt U8 (nth (N.to_nat i) v 0)])
      (fun l : list N => [("cleartext", VNums U8 l); ("block", VNums U8 blk); ("ciphertext", VNums U8 ct);
         ("padded_result", VNums U8 out); ("blocks", VNums U8 blocks);
         ("self", VRef (mkPath "*self" []));
         ("*self", VStruct "aes_cbc::Decipher" [("aes", aes_val a); ("unpad", unpad_val u);
            ("iv", VNums U8 v); ("buffer", pad_val p0)]); ("b", VNums U8 b)])
      (fun (i : N) (l : list N) => let* x := idx l i in upd l i (N.lxor x (nth (N.to_nat i) v 0)))
      (fun (_ : N) (_ : list N) => True) 16%nat 0 clear.
    { intros i l Hi _. cbv beta zeta. generalize (nth (N.to_nat i) v 0). intros y. steps. }
    { auto. } { auto. } { symmetry. apply zip_items, L3. }
    rewrite (xor_loop clear v 16 L2 L3). cbn [bind].
    generalize (xor_into clear v). intros text. steps. }
  { intros ct [out v] r [out' v'] _ Hv' E'. cbn [fst snd] in *. inv_binds E'.
    destruct a2 as [o|e]; injection E' as _ _ <-; [|exact Hv'].
    rewrite (copy_length _ _ _ X). reflexivity. }
  { exact Hv. }
  match goal with |- _ = bind (bind ?m _) _ => destruct m as [[r [out v]]| |] eqn:Es; [|reflexivity|reflexivity] end.
  cbn [bind fst snd]. destruct r as [w|[[]|[]]]; repeat go; try reflexivity.
  destruct o; steps.
Qed.

Lemma src_decipher_description T n e : (2 <= n)%nat ->
  run T n "aes_cbc::DecipherError::description" [decipher_error_val e] =
  Ret (VStr (decipher_error_description e), [None]).
Proof. intros H. destruct n as [|[|n]]; [lia|lia|]. destruct e as [[]|[]]; reflexivity. Qed.
