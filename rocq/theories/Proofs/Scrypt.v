(** scrypt of the model is that of the specification. *)
From Coq Require Import ZArith NArith List Arith Lia Bool ZifyBool ZifyNat ZifyN.
From Verif Require Import Rust.
From Verif.Model Require Pbkdf2 Salsa20 Scrypt.
From Verif.Spec Require Octets Pbkdf2 Salsa20 Scrypt.
From Verif.Proofs Require Import Base Bits.
From Verif.Proofs Require Salsa20 Pbkdf2.
Import ListNotations.
Import Spec.Octets.
Import Model.Scrypt.
Local Open Scope N_scope.
Ltac Zify.zify_post_hook ::= Z.div_mod_to_equations.

Notation Salsa := Spec.Scrypt.Salsa.
Notation Ys := Spec.Scrypt.Ys.
Notation BlockMix := Spec.Scrypt.BlockMix.
Notation ROMix := Spec.Scrypt.ROMix.

(** * Blocks of 64 octets *)

Definition block64 (b : list N) : Prop := length b = 64%nat /\ octets b.
(** The block vector of scryptBlockMix. *)
Definition vec (r : nat) (b : list (list N)) : Prop :=
  length b = (2 * r)%nat /\ Forall block64 b.

Lemma block64_Salsa x : block64 x -> block64 (Salsa x).
Proof.
  intros [Hl Ho]. split; [apply Salsa20.spec_salsa20_length; assumption|apply Salsa20.octets_salsa20].
Qed.
Lemma block64_xor a b : block64 a -> block64 b -> block64 (xor a b).
Proof.
  intros [Hla Ha] [Hlb Hb]. split; [rewrite xor_length, Hla, Hlb; reflexivity|apply octets_xor; assumption].
Qed.

Lemma vec_blocks r b : vec r b -> blocks 64 (concat b) = b.
Proof.
  intros [_ Hb]. apply blocks_of_concat; [lia|].
  eapply Forall_impl; [|exact Hb]. intros a [H _]. exact H.
Qed.
Lemma vec_concat_length r b : vec r b -> length (concat b) = (128 * r)%nat.
Proof.
  intros [Hl Hb]. rewrite (concat_same_length b 64); [lia|].
  eapply Forall_impl; [|exact Hb]. intros a [H _]. exact H.
Qed.
Lemma vec_octets r b : vec r b -> octets (concat b).
Proof.
  intros [_ Hb]. apply octets_concat. eapply Forall_impl; [|exact Hb]. intros a [_ H]. exact H.
Qed.
Lemma vec_of_octets r B : octets B -> length B = (128 * r)%nat -> vec r (blocks 64 B).
Proof.
  intros Ho Hl. split.
  - rewrite blocks_length, Hl. replace (128 * r)%nat with (2 * r * 64)%nat by lia.
    apply Nat.div_mul. lia.
  - apply Forall_forall. intros g Hg. split; [eapply blocks_all_length; exact Hg|].
    eapply octets_blocks; [exact Ho|exact Hg].
Qed.
Lemma concat_blocks64 r (B : list N) : length B = (128 * r)%nat -> concat (blocks 64 B) = B.
Proof. intros Hl. apply blocks_concat; [lia|]. rewrite Hl. lia. Qed.

(** * scryptBlockMix *)

Lemma salsa_step x e : block64 x -> block64 e ->
  Model.Salsa20.salsa20 (block_xor x e) SALSA_ROUNDS x = Ret (Salsa (xor x e)).
Proof.
  intros Hx He. pose proof (block64_xor x e Hx He) as [Hl Ho].
  unfold block_xor. rewrite zip_xor_xor. rewrite Salsa20.salsa20_ok; [|assumption|lia|].
  - rewrite firstn_all2 by lia. rewrite skipn_all2 by (destruct Hx; lia). rewrite app_nil_r. reflexivity.
  - destruct Hx; lia.
Qed.

Lemma mix_loop b : forall x y, block64 x -> Forall block64 b ->
  exists x', block64 x' /\
  for_each b (fun b_elem xy =>
    let '(x, y) := xy in
    let t := block_xor x b_elem in
    let* x := Model.Salsa20.salsa20 t SALSA_ROUNDS x in
    Ret (x, y ++ [x])) (x, y) = Ret (x', y ++ Ys x b).
Proof.
  induction b as [|e b IH]; intros x y Hx Hb.
  - exists x. split; [assumption|]. cbn [for_each Spec.Scrypt.Ys]. rewrite app_nil_r. reflexivity.
  - apply Forall_cons_iff in Hb. destruct Hb as [He Hb].
    cbn [for_each]. cbv zeta. rewrite salsa_step by assumption. cbn [bind].
    destruct (IH (Salsa (xor x e)) (y ++ [Salsa (xor x e)])) as (x' & Hx' & E);
      [apply block64_Salsa, block64_xor; assumption|assumption|].
    exists x'. split; [assumption|]. etransitivity; [exact E|]. cbn [Spec.Scrypt.Ys]. cbv zeta.
    rewrite <- app_assoc. reflexivity.
Qed.

Lemma Ys_length x b : length (Ys x b) = length b.
Proof. revert x; induction b as [|e b IH]; intros x; [reflexivity|]. cbn [Spec.Scrypt.Ys length]. cbv zeta. cbn [length]. rewrite IH. reflexivity. Qed.
Lemma Ys_blocks x b : block64 x -> Forall block64 b -> Forall block64 (Ys x b).
Proof.
  intros Hx Hb. revert x Hx; induction Hb as [|e b He Hb IH]; intros x Hx; [constructor|].
  cbn [Spec.Scrypt.Ys]. cbv zeta. constructor; [apply block64_Salsa, block64_xor; assumption|].
  apply IH. apply block64_Salsa, block64_xor; assumption.
Qed.

Lemma split_parity_spec r : forall y i, i mod 2 = 0 -> length y = (2 * r)%nat ->
  split_parity i y =
  (map (fun k => nth (2 * k) y []) (seq 0 r), map (fun k => nth (2 * k + 1) y []) (seq 0 r)).
Proof.
  induction r as [|r IH]; intros y i Hi Hl.
  - destruct y; [reflexivity|discriminate Hl].
  - destruct y as [|a [|b y]]; cbn [length] in Hl; try lia.
    cbn [split_parity]. rewrite IH by lia.
    destruct (N.eqb_spec (N.succ i mod 2) 0); [lia|].
    destruct (N.eqb_spec (i mod 2) 0); [|lia].
    cbn [seq map]. f_equal; f_equal; rewrite <- seq_shift, map_map; apply map_ext; intros k.
    + replace (2 * S k)%nat with (S (S (2 * k))) by lia. reflexivity.
    + replace (2 * S k + 1)%nat with (S (S (2 * k + 1))) by lia. reflexivity.
Qed.

(** Sizes under which nothing overflows in scryptBlockMix. *)
Definition r_fits (T : target) (r : N) : Prop := 1 <= r /\ 128 * r <= isize_max T.

Lemma vec_size_le T : vec_size T <= 24.
Proof. unfold vec_size, usize_bits. destruct (width T); vm_compute; discriminate. Qed.

Lemma alloc_ok T size n : size * n <= isize_max T -> alloc T size n = Ret tt.
Proof. intros H. unfold alloc. destruct (N.leb_spec (size * n) (isize_max T)); [reflexivity|lia]. Qed.

Lemma bind_ret {A B} (m : res A) (f : A -> res B) a : m = Ret a -> bind m f = f a.
Proof. intros ->. reflexivity. Qed.

Lemma block_mix_ok T s b : r_fits T (sr s) -> vec (N.to_nat (sr s)) b ->
  exists b', block_mix T s b = Ret b' /\ vec (N.to_nat (sr s)) b' /\
    concat b' = BlockMix (N.to_nat (sr s)) (concat b).
Proof.
  intros [Hr1 Hr2] Hb. pose proof (isize_usize T) as Hus. pose proof (vec_size_le T) as Hvs.
  set (r := N.to_nat (sr s)) in *. pose proof Hb as [Hlb Hfb].
  unfold block_mix. rewrite umul_ok by lia. cbn [bind]. rewrite usub_ok by lia. cbn [bind].
  rewrite (idx_nth b _ []) by lia. cbn [bind].
  rewrite alloc_ok by nia. cbn [bind].
  set (x := nth (N.to_nat (2 * sr s - 1)) b []).
  assert (Hx : block64 x) by (apply (proj1 (Forall_forall _ _) Hfb), nth_In; lia).
  destruct (mix_loop b x [] Hx Hfb) as (x' & Hx' & E).
  eexists. split.
  { etransitivity; [exact (bind_ret _ _ _ E)|]. cbv beta iota. cbn [app].
    rewrite ?alloc_ok by nia. cbn [bind].
    rewrite (split_parity_spec r) by (rewrite ?Ys_length; reflexivity || assumption).
    reflexivity. }
  assert (HY : Forall block64 (Ys x b)) by (apply Ys_blocks; assumption).
  split.
  - split; [rewrite app_length, !map_length, seq_length; lia|].
    apply Forall_app. split; apply Forall_map, Forall_forall; intros k Hk; apply in_seq in Hk;
      apply (proj1 (Forall_forall _ _) HY), nth_In; rewrite Ys_length; lia.
  - unfold Spec.Scrypt.BlockMix. rewrite (vec_blocks r) by assumption. cbv zeta.
    rewrite concat_app. unfold x. replace (N.to_nat (2 * sr s - 1)) with (2 * r - 1)%nat by lia.
    reflexivity.
Qed.

(** The same as a function on block vectors. *)
Definition mixv (r : nat) (b : list (list N)) : list (list N) := blocks 64 (BlockMix r (concat b)).

Lemma block_mix_mixv T s b : r_fits T (sr s) -> vec (N.to_nat (sr s)) b ->
  block_mix T s b = Ret (mixv (N.to_nat (sr s)) b) /\ vec (N.to_nat (sr s)) (mixv (N.to_nat (sr s)) b) /\
  concat (mixv (N.to_nat (sr s)) b) = BlockMix (N.to_nat (sr s)) (concat b).
Proof.
  intros Hr Hb. destruct (block_mix_ok T s b Hr Hb) as (b' & E & Hb' & Hc).
  assert (Hm : mixv (N.to_nat (sr s)) b = b').
  { unfold mixv. rewrite <- Hc. eapply vec_blocks. exact Hb'. }
  rewrite Hm. auto.
Qed.

(** * Integerify *)

Lemma shl64_small x s : x < 256 -> s <= 56 -> shl64 x s = x * 2 ^ s.
Proof.
  intros Hx Hs. unfold shl64. rewrite N.shiftl_mul_pow2. apply N.mod_small.
  apply N.lt_le_trans with (2 ^ 8 * 2 ^ 56); [|vm_compute; discriminate].
  assert (2 ^ s <= 2 ^ 56) by (apply N.pow_le_mono_r; lia).
  pose proof (pow2_pos s). change (2 ^ 8) with 256. nia.
Qed.

Lemma le_word64 a b c d e f g h :
  a < 256 -> b < 256 -> c < 256 -> d < 256 -> e < 256 -> f < 256 -> g < 256 -> h < 256 ->
  N.lor (N.lor (N.lor (N.lor (N.lor (N.lor (N.lor a
        (shl64 b 8)) (shl64 c 16)) (shl64 d 24)) (shl64 e 32))
        (shl64 f 40)) (shl64 g 48)) (shl64 h 56) = le_num [a; b; c; d; e; f; g; h].
Proof.
  intros Ha Hb Hc Hd He Hf Hg Hh. rewrite !shl64_small by lia.
  rewrite (lor_add_disjoint' b a 8) by (change (2 ^ 8) with 256; lia).
  rewrite (lor_add_disjoint' c _ 16) by (change (2 ^ 8) with 256; change (2 ^ 16) with 65536; lia).
  rewrite (lor_add_disjoint' d _ 24) by (change (2 ^ 8) with 256; change (2 ^ 16) with 65536; change (2 ^ 24) with 16777216; lia).
  rewrite (lor_add_disjoint' e _ 32) by (change (2 ^ 8) with 256; change (2 ^ 16) with 65536; change (2 ^ 24) with 16777216; change (2 ^ 32) with 4294967296; lia).
  rewrite (lor_add_disjoint' f _ 40) by (change (2 ^ 8) with 256; change (2 ^ 16) with 65536; change (2 ^ 24) with 16777216; change (2 ^ 32) with 4294967296; change (2 ^ 40) with 1099511627776; lia).
  rewrite (lor_add_disjoint' g _ 48) by (change (2 ^ 8) with 256; change (2 ^ 16) with 65536; change (2 ^ 24) with 16777216; change (2 ^ 32) with 4294967296; change (2 ^ 40) with 1099511627776; change (2 ^ 48) with 281474976710656; lia).
  rewrite (lor_add_disjoint' h _ 56) by (change (2 ^ 8) with 256; change (2 ^ 16) with 65536; change (2 ^ 24) with 16777216; change (2 ^ 32) with 4294967296; change (2 ^ 40) with 1099511627776; change (2 ^ 48) with 281474976710656; change (2 ^ 56) with 72057594037927936; lia).
  cbn [le_num].
  change (2 ^ 8) with 256; change (2 ^ 16) with 65536; change (2 ^ 24) with 16777216; change (2 ^ 32) with 4294967296; change (2 ^ 40) with 1099511627776; change (2 ^ 48) with 281474976710656; change (2 ^ 56) with 72057594037927936. lia.
Qed.

Lemma integerify_ok T r x : (1 <= r)%nat -> vec r x ->
  integerify T x = Ret (le_num (firstn 8 (nth (2 * r - 1) x []))).
Proof.
  intros Hr [Hl Hf]. unfold integerify, Block.
  rewrite usub_ok by (unfold len; lia). cbn [bind].
  rewrite (idx_nth x _ []) by (unfold len; lia). cbn [bind].
  replace (N.to_nat (len x - 1)) with (2 * r - 1)%nat by (unfold len; lia).
  set (b := nth (2 * r - 1) x []).
  assert (Hb : block64 b) by (apply (proj1 (Forall_forall _ _) Hf), nth_In; lia).
  destruct Hb as [Hlb Hob].
  rewrite usub_ok by (unfold len, SALSA_BLOCK_SIZE, Model.Salsa20.BLOCK_SIZE; lia). cbn [bind].
  replace (len b - SALSA_BLOCK_SIZE) with 0
    by (unfold len, SALSA_BLOCK_SIZE, Model.Salsa20.BLOCK_SIZE; lia).
  unfold slice_from. rewrite slice_ok by (rewrite ?len_length; lia). cbn [bind].
  rewrite skipn_O. rewrite firstn_all2 by (rewrite len_length; lia).
  clearbody b. clear Hl Hf.
  do 8 (destruct b as [|? b]; [discriminate Hlb|]).
  repeat match goal with H : octets (_ :: _) |- _ => apply Forall_cons_iff in H; destruct H as [? H]; change (Forall (fun b => b < 256)) with octets in H end.
  change (firstn 8 (n :: n0 :: n1 :: n2 :: n3 :: n4 :: n5 :: n6 :: b)) with [n; n0; n1; n2; n3; n4; n5; n6].
  rewrite <- le_word64 by assumption. reflexivity.
Qed.

(** Reading eight octets is enough to know the number modulo a power of two
    that a [usize] can hold. *)
Lemma usize_bits_le T : usize_bits T <= 64.
Proof. unfold usize_bits. destruct (width T); lia. Qed.

Lemma mod_pow_mod x a b : b <= a -> (x mod 2 ^ a) mod 2 ^ b = x mod 2 ^ b.
Proof.
  intros H. replace (2 ^ a) with (2 ^ b * 2 ^ (a - b)) by (rewrite <- N.pow_add_r; f_equal; lia).
  rewrite N.mod_mul_r by (apply N.pow_nonzero; lia).
  rewrite N.mul_comm, N.mod_add by (apply N.pow_nonzero; lia).
  apply N.mod_mod. apply N.pow_nonzero; lia.
Qed.

Lemma le_num_low8 b : (8 <= length b)%nat -> octets b ->
  le_num (firstn 8 b) = le_num b mod 2 ^ 64.
Proof.
  intros Hl Ho. rewrite <- (firstn_skipn 8 b) at 2. rewrite le_num_app.
  assert (H8 : length (firstn 8 b) = 8%nat) by (rewrite firstn_length; lia).
  pose proof (le_num_lt (firstn 8 b) (octets_firstn 8 b Ho)) as Hlt. rewrite H8 in *.
  change (256 ^ N.of_nat 8) with (2 ^ 64) in *.
  rewrite N.mul_comm, N.mod_add by discriminate. rewrite N.mod_small by assumption. reflexivity.
Qed.

Lemma pow2_lt_usize T k : 2 ^ k < usize_mod T -> k < usize_bits T.
Proof.
  unfold usize_mod. intros H. destruct (N.lt_ge_cases k (usize_bits T)) as [|Hge]; [assumption|].
  apply (N.pow_le_mono_r 2) in Hge; lia.
Qed.

Lemma index_ok T r x k : (1 <= r)%nat -> vec r x -> 2 ^ k < usize_mod T ->
  (let* i := integerify T x in urem (as_usize T i) (2 ^ k)) =
  Ret (Spec.Scrypt.Integerify r (concat x) mod 2 ^ k).
Proof.
  intros Hr Hx Hk. rewrite (integerify_ok T r) by assumption. cbn [bind].
  rewrite urem_ok by (apply N.pow_nonzero; lia). f_equal.
  unfold as_usize, Spec.Scrypt.Integerify. rewrite (vec_blocks r) by assumption.
  set (b := nth (2 * r - 1) x []).
  assert (Hb : block64 b) by (destruct Hx as [Hl Hf]; apply (proj1 (Forall_forall _ _) Hf), nth_In; lia).
  destruct Hb as [Hlb Hob].
  pose proof (pow2_lt_usize T k Hk). pose proof (usize_bits_le T).
  rewrite le_num_low8 by (assumption || lia).
  unfold usize_mod. rewrite mod_pow_mod by lia. rewrite mod_pow_mod by lia. reflexivity.
Qed.

(** * scryptROMix *)

Lemma xor_blocks_ok r x v : vec r x -> vec r v ->
  vec r (xor_blocks x v) /\ concat (xor_blocks x v) = xor (concat x) (concat v).
Proof.
  intros [Hlx Hx] [Hlv Hv].
  assert (H : forall x v, Forall block64 x -> Forall block64 v -> length x = length v ->
    length (xor_blocks x v) = length x /\ Forall block64 (xor_blocks x v) /\
    concat (xor_blocks x v) = xor (concat x) (concat v)).
  { clear. intros x v Hx; revert v; induction Hx as [|a x Ha Hx IH]; intros v Hv Hl;
      destruct Hv as [|c v Hc Hv]; try discriminate Hl; [repeat split; constructor|].
    cbn [xor_blocks concat length]. destruct (IH v Hv) as (H1 & H2 & H3); [cbn in Hl; lia|].
    unfold block_xor. rewrite zip_xor_xor. split; [lia|]. split.
    - constructor; [apply block64_xor; assumption|assumption].
    - rewrite H3. symmetry. apply xor_app. destruct Ha, Hc. congruence. }
  destruct (H x v Hx Hv) as (H1 & H2 & H3); [congruence|].
  split; [split; [exact (eq_trans H1 Hlx)|exact H2]|exact H3].
Qed.

Lemma mixv_iter_vec T s b i : r_fits T (sr s) -> vec (N.to_nat (sr s)) b ->
  vec (N.to_nat (sr s)) (Nat.iter i (mixv (N.to_nat (sr s))) b) /\
  concat (Nat.iter i (mixv (N.to_nat (sr s))) b) = Spec.Scrypt.V (N.to_nat (sr s)) (concat b) (N.of_nat i).
Proof.
  intros Hr Hb. induction i as [|i [IH1 IH2]]; [split; [assumption|reflexivity]|].
  cbn [Nat.iter nat_rect].
  change (nat_rect (fun _ => list (list N)) b (fun _ => mixv (N.to_nat (sr s))) i)
    with (Nat.iter i (mixv (N.to_nat (sr s))) b).
  destruct (block_mix_mixv T s _ Hr IH1) as (_ & H1 & H2). split; [exact H1|].
  rewrite H2, IH2. unfold Spec.Scrypt.V. rewrite Nat2N.inj_succ, N.iter_succ. reflexivity.
Qed.

Lemma fill_v T s b n : r_fits T (sr s) -> vec (N.to_nat (sr s)) b -> forall i,
  for_n n i (fun _i xv =>
    let '(x, v) := xv in
    let* t := block_mix T s x in
    Ret (t, v ++ [x])) (b, []) =
  Ret (Nat.iter n (mixv (N.to_nat (sr s))) b,
       map (fun k => Nat.iter k (mixv (N.to_nat (sr s))) b) (seq 0 n)).
Proof.
  intros Hr Hb i. set (body := fun _i xv => _).
  revert i. induction n as [|n IH]; intros i; [reflexivity|].
  replace (S n) with (n + 1)%nat by lia. rewrite for_n_app, IH. cbn [bind].
  destruct (mixv_iter_vec T s b n Hr Hb) as [Hv _].
  cbn [for_n]. unfold body at 1.
  rewrite (proj1 (block_mix_mixv T s _ Hr Hv)). cbn [bind].
  rewrite seq_app, map_app. cbn [seq map].
  rewrite Nat.add_1_r. cbn [Nat.iter nat_rect Nat.add]. reflexivity.
Qed.

Lemma ro_mix_ok T s b k : r_fits T (sr s) -> sn s = 2 ^ k -> sn s < usize_mod T ->
  vec_size T * sn s <= isize_max T -> vec (N.to_nat (sr s)) b ->
  exists b', ro_mix T s b = Ret b' /\ vec (N.to_nat (sr s)) b' /\
    concat b' = ROMix (N.to_nat (sr s)) (concat b) (sn s).
Proof.
  intros Hr Hk Hn Ha Hb. unfold ro_mix. rewrite alloc_ok by assumption. cbn [bind].
  unfold for_range at 1. rewrite fill_v by assumption. cbn [bind].
  rewrite N.sub_0_r. set (r := N.to_nat (sr s)) in *.
  set (v := map _ _).
  assert (Hr1 : (1 <= r)%nat) by (destruct Hr; lia).
  assert (Hn0 : sn s <> 0) by (rewrite Hk; apply N.pow_nonzero; lia).
  destruct (mixv_iter_vec T s b (N.to_nat (sn s)) Hr Hb) as [H0 H0'].
  fold r in H0, H0'. rewrite N2Nat.id in H0'.
  unfold for_range. rewrite N.sub_0_r.
  edestruct (for_n_inv (fun i x => vec r x /\
     concat x = N.iter i (Spec.Scrypt.ROMix_step r (concat b) (sn s)) (Spec.Scrypt.V r (concat b) (sn s))))
    as (x & Ex & Hx & Hc).
  3: { exists x. split; [exact Ex|]. split; [exact Hx|]. rewrite Hc. unfold Spec.Scrypt.ROMix.
       f_equal. lia. }
  - intros j st Hj [Hst Hcs]. cbv beta.
    pose proof (index_ok T r st k Hr1 Hst) as Hi. rewrite <- Hk in Hi. specialize (Hi Hn).
    destruct (integerify T st) as [w| |]; try discriminate Hi. cbn [bind] in Hi |- *.
    rewrite Hi. cbn [bind].
    set (ix := Spec.Scrypt.Integerify r (concat st) mod sn s).
    assert (Hix : ix < sn s) by (apply N.mod_lt; assumption).
    rewrite (idx_nth v _ []) by (unfold v; rewrite map_length, seq_length; lia). cbn [bind].
    unfold v.
    rewrite (nth_map_seq (fun k => Nat.iter k (mixv r) b)) by lia.
    destruct (mixv_iter_vec T s b (N.to_nat ix) Hr Hb) as [Hv Hv'].
    fold r in Hv, Hv'. rewrite N2Nat.id in Hv'.
    destruct (xor_blocks_ok r _ _ Hst Hv) as [Hxv Hxc].
    destruct (block_mix_ok T s _ Hr Hxv) as (b' & Eb & Hb' & Hbc).
    exists b'. split; [exact Eb|]. split; [exact Hb'|].
    fold r in Hbc. rewrite Hbc, Hxc, Hv'. rewrite N.iter_succ, <- Hcs. reflexivity.
  - split; [exact H0|exact H0'].
Qed.

(** * Powers of two *)

Lemma land_pred_pow2 k : N.land (2 ^ k - 1) (2 ^ k) = 0.
Proof.
  rewrite N.land_comm. replace (2 ^ k - 1) with (N.ones k) by (rewrite N.ones_equiv; lia).
  rewrite N.land_ones. apply N.mod_same. apply N.pow_nonzero. lia.
Qed.

Lemma land_pred_zero n : 1 <= n -> N.land (n - 1) n = 0 -> exists k, n = 2 ^ k.
Proof.
  intros Hn H. exists (N.log2 n).
  destruct (N.log2_spec n) as [H1 H2]; [lia|].
  destruct (N.eq_dec n (2 ^ N.log2 n)) as [E|Hne]; [exact E|exfalso].
  assert (Hlog : N.log2 (n - 1) = N.log2 n).
  { apply N.log2_unique; [apply N.le_0_l|]. lia. }
  assert (Hb : N.testbit (N.land (n - 1) n) (N.log2 n) = true).
  { rewrite N.land_spec. rewrite N.bit_log2 by lia. rewrite <- Hlog. rewrite N.bit_log2; [reflexivity|].
    pose proof (pow2_pos (N.log2 n)). lia. }
  rewrite H, N.bits_0 in Hb. discriminate Hb.
Qed.

(** * derive *)

(** What [derive] computes from a block vector of [m] octets. *)
Definition derived (P S : list N) (n : N) (r m dkLen : nat) : list N :=
  Spec.Pbkdf2.pbkdf2 P
    (concat (map (fun Bi => ROMix r Bi n) (blocks (128 * r) (Spec.Pbkdf2.pbkdf2 P S 1 m)))) 1 dkLen.

Lemma chunks_fuel_short {A} fuel n (l : list A) : (length l < n)%nat ->
  filter (fun c => len c =? N.of_nat n) (chunks_fuel fuel n l) = [].
Proof.
  intros H. destruct fuel as [|f]; [destruct l; reflexivity|].
  destruct l as [|a l]; [reflexivity|]. cbn [chunks_fuel].
  rewrite (firstn_all2 (a :: l)) by lia. rewrite (skipn_all2 (a :: l)) by lia.
  cbn [filter]. unfold len. destruct (N.eqb_spec (N.of_nat (length (a :: l))) (N.of_nat n)); [lia|].
  destruct f; reflexivity.
Qed.

Lemma chunks_fuel_blocks {A} fuel n (l : list A) : (0 < n)%nat -> (length l <= fuel)%nat ->
  filter (fun c => len c =? N.of_nat n) (chunks_fuel fuel n l) = blocks n l.
Proof.
  intros Hn. revert l; induction fuel as [|f IH]; intros l Hl.
  - destruct l; [cbn; symmetry; apply blocks_nil|cbn in Hl; lia].
  - destruct (Nat.lt_ge_cases (length l) n) as [Hlt|Hge].
    + rewrite chunks_fuel_short by assumption. unfold blocks. rewrite Nat.div_small by assumption. reflexivity.
    + destruct l as [|a l]; [cbn in Hge; lia|]. cbn [chunks_fuel].
      set (l' := a :: l) in *. cbn [filter]. unfold len at 1. rewrite firstn_length, Nat.min_l by assumption.
      rewrite N.eqb_refl. rewrite IH.
      * rewrite <- (firstn_skipn n l') at 3. rewrite blocks_app.
        -- rewrite (blocks_single n (firstn n l')); [reflexivity|lia|rewrite firstn_length; lia].
        -- lia.
        -- rewrite firstn_length, Nat.min_l by assumption. apply Nat.mod_same. lia.
      * rewrite skipn_length. lia.
Qed.

Lemma chunks_exact_all {A} (l : list A) n : n <> 0 -> chunks_exact l n = Ret (blocks (N.to_nat n) l).
Proof.
  intros Hn. unfold chunks_exact. destruct (N.eqb_spec n 0); [contradiction|]. f_equal.
  pose proof (chunks_fuel_blocks (length l) (N.to_nat n) l) as H. rewrite N2Nat.id in H.
  apply H; lia.
Qed.

Lemma map_res_rel {A B} (f : A -> res B) (R : A -> B -> Prop) l :
  (forall x, In x l -> exists y, f x = Ret y /\ R x y) ->
  exists ys, map_res f l = Ret ys /\ Forall2 R l ys.
Proof.
  induction l as [|x l IH]; intros H; [exists []; split; [reflexivity|constructor]|].
  destruct (H x) as (y & E & Hy); [left; reflexivity|].
  destruct IH as (ys & Es & Hys); [intros; apply H; right; assumption|].
  exists (y :: ys). cbn [map_res]. rewrite E. cbn [bind]. rewrite Es. split; [reflexivity|].
  constructor; assumption.
Qed.

Lemma Forall2_len {A B} (R : A -> B -> Prop) l l' : Forall2 R l l' -> length l = length l'.
Proof. induction 1; cbn; congruence. Qed.

(** The parameters that pass the checks. *)
Definition accepted (s : Scrypt) : Prop :=
  1 <= sr s /\ 1 <= sn s /\ (exists k, sn s = 2 ^ k) /\ 1 <= sp s.

Lemma checks_pass T s (k : res (result unit ScryptError * list N)) out : accepted s ->
  (if sr s <? 1 then Ret (Err RIsTooSmall, out) else
   if sn s <? 1 then Ret (Err NIsTooSmall, out) else
   let* n1 := usub T (sn s) 1 in
   if negb (N.land n1 (sn s) =? 0) then Ret (Err NIsNotAPowerOfTwo, out) else
   if sp s <? 1 then Ret (Err PIsTooSmall, out) else k) = k.
Proof.
  intros (Hr & Hn & [e He] & Hp).
  destruct (N.ltb_spec (sr s) 1); [lia|]. destruct (N.ltb_spec (sn s) 1); [lia|].
  rewrite usub_ok by assumption. cbn [bind]. rewrite He, land_pred_pow2. cbn [N.eqb negb].
  destruct (N.ltb_spec (sp s) 1); [lia|]. reflexivity.
Qed.

(** The size of the block vector as the code computes it. *)
Definition vector_size (T : target) (s : Scrypt) : res N :=
  let* m := umul T (sp s) 2 in
  let* m := umul T m BLOCK_SIZE in
  umul T m (sr s).

Lemma mix_all T s raw k : r_fits T (sr s) -> sn s = 2 ^ k -> sn s < usize_mod T ->
  vec_size T * sn s <= isize_max T -> octets raw ->
  exists b bs, split_blocks T s raw = Ret bs /\ map_res (ro_mix T s) bs = Ret b /\
    List.concat (List.concat b) =
      concat (map (fun Bi => ROMix (N.to_nat (sr s)) Bi (sn s)) (blocks (128 * N.to_nat (sr s)) raw)) /\
    octets (List.concat (List.concat b)) /\
    (length (List.concat (List.concat b)) <= length raw)%nat.
Proof.
  intros Hr Hk Hn Ha Ho. pose proof (isize_usize T) as Hus. destruct Hr as [Hr1 Hr2].
  set (r := N.to_nat (sr s)) in *.
  unfold split_blocks. change (2 * BLOCK_SIZE) with 128. rewrite umul_ok by lia. cbn [bind].
  rewrite chunks_exact_all by lia. cbn [bind].
  replace (N.to_nat (128 * sr s)) with (128 * r)%nat by lia.
  rewrite (map_res_ok _ (blocks 64)).
  2: { intros g _. apply chunks_exact_all. discriminate. }
  set (bl := blocks (128 * r) raw).
  assert (Hbl : forall g, In g bl -> length g = (128 * r)%nat /\ octets g).
  { intros g Hg. split; [apply (blocks_all_length _ _ _ Hg)|apply (octets_blocks _ _ _ Ho Hg)]. }
  destruct (map_res_rel (ro_mix T s) (fun b b' => vec r b' /\ concat b' = ROMix r (concat b) (sn s))
    (map (blocks 64) bl)) as (b & E & HR).
  { intros g Hg. apply in_map_iff in Hg. destruct Hg as (g' & <- & Hg').
    destruct (Hbl g' Hg') as [Hl Hog].
    apply (ro_mix_ok T s _ k); try assumption; [split; assumption|].
    apply vec_of_octets; assumption. }
  assert (Hc : map (@concat N) b = map (fun Bi => ROMix r Bi (sn s)) bl).
  { clear -HR Hbl. revert b HR. induction bl as [|g bl IH]; intros b HR.
    - inversion HR. reflexivity.
    - cbn [map] in HR. inversion HR as [|? b0 ? b' [Hb1 Hb2] HR']; subst. cbn [map].
      rewrite Hb2. rewrite (concat_blocks64 r) by (apply Hbl; left; reflexivity).
      f_equal. apply IH; [|assumption]. intros; apply Hbl; right; assumption. }
  assert (Hcc : List.concat (List.concat b) = concat (map (fun Bi => ROMix r Bi (sn s)) bl)).
  { rewrite <- Hc. clear. induction b as [|x b IH]; [reflexivity|]. cbn [concat map].
    rewrite concat_app, IH. reflexivity. }
  assert (Hvec : Forall (vec r) b).
  { clear -HR. induction HR as [|x y l l' [H _] HR IH]; constructor; assumption. }
  exists b, (map (blocks 64) bl). split; [reflexivity|]. split; [exact E|]. split; [exact Hcc|].
  split.
  - clear -Hvec. induction Hvec as [|x b Hx Hb IH]; [constructor|]. cbn [concat].
    rewrite concat_app. apply octets_app. split; [eapply vec_octets; exact Hx|exact IH].
  - assert (Hlen : length (List.concat (List.concat b)) = (length b * (128 * r))%nat).
    { clear -Hvec. induction Hvec as [|x b Hx Hb IH]; [reflexivity|]. cbn [concat length].
      rewrite concat_app, app_length, IH, (vec_concat_length r) by assumption. lia. }
    rewrite Hlen. replace (length b) with (length bl).
    + unfold bl. rewrite blocks_length. rewrite Nat.mul_comm. apply Nat.mul_div_le. lia.
    + pose proof (Forall2_len _ _ _ HR) as HL. rewrite map_length in HL. exact HL.
Qed.

Lemma derive_vector T s P S out m : accepted s -> sn s < usize_mod T ->
  vector_size T s = Ret m -> m <= isize_max T ->
  128 * sr s <= isize_max T -> vec_size T * sn s <= isize_max T ->
  octets P -> octets S -> Pbkdf2.fits T P S -> 8 * (m + 68) < usize_mod T -> len out <= isize_max T ->
  scrypt_derive T s P S out =
  Ret (Ok tt, derived P S (sn s) (N.to_nat (sr s)) (N.to_nat m) (length out)).
Proof.
  intros Hacc Hn Hm Hma Hr Ha HP HS Hf Hm8 Hout.
  unfold scrypt_derive. rewrite checks_pass by assumption.
  destruct Hacc as (Hr1 & Hn1 & [k Hk] & Hp1).
  unfold vector_size in Hm.
  destruct (umul T (sp s) 2) as [m1| |] eqn:E1; try discriminate Hm. cbn [bind] in *.
  destruct (umul T m1 BLOCK_SIZE) as [m2| |] eqn:E2; try discriminate Hm. cbn [bind] in *.
  rewrite Hm. cbn [bind]. rewrite alloc_ok by lia. cbn [bind].
  rewrite Pbkdf2.pbkdf2_ok; [|assumption|assumption|assumption|rewrite len_repeat; lia].
  cbn [bind]. rewrite repeat_length.
  set (raw := Spec.Pbkdf2.pbkdf2 P S PBKDF2_ROUNDS (N.to_nat m)).
  assert (Hraw : octets raw) by apply Pbkdf2.octets_pbkdf2.
  assert (Hrl : length raw = N.to_nat m) by apply Pbkdf2.pbkdf2_length.
  destruct (mix_all T s raw k) as (b & bs & Es & Eb & Hc & Ho & Hl); try assumption.
  { split; assumption. }
  rewrite Es. cbn [bind]. rewrite Eb. cbn [bind].
  rewrite Pbkdf2.pbkdf2_ok; [|assumption|assumption| |assumption].
  - cbn [bind]. rewrite Hc. reflexivity.
  - split; [apply Hf|]. lia.
Qed.

Lemma vector_size_ok T s : sp s * 128 * sr s < usize_mod T -> 1 <= sr s ->
  vector_size T s = Ret (sp s * 128 * sr s).
Proof.
  intros H Hr. unfold vector_size, BLOCK_SIZE.
  rewrite umul_ok by nia. cbn [bind]. rewrite umul_ok by nia. cbn [bind]. rewrite umul_ok by nia.
  f_equal. lia.
Qed.

Lemma derive_ok T s P S out : accepted s -> sn s < usize_mod T ->
  8 * (sp s * 128 * sr s + 68) < usize_mod T -> vec_size T * sn s <= isize_max T ->
  octets P -> octets S -> Pbkdf2.fits T P S -> len out <= isize_max T ->
  scrypt_derive T s P S out =
  Ret (Ok tt, Spec.Scrypt.scrypt P S (sn s) (N.to_nat (sr s)) (N.to_nat (sp s)) (length out)).
Proof.
  intros Hacc Hn Hm Ha HP HS Hf Hout. pose proof (isize_usize T) as Hus.
  pose proof Hacc as (Hr1 & Hn1 & Hk & Hp1).
  rewrite (derive_vector T s P S out (sp s * 128 * sr s)); try assumption; try nia.
  - unfold derived, Spec.Scrypt.scrypt. do 2 f_equal.
    replace (N.to_nat (sp s * 128 * sr s)) with (N.to_nat (sp s) * 128 * N.to_nat (sr s))%nat by lia.
    reflexivity.
  - apply vector_size_ok; [lia|assumption].
Qed.

(** * Rejection *)

(** The documented checks in their order of precedence. *)
Inductive rejected (r n p : N) : ScryptError -> Prop :=
| rejected_r : r = 0 -> rejected r n p RIsTooSmall
| rejected_n : r <> 0 -> n = 0 -> rejected r n p NIsTooSmall
| rejected_n2 : r <> 0 -> n <> 0 -> (forall k, n <> 2 ^ k) -> rejected r n p NIsNotAPowerOfTwo
| rejected_p : r <> 0 -> (exists k, n = 2 ^ k) -> p = 0 -> rejected r n p PIsTooSmall.

Lemma derive_body_ok_not_err T s P S out : accepted s ->
  forall e o, scrypt_derive T s P S out <> Ret (Err e, o).
Proof.
  intros Hacc e o. unfold scrypt_derive. rewrite checks_pass by assumption.
  destruct (umul T (sp s) 2) as [m1| |]; cbn [bind]; try discriminate.
  destruct (umul T m1 BLOCK_SIZE) as [m2| |]; cbn [bind]; try discriminate.
  destruct (umul T m2 (sr s)) as [m| |]; cbn [bind]; try discriminate.
  destruct (alloc T 1 m) as [[]| |]; cbn [bind]; try discriminate.
  destruct (Model.Pbkdf2.pbkdf2_sha256 T P S PBKDF2_ROUNDS (repeat 0 (N.to_nat m))) as [raw| |];
    cbn [bind]; try discriminate.
  destruct (split_blocks T s raw) as [bs| |]; cbn [bind]; try discriminate.
  destruct (map_res (ro_mix T s) bs) as [b| |]; cbn [bind]; try discriminate.
  destruct (Model.Pbkdf2.pbkdf2_sha256 T P (List.concat (List.concat b)) PBKDF2_ROUNDS out) as [o'| |];
    cbn [bind]; discriminate.
Qed.

Lemma derive_rejects T r n p P S out e out' :
  scrypt_derive T (scrypt_new r n p) P S out = Ret (Err e, out') <->
  out' = out /\ rejected r n p e.
Proof.
  destruct (N.eq_dec r 0) as [->|Hr].
  { cbn. split.
    - intros H. injection H as <- <-. split; [reflexivity|]. constructor. reflexivity.
    - intros [-> H]. inversion H; try contradiction; reflexivity. }
  destruct (N.eq_dec n 0) as [->|Hn].
  { unfold scrypt_derive. cbn [scrypt_new sr sn sp].
    destruct (N.ltb_spec r 1); [lia|]. destruct (N.ltb_spec 0 1); [|lia]. split.
    - intros HE. injection HE as <- <-. split; [reflexivity|]. constructor; [assumption|reflexivity].
    - intros [-> HE]. inversion HE; subst; try contradiction; try reflexivity.
      exfalso. match goal with H : exists k, 0 = 2 ^ k |- _ => destruct H as [k Hk]; pose proof (pow2_pos k); lia end. }
  destruct (N.eq_dec (N.land (n - 1) n) 0) as [Hl|Hl].
  2: { assert (Hk : forall k, n <> 2 ^ k) by (intros k E; apply Hl; rewrite E; apply land_pred_pow2).
    unfold scrypt_derive. cbn [scrypt_new sr sn sp].
    destruct (N.ltb_spec r 1); [lia|]. destruct (N.ltb_spec n 1); [lia|].
    rewrite usub_ok by lia. cbn [bind]. destruct (N.eqb_spec (N.land (n - 1) n) 0); [contradiction|].
    cbn [negb]. split.
    - intros HE. injection HE as <- <-. split; [reflexivity|]. constructor; assumption.
    - intros [-> HE]. inversion HE; subst; try contradiction; try reflexivity.
      exfalso. match goal with H : exists k, n = 2 ^ k |- _ => destruct H as [k E]; exact (Hk k E) end. }
  destruct (land_pred_zero n ltac:(lia) Hl) as [k Hk].
  destruct (N.eq_dec p 0) as [->|Hp].
  { unfold scrypt_derive. cbn [scrypt_new sr sn sp].
    destruct (N.ltb_spec r 1); [lia|]. destruct (N.ltb_spec n 1); [lia|].
    rewrite usub_ok by lia. cbn [bind]. rewrite Hl. cbn [N.eqb negb].
    destruct (N.ltb_spec 0 1); [|lia]. split.
    - intros HE. injection HE as <- <-. split; [reflexivity|].
      apply rejected_p; [assumption|exists k; assumption|reflexivity].
    - intros [-> HE]. inversion HE; subst; try contradiction; try reflexivity.
      exfalso. match goal with H : forall k, _ <> 2 ^ k |- _ => exact (H k eq_refl) end. }
  split.
  - intros E. exfalso. eapply derive_body_ok_not_err; [|exact E].
    split; [cbn; lia|]. split; [cbn; lia|]. split; [exists k; exact Hk|cbn; lia].
  - intros [-> HE]. exfalso. inversion HE; subst; try contradiction.
    match goal with H : forall k, _ <> 2 ^ k |- _ => exact (H k eq_refl) end.
Qed.

(** * Overflow *)

Lemma umul_checked T a b : overflow_checks T = true -> umul T a b = if a * b <? usize_mod T then Ret (a * b) else Panic.
Proof. intros H. unfold umul, fit_usize. rewrite H. reflexivity. Qed.
Lemma umul_wrapping T a b : overflow_checks T = false -> umul T a b = Ret ((a * b) mod usize_mod T).
Proof.
  intros H. unfold umul, fit_usize. rewrite H. destruct (N.ltb_spec (a * b) (usize_mod T)); [|reflexivity].
  rewrite N.mod_small by assumption. reflexivity.
Qed.
Lemma usize_mod_nz T : usize_mod T <> 0.
Proof. pose proof (usize_mod_ge T). change (2 ^ 32) with 4294967296 in H. lia. Qed.

Lemma vector_size_checked T s : overflow_checks T = true ->
  usize_mod T <= sp s * 128 * sr s -> vector_size T s = Panic.
Proof.
  intros HT H. unfold vector_size, BLOCK_SIZE. rewrite umul_checked by assumption.
  destruct (N.ltb_spec (sp s * 2) (usize_mod T)); [|reflexivity]. cbn [bind].
  rewrite umul_checked by assumption.
  destruct (N.ltb_spec (sp s * 2 * 64) (usize_mod T)); [|reflexivity]. cbn [bind].
  rewrite umul_checked by assumption.
  destruct (N.ltb_spec (sp s * 2 * 64 * sr s) (usize_mod T)); [lia|reflexivity].
Qed.
Lemma vector_size_wrapping T s : overflow_checks T = false ->
  vector_size T s = Ret ((sp s * 128 * sr s) mod usize_mod T).
Proof.
  intros HT. pose proof (usize_mod_nz T). unfold vector_size, BLOCK_SIZE. rewrite !umul_wrapping by assumption.
  cbn [bind]. rewrite umul_wrapping by assumption. cbn [bind]. rewrite umul_wrapping by assumption.
  rewrite !N.mul_mod_idemp_l by assumption. f_equal.
  replace ((sp s * 2) mod usize_mod T * 64 * sr s) with ((sp s * 2) mod usize_mod T * (64 * sr s)) by lia.
  rewrite N.mul_mod_idemp_l by assumption. f_equal. lia.
Qed.

Lemma derive_unfold T s P S out : accepted s ->
  scrypt_derive T s P S out =
  let* m := vector_size T s in
  let* _ := alloc T 1 m in
  let* raw_b := Model.Pbkdf2.pbkdf2_sha256 T P S PBKDF2_ROUNDS (repeat 0 (N.to_nat m)) in
  let* b := split_blocks T s raw_b in
  let* b := map_res (ro_mix T s) b in
  let* out := Model.Pbkdf2.pbkdf2_sha256 T P (List.concat (List.concat b)) PBKDF2_ROUNDS out in
  Ret (Ok tt, out).
Proof.
  intros Hacc. unfold scrypt_derive. rewrite checks_pass by assumption.
  unfold vector_size. rewrite !bind_assoc. destruct (umul T (sp s) 2); cbn [bind]; try reflexivity.
  rewrite !bind_assoc. reflexivity.
Qed.

Lemma derive_checked_panics T s P S out : accepted s -> overflow_checks T = true ->
  usize_mod T <= sp s * 128 * sr s -> scrypt_derive T s P S out = Panic.
Proof.
  intros Hacc HT H. rewrite derive_unfold by assumption.
  rewrite vector_size_checked by assumption. reflexivity.
Qed.

Lemma derive_wrapped T s P S out : accepted s -> overflow_checks T = false ->
  let m := (sp s * 128 * sr s) mod usize_mod T in
  sn s < usize_mod T -> m <= isize_max T ->
  128 * sr s <= isize_max T -> vec_size T * sn s <= isize_max T ->
  octets P -> octets S -> Pbkdf2.fits T P S -> 8 * (m + 68) < usize_mod T -> len out <= isize_max T ->
  scrypt_derive T s P S out =
  Ret (Ok tt, derived P S (sn s) (N.to_nat (sr s)) (N.to_nat m) (length out)).
Proof. intros Hacc HT m Hn Hm. intros. apply derive_vector; try assumption. apply vector_size_wrapping. assumption. Qed.

Lemma derive_wrapped_zero T s P S out : accepted s -> overflow_checks T = false ->
  (sp s * 128 * sr s) mod usize_mod T = 0 -> (128 * sr s) mod usize_mod T <> 0 ->
  octets P -> 8 * N.of_nat (length P) < usize_mod T -> len out <= isize_max T ->
  scrypt_derive T s P S out = Ret (Ok tt, Spec.Pbkdf2.pbkdf2 P [] 1 (length out)).
Proof.
  intros Hacc HT Hm Hr HP HlP Hout. rewrite derive_unfold by assumption.
  rewrite vector_size_wrapping, Hm by assumption. cbn [bind].
  rewrite alloc_ok by lia. cbn [bind]. change (repeat 0 (N.to_nat 0)) with (@nil N).
  rewrite Pbkdf2.pbkdf2_empty. cbn [bind].
  unfold split_blocks. change (2 * BLOCK_SIZE) with 128. rewrite umul_wrapping by assumption. cbn [bind].
  rewrite chunks_exact_all by assumption. cbn [bind]. rewrite blocks_nil. cbn [map_res bind concat].
  rewrite Pbkdf2.pbkdf2_ok; [reflexivity|assumption|constructor| |assumption].
  split; [assumption|]. pose proof (usize_mod_ge T) as H. change (2 ^ 32) with 4294967296 in H. cbn [length]. lia.
Qed.

Lemma derive_chunk_zero T s P S out : accepted s -> overflow_checks T = false ->
  (128 * sr s) mod usize_mod T = 0 -> scrypt_derive T s P S out = Panic.
Proof.
  intros Hacc HT Hr. rewrite derive_unfold by assumption.
  rewrite vector_size_wrapping by assumption. cbn [bind].
  replace ((sp s * 128 * sr s) mod usize_mod T) with 0.
  - rewrite alloc_ok by lia. cbn [bind]. change (repeat 0 (N.to_nat 0)) with (@nil N).
    rewrite Pbkdf2.pbkdf2_empty. cbn [bind].
    unfold split_blocks. change (2 * BLOCK_SIZE) with 128. rewrite umul_wrapping by assumption. cbn [bind].
    rewrite Hr. reflexivity.
  - rewrite <- N.mul_assoc, N.mul_mod, Hr, N.mul_0_r by apply usize_mod_nz.
    symmetry. apply N.mod_0_l. apply usize_mod_nz.
Qed.

(** A table of [n] vectors that cannot be allocated. *)
Lemma derive_table_panics T s P S out : accepted s ->
  8 * (sp s * 128 * sr s + 68) < usize_mod T -> isize_max T < vec_size T * sn s ->
  octets P -> octets S -> Pbkdf2.fits T P S ->
  scrypt_derive T s P S out = Panic.
Proof.
  intros Hacc Hm Ha HP HS Hf. pose proof (isize_usize T) as Hus.
  pose proof Hacc as (Hr1 & Hn1 & [k Hk] & Hp1).
  rewrite derive_unfold by assumption. rewrite vector_size_ok by (assumption || lia). cbn [bind].
  rewrite alloc_ok by lia. cbn [bind].
  rewrite Pbkdf2.pbkdf2_ok; [|assumption|assumption|assumption|rewrite len_repeat; lia].
  cbn [bind]. rewrite repeat_length.
  unfold split_blocks. change (2 * BLOCK_SIZE) with 128. rewrite umul_ok by nia. cbn [bind].
  rewrite chunks_exact_all by lia. cbn [bind].
  rewrite (map_res_ok _ (blocks 64)) by (intros g _; apply chunks_exact_all; discriminate).
  cbn [bind].
  set (raw := Spec.Pbkdf2.pbkdf2 P S PBKDF2_ROUNDS (N.to_nat (sp s * 128 * sr s))).
  assert (Hrl : length raw = N.to_nat (sp s * 128 * sr s)) by apply Pbkdf2.pbkdf2_length.
  assert (Hbl : (1 <= length (blocks (N.to_nat (128 * sr s)) raw))%nat).
  { rewrite blocks_length, Hrl. apply Nat.div_le_lower_bound; [lia|]. nia. }
  destruct (blocks (N.to_nat (128 * sr s)) raw) as [|g bl]; [cbn in Hbl; lia|].
  cbn [map map_res]. unfold ro_mix at 1.
  unfold alloc at 1. destruct (N.leb_spec (vec_size T * sn s) (isize_max T)); [lia|]. reflexivity.
Qed.

Lemma scrypt_length P S n r p l : length (Spec.Scrypt.scrypt P S n r p l) = l.
Proof. apply Pbkdf2.pbkdf2_length. Qed.
Lemma octets_scrypt P S n r p l : octets (Spec.Scrypt.scrypt P S n r p l).
Proof. apply Pbkdf2.octets_pbkdf2. Qed.
Lemma scrypt_prefix P S n r p l l' : (l <= l')%nat ->
  Spec.Scrypt.scrypt P S n r p l = firstn l (Spec.Scrypt.scrypt P S n r p l').
Proof. intros H. symmetry. apply Pbkdf2.pbkdf2_prefix. assumption. Qed.

Lemma derive_rejects_match T r n p P S out e out' :
  scrypt_derive T (scrypt_new r n p) P S out = Ret (Err e, out') <->
  out' = out /\
  match e with
  | RIsTooSmall => r = 0
  | NIsTooSmall => r <> 0 /\ n = 0
  | NIsNotAPowerOfTwo => r <> 0 /\ n <> 0 /\ (forall k, n <> 2 ^ k)
  | PIsTooSmall => r <> 0 /\ (exists k, n = 2 ^ k) /\ p = 0
  end.
Proof.
  rewrite derive_rejects. apply and_iff_compat_l. split.
  - intros H. destruct H; auto.
  - destruct e; intros H.
    + apply rejected_r. exact H.
    + apply rejected_n; apply H.
    + apply rejected_n2; apply H.
    + apply rejected_p; apply H.
Qed.
