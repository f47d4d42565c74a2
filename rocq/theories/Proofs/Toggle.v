(** scryptBlockMix and scryptROMix do not see toggled blocks. *)
From Coq Require Import ZArith NArith List Arith Lia Bool ZifyBool ZifyNat ZifyN.
From Verif Require Import Rust.
From Verif.Model Require Import Scrypt.
From Verif.Spec Require Octets Pbkdf2 Salsa20 Scrypt Toggle.
From Verif.Proofs Require Import Base Bits.
From Verif.Proofs Require Salsa20 Salsa20Perm Scrypt Pbkdf2 Count.
Import ListNotations.
Import Spec.Octets Spec.Salsa20 Spec.Toggle.
Import Proofs.Scrypt (block64, vec, r_fits).
Import Proofs.Salsa20Perm (top_bits).
Local Open Scope N_scope.

Notation Salsa := Spec.Scrypt.Salsa.
Notation Ys := Spec.Scrypt.Ys.
Notation BlockMix := Spec.Scrypt.BlockMix.
Notation ROMix := Spec.Scrypt.ROMix.

(** * One block *)
Definition like (x y : list N) : Prop := y = x \/ y = flip_top_bits x.
Lemma like_refl x : like x x. Proof. left. reflexivity. Qed.
Lemma flip_eq x : block64 x -> flip_top_bits x = xor x (top_bits 16).
Proof. intros [L _]. apply Proofs.Salsa20Perm.flip_top_bits_eq, L. Qed.
Lemma top_block : block64 (top_bits 16).
Proof. split; [reflexivity|apply Proofs.Salsa20Perm.octets_top_bits]. Qed.
Lemma flip_block x : block64 x -> block64 (flip_top_bits x).
Proof. intros H. rewrite flip_eq by exact H. apply Proofs.Scrypt.block64_xor; [exact H|exact top_block]. Qed.
Lemma flip_flip x : block64 x -> flip_top_bits (flip_top_bits x) = x.
Proof.
  intros H. rewrite flip_eq by (apply flip_block, H). rewrite flip_eq by exact H. apply xor_cancel_r.
  destruct H as [-> _]. reflexivity.
Qed.
Lemma flip_neq x : block64 x -> flip_top_bits x <> x.
Proof. intros [L O]. apply (Proofs.Salsa20Perm.model_flip 0 x (repeat 0 64) O L). rewrite repeat_length. lia. Qed.
Lemma flip_xor_l x y : block64 x -> block64 y -> xor (flip_top_bits x) y = flip_top_bits (xor x y).
Proof.
  intros Hx Hy. rewrite flip_eq by exact Hx. rewrite flip_eq by (apply Proofs.Scrypt.block64_xor; assumption).
  rewrite !xor_assoc. f_equal. apply xor_comm.
Qed.
Lemma flip_xor_r x y : block64 x -> block64 y -> xor x (flip_top_bits y) = flip_top_bits (xor x y).
Proof. intros Hx Hy. rewrite xor_comm, flip_xor_l by assumption. rewrite xor_comm. reflexivity. Qed.
Lemma like_block x y : block64 x -> like x y -> block64 y.
Proof. intros H [->| ->]; [exact H|apply flip_block, H]. Qed.
Lemma like_xor x x' y y' : block64 x -> block64 y -> like x x' -> like y y' -> like (xor x y) (xor x' y').
Proof.
  intros Hx Hy [->| ->] [->| ->].
  - left. reflexivity.
  - right. apply flip_xor_r; assumption.
  - right. apply flip_xor_l; assumption.
  - left. rewrite flip_xor_l by (try assumption; apply flip_block; assumption). rewrite flip_xor_r by assumption.
    apply flip_flip, Proofs.Scrypt.block64_xor; assumption.
Qed.
Lemma like_Salsa x y : block64 x -> like x y -> Salsa y = Salsa x.
Proof.
  intros H [->| ->]; [reflexivity|]. rewrite flip_eq by exact H. destruct H as [L O].
  unfold Spec.Scrypt.Salsa. apply Proofs.Salsa20Perm.salsa20_flip; assumption.
Qed.

(** * Vectors *)
Definition likes : list (list N) -> list (list N) -> Prop := Forall2 like.
Lemma likes_refl b : likes b b.
Proof. induction b; constructor; [apply like_refl|assumption]. Qed.
Lemma likes_length b b' : likes b b' -> length b = length b'.
Proof. induction 1; cbn [length]; congruence. Qed.
Lemma likes_vec r b b' : vec r b -> likes b b' -> vec r b'.
Proof.
  intros [L F] H. split; [rewrite <- L; symmetry; apply likes_length, H|].
  revert F. clear L. induction H as [|x y b b' Hx H IH]; intros F; [constructor|]. inversion F; subst.
  constructor; [eapply like_block; eassumption|auto].
Qed.
Lemma Ys_like b b' : likes b b' -> Forall block64 b -> forall x x', block64 x -> like x x' -> Ys x' b' = Ys x b.
Proof.
  induction 1 as [|e e' b b' He H IH]; intros F x x' Hx Hl; [reflexivity|]. inversion F; subst.
  cbn [Spec.Scrypt.Ys]. cbv zeta.
  rewrite (like_Salsa (xor x e) (xor x' e')) by (try apply Proofs.Scrypt.block64_xor; try apply like_xor; assumption).
  f_equal. apply IH; [assumption| |apply like_refl].
  apply Proofs.Scrypt.block64_Salsa, Proofs.Scrypt.block64_xor; assumption.
Qed.
Lemma nth_like b b' : likes b b' -> forall k, like (nth k b []) (nth k b' []).
Proof. induction 1 as [|x y b b' Hx H IH]; intros [|k]; cbn [nth]; auto using like_refl. Qed.
Lemma BlockMix_like r b b' : (1 <= r)%nat -> vec r b -> likes b b' -> BlockMix r (concat b') = BlockMix r (concat b).
Proof.
  intros Hr Hb H. pose proof (likes_vec r b b' Hb H) as Hb'.
  unfold Spec.Scrypt.BlockMix. rewrite (Proofs.Scrypt.vec_blocks r b), (Proofs.Scrypt.vec_blocks r b') by assumption.
  cbv zeta. destruct Hb as [L F]. rewrite (Ys_like b b' H F (nth (2 * r - 1) b []) (nth (2 * r - 1) b' [])).
  - reflexivity.
  - apply (proj1 (Forall_forall _ _) F), nth_In. lia.
  - apply nth_like, H.
Qed.
Lemma BlockMix_vec r b : (1 <= r)%nat -> vec r b -> exists b', vec r b' /\ concat b' = BlockMix r (concat b).
Proof.
  intros Hr Hb. pose proof Hb as [L F]. unfold Spec.Scrypt.BlockMix. rewrite (Proofs.Scrypt.vec_blocks r b) by assumption.
  cbv zeta. rewrite <- concat_app. eexists. split; [|reflexivity].
  assert (HY : Forall block64 (Ys (nth (2 * r - 1) b []) b)).
  { apply Proofs.Scrypt.Ys_blocks; [apply (proj1 (Forall_forall _ _) F), nth_In; lia|exact F]. }
  split; [rewrite app_length, !map_length, seq_length; lia|].
  apply Forall_app. split; apply Forall_map, Forall_forall; intros k Hk; apply in_seq in Hk;
    apply (proj1 (Forall_forall _ _) HY), nth_In; rewrite Proofs.Scrypt.Ys_length; lia.
Qed.
Lemma V_vec r b : (1 <= r)%nat -> vec r b -> forall i, exists v, vec r v /\ concat v = Spec.Scrypt.V r (concat b) i.
Proof.
  intros Hr Hb i. unfold Spec.Scrypt.V. induction i as [|i IH] using N.peano_ind.
  - exists b. split; [exact Hb|reflexivity].
  - destruct IH as (v & Hv & E). rewrite N.iter_succ, <- E. apply BlockMix_vec; assumption.
Qed.
Lemma V_like r b b' i : (1 <= r)%nat -> vec r b -> likes b b' -> 1 <= i ->
  Spec.Scrypt.V r (concat b') i = Spec.Scrypt.V r (concat b) i.
Proof.
  intros Hr Hb H Hi. unfold Spec.Scrypt.V. destruct (N.succ_pred i) as []; [lia|].
  rewrite !N.iter_succ_r. rewrite (BlockMix_like r b b') by assumption. reflexivity.
Qed.
Lemma xor_likes x : forall b b', likes b b' -> Forall block64 x -> Forall block64 b ->
  likes (xor_blocks x b) (xor_blocks x b').
Proof.
  induction x as [|a x IH]; intros b b' H Fx Fb; [constructor|]. inversion Fx; subst.
  destruct H as [|e e' b b' He H]; [constructor|]. inversion Fb; subst. cbn [xor_blocks].
  constructor; [|apply IH; assumption].
  unfold block_xor.
  rewrite !zip_xor_xor.
  apply like_xor; try assumption. apply like_refl.
Qed.
Lemma step_like r b b' n x : (1 <= r)%nat -> vec r b -> likes b b' -> 1 <= n -> vec r x ->
  Spec.Scrypt.ROMix_step r (concat b') n (concat x) = Spec.Scrypt.ROMix_step r (concat b) n (concat x).
Proof.
  intros Hr Hb H Hn Hx. unfold Spec.Scrypt.ROMix_step. cbv zeta.
  set (j := Spec.Scrypt.Integerify r (concat x) mod n). destruct (N.eq_dec j 0) as [->|J].
  - unfold Spec.Scrypt.V. cbn [N.iter]. pose proof (likes_vec r b b' Hb H) as Hb'.
    destruct (Proofs.Scrypt.xor_blocks_ok r x b Hx Hb) as [Vx <-].
    destruct (Proofs.Scrypt.xor_blocks_ok r x b' Hx Hb') as [Vx' <-].
    apply BlockMix_like; [exact Hr|exact Vx|]. destruct Hx, Hb. apply xor_likes; assumption.
  - rewrite (V_like r b b') by (try assumption; lia). reflexivity.
Qed.
Lemma step_vec r b n x : (1 <= r)%nat -> vec r b -> vec r x ->
  exists y, vec r y /\ concat y = Spec.Scrypt.ROMix_step r (concat b) n (concat x).
Proof.
  intros Hr Hb Hx. unfold Spec.Scrypt.ROMix_step. cbv zeta.
  destruct (V_vec r b Hr Hb (Spec.Scrypt.Integerify r (concat x) mod n)) as (v & Hv & <-).
  destruct (Proofs.Scrypt.xor_blocks_ok r x v Hx Hv) as [Vx <-]. apply BlockMix_vec; assumption.
Qed.
Lemma run_like r b b' n : (1 <= r)%nat -> vec r b -> likes b b' -> 1 <= n -> forall i,
  N.iter i (Spec.Scrypt.ROMix_step r (concat b') n) (Spec.Scrypt.V r (concat b') n) =
  N.iter i (Spec.Scrypt.ROMix_step r (concat b) n) (Spec.Scrypt.V r (concat b) n) /\
  exists x, vec r x /\ concat x = N.iter i (Spec.Scrypt.ROMix_step r (concat b) n) (Spec.Scrypt.V r (concat b) n).
Proof.
  intros Hr Hb H Hn i. induction i as [|i [IH (x & Hx & E)]] using N.peano_ind.
  - split; [apply V_like; assumption|]. apply V_vec; assumption.
  - rewrite !N.iter_succ, IH, <- E. split; [apply step_like; assumption|]. apply step_vec; assumption.
Qed.
Lemma ROMix_like r b b' n : (1 <= r)%nat -> vec r b -> likes b b' -> 1 <= n ->
  ROMix r (concat b') n = ROMix r (concat b) n.
Proof. intros Hr Hb H Hn. apply (run_like r b b' n Hr Hb H Hn n). Qed.
Lemma indices_like r b b' n : (1 <= r)%nat -> vec r b -> likes b b' -> 1 <= n ->
  Spec.Scrypt.ROMix_indices r (concat b') n = Spec.Scrypt.ROMix_indices r (concat b) n.
Proof.
  intros Hr Hb H Hn. unfold Spec.Scrypt.ROMix_indices. apply map_ext. intros i. unfold Spec.Scrypt.ROMix_index.
  rewrite (proj1 (run_like r b b' n Hr Hb H Hn (N.of_nat i))). reflexivity.
Qed.

(** * The program *)
Lemma vec_concat_inj r b b' : vec r b -> vec r b' -> concat b = concat b' -> b = b'.
Proof. intros H H' E. rewrite <- (Proofs.Scrypt.vec_blocks r b H), <- (Proofs.Scrypt.vec_blocks r b' H'), E. reflexivity. Qed.
Lemma block_mix_like T s b b' : r_fits T (sr s) -> vec (N.to_nat (sr s)) b -> likes b b' ->
  block_mix T s b' = block_mix T s b.
Proof.
  intros Hr Hb H. destruct (Proofs.Scrypt.block_mix_ok T s b Hr Hb) as (y & -> & Vy & Ey).
  destruct (Proofs.Scrypt.block_mix_ok T s b' Hr (likes_vec _ _ _ Hb H)) as (y' & -> & Vy' & Ey').
  f_equal. apply (vec_concat_inj (N.to_nat (sr s))); [assumption..|]. rewrite Ey, Ey'.
  apply BlockMix_like; [destruct Hr; lia|assumption..].
Qed.
Definition mixes (T : target) (s : Scrypt) : Prop :=
  r_fits T (sr s) /\ (exists k, sn s = 2 ^ k) /\ sn s < usize_mod T /\ vec_size T * sn s <= isize_max T.
Lemma ro_mix_like T s b b' : mixes T s -> vec (N.to_nat (sr s)) b -> likes b b' ->
  ro_mix T s b' = ro_mix T s b.
Proof.
  intros (Hr & [k Hk] & Hn & Ha) Hb H.
  destruct (Proofs.Scrypt.ro_mix_ok T s b k Hr Hk Hn Ha Hb) as (y & -> & Vy & Ey).
  destruct (Proofs.Scrypt.ro_mix_ok T s b' k Hr Hk Hn Ha (likes_vec _ _ _ Hb H)) as (y' & -> & Vy' & Ey').
  f_equal. apply (vec_concat_inj (N.to_nat (sr s))); [assumption..|]. rewrite Ey, Ey'.
  apply ROMix_like; [destruct Hr; lia|assumption..|]. rewrite Hk. pose proof (N.pow_nonzero 2 k). lia.
Qed.

(** * Toggling *)
Lemma toggle_likes ds : forall b, likes b (toggle ds b).
Proof.
  induction ds as [|d ds IH]; intros [|x b]; cbn [toggle]; try apply likes_refl.
  constructor; [destruct d; [right|left]; reflexivity|apply IH].
Qed.
Lemma toggle_inj : forall ds ds' b, Forall block64 b -> length ds = length b -> length ds' = length b ->
  toggle ds b = toggle ds' b -> ds = ds'.
Proof.
  induction ds as [|d ds IH]; intros [|d' ds'] [|x b] F L L' E; try discriminate; [reflexivity|].
  inversion F; subst. cbn [toggle] in E. injection E as E1 E2.
  f_equal; [|apply (IH ds' b); auto; injection L; injection L'; auto].
  pose proof (flip_neq x ltac:(assumption)). destruct d, d'; congruence.
Qed.
Lemma choices_length k : N.of_nat (length (choices k)) = 2 ^ N.of_nat k.
Proof.
  induction k as [|k IH]; [reflexivity|]. cbn [choices]. rewrite app_length, !map_length, Nat2N.inj_succ, N.pow_succ_r'. lia.
Qed.
Lemma choices_In k : forall ds, In ds (choices k) <-> length ds = k.
Proof.
  induction k as [|k IH]; intros ds; cbn [choices].
  - split; [intros [<-|[]]; reflexivity|]. destruct ds; [left; reflexivity|discriminate].
  - rewrite in_app_iff, !in_map_iff. split.
    + intros [(l & <- & Hl)|(l & <- & Hl)]; apply IH in Hl; cbn; lia.
    + destruct ds as [|[|] ds]; intros L; [discriminate|right|left]; exists ds; (split; [reflexivity|]); apply IH; cbn in L; lia.
Qed.
Lemma NoDup_app_intro {A} (l l' : list A) : NoDup l -> NoDup l' -> (forall x, In x l -> In x l' -> False) -> NoDup (l ++ l').
Proof.
  induction 1 as [|x l Hx H IH]; intros H' D; [exact H'|]. cbn [app]. constructor.
  - rewrite in_app_iff. intros [X|X]; [exact (Hx X)|]. apply (D x); [left; reflexivity|exact X].
  - apply IH; [exact H'|]. intros y Hy. apply D. right. exact Hy.
Qed.
Lemma choices_NoDup k : NoDup (choices k).
Proof.
  induction k as [|k IH]; cbn [choices]; [repeat constructor; intros []|].
  assert (M : forall d, NoDup (map (cons d) (choices k))).
  { intros d. apply Proofs.Count.NoDup_map; [exact IH|]. intros x y _ _ E. injection E. auto. }
  apply NoDup_app_intro; try apply M.
  intros x Hx Hy. apply in_map_iff in Hx, Hy. destruct Hx as (l & <- & _), Hy as (l' & E & _). discriminate.
Qed.

(** * Counting *)
Lemma choose_all {A B} (R : A -> B -> Prop) l : Forall (fun y => exists x, R y x) l -> exists m, Forall2 R l m.
Proof.
  induction 1 as [|y l [x Hx] H [m IH]]; [exists []; constructor|]. exists (x :: m). constructor; assumption.
Qed.
Lemma toggle_vec r ds b : vec r b -> vec r (toggle ds b).
Proof. intros H. eapply likes_vec; [exact H|apply toggle_likes]. Qed.
Lemma vec_of_like r b b' : vec r b -> likes b b' -> likes b' b.
Proof.
  intros [_ F] H. revert F. induction H as [|x y b b' Hx H IH]; intros F; [constructor|]. inversion F; subst.
  constructor; [|apply IH; assumption]. destruct Hx as [->| ->]; [left; reflexivity|right].
  symmetry. apply flip_flip. assumption.
Qed.

Lemma values_count {A} r (f : list (list N) -> A) (L : list A) :
  (forall b b', vec r b -> likes b b' -> f b' = f b) ->
  NoDup L -> Forall (fun y => exists b, vec r b /\ f b = y) L ->
  N.of_nat (length L) * 2 ^ N.of_nat (2 * r) <= 256 ^ N.of_nat (128 * r).
Proof.
  intros Hf HL HF. apply choose_all in HF. destruct HF as [bs HF].
  assert (Lb : length L = length bs) by (clear HL; induction HF; cbn [length]; congruence).
  set (g := fun b => map (fun ds => concat (toggle ds b)) (choices (2 * r))).
  assert (Vb : forall b, In b bs -> vec r b).
  { clear HL Lb. induction HF as [|y b L bs [Hb _] HF IH]; intros c Hc; [destruct Hc|]. destruct Hc as [<-|Hc]; auto. }
  assert (Fb : forall b b', In b bs -> In b' bs -> f b = f b' -> b = b').
  { clear Lb Vb. induction HF as [|y b L bs [Hb Ey] HF IH]; intros c c' Hc Hc' E; [destruct Hc|].
    inversion HL as [|? ? Hy HL']; subst.
    assert (K : forall d, In d bs -> In (f d) L).
    { clear -HF. induction HF as [|y b L bs [_ Ey] HF IH]; intros d Hd; [destruct Hd|]. destruct Hd as [<-|Hd]; [left; auto|right; auto]. }
    destruct Hc as [<-|Hc], Hc' as [<-|Hc']; [reflexivity| | |apply IH; assumption].
    - exfalso. apply Hy. rewrite E. apply K, Hc'.
    - exfalso. apply Hy. rewrite <- E. apply K, Hc. }
  assert (Nb : NoDup bs).
  { clear Lb Vb Fb. induction HF as [|y b L bs [Hb Ey] HF IH]; [constructor|]. inversion HL as [|? ? Hy HL']; subst.
    constructor; [|apply IH; assumption]. intros Hc. apply Hy.
    clear -HF Hc. induction HF as [|y c L bs [_ Ey] HF IH]; [destruct Hc|]. destruct Hc as [->|Hc]; [left; auto|right; auto]. }
  assert (ND : NoDup (flat_map g bs)).
  { apply Proofs.Count.NoDup_flat_map; [exact Nb| |].
    - intros b Hb. unfold g. apply Proofs.Count.NoDup_map; [apply choices_NoDup|].
      intros ds ds' Hd Hd' E. apply choices_In in Hd, Hd'. destruct (Vb b Hb) as [Ll Fl].
      apply (toggle_inj ds ds' b); [exact Fl|lia|lia|].
      apply (vec_concat_inj r); [apply toggle_vec; split; assumption..|exact E].
    - intros b b' z Hb Hb' Hz Hz'. unfold g in Hz, Hz'. apply in_map_iff in Hz, Hz'.
      destruct Hz as (ds & <- & _), Hz' as (ds' & E & _).
      apply (vec_concat_inj r) in E; [|apply toggle_vec, Vb; assumption..].
      apply Fb; [assumption..|].
      rewrite <- (Hf b (toggle ds b)) by (try apply Vb; try apply toggle_likes; assumption).
      rewrite <- (Hf b' (toggle ds' b')) by (try apply Vb; try apply toggle_likes; assumption).
      rewrite E. reflexivity. }
  assert (I : incl (flat_map g bs) (Proofs.Count.words (128 * r))).
  { intros z Hz. apply in_flat_map in Hz. destruct Hz as (b & Hb & Hz). unfold g in Hz. apply in_map_iff in Hz.
    destruct Hz as (ds & <- & _). apply Proofs.Count.words_in. pose proof (toggle_vec r ds b (Vb b Hb)) as W.
    split; [apply Proofs.Scrypt.vec_concat_length, W|eapply Proofs.Scrypt.vec_octets, W]. }
  pose proof (NoDup_incl_length ND I) as Le.
  rewrite <- Proofs.Count.words_length, <- choices_length, Lb.
  assert (Lg : N.of_nat (length (flat_map g bs)) = N.of_nat (length bs) * N.of_nat (length (choices (2 * r)))).
  { rewrite Proofs.Count.length_flat_map. apply Proofs.Count.sum_over_const. intros b _. unfold g. rewrite map_length. reflexivity. }
  rewrite <- Lg. lia.
Qed.

(** * Whole derivations *)
Lemma lanes_like P Salt Salt' n r p : (1 <= r)%nat -> 1 <= n ->
  lanes_toggled r (unmixed P Salt r p) (unmixed P Salt' r p) ->
  map (fun Bi => ROMix r Bi n) (blocks (128 * r) (Spec.Pbkdf2.pbkdf2 P Salt' 1 (p * 128 * r))) =
  map (fun Bi => ROMix r Bi n) (blocks (128 * r) (Spec.Pbkdf2.pbkdf2 P Salt 1 (p * 128 * r))) /\
  Spec.Scrypt.scrypt_indices P Salt' n r p = Spec.Scrypt.scrypt_indices P Salt n r p.
Proof.
  intros Hr Hn. unfold lanes_toggled, unmixed, Spec.Scrypt.scrypt_indices.
  set (X := Spec.Pbkdf2.pbkdf2 P Salt 1 (p * 128 * r)). set (Y := Spec.Pbkdf2.pbkdf2 P Salt' 1 (p * 128 * r)).
  assert (W : forall S, Forall (fun c => octets c /\ length c = (128 * r)%nat) (blocks (128 * r) (Spec.Pbkdf2.pbkdf2 P S 1 (p * 128 * r)))).
  { intros S. apply Forall_forall. intros c Hc. split; [|eapply blocks_all_length; exact Hc].
    eapply octets_blocks; [|exact Hc]. apply Proofs.Pbkdf2.octets_pbkdf2. }
  pose proof (W Salt) as WX. pose proof (W Salt') as WY. fold X in WX. fold Y in WY. clear W.
  intros H. revert WX WY H. generalize (blocks (128 * r) X) (blocks (128 * r) Y). clear X Y.
  intros l. induction l as [|c l IH]; intros [|c' l'] WX WY H; inversion H as [|? ? ? ? (ds & Ld & E) H']; subst; [split; reflexivity|].
  inversion WX as [|? ? [Oc Lc] WX']; subst. inversion WY as [|? ? [Oc' Lc'] WY']; subst.
  destruct (IH l' WX' WY' H') as [I1 I2]. cbn [map]. rewrite I1, I2.
  pose proof (Proofs.Scrypt.vec_of_octets r c Oc Lc) as Vc.
  assert (Ec : c = concat (blocks 64 c)) by (symmetry; apply (Proofs.Scrypt.concat_blocks64 r), Lc).
  assert (Ec' : c' = concat (toggle ds (blocks 64 c))) by (rewrite <- E; symmetry; apply (Proofs.Scrypt.concat_blocks64 r), Lc').
  pose proof (toggle_likes ds (blocks 64 c)) as K.
  split; f_equal.
  - rewrite Ec'. etransitivity; [apply (ROMix_like r (blocks 64 c)); assumption|]. rewrite <- Ec. reflexivity.
  - rewrite Ec'. etransitivity; [apply (indices_like r (blocks 64 c)); assumption|]. rewrite <- Ec. reflexivity.
Qed.

(** * The vector of zeros *)
Definition zero64 : list N := repeat 0 64.
Lemma zero_block : block64 zero64.
Proof. split; [reflexivity|]. apply Forall_forall. intros x Hx. apply repeat_spec in Hx. subst x. reflexivity. Qed.
Lemma zeros_vec r : vec r (repeat zero64 (2 * r)).
Proof. split; [apply repeat_length|]. apply Forall_forall. intros x Hx. apply repeat_spec in Hx. subst x. exact zero_block. Qed.
Lemma Salsa_zero : Salsa (xor zero64 zero64) = zero64.
Proof. vm_compute. reflexivity. Qed.
Lemma Ys_zeros k : Ys zero64 (repeat zero64 k) = repeat zero64 k.
Proof.
  induction k as [|k IH]; [reflexivity|]. cbn [repeat Spec.Scrypt.Ys]. cbv zeta. rewrite Salsa_zero, IH. reflexivity.
Qed.
Lemma pick_repeat {A} (f : nat -> nat) (z d : A) k r : (forall i, (i < r)%nat -> (f i < k)%nat) ->
  map (fun i => nth (f i) (repeat z k) d) (seq 0 r) = repeat z r.
Proof.
  intros H. rewrite <- (seq_length r 0) at 2. rewrite (map_ext_in _ (fun _ => z)).
  - generalize (seq 0 r). intros l. induction l as [|i l IH]; [reflexivity|]. cbn [map length repeat]. rewrite IH. reflexivity.
  - intros i Hi. apply in_seq in Hi. rewrite (nth_indep _ _ z) by (rewrite repeat_length; apply H; lia). apply nth_repeat.
Qed.
Lemma BlockMix_zeros r : (1 <= r)%nat -> BlockMix r (concat (repeat zero64 (2 * r))) = concat (repeat zero64 (2 * r)).
Proof.
  intros Hr. unfold Spec.Scrypt.BlockMix. rewrite (Proofs.Scrypt.vec_blocks r) by apply zeros_vec. cbv zeta.
  rewrite (nth_indep _ _ zero64) by (rewrite repeat_length; lia). rewrite nth_repeat, Ys_zeros.
  rewrite (pick_repeat (fun i => 2 * i)%nat) by lia. rewrite (pick_repeat (fun i => 2 * i + 1)%nat) by lia.
  rewrite <- concat_app, <- repeat_app. do 2 f_equal. lia.
Qed.
Lemma V_zeros r i : (1 <= r)%nat ->
  Spec.Scrypt.V r (concat (repeat zero64 (2 * r))) i = concat (repeat zero64 (2 * r)).
Proof.
  intros Hr. unfold Spec.Scrypt.V. induction i as [|i IH] using N.peano_ind; [reflexivity|].
  rewrite N.iter_succ, IH. apply BlockMix_zeros, Hr.
Qed.
Lemma xor_zeros k : xor (concat (repeat zero64 k)) (concat (repeat zero64 k)) = concat (repeat zero64 k).
Proof. induction k as [|k IH]; [reflexivity|]. cbn [repeat concat]. rewrite xor_app by reflexivity. rewrite IH. reflexivity. Qed.
Lemma ROMix_zeros r n : (1 <= r)%nat ->
  ROMix r (concat (repeat zero64 (2 * r))) n = concat (repeat zero64 (2 * r)).
Proof.
  intros Hr. unfold Spec.Scrypt.ROMix. rewrite V_zeros by exact Hr. generalize n at 1. intros i.
  induction i as [|i IH] using N.peano_ind; [reflexivity|]. rewrite N.iter_succ, IH.
  unfold Spec.Scrypt.ROMix_step. cbv zeta. rewrite V_zeros by exact Hr. rewrite xor_zeros. apply BlockMix_zeros, Hr.
Qed.
Lemma ro_mix_zeros T s : mixes T s ->
  ro_mix T s (repeat zero64 (2 * N.to_nat (sr s))) = Ret (repeat zero64 (2 * N.to_nat (sr s))).
Proof.
  intros (Hr & [k Hk] & Hn & Ha).
  destruct (Proofs.Scrypt.ro_mix_ok T s _ k Hr Hk Hn Ha (zeros_vec _)) as (y & -> & Vy & Ey). f_equal.
  apply (vec_concat_inj (N.to_nat (sr s))); [exact Vy|apply zeros_vec|]. rewrite Ey. apply ROMix_zeros. destruct Hr; lia.
Qed.
