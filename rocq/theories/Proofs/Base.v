(** General lemmas: natural-number bit arithmetic, list operations of [Rust],
    loops. *)
From Coq Require Import ZArith NArith List Arith Lia Bool ZifyBool ZifyNat ZifyN.
From Verif Require Import Rust.
From Verif.Spec Require Import Octets.
Import ListNotations.
Local Open Scope N_scope.
Ltac Zify.zify_post_hook ::= Z.div_mod_to_equations.

(** * Bits *)

Lemma lt_pow2_testbit x n :
  x < 2 ^ n <-> forall m, n <= m -> N.testbit x m = false.
Proof.
  split.
  - intros Hx m Hm. destruct (N.eq_dec x 0) as [->|Hx0]; [apply N.bits_0|].
    apply N.bits_above_log2. apply N.log2_lt_pow2; [lia|].
    eapply N.lt_le_trans; [exact Hx|]. apply N.pow_le_mono_r; lia.
  - intros Hb. destruct (N.eq_dec x 0) as [->|Hx0].
    + apply N.neq_0_lt_0. apply N.pow_nonzero; lia.
    + apply N.log2_lt_pow2; [lia|].
      destruct (N.lt_ge_cases (N.log2 x) n) as [|Hge]; [assumption|].
      specialize (Hb _ Hge). rewrite N.bit_log2 in Hb by assumption. discriminate.
Qed.

Lemma lxor_lt a b n : a < 2 ^ n -> b < 2 ^ n -> N.lxor a b < 2 ^ n.
Proof.
  rewrite !lt_pow2_testbit. intros Ha Hb m Hm.
  rewrite N.lxor_spec, Ha, Hb by assumption. reflexivity.
Qed.
Lemma lor_lt a b n : a < 2 ^ n -> b < 2 ^ n -> N.lor a b < 2 ^ n.
Proof.
  rewrite !lt_pow2_testbit. intros Ha Hb m Hm.
  rewrite N.lor_spec, Ha, Hb by assumption. reflexivity.
Qed.
Lemma land_lt_l a b n : a < 2 ^ n -> N.land a b < 2 ^ n.
Proof.
  rewrite !lt_pow2_testbit. intros Ha m Hm.
  rewrite N.land_spec, Ha by assumption. reflexivity.
Qed.
Lemma land_lt_r a b n : b < 2 ^ n -> N.land a b < 2 ^ n.
Proof. rewrite N.land_comm. apply land_lt_l. Qed.

Lemma lxor_lt256 a b : a < 256 -> b < 256 -> N.lxor a b < 256.
Proof. change 256 with (2 ^ 8). apply lxor_lt. Qed.
Lemma lor_lt256 a b : a < 256 -> b < 256 -> N.lor a b < 256.
Proof. change 256 with (2 ^ 8). apply lor_lt. Qed.

Lemma lor_add_disjoint a b k : b < 2 ^ k -> N.lor (a * 2 ^ k) b = a * 2 ^ k + b.
Proof.
  intros Hb.
  assert (Hland : N.land (a * 2 ^ k) b = 0).
  { apply N.bits_inj_0. intros m. rewrite N.land_spec.
    destruct (N.lt_ge_cases m k) as [Hm|Hm].
    - rewrite N.mul_pow2_bits_low by assumption. reflexivity.
    - rewrite (proj1 (lt_pow2_testbit b k) Hb m Hm). apply andb_false_r. }
  rewrite <- N.lxor_lor by assumption.
  symmetry. apply N.add_nocarry_lxor. assumption.
Qed.

Lemma lor_add_disjoint' a b k : b < 2 ^ k -> N.lor b (a * 2 ^ k) = a * 2 ^ k + b.
Proof. rewrite N.lor_comm. apply lor_add_disjoint. Qed.

Lemma pow2_pos n : 0 < 2 ^ n.
Proof. apply N.neq_0_lt_0. apply N.pow_nonzero. lia. Qed.

(** Rotations as arithmetic. *)
Lemma shl32_split n s : s <= 32 -> n < 2 ^ 32 ->
  shl32 n s = (n mod 2 ^ (32 - s)) * 2 ^ s.
Proof.
  intros Hs Hn. unfold shl32. rewrite N.shiftl_mul_pow2.
  replace (2 ^ 32) with (2 ^ (32 - s) * 2 ^ s)
    by (rewrite <- N.pow_add_r; f_equal; lia).
  rewrite N.mul_mod_distr_r; [reflexivity| |]; apply N.pow_nonzero; lia.
Qed.

Lemma shr_div n s : shr n s = n / 2 ^ s.
Proof. apply N.shiftr_div_pow2. Qed.

Lemma rot_add n s : s <= 32 -> n < 2 ^ 32 ->
  N.lor (shl32 n s) (shr n (32 - s)) = (n mod 2 ^ (32 - s)) * 2 ^ s + n / 2 ^ (32 - s).
Proof.
  intros Hs Hn. rewrite shl32_split, shr_div by assumption.
  apply lor_add_disjoint.
  apply N.div_lt_upper_bound; [apply N.pow_nonzero; lia|].
  rewrite <- N.pow_add_r. replace (32 - s + s) with 32 by lia. assumption.
Qed.

(** * Lists *)

Lemma len_length {A} (l : list A) : N.to_nat (len l) = length l.
Proof. unfold len. lia. Qed.
Lemma len_app {A} (l l' : list A) : len (l ++ l') = len l + len l'.
Proof. unfold len. rewrite app_length. lia. Qed.
Lemma len_repeat {A} (x : A) n : len (repeat x n) = N.of_nat n.
Proof. unfold len. rewrite repeat_length. reflexivity. Qed.

Lemma idx_nth {A} (l : list A) i d :
  (N.to_nat i < length l)%nat -> idx l i = Ret (nth (N.to_nat i) l d).
Proof.
  intros Hi. unfold idx. rewrite (nth_error_nth' l d Hi). reflexivity.
Qed.

Lemma idx_none {A} (l : list A) i : (length l <= N.to_nat i)%nat -> idx l i = Panic.
Proof.
  intros Hi. unfold idx. rewrite (proj2 (nth_error_None l (N.to_nat i)) Hi). reflexivity.
Qed.

Lemma idx_app_l {A} (l l' : list A) i :
  (N.to_nat i < length l)%nat -> idx (l ++ l') i = idx l i.
Proof. intros Hi. unfold idx. rewrite nth_error_app1 by assumption. reflexivity. Qed.

Lemma set_nth_length {A} (l : list A) n v : length (set_nth l n v) = length l.
Proof. revert n; induction l as [|x l IH]; intros [|n]; cbn; auto. Qed.

Lemma set_nth_split {A} (l : list A) n v :
  (n < length l)%nat -> set_nth l n v = firstn n l ++ v :: skipn (S n) l.
Proof.
  revert n; induction l as [|x l IH]; intros [|n] Hn; cbn in *; try lia; auto.
  rewrite IH by lia. reflexivity.
Qed.

Lemma set_nth_app {A} (l l' : list A) x v :
  set_nth (l ++ x :: l') (length l) v = l ++ v :: l'.
Proof. induction l as [|y l IH]; cbn; [reflexivity|]. rewrite IH. reflexivity. Qed.

Lemma upd_ok {A} (l : list A) i v :
  (N.to_nat i < length l)%nat -> upd l i v = Ret (set_nth l (N.to_nat i) v).
Proof.
  intros Hi. unfold upd. destruct (N.ltb_spec i (len l)) as [|Hge]; [reflexivity|].
  unfold len in Hge. lia.
Qed.

Lemma upd_app {A} (l l' : list A) x v :
  upd (l ++ x :: l') (len l) v = Ret (l ++ v :: l').
Proof.
  rewrite upd_ok by (rewrite app_length, len_length; cbn; lia).
  rewrite len_length, set_nth_app. reflexivity.
Qed.

Lemma upd_app' {A} (l l' : list A) x v i :
  i = len l -> upd (l ++ x :: l') i v = Ret (l ++ v :: l').
Proof. intros ->. apply upd_app. Qed.

Lemma slice_ok {A} (l : list A) a b :
  (N.to_nat a <= N.to_nat b)%nat -> (N.to_nat b <= length l)%nat ->
  slice l a b = Ret (firstn (N.to_nat b - N.to_nat a) (skipn (N.to_nat a) l)).
Proof.
  intros H1 H2. unfold slice, len.
  destruct (N.leb_spec a b); [|lia].
  destruct (N.leb_spec b (N.of_nat (length l))); [|lia].
  cbn [andb]. rewrite N2Nat.inj_sub. reflexivity.
Qed.

Lemma slice_panic {A} (l : list A) a b :
  (length l < N.to_nat b)%nat -> slice l a b = Panic.
Proof.
  intros H. unfold slice, len.
  destruct (N.leb_spec b (N.of_nat (length l))); [lia|].
  rewrite andb_false_r. reflexivity.
Qed.

Lemma copy_from_slice_ok {A} (d s : list A) :
  length d = length s -> copy_from_slice d s = Ret s.
Proof.
  intros H. unfold copy_from_slice, len. rewrite H, N.eqb_refl. reflexivity.
Qed.

Lemma firstn_skipn_nth {A} (l : list A) n d :
  (n < length l)%nat -> skipn n l = nth n l d :: skipn (S n) l.
Proof.
  revert n; induction l as [|x l IH]; intros [|n] Hn; cbn in *; try lia; auto.
  rewrite (IH n) by lia. reflexivity.
Qed.

Lemma firstn_S_nth {A} (l : list A) n d :
  (n < length l)%nat -> firstn (S n) l = firstn n l ++ [nth n l d].
Proof.
  revert n; induction l as [|x l IH]; intros [|n] Hn; cbn in *; try lia; auto.
  rewrite <- (IH n) by lia. reflexivity.
Qed.

Lemma nth_set_nth_eq {A} (l : list A) n v d :
  (n < length l)%nat -> nth n (set_nth l n v) d = v.
Proof. revert n; induction l as [|x l IH]; intros [|n] Hn; cbn in *; try lia; auto. apply IH; lia. Qed.

Lemma nth_set_nth_neq {A} (l : list A) n m v d :
  n <> m -> nth m (set_nth l n v) d = nth m l d.
Proof.
  revert n m; induction l as [|x l IH]; intros [|n] [|m] Hn; cbn in *; try lia; auto.
Qed.

Lemma list_ext {A} (l l' : list A) d :
  length l = length l' -> (forall i, (i < length l)%nat -> nth i l d = nth i l' d) -> l = l'.
Proof. intros. eapply nth_ext; eauto. Qed.

Lemma nth_map_seq {A} (f : nat -> A) n i d : (i < n)%nat -> nth i (map f (seq 0 n)) d = f i.
Proof.
  intros Hi. rewrite (nth_indep _ d (f 0%nat)) by (rewrite map_length, seq_length; assumption).
  rewrite map_nth. rewrite seq_nth by assumption. reflexivity.
Qed.

Lemma length_n_cases {A} (l : list A) n :
  length l = S n -> exists x l', l = x :: l' /\ length l' = n.
Proof. destruct l as [|x l']; cbn; intros H; [discriminate|]. exists x, l'. split; [reflexivity|lia]. Qed.

Lemma skipn_skipn {A} (l : list A) x y : skipn x (skipn y l) = skipn (x + y) l.
Proof.
  revert l x; induction y as [|y IH]; intros l x; [rewrite Nat.add_0_r; reflexivity|].
  destruct l as [|a l]; [rewrite !skipn_nil; reflexivity|].
  rewrite Nat.add_succ_r. cbn [skipn]. apply IH.
Qed.

(** Destruct a list of known length. *)
Ltac destruct_list l :=
  repeat match goal with
  | H : length l = S _ |- _ =>
      let x := fresh "x" in let l' := fresh "l" in let E := fresh "E" in
      destruct (length_n_cases _ _ H) as (x & l' & E & ?); subst l; clear H;
      rename l' into l
  | H : length l = O |- _ => apply length_zero_iff_nil in H; subst l
  end.

(** * Loops *)

Lemma bind_assoc {A B C} (m : res A) (f : A -> res B) (g : B -> res C) :
  bind (bind m f) g = bind m (fun x => bind (f x) g).
Proof. destruct m; reflexivity. Qed.

Lemma for_n_inv {St} (Inv : N -> St -> Prop) (body : N -> St -> res St) n :
  forall i s,
  (forall j st, i <= j < i + N.of_nat n -> Inv j st ->
     exists st', body j st = Ret st' /\ Inv (N.succ j) st') ->
  Inv i s ->
  exists s', for_n n i body s = Ret s' /\ Inv (i + N.of_nat n) s'.
Proof.
  induction n as [|n IH]; intros i s Hstep Hi.
  - exists s. split; [reflexivity|]. rewrite N.add_0_r. assumption.
  - cbn [for_n]. destruct (Hstep i s ltac:(lia) Hi) as (s' & -> & Hs').
    cbn [bind]. destruct (IH (N.succ i) s') as (s'' & -> & Hs'').
    + intros j st Hj. apply Hstep. lia.
    + assumption.
    + exists s''. split; [reflexivity|]. replace (i + N.of_nat (S n)) with (N.succ i + N.of_nat n) by lia.
      assumption.
Qed.

Lemma for_range_inv {St} (Inv : N -> St -> Prop) (body : N -> St -> res St) lo hi s :
  lo <= hi ->
  (forall j st, lo <= j < hi -> Inv j st ->
     exists st', body j st = Ret st' /\ Inv (N.succ j) st') ->
  Inv lo s ->
  exists s', for_range lo hi body s = Ret s' /\ Inv hi s'.
Proof.
  intros Hle Hstep Hlo. unfold for_range.
  destruct (for_n_inv Inv body (N.to_nat (hi - lo)) lo s) as (s' & E & Hs').
  - intros j st Hj. apply Hstep. lia.
  - assumption.
  - exists s'. split; [assumption|]. replace (lo + N.of_nat (N.to_nat (hi - lo))) with hi in Hs' by lia.
    assumption.
Qed.

(** A loop whose steps are a pure function of the index. *)
Lemma for_n_fold {St} (f : N -> St -> St) (body : N -> St -> res St) n :
  forall i s, (forall j st, i <= j < i + N.of_nat n -> body j st = Ret (f j st)) ->
  for_n n i body s = Ret (fold_left (fun st j => f j st) (map (fun k => i + N.of_nat k) (seq 0 n)) s).
Proof.
  induction n as [|n IH]; intros i s H; [reflexivity|].
  cbn [for_n]. rewrite H by lia. cbn [bind].
  rewrite IH by (intros j st Hj; apply H; lia).
  cbn [seq map fold_left]. rewrite N.add_0_r. f_equal.
  f_equal. rewrite <- seq_shift, map_map. apply map_ext. intros k. lia.
Qed.

Lemma for_n_app {St} (body : N -> St -> res St) n m : forall i s,
  for_n (n + m) i body s =
  bind (for_n n i body s) (for_n m (i + N.of_nat n) body).
Proof.
  induction n as [|n IH]; intros i s; cbn [for_n Nat.add].
  - cbn [bind]. rewrite N.add_0_r. reflexivity.
  - rewrite bind_assoc. destruct (body i s) as [s'| |]; cbn [bind]; [|reflexivity|reflexivity].
    rewrite IH. replace (N.succ i + N.of_nat n) with (i + N.of_nat (S n)) by lia. reflexivity.
Qed.

Lemma for_n_ext {St} (body body' : N -> St -> res St) n : forall i s,
  (forall j st, i <= j < i + N.of_nat n -> body j st = body' j st) ->
  for_n n i body s = for_n n i body' s.
Proof.
  induction n as [|n IH]; intros i s H; [reflexivity|].
  cbn [for_n]. rewrite H by lia. destruct (body' i s); cbn [bind]; try reflexivity.
  apply IH. intros j st Hj. apply H. lia.
Qed.

(** Iterating a step that ignores the index. *)
Lemma for_n_iter {St} (P : St -> Prop) (f : St -> St) (body : N -> St -> res St) n : forall i s,
  P s -> (forall j st, P st -> body j st = Ret (f st) /\ P (f st)) ->
  for_n n i body s = Ret (Nat.iter n f s) /\ P (Nat.iter n f s).
Proof.
  intros i s Hs Hb. revert i s Hs.
  assert (Hcomm : forall k s, Nat.iter k f (f s) = f (Nat.iter k f s)).
  { induction k as [|k IHk]; intros s; [reflexivity|].
    change (f (Nat.iter k f (f s)) = f (f (Nat.iter k f s))). f_equal. apply IHk. }
  induction n as [|n IH]; intros i s Hs; [split; [reflexivity|assumption]|].
  cbn [for_n]. destruct (Hb i s Hs) as [-> Hfs]. cbn [bind].
  destruct (IH (N.succ i) (f s) Hfs) as [-> HP].
  change (Nat.iter (S n) f s) with (f (Nat.iter n f s)).
  rewrite Hcomm in HP |- *. split; [reflexivity|assumption].
Qed.

(** A loop that rewrites each cell of an array once. *)
Lemma fill_loop {A} (f : nat -> A -> A) (body : N -> list A -> res (list A)) (out : list A) d :
  (forall i o, (i < length out)%nat -> length o = length out ->
     body (N.of_nat i) o = upd o (N.of_nat i) (f i (nth i o d))) ->
  for_range 0 (len out) body out =
  Ret (map (fun i => f i (nth i out d)) (seq 0 (length out))).
Proof.
  intros Hb.
  destruct (for_range_inv
    (fun i o => length o = length out /\
       forall k, (k < length out)%nat ->
         nth k o d = if Nat.ltb k (N.to_nat i) then f k (nth k out d) else nth k out d)
    body 0 (len out) out) as (o & -> & Hlen & Ho).
  - lia.
  - intros j o Hj [Hlen Ho].
    assert (Hjn : (N.to_nat j < length out)%nat) by (unfold len in Hj; lia).
    rewrite <- (N2Nat.id j). rewrite Hb by assumption.
    rewrite upd_ok by (rewrite Nat2N.id; lia). eexists. split; [reflexivity|].
    rewrite Nat2N.id. split; [rewrite set_nth_length; assumption|].
    intros k Hk. rewrite N2Nat.inj_succ, N2Nat.id.
    destruct (Nat.eq_dec k (N.to_nat j)) as [->|Hne].
    + rewrite nth_set_nth_eq by lia. rewrite Ho by lia.
      destruct (Nat.ltb_spec (N.to_nat j) (N.to_nat j)); [lia|].
      destruct (Nat.ltb_spec (N.to_nat j) (S (N.to_nat j))); [reflexivity|lia].
    + rewrite nth_set_nth_neq by auto. rewrite Ho by lia.
      destruct (Nat.ltb_spec k (N.to_nat j)); destruct (Nat.ltb_spec k (S (N.to_nat j))); try lia; reflexivity.
  - split; [reflexivity|]. intros k Hk. cbn. reflexivity.
  - f_equal. apply (list_ext _ _ d); [rewrite map_length, seq_length; assumption|].
    intros i Hi. rewrite Ho by lia. rewrite len_length.
    rewrite nth_map_seq by lia. destruct (Nat.ltb_spec i (length out)); [reflexivity|lia].
Qed.

Lemma for_each_app {A St} (body : A -> St -> res St) l l' : forall s,
  for_each (l ++ l') body s = bind (for_each l body s) (for_each l' body).
Proof.
  induction l as [|x l IH]; intros s; cbn [for_each app]; [reflexivity|].
  rewrite bind_assoc. destruct (body x s); cbn [bind]; auto.
Qed.

Lemma map_res_ok {A B} (f : A -> res B) (g : A -> B) l :
  (forall x, In x l -> f x = Ret (g x)) -> map_res f l = Ret (map g l).
Proof.
  induction l as [|x l IH]; intros H; [reflexivity|].
  cbn [map_res map]. rewrite H by (left; reflexivity). cbn [bind].
  rewrite IH by (intros; apply H; right; assumption). reflexivity.
Qed.

(** * Octets *)

Lemma octets_app l l' : octets (l ++ l') <-> octets l /\ octets l'.
Proof. apply Forall_app. Qed.
Lemma octets_firstn n l : octets l -> octets (firstn n l).
Proof. intros H. rewrite <- (firstn_skipn n l) in H. apply octets_app in H. tauto. Qed.
Lemma octets_skipn n l : octets l -> octets (skipn n l).
Proof. intros H. rewrite <- (firstn_skipn n l) in H. apply octets_app in H. tauto. Qed.
Lemma octets_repeat x n : x < 256 -> octets (repeat x n).
Proof. intros Hx. apply Forall_forall. intros y Hy. apply repeat_spec in Hy. subst. assumption. Qed.
Lemma octets_nth l i : octets l -> nth i l 0 < 256.
Proof.
  intros H. destruct (Nat.lt_ge_cases i (length l)) as [Hi|Hi].
  - apply (proj1 (Forall_forall _ _) H). apply nth_In. assumption.
  - rewrite nth_overflow by assumption. lia.
Qed.
Lemma octets_nil : octets [].
Proof. constructor. Qed.
Lemma as_u8_lt x : as_u8 x < 256.
Proof. apply N.mod_lt. lia. Qed.

Lemma xor_length a b : length (xor a b) = Nat.min (length a) (length b).
Proof. revert b; induction a as [|x a IH]; intros [|y b]; cbn; auto. Qed.
Lemma octets_xor a b : octets a -> octets b -> octets (xor a b).
Proof.
  intros Ha; revert b; induction Ha as [|x a Hx Ha IH]; intros [|y b] Hb; cbn; try constructor.
  - inversion Hb; subst. apply lxor_lt256; assumption.
  - inversion Hb; subst. apply IH; assumption.
Qed.
Lemma zip_xor_xor a b : zip_xor a b = xor a b.
Proof. reflexivity. Qed.
Lemma xor_into_xor a b : length a = length b -> xor_into a b = xor a b.
Proof. revert b; induction a as [|x a IH]; intros [|y b] H; cbn in *; try reflexivity; try discriminate. rewrite IH by lia. reflexivity. Qed.

Lemma nth_xor a b i : (i < length a)%nat -> (i < length b)%nat ->
  nth i (xor a b) 0 = N.lxor (nth i a 0) (nth i b 0).
Proof.
  revert b i; induction a as [|x a IH]; intros [|y b] [|i] Ha Hb; cbn in *; try lia; auto.
  apply IH; lia.
Qed.

Lemma xor_app a a' b b' : length a = length b -> xor (a ++ a') (b ++ b') = xor a b ++ xor a' b'.
Proof. revert b; induction a as [|x a IH]; intros [|y b] H; cbn in *; try discriminate; try reflexivity. rewrite IH by lia. reflexivity. Qed.

Lemma xor_cancel_r a b : length a = length b -> xor (xor a b) b = a.
Proof.
  revert b; induction a as [|x a IH]; intros [|y b] H; cbn in *; try discriminate; auto.
  rewrite IH by lia. f_equal. rewrite N.lxor_assoc, N.lxor_nilpotent, N.lxor_0_r. reflexivity.
Qed.
Lemma xor_comm a b : xor a b = xor b a.
Proof. revert b; induction a as [|x a IH]; intros [|y b]; cbn; try reflexivity. rewrite IH, N.lxor_comm. reflexivity. Qed.
Lemma xor_assoc a b c : xor (xor a b) c = xor a (xor b c).
Proof. revert b c; induction a as [|x a IH]; intros [|y b] [|z c]; cbn; try reflexivity. rewrite IH, N.lxor_assoc. reflexivity. Qed.
Lemma xor_cancel_l a b : length a = length b -> xor a (xor a b) = b.
Proof. intros H. rewrite xor_comm, (xor_comm a b). apply xor_cancel_r. auto. Qed.

(** * Groups and blocks *)

Lemma groups_length {A} k n (l : list A) : length (groups k n l) = k.
Proof. revert l; induction k as [|k IH]; intros l; cbn; auto. Qed.

Lemma groups_app {A} k k' n (l l' : list A) :
  length l = (k * n)%nat -> groups (k + k') n (l ++ l') = groups k n l ++ groups k' n l'.
Proof.
  revert l; induction k as [|k IH]; intros l Hl; cbn [groups Nat.add app].
  - destruct l; [reflexivity|cbn in Hl; lia].
  - cbn in Hl. rewrite firstn_app. replace (n - length l)%nat with 0%nat by lia.
    cbn [firstn]. rewrite app_nil_r. f_equal.
    rewrite skipn_app. replace (n - length l)%nat with 0%nat by lia. cbn [skipn].
    apply IH. rewrite skipn_length. lia.
Qed.

Lemma groups_all_length {A} k n (l : list A) g :
  (k * n <= length l)%nat -> In g (groups k n l) -> length g = n.
Proof.
  revert l; induction k as [|k IH]; intros l Hl Hg; cbn in *; [contradiction|].
  destruct Hg as [<-|Hg]; [rewrite firstn_length; lia|].
  apply (IH (skipn n l)); [rewrite skipn_length; lia|assumption].
Qed.

Lemma groups_concat {A} k n (l : list A) :
  (k * n <= length l)%nat -> concat (groups k n l) = firstn (k * n) l.
Proof.
  revert l; induction k as [|k IH]; intros l Hl; cbn [groups concat]; [reflexivity|].
  rewrite IH by (rewrite skipn_length; lia).
  rewrite <- (firstn_skipn n l) at 3. rewrite firstn_app, firstn_length.
  replace (Nat.min n (length l)) with n by lia.
  replace (S k * n - n)%nat with (k * n)%nat by lia.
  rewrite (firstn_all2 (n := (S k * n))); [reflexivity|]. rewrite firstn_length. lia.
Qed.

Lemma nth_groups {A} k n (l : list A) i :
  (i < k)%nat -> nth i (groups k n l) [] = firstn n (skipn (i * n) l).
Proof.
  revert l i; induction k as [|k IH]; intros l i Hi; [lia|].
  destruct i as [|i]; cbn [groups nth]; [reflexivity|].
  rewrite IH by lia. rewrite skipn_skipn. f_equal. f_equal. lia.
Qed.

Lemma blocks_app {A} n (l l' : list A) :
  (n <> 0)%nat -> (length l mod n = 0)%nat -> blocks n (l ++ l') = blocks n l ++ blocks n l'.
Proof.
  intros Hn Hl. unfold blocks. rewrite app_length.
  apply Nat.mod_divides in Hl; [|assumption]. destruct Hl as [k Hk].
  rewrite Hk. rewrite (Nat.mul_comm n k).
  rewrite Nat.div_add_l by assumption. rewrite Nat.div_mul by assumption.
  apply groups_app. lia.
Qed.

Lemma blocks_nil {A} n : blocks n (@nil A) = [].
Proof. unfold blocks. cbn [length]. destruct n; [reflexivity|]. rewrite Nat.div_0_l by lia. reflexivity. Qed.

Lemma blocks_single {A} n (l : list A) : (n <> 0)%nat -> length l = n -> blocks n l = [l].
Proof.
  intros Hn Hl. unfold blocks. rewrite Hl, Nat.div_same by assumption.
  cbn [groups]. rewrite firstn_all2 by lia. reflexivity.
Qed.

Lemma blocks_all_length {A} n (l : list A) g : In g (blocks n l) -> length g = n.
Proof.
  unfold blocks. intros H. destruct n as [|n]; [cbn in H; contradiction|].
  eapply groups_all_length; [|exact H]. rewrite Nat.mul_comm. apply Nat.mul_div_le. lia.
Qed.

Lemma blocks_concat {A} n (l : list A) :
  (n <> 0)%nat -> (length l mod n = 0)%nat -> concat (blocks n l) = l.
Proof.
  intros Hn Hl. unfold blocks.
  assert (length l = (length l / n) * n)%nat.
  { pose proof (Nat.div_mod (length l) n Hn). lia. }
  rewrite groups_concat by lia. apply firstn_all2. lia.
Qed.

Lemma blocks_length {A} n (l : list A) : length (blocks n l) = (length l / n)%nat.
Proof. apply groups_length. Qed.

Lemma concat_same_length {A} (L : list (list A)) n :
  Forall (fun l => length l = n) L -> length (concat L) = (length L * n)%nat.
Proof.
  induction 1 as [|l L Hl HL IH]; [reflexivity|]. cbn [concat length].
  rewrite app_length, IH, Hl. lia.
Qed.

Lemma blocks_of_concat {A} n (L : list (list A)) :
  (n <> 0)%nat -> Forall (fun l => length l = n) L -> blocks n (concat L) = L.
Proof.
  intros Hn. induction 1 as [|l L Hl HL IH]; [apply blocks_nil|].
  cbn [concat]. rewrite blocks_app; [|assumption|rewrite Hl; apply Nat.mod_same; assumption].
  rewrite blocks_single, IH by assumption. reflexivity.
Qed.

Lemma octets_blocks n l g : octets l -> In g (blocks n l) -> octets g.
Proof.
  unfold blocks. generalize (length l / n)%nat as k. intros k. revert l.
  induction k as [|k IH]; intros l Hl Hg; cbn in Hg; [contradiction|].
  destruct Hg as [<-|Hg]; [apply octets_firstn; assumption|].
  eapply IH; [|exact Hg]. apply octets_skipn. assumption.
Qed.

Lemma octets_concat L : Forall octets L -> octets (concat L).
Proof. induction 1; cbn; [constructor|]. apply octets_app. split; assumption. Qed.

(** [Rust.chunks] on a multiple of the chunk size. *)
Lemma chunks_fuel_groups {A} k n (l : list A) fuel :
  (0 < n)%nat -> length l = (k * n)%nat -> (k <= fuel)%nat -> chunks_fuel fuel n l = groups k n l.
Proof.
  intros Hn. revert l fuel; induction k as [|k IH]; intros l fuel Hl Hf.
  - destruct l; [destruct fuel; reflexivity|cbn in Hl; lia].
  - destruct fuel as [|fuel]; [lia|]. destruct l as [|x l]; [cbn in Hl; lia|].
    cbn [chunks_fuel groups]. f_equal. apply IH; [rewrite skipn_length; lia|lia].
Qed.

Lemma chunks_blocks {A} (l : list A) n :
  n <> 0 -> (length l mod N.to_nat n = 0)%nat -> chunks l n = Ret (blocks (N.to_nat n) l).
Proof.
  intros Hn Hl. unfold chunks. destruct (N.eqb_spec n 0); [contradiction|].
  f_equal. unfold blocks. apply Nat.mod_divides in Hl; [|lia]. destruct Hl as [k Hk].
  rewrite Hk at 2. rewrite Nat.mul_comm, Nat.div_mul by lia.
  apply chunks_fuel_groups; [lia|lia|]. rewrite Hk. nia.
Qed.

Lemma filter_all {A} (f : A -> bool) l : (forall x, In x l -> f x = true) -> filter f l = l.
Proof.
  induction l as [|x l IH]; intros H; [reflexivity|]. cbn.
  rewrite H by (left; reflexivity). rewrite IH by (intros; apply H; right; assumption). reflexivity.
Qed.

Lemma chunks_exact_blocks {A} (l : list A) n :
  n <> 0 -> (length l mod N.to_nat n = 0)%nat -> chunks_exact l n = Ret (blocks (N.to_nat n) l).
Proof.
  intros Hn Hl. pose proof (chunks_blocks l n Hn Hl) as Hc.
  unfold chunks in Hc. unfold chunks_exact. destruct (N.eqb_spec n 0); [contradiction|].
  injection Hc as Hc. rewrite Hc. f_equal. apply filter_all.
  intros x Hx. apply blocks_all_length in Hx. unfold len. rewrite Hx, N2Nat.id. apply N.eqb_refl.
Qed.

(** * usize arithmetic in range *)
Lemma usize_mod_ge T : 2 ^ 32 <= usize_mod T.
Proof. unfold usize_mod, usize_bits. destruct (width T); vm_compute; discriminate. Qed.
Lemma isize_usize T : usize_mod T = 2 * isize_max T + 2.
Proof. unfold usize_mod, isize_max, usize_bits. destruct (width T); reflexivity. Qed.
Lemma fit_ok T x : x < usize_mod T -> fit_usize T x = Ret x.
Proof. intros H. unfold fit_usize. destruct (N.ltb_spec x (usize_mod T)); [reflexivity|lia]. Qed.
Lemma uadd_ok T a b : a + b < usize_mod T -> uadd T a b = Ret (a + b).
Proof. apply fit_ok. Qed.
Lemma umul_ok T a b : a * b < usize_mod T -> umul T a b = Ret (a * b).
Proof. apply fit_ok. Qed.
Lemma usub_ok T a b : b <= a -> usub T a b = Ret (a - b).
Proof. intros H. unfold usub. destruct (N.leb_spec b a); [reflexivity|lia]. Qed.
Lemma urem_ok a b : b <> 0 -> urem a b = Ret (a mod b).
Proof. intros H. unfold urem. destruct (N.eqb_spec b 0); [contradiction|reflexivity]. Qed.
Lemma udiv_ok a b : b <> 0 -> udiv a b = Ret (a / b).
Proof. intros H. unfold udiv. destruct (N.eqb_spec b 0); [contradiction|reflexivity]. Qed.
