(** Differences through the substitution table and through the rounds of AES. *)
From Coq Require Import ZArith NArith List Arith Lia Bool ZifyBool ZifyNat ZifyN.
From Verif Require Import Rust.
From Verif.Spec Require Import Octets Counting Diffusion Differential Aes.
From Verif.Model Require Import Aes.
From Verif.Proofs Require Import Base Gf Count Aes Diffusion.
Import ListNotations.
Local Open Scope N_scope.

(** * Values that occur at most [m] times in a list *)

Definition agree (k : nat) (x y : N) : bool := x mod 2 ^ N.of_nat k =? y mod 2 ^ N.of_nat k.

Fixpoint at_most (m k : nat) (l : list N) : bool :=
  match k with
  | O => (length l <=? m)%nat
  | S k => at_most m k (filter (fun y => N.testbit y (N.of_nat k)) l)
           && at_most m k (filter (fun y => negb (N.testbit y (N.of_nat k))) l)
  end.

Lemma mod_pow_succ x k : x mod 2 ^ (N.succ k) = x mod 2 ^ k + 2 ^ k * N.b2n (N.testbit x k).
Proof.
  rewrite N.testbit_eqb, N.pow_succ_r', (N.mul_comm 2), N.mod_mul_r by (try apply N.pow_nonzero; discriminate).
  f_equal. f_equal. pose proof (N.mod_lt (x / 2 ^ k) 2 ltac:(discriminate)) as H. revert H. generalize ((x / 2 ^ k) mod 2). intros m H. destruct (N.eqb_spec m 1) as [E|E].
  - exact E.
  - cbn [N.b2n]. lia.
Qed.

Lemma agree_succ k x y : agree (S k) x y = agree k x y && Bool.eqb (N.testbit x (N.of_nat k)) (N.testbit y (N.of_nat k)).
Proof.
  unfold agree. rewrite Nat2N.inj_succ, !mod_pow_succ. set (p := 2 ^ N.of_nat k).
  assert (Hp : p <> 0) by (apply N.pow_nonzero; discriminate).
  pose proof (N.mod_lt x p Hp). pose proof (N.mod_lt y p Hp).
  destruct (N.testbit x (N.of_nat k)), (N.testbit y (N.of_nat k)); cbn [N.b2n Bool.eqb];
    rewrite ?N.mul_0_r, ?N.mul_1_r, ?N.add_0_r, ?andb_true_r, ?andb_false_r;
    apply Bool.eq_iff_eq_true; rewrite !N.eqb_eq; lia.
Qed.

Lemma filter_filter {A} (f g : A -> bool) l : filter f (filter g l) = filter (fun x => f x && g x) l.
Proof.
  induction l as [|x l IH]; [reflexivity|]. cbn [filter]. destruct (g x) eqn:G; cbn [filter].
  - rewrite IH, andb_true_r. reflexivity.
  - rewrite IH, andb_false_r. reflexivity.
Qed.

Lemma at_most_ok m k : forall l b, at_most m k l = true -> (length (filter (fun y => agree k y b) l) <= m)%nat.
Proof.
  induction k as [|k IH]; intros l b; cbn [at_most].
  - intros H. apply Nat.leb_le in H. rewrite (filter_ext (fun y => agree 0 y b) (fun _ => true)).
    + replace (filter (fun _ => true) l) with l; [exact H|]. clear. induction l; cbn; congruence.
    + intros y. unfold agree. cbn [N.of_nat N.pow]. rewrite !N.mod_1_r. reflexivity.
  - intros H. apply andb_true_iff in H. destruct H as [H1 H2].
    rewrite (filter_ext _ _ (fun y => agree_succ k y b)). destruct (N.testbit b (N.of_nat k)).
    + rewrite (filter_ext _ (fun y => agree k y b && N.testbit y (N.of_nat k)))
        by (intros y; destruct (N.testbit y (N.of_nat k)); reflexivity).
      rewrite <- (filter_filter (fun y => agree k y b)). apply IH, H1.
    + rewrite (filter_ext _ (fun y => agree k y b && negb (N.testbit y (N.of_nat k))))
        by (intros y; destruct (N.testbit y (N.of_nat k)); reflexivity).
      rewrite <- (filter_filter (fun y => agree k y b)). apply IH, H2.
Qed.

(** * The substitution tables *)

(** How often a table carries the difference [a] to [c]. *)
Definition moves (f : N -> N) (a c x : N) : bool := N.lxor (f (N.lxor x a)) (f x) =? c.
Definition passing (f : N -> N) (a c : N) : nat := length (filter (moves f a c) all_octets).

(** The table as a tree, to look values up quickly. *)
Inductive tree := Leaf (v : N) | Node (even odd : tree).
Fixpoint look (t : tree) (x : N) : N :=
  match t with
  | Leaf v => v
  | Node e o => if N.odd x then look o (N.div2 x) else look e (N.div2 x)
  end.
(** The leaves at [i], [i + s], [i + 2 s], ... of a list. *)
Fixpoint plant (depth : nat) (l : list N) (i s : nat) : tree :=
  match depth with
  | O => Leaf (nth i l 0)
  | S d => Node (plant d l i (2 * s)) (plant d l (i + s) (2 * s))
  end.
Definition sbox_tree : tree := Eval vm_compute in plant 8 SBOX 0 1.

Definition tree_diff (t : tree) (a x : N) : N := N.lxor (look t (N.lxor x a)) (look t x).

Lemma sbox_tree_ok : forallb (fun x => look sbox_tree (N.of_nat x) =? nth x SBOX 0) (seq 0 256) = true.
Proof. vm_compute. reflexivity. Qed.
Definition some_octets : list N := Eval vm_compute in map N.of_nat (seq 0 256).
Lemma sbox_table : forallb (fun a => at_most 4 8 (map (tree_diff sbox_tree a) some_octets)) (map N.of_nat (seq 1 255)) = true.
Proof. vm_compute. reflexivity. Qed.

Lemma length_filter_map {A B} (f : B -> bool) (g : A -> B) l :
  length (filter f (map g l)) = length (filter (fun x => f (g x)) l).
Proof. induction l as [|x l IH]; [reflexivity|]. cbn [map filter]. destruct (f (g x)); cbn [length]; lia. Qed.

Lemma forallb_nonzero (P : N -> bool) : forallb P (map N.of_nat (seq 1 255)) = true ->
  forall a, a <> 0 -> a < 256 -> P a = true.
Proof.
  intros H a Ha Ha'. rewrite forallb_forall in H. apply H.
  apply in_map_iff. exists (N.to_nat a). split; [apply N2Nat.id|]. apply in_seq. lia.
Qed.

Lemma idx_nth {A} (l : list A) i x d : idx l i = Ret x -> nth (N.to_nat i) l d = x.
Proof.
  unfold idx. destruct (nth_error l (N.to_nat i)) eqn:E; [|discriminate]. intros H. injection H as <-.
  apply nth_error_nth. exact E.
Qed.
Lemma look_sbox x : x < 256 -> look sbox_tree x = SubByte x.
Proof.
  intros Hx. pose proof sbox_tree_ok as H. rewrite forallb_forall in H. specialize (H (N.to_nat x)).
  rewrite in_seq in H. specialize (H ltac:(lia)). apply N.eqb_eq in H. rewrite N2Nat.id in H. rewrite H.
  apply idx_nth, sbox_ok, Hx.
Qed.
Lemma some_octets_all : some_octets = all_octets.
Proof. with_strategy transparent [all_octets] unfold all_octets. vm_compute. reflexivity. Qed.

Lemma sub_passing a c : a <> 0 -> a < 256 -> c < 256 -> (passing SubByte a c <= 4)%nat.
Proof.
  intros Ha Ha' Hc. pose proof (forallb_nonzero _ sbox_table a Ha Ha') as Hb. cbv beta in Hb.
  apply (at_most_ok 4 8 _ c) in Hb. rewrite length_filter_map, some_octets_all in Hb. unfold passing.
  rewrite (filter_ext_in (moves SubByte a c) (fun x => agree 8 (tree_diff sbox_tree a x) c)); [exact Hb|].
  intros x Hx. apply all_octets_in in Hx. clear Hb.
  assert (Hxa : N.lxor x a < 256) by (apply lxor_lt256; assumption).
  unfold moves, tree_diff, agree. change (2 ^ N.of_nat 8) with 256. rewrite !look_sbox by assumption.
  rewrite !N.mod_small; [reflexivity|exact Hc|apply lxor_lt256; apply SubByte_lt].
Qed.

(** The inverse table carries [a] to [c] where the table carries [c] to [a]. *)
Lemma passing_inv a c : a < 256 -> c < 256 -> (passing InvSubByte a c <= passing SubByte c a)%nat.
Proof.
  intros Ha Hc. unfold passing. rewrite <- (map_length InvSubByte (filter (moves InvSubByte a c) all_octets)).
  apply NoDup_incl_length.
  - apply NoDup_map; [apply NoDup_filter, all_octets_nodup|].
    intros x y Hx Hy. apply (proj1 (filter_In _ _ _)) in Hx, Hy. destruct Hx as [Hx _], Hy as [Hy _].
    rewrite all_octets_in in Hx, Hy. apply InvSubByte_inj; assumption.
  - intros y Hy. rewrite in_map_iff in Hy. destruct Hy as (x & <- & Hx). apply (proj1 (filter_In _ _ _)) in Hx.
    destruct Hx as [Hx M]. rewrite all_octets_in in Hx. apply (proj2 (filter_In _ _ _)). split; [apply all_octets_in, InvSubByte_lt, Hx|].
    unfold moves in *. apply N.eqb_eq in M. apply N.eqb_eq.
    assert (Hxa : N.lxor x a < 256) by (apply lxor_lt256; assumption).
    assert (E : N.lxor (InvSubByte x) c = InvSubByte (N.lxor x a)).
    { rewrite <- M, (N.lxor_comm (InvSubByte (N.lxor x a))), <- N.lxor_assoc, N.lxor_nilpotent, N.lxor_0_l. reflexivity. }
    rewrite E, !SubByte_InvSubByte by assumption.
    rewrite (N.lxor_comm x a), N.lxor_assoc, N.lxor_nilpotent, N.lxor_0_r. reflexivity.
Qed.
Lemma filter_none {A} (p : A -> bool) l : (forall x, In x l -> p x = false) -> filter p l = [].
Proof.
  induction l as [|x l IH]; intros H; [reflexivity|]. cbn [filter]. rewrite (H x) by (left; reflexivity).
  apply IH. intros y Hy. apply H. right. exact Hy.
Qed.
Lemma passing_zero f c : c <> 0 -> passing f 0 c = 0%nat.
Proof.
  intros Hc. apply length_zero_iff_nil, filter_none. intros x _. unfold moves.
  rewrite N.lxor_0_r, N.lxor_nilpotent. apply N.eqb_neq. congruence.
Qed.
Lemma inv_sub_passing a c : a <> 0 -> a < 256 -> c < 256 -> (passing InvSubByte a c <= 4)%nat.
Proof.
  intros Ha Ha' Hc. pose proof (passing_inv a c Ha' Hc) as H. destruct (N.eq_dec c 0) as [->|Hn].
  - rewrite passing_zero in H by exact Ha. etransitivity; [exact H|apply Nat.le_0_l].
  - etransitivity; [exact H|]. apply sub_passing; assumption.
Qed.

(** * Strings, octet by octet *)

Fixpoint fits (f : N -> N) (a c x : list N) : bool :=
  match a, c, x with
  | [], [], [] => true
  | a :: a', c :: c', x :: x' => moves f a c x && fits f a' c' x'
  | _, _, _ => false
  end.

Fixpoint ways (f : N -> N) (a c : list N) : N :=
  match a, c with
  | a :: a', c :: c' => N.of_nat (passing f a c) * ways f a' c'
  | _, _ => 1
  end.

Lemma filter_flat_map {A B} (p : B -> bool) (g : A -> list B) l :
  filter p (flat_map g l) = flat_map (fun x => filter p (g x)) l.
Proof. induction l as [|x l IH]; [reflexivity|]. cbn [flat_map]. rewrite filter_app, IH. reflexivity. Qed.
Lemma sum_over_filter {A} (p : A -> bool) (v : N) l :
  sum_over (fun x => if p x then v else 0) l = N.of_nat (length (filter p l)) * v.
Proof. induction l as [|x l IH]; [reflexivity|]. cbn [sum_over filter]. destruct (p x); cbn [length]; lia. Qed.

Lemma fits_count f a : forall c, length c = length a -> N.of_nat (length (filter (fits f a c) (words (length a)))) = ways f a c.
Proof.
  induction a as [|a a' IH]; intros [|c c'] Hc; try discriminate; [reflexivity|].
  cbn [length words ways]. rewrite filter_flat_map, length_flat_map.
  rewrite (sum_over_ext _ (fun x => if moves f a c x then ways f a' c' else 0)).
  - rewrite sum_over_filter. unfold passing. reflexivity.
  - intros x _. rewrite length_filter_map. cbn [fits]. destruct (moves f a c x).
    + rewrite <- (IH c') by (cbn [length] in Hc; lia). reflexivity.
    + cbn [andb].
      rewrite filter_none by reflexivity. reflexivity.
Qed.

Lemma filter_length_le {A} (p : A -> bool) l : (length (filter p l) <= length l)%nat.
Proof. induction l as [|x l IH]; cbn [filter length]; [lia|]. destruct (p x); cbn [length]; lia. Qed.

Lemma passing_le f a c : N.of_nat (passing f a c) <= 256.
Proof.
  unfold passing. pose proof (filter_length_le (moves f a c) all_octets) as H. rewrite all_octets_length in H. revert H.
  generalize (length (filter (moves f a c) all_octets)). intros n H. lia.
Qed.

Lemma ways_bound f : (forall a c, a <> 0 -> a < 256 -> c < 256 -> (passing f a c <= 4)%nat) ->
  forall a c, octets a -> octets c -> length c = length a ->
  ways f a c * 64 ^ active a <= 256 ^ N.of_nat (length a).
Proof.
  intros Hf. induction a as [|a a' IH]; intros [|c c'] Ha Hc Hl; try discriminate.
  apply Forall_cons_iff in Ha, Hc. destruct Ha as [Ha Ha'], Hc as [Hc Hc'].
  specialize (IH c' Ha' Hc' ltac:(cbn [length] in Hl; lia)).
  cbn [ways length]. rewrite Nat2N.inj_succ, N.pow_succ_r'. unfold active in *. cbn [filter].
  destruct (N.eqb_spec a 0) as [->|Hn]; cbn [negb].
  - rewrite <- N.mul_assoc. apply N.mul_le_mono; [apply passing_le|exact IH].
  - specialize (Hf a c Hn Ha Hc). cbn [length]. rewrite Nat2N.inj_succ, N.pow_succ_r'.
    revert Hf IH. generalize (passing f a c) (ways f a' c') (256 ^ N.of_nat (length a')).
    generalize (64 ^ N.of_nat (length (filter (fun x => negb (x =? 0)) a'))). intros q p w e Hf IH.
    replace (N.of_nat p * w * (64 * q)) with (N.of_nat p * 64 * (w * q)) by ring.
    apply N.mul_le_mono; [lia|exact IH].
Qed.

(** * Sums of states *)

Definition sxor (s t : state) : state := matrix (fun r c => N.lxor (entry s r c) (entry t r c)).
Lemma sxor_wf s t : wf s -> wf t -> wf (sxor s t).
Proof. intros [_ Hs] [_ Ht]. apply matrix_wf. intros. apply lxor_lt256; auto. Qed.
Lemma sxor_entry s t r c : (r < 4)%nat -> (c < 4)%nat -> entry (sxor s t) r c = N.lxor (entry s r c) (entry t r c).
Proof. intros. unfold sxor. rewrite entry_matrix by assumption. reflexivity. Qed.

Lemma nth_xor a b i : length a = length b -> nth i (xor a b) 0 = N.lxor (nth i a 0) (nth i b 0).
Proof.
  revert b i. induction a as [|x a IH]; intros [|y b] [|i] H; try discriminate; try reflexivity.
  cbn [xor nth]. apply IH. cbn [length] in H. lia.
Qed.
Lemma state_xor a b : length a = length b -> state_of_input (xor a b) = sxor (state_of_input a) (state_of_input b).
Proof.
  intros H. unfold sxor. unfold state_of_input at 1. apply matrix_ext. intros r c Hr Hc.
  rewrite nth_xor by exact H. unfold state_of_input. rewrite !entry_matrix by assumption. reflexivity.
Qed.
Lemma mix_sxor k0 k1 k2 k3 s t : In k0 multipliers -> In k1 multipliers -> In k2 multipliers -> In k3 multipliers ->
  wf s -> wf t -> mix_with [k0; k1; k2; k3] (sxor s t) = sxor (mix_with [k0; k1; k2; k3] s) (mix_with [k0; k1; k2; k3] t).
Proof.
  intros H0 H1 H2 H3 Hs Ht. apply wf_eq; [apply mix_with_wf|apply sxor_wf; apply mix_with_wf|].
  intros r c Hr Hc. rewrite sxor_entry by assumption.
  rewrite !mix_entry by (assumption || apply sxor_wf; assumption).
  rewrite !sxor_entry by (assumption || apply Nat.mod_upper_bound; lia). apply circ_lxor.
Qed.
Lemma shift_sxor s t : ShiftRows (sxor s t) = sxor (ShiftRows s) (ShiftRows t).
Proof.
  unfold ShiftRows at 1. unfold sxor at 2. apply matrix_ext. intros r c Hr Hc. unfold ShiftRows.
  rewrite !entry_matrix by assumption. apply sxor_entry; [assumption|apply Nat.mod_upper_bound; lia].
Qed.
Lemma plus_key_sxor k s t : plus_key k (sxor s t) = sxor (plus_key k s) t.
Proof.
  unfold plus_key at 1. unfold sxor at 2. apply matrix_ext. intros r c Hr Hc. unfold plus_key.
  rewrite !entry_matrix, sxor_entry by assumption.
  rewrite !N.lxor_assoc. f_equal. apply N.lxor_comm.
Qed.
Lemma plus_key_twice k s : wf s -> plus_key k (plus_key k s) = s.
Proof.
  intros Hs. apply wf_eq; [apply plus_key_wf, plus_key_wf, Hs|exact Hs|]. intros r c Hr Hc.
  unfold plus_key. rewrite !entry_matrix by assumption. rewrite N.lxor_assoc, N.lxor_nilpotent, N.lxor_0_r. reflexivity.
Qed.

(** * A round on 16 octets *)

(** The bodies of the loops of [encrypt] and [decrypt], on the bytes of the state in
    the order in which [to_block] reads and [from_block] writes them. *)
Definition round_bytes (w : list N) (r : N) (x : list N) : res (list N) :=
  let* s := to_block x in let* t := round_body w r s in from_block t.
Definition unround_bytes (w : list N) (r : N) (x : list N) : res (list N) :=
  let* s := to_block x in let* t := unround_body w r s in from_block t.

(** [x] makes a function return [y]. *)
Definition giving {A B} (R : A -> res B) (x : A) (y : B) : Prop := R x = Ret y.

Definition is16 (x : list N) : Prop := length x = 16%nat /\ octets x.
Lemma is16_xor x y : is16 x -> is16 y -> is16 (xor x y).
Proof. intros [Hx Ox] [Hy Oy]. split; [rewrite xor_length; lia|apply octets_xor; assumption]. Qed.
Lemma is16_output s : wf s -> is16 (output_of_state s).
Proof. intros H. split; [apply output_length|apply octets_output, H]. Qed.

Lemma cons_iff {A} (x y : A) l m : x :: l = y :: m <-> x = y /\ l = m.
Proof. split; [intros H; injection H; auto|intros [-> ->]; reflexivity]. Qed.

(** Octet by octet, a substitution carries [a] to [c]. *)
Lemma fits_map f a : forall c x, length c = length a -> length x = length a ->
  (fits f a c x = true <-> map f (xor x a) = xor (map f x) c).
Proof.
  induction a as [|a a' IH]; intros [|c c'] [|x x'] Hc Hx; try discriminate.
  - split; reflexivity.
  - cbn [fits xor map]. rewrite cons_iff, andb_true_iff, (IH c' x') by (cbn [length] in *; lia).
    unfold moves. rewrite N.eqb_eq. apply and_iff_compat_r. split.
    + intros <-. rewrite (N.lxor_comm (f (N.lxor x a))), <- N.lxor_assoc, N.lxor_nilpotent, N.lxor_0_l. reflexivity.
    + intros ->. rewrite (N.lxor_comm (f x)), N.lxor_assoc, N.lxor_nilpotent, N.lxor_0_r. reflexivity.
Qed.

Lemma sub_output s : output_of_state (SubBytes s) = map SubByte (output_of_state s).
Proof. reflexivity. Qed.
Lemma inv_sub_output s : output_of_state (InvSubBytes s) = map InvSubByte (output_of_state s).
Proof. reflexivity. Qed.
Lemma sxor_output s t : output_of_state (sxor s t) = xor (output_of_state s) (output_of_state t).
Proof. reflexivity. Qed.

(** A string with as many octets as the state, carried through a bijection [L] that
    respects sums and, before it, a substitution. *)
Lemma carried_ways (R : list N -> res (list N)) (f : N -> N) (F L M : state -> state) a b :
  (forall x, is16 x -> R x = Ret (output_of_state (L (F (state_of_input x))))) ->
  (forall s, wf s -> wf (F s)) -> (forall s, wf s -> wf (L s)) -> (forall s, wf s -> wf (M s)) ->
  (forall s, output_of_state (F s) = map f (output_of_state s)) ->
  (forall s t, wf s -> wf t -> L (sxor s (M t)) = sxor (L s) t) ->
  (forall s t, wf s -> wf t -> L s = L t -> s = t) ->
  is16 a -> is16 b -> exists c, c = output_of_state (M (state_of_input b)) /\ is16 c /\ carried (giving R) a b (ways f a c).
Proof.
  intros HR WF WL WM Ff HL Linj Ha Hb. set (c := output_of_state (M (state_of_input b))).
  assert (Wb : wf (state_of_input b)) by apply state_of_input_wf, Hb.
  assert (Hc : is16 c) by (apply is16_output, WM, Wb).
  exists c. split; [reflexivity|]. split; [exact Hc|].
  assert (Oinj : forall s t, wf s -> wf t -> output_of_state s = output_of_state t -> s = t).
  { intros s t Hs Ht E. rewrite <- (input_of_output s Hs), <- (input_of_output t Ht), E. reflexivity. }
  assert (K : forall x, is16 x -> (fits f a c x = true <-> carries (giving R) a b x)).
  { intros x Hx. assert (Hxa : is16 (xor x a)) by (apply is16_xor; assumption).
    rewrite fits_map by (destruct Ha as [-> _]; apply Hx || apply Hc).
    set (s := state_of_input x). set (sa := state_of_input a). set (sb := state_of_input b) in *.
    assert (Ws : wf s) by apply state_of_input_wf, Hx. assert (Wa : wf sa) by apply state_of_input_wf, Ha.
    assert (Es : state_of_input (xor x a) = sxor s sa) by (apply state_xor; destruct Ha as [-> _]; apply Hx).
    assert (Ex : output_of_state s = x) by apply output_of_input, Hx.
    assert (Eb : output_of_state sb = b) by apply output_of_input, Hb.
    assert (Exa : output_of_state (sxor s sa) = xor x a).
    { rewrite sxor_output, Ex. f_equal. apply output_of_input, Ha. }
    assert (E1 : map f (xor x a) = output_of_state (F (sxor s sa))) by (rewrite Ff, Exa; reflexivity).
    assert (E2 : map f x = output_of_state (F s)) by (rewrite Ff, Ex; reflexivity).
    rewrite E1, E2. unfold c. rewrite <- sxor_output.
    assert (Wsa : wf (sxor s sa)) by (apply sxor_wf; assumption). unfold carries, giving. rewrite HR by exact Hx.
    rewrite HR by exact Hxa. fold s. rewrite Es. split.
    - intros E. apply Oinj in E; [|apply WF, Wsa|apply sxor_wf; [apply WF, Ws|apply WM, Wb]].
      eexists. split; [reflexivity|]. rewrite E, HL by (assumption || apply WF, Ws). rewrite sxor_output, Eb. reflexivity.
    - intros (y & Ey & Eya). apply Ret_inj in Ey, Eya. f_equal.
      apply Linj; [apply WF, Wsa|apply sxor_wf; [apply WF, Ws|apply WM, Wb]|].
      rewrite HL by (assumption || apply WF, Ws).
      apply Oinj; [apply WL, WF, Wsa|apply sxor_wf; [apply WL, WF, Ws|exact Wb]|].
      rewrite sxor_output, Eb, Ey. exact Eya. }
  exists (filter (fits f a c) (words 16)). split; [apply NoDup_filter, words_nodup|]. split.
  - intros x. rewrite filter_In, words_in. split.
    + intros [[Hl Ho] HF]. split; [exact Hl|]. split; [exact Ho|]. apply K; [split; assumption|exact HF].
    + intros (Hl & Ho & HF). split; [split; assumption|]. apply K; [split; assumption|exact HF].
  - destruct Ha as [Ha _], Hc as [Hc _]. rewrite <- Ha. apply fits_count. congruence.
Qed.

(** The rounds, as a substitution and a bijection. *)
Lemma round_slice (w : list N) r : (r + 1) * 4 <= N.of_nat (length w) -> exists k, slice w (r * NB) ((r + 1) * NB) = Ret k /\ length k = 4%nat.
Proof.
  intros H. destruct (slice w (r * NB) ((r + 1) * NB)) as [k| |] eqn:E.
  - exists k. split; [reflexivity|]. exact (slice_four w r k E).
  - rewrite slice_ok in E by (unfold NB; lia). discriminate.
  - rewrite slice_ok in E by (unfold NB; lia). discriminate.
Qed.

Lemma round_bytes_ok w r k x : slice w (r * NB) ((r + 1) * NB) = Ret k -> length k = 4%nat -> is16 x ->
  round_bytes w r x = Ret (output_of_state (plus_key k (MixColumns (ShiftRows (SubBytes (state_of_input x)))))).
Proof.
  intros E Hk [Hx Ho]. unfold round_bytes, round_body. rewrite to_block_ok by exact Hx. cbn [bind].
  rewrite sub_bytes_ok by apply state_of_input_wf, Ho. cbn [bind]. rewrite shift_rows_ok. cbn [bind].
  rewrite mix_columns_ok by apply ShiftRows_wf, SubBytes_wf. cbn [bind]. rewrite E. cbn [bind].
  rewrite plus_key_ok by exact Hk. cbn [bind]. apply from_block_ok.
Qed.
Lemma unround_bytes_ok w r k x : slice w (r * NB) ((r + 1) * NB) = Ret k -> length k = 4%nat -> is16 x ->
  unround_bytes w r x = Ret (output_of_state (InvMixColumns (plus_key k (InvShiftRows (InvSubBytes (state_of_input x)))))).
Proof.
  intros E Hk [Hx Ho]. unfold unround_bytes, unround_body. rewrite to_block_ok by exact Hx. cbn [bind].
  assert (W : wf (state_of_input x)) by apply state_of_input_wf, Ho.
  rewrite inv_shift_rows_ok. cbn [bind]. rewrite inv_sub_bytes_ok by apply InvShiftRows_wf, W. cbn [bind].
  rewrite E. cbn [bind]. rewrite plus_key_ok by exact Hk. cbn [bind].
  rewrite inv_mix_columns_ok by apply plus_key_wf, InvSubBytes_wf, InvShiftRows_wf, W. cbn [bind].
  replace (InvSubBytes (InvShiftRows (state_of_input x))) with (InvShiftRows (InvSubBytes (state_of_input x))).
  - apply from_block_ok.
  - apply wf_eq; [apply InvShiftRows_wf, InvSubBytes_wf, W|apply InvSubBytes_wf, InvShiftRows_wf, W|].
    intros i j Hi Hj. unfold InvShiftRows, InvSubBytes.
    rewrite !entry_matrix by (assumption || apply Nat.mod_upper_bound; lia). reflexivity.
Qed.

Lemma round_carried w r a b : (r + 1) * 4 <= N.of_nat (length w) -> is16 a -> is16 b ->
  exists c, c = output_of_state (InvShiftRows (InvMixColumns (state_of_input b))) /\ is16 c /\
    carried (giving (round_bytes w r)) a b (ways SubByte a c).
Proof.
  intros Hw Ha Hb. destruct (round_slice w r Hw) as (k & Ek & Hk).
  apply (carried_ways _ _ SubBytes (fun s => plus_key k (MixColumns (ShiftRows s)))
    (fun t => InvShiftRows (InvMixColumns t))); [..|exact Ha|exact Hb].
  - intros x Hx. apply round_bytes_ok; assumption.
  - intros s _. apply SubBytes_wf.
  - intros s _. apply plus_key_wf, mix_with_wf.
  - intros s _. apply InvShiftRows_wf, mix_with_wf.
  - exact sub_output.
  - intros s t Hs Ht. rewrite shift_sxor. unfold MixColumns at 1.
    rewrite mix_sxor; [|in_mult..|apply ShiftRows_wf, Hs|apply ShiftRows_wf, InvShiftRows_wf, mix_with_wf].
    rewrite ShiftRows_InvShiftRows by apply mix_with_wf. fold (MixColumns (ShiftRows s)). fold (MixColumns (InvMixColumns t)).
    rewrite MixColumns_InvMixColumns by exact Ht. apply plus_key_sxor.
  - intros s t Hs Ht E.
    rewrite <- (InvShiftRows_ShiftRows s Hs), <- (InvShiftRows_ShiftRows t Ht).
    rewrite <- (InvMixColumns_MixColumns (ShiftRows s)) by apply ShiftRows_wf, Hs.
    rewrite <- (InvMixColumns_MixColumns (ShiftRows t)) by apply ShiftRows_wf, Ht.
    rewrite <- (plus_key_twice k (MixColumns (ShiftRows s))) by apply mix_with_wf.
    rewrite <- (plus_key_twice k (MixColumns (ShiftRows t))) by apply mix_with_wf. rewrite E. reflexivity.
Qed.

Lemma inv_shift_sxor s t : InvShiftRows (sxor s t) = sxor (InvShiftRows s) (InvShiftRows t).
Proof.
  unfold InvShiftRows at 1. unfold sxor at 2. apply matrix_ext. intros r c Hr Hc. unfold InvShiftRows.
  rewrite !entry_matrix by assumption. apply sxor_entry; [assumption|apply Nat.mod_upper_bound; lia].
Qed.
Lemma unround_carried w r a b : (r + 1) * 4 <= N.of_nat (length w) -> is16 a -> is16 b ->
  exists c, c = output_of_state (ShiftRows (MixColumns (state_of_input b))) /\ is16 c /\
    carried (giving (unround_bytes w r)) a b (ways InvSubByte a c).
Proof.
  intros Hw Ha Hb. destruct (round_slice w r Hw) as (k & Ek & Hk).
  apply (carried_ways _ _ InvSubBytes (fun s => InvMixColumns (plus_key k (InvShiftRows s)))
    (fun t => ShiftRows (MixColumns t))); [..|exact Ha|exact Hb].
  - intros x Hx. apply unround_bytes_ok; assumption.
  - intros s Hs. apply InvSubBytes_wf, Hs.
  - intros s _. apply mix_with_wf.
  - intros s _. apply ShiftRows_wf, mix_with_wf.
  - exact inv_sub_output.
  - intros s t Hs Ht. rewrite inv_shift_sxor, plus_key_sxor. unfold InvMixColumns at 1.
    rewrite mix_sxor; [|in_mult..|apply plus_key_wf, InvShiftRows_wf, Hs|apply InvShiftRows_wf, ShiftRows_wf, mix_with_wf].
    rewrite InvShiftRows_ShiftRows by apply mix_with_wf. fold (InvMixColumns (plus_key k (InvShiftRows s))).
    fold (InvMixColumns (MixColumns t)). rewrite InvMixColumns_MixColumns by exact Ht. reflexivity.
  - intros s t Hs Ht E.
    rewrite <- (ShiftRows_InvShiftRows s Hs), <- (ShiftRows_InvShiftRows t Ht).
    rewrite <- (plus_key_twice k (InvShiftRows s)) by apply InvShiftRows_wf, Hs.
    rewrite <- (plus_key_twice k (InvShiftRows t)) by apply InvShiftRows_wf, Ht.
    rewrite <- (MixColumns_InvMixColumns (plus_key k (InvShiftRows s))) by apply plus_key_wf, InvShiftRows_wf, Hs.
    rewrite <- (MixColumns_InvMixColumns (plus_key k (InvShiftRows t))) by apply plus_key_wf, InvShiftRows_wf, Ht.
    rewrite E. reflexivity.
Qed.

(** * Four rounds *)

(** The places in which a difference is not zero. *)
Definition places (a : list N) : pattern := fun r c => nonzero (entry (state_of_input a) r c).

Lemma places_total a : length a = 16%nat -> N.of_nat (total (places a)) = active a.
Proof.
  intros H. do 16 (destruct a as [|? a]; [discriminate|]). destruct a; [|discriminate].
  unfold active. f_equal. rewrite !filter_weight. unfold total, column, places, state_of_input.
  rewrite !entry_matrix by lia. cbn [Nat.add Nat.mul nth filter length]. unfold nonzero. lia.
Qed.

Lemma step_ext A A' B B' : (forall r c, (r < 4)%nat -> (c < 4)%nat -> A r c = A' r c) ->
  (forall r c, (r < 4)%nat -> (c < 4)%nat -> B r c = B' r c) -> step A B -> step A' B'.
Proof.
  intros HA HB H c Hc. specialize (H c Hc). unfold diagonal, column in *.
  rewrite !HA, !HB in H by (lia || apply Nat.mod_upper_bound; lia). exact H.
Qed.

Lemma pat_sxor s t r c : (r < 4)%nat -> (c < 4)%nat -> pat s (sxor s t) r c = nonzero (entry t r c).
Proof.
  intros Hr Hc. unfold pat. rewrite sxor_entry by assumption.
  rewrite <- N.lxor_assoc, N.lxor_nilpotent, N.lxor_0_l. reflexivity.
Qed.

Lemma round_step w r a b x : (r + 1) * 4 <= N.of_nat (length w) -> is16 a -> is16 b -> is16 x ->
  carries (giving (round_bytes w r)) a b x -> step (places a) (places b).
Proof.
  intros Hw Ha Hb Hx (y & E & E'). unfold giving in E, E'. destruct (round_slice w r Hw) as (k & Ek & Hk).
  assert (Hxa : is16 (xor x a)) by (apply is16_xor; assumption).
  rewrite (round_bytes_ok w r k) in E, E' by assumption. apply Ret_inj in E, E'.
  set (s := state_of_input x) in *. set (s' := state_of_input (xor x a)) in *.
  assert (Ws : wf s) by apply state_of_input_wf, Hx. assert (Ws' : wf s') by apply state_of_input_wf, Hxa.
  pose proof (step_round k s s' Ws Ws') as S.
  set (t := plus_key k (MixColumns (ShiftRows (SubBytes s)))) in *.
  set (t' := plus_key k (MixColumns (ShiftRows (SubBytes s')))) in *.
  assert (Wt : wf t) by apply plus_key_wf, mix_with_wf. assert (Wt' : wf t') by apply plus_key_wf, mix_with_wf.
  assert (Es : s' = sxor s (state_of_input a)) by (apply state_xor; destruct Ha as [-> _]; apply Hx).
  assert (Et : t' = sxor t (state_of_input b)).
  { rewrite <- (input_of_output t' Wt'), E', <- E, state_xor by (rewrite output_length; symmetry; apply Hb).
    rewrite input_of_output by exact Wt. reflexivity. }
  rewrite Es, Et in S. revert S. apply step_ext; intros i j Hi Hj; apply pat_sxor; assumption.
Qed.
Lemma unround_step w r a b x : (r + 1) * 4 <= N.of_nat (length w) -> is16 a -> is16 b -> is16 x ->
  carries (giving (unround_bytes w r)) a b x -> step (reflect (places a)) (reflect (places b)).
Proof.
  intros Hw Ha Hb Hx (y & E & E'). unfold giving in E, E'. destruct (round_slice w r Hw) as (k & Ek & Hk).
  assert (Hxa : is16 (xor x a)) by (apply is16_xor; assumption).
  assert (C : forall s, wf s -> InvSubBytes (InvShiftRows s) = InvShiftRows (InvSubBytes s)).
  { intros u W. apply wf_eq; [apply InvSubBytes_wf, InvShiftRows_wf, W|apply InvShiftRows_wf, InvSubBytes_wf, W|].
    intros i j Hi Hj. unfold InvShiftRows, InvSubBytes.
    rewrite !entry_matrix by (assumption || apply Nat.mod_upper_bound; lia). reflexivity. }
  rewrite (unround_bytes_ok w r k) in E, E' by assumption. apply Ret_inj in E, E'.
  set (s := state_of_input x) in *. set (s' := state_of_input (xor x a)) in *.
  assert (Ws : wf s) by apply state_of_input_wf, Hx. assert (Ws' : wf s') by apply state_of_input_wf, Hxa.
  pose proof (step_unround k s s' Ws Ws') as S. rewrite !C in S by assumption.
  set (t := InvMixColumns (plus_key k (InvShiftRows (InvSubBytes s)))) in *.
  set (t' := InvMixColumns (plus_key k (InvShiftRows (InvSubBytes s')))) in *.
  assert (Wt : wf t) by apply mix_with_wf. assert (Wt' : wf t') by apply mix_with_wf.
  assert (Es : s' = sxor s (state_of_input a)) by (apply state_xor; destruct Ha as [-> _]; apply Hx).
  assert (Et : t' = sxor t (state_of_input b)).
  { rewrite <- (input_of_output t' Wt'), E', <- E, state_xor by (rewrite output_length; symmetry; apply Hb).
    rewrite input_of_output by exact Wt. reflexivity. }
  rewrite Es, Et in S. revert S.
  apply step_ext; intros i j Hi Hj; unfold reflect; apply pat_sxor; (assumption || apply Nat.mod_upper_bound; lia).
Qed.

(** What the four counts of a chain of differences come to. *)
Lemma four_counts n1 n2 n3 n4 k1 k2 k3 k4 m : 25 <= k1 + k2 + k3 + k4 ->
  n1 * 64 ^ k1 <= m -> n2 * 64 ^ k2 <= m -> n3 * 64 ^ k3 <= m -> n4 * 64 ^ k4 <= m ->
  n1 * n2 * n3 * n4 * 2 ^ 150 <= m * m * m * m.
Proof.
  intros H H1 H2 H3 H4. etransitivity; [|apply N.mul_le_mono; [apply N.mul_le_mono; [apply N.mul_le_mono; [exact H1|exact H2]|exact H3]|exact H4]].
  replace (n1 * 64 ^ k1 * (n2 * 64 ^ k2) * (n3 * 64 ^ k3) * (n4 * 64 ^ k4))
    with (n1 * n2 * n3 * n4 * (64 ^ k1 * 64 ^ k2 * 64 ^ k3 * 64 ^ k4)) by ring.
  rewrite <- !N.pow_add_r. apply N.mul_le_mono_l. change (2 ^ 150) with (64 ^ 25).
  apply N.pow_le_mono_r; [discriminate|exact H].
Qed.

Lemma active_some a : is16 a -> a <> repeat 0 16 -> (1 <= total (places a))%nat.
Proof.
  intros [Hl Ho] D. destruct (total (places a)) eqn:T; [|lia]. exfalso. apply D.
  rewrite <- (output_of_input a Hl). change (repeat 0 16) with (output_of_state (matrix (fun _ _ => 0))). f_equal.
  apply wf_eq; [apply state_of_input_wf, Ho|apply matrix_wf; lia|].
  intros r c Hr Hc. rewrite entry_matrix by assumption. assert (Z : weight (places a r c) = 0%nat).
  { unfold total, column in T.
    destruct c as [|[|[|[|]]]]; [..|lia]; (destruct r as [|[|[|[|]]]]; [..|lia]); lia. }
  unfold places, nonzero in Z. destruct (N.eqb_spec (entry (state_of_input a) r c) 0); [assumption|discriminate].
Qed.

(** * The largest counts there are *)

Lemma passing_tree a c : a < 256 ->
  passing SubByte a c = length (filter (fun x => tree_diff sbox_tree a x =? c) some_octets).
Proof.
  intros Ha. rewrite some_octets_all. unfold passing.
  rewrite (filter_ext_in (moves SubByte a c) (fun x => tree_diff sbox_tree a x =? c)); [reflexivity|].
  intros x Hx. rewrite all_octets_in in Hx. assert (Hxa : N.lxor x a < 256) by (apply lxor_lt256; assumption).
  unfold moves, tree_diff. rewrite !look_sbox by assumption. reflexivity.
Qed.
Lemma filter_all {A} (l : list A) : filter (fun _ => true) l = l.
Proof. induction l; cbn; congruence. Qed.
Lemma passing_same f : passing f 0 0 = 256%nat.
Proof.
  unfold passing. rewrite (filter_ext (moves f 0 0) (fun _ => true)).
  - rewrite filter_all. exact all_octets_length.
  - intros x. unfold moves. rewrite N.lxor_0_r, N.lxor_nilpotent. reflexivity.
Qed.
Lemma ways_zeros f k : ways f (repeat 0 k) (repeat 0 k) = 256 ^ N.of_nat k.
Proof.
  induction k as [|k IH]; [reflexivity|]. cbn [repeat ways]. rewrite IH, passing_same, (Nat2N.inj_succ k), N.pow_succ_r'.
  reflexivity.
Qed.
Lemma ways_cons f x y l m : ways f (x :: l) (y :: m) = N.of_nat (passing f x y) * ways f l m.
Proof. reflexivity. Qed.
Lemma ways_first f x y k p : passing f x y = p -> ways f (x :: repeat 0 k) (y :: repeat 0 k) = N.of_nat p * 256 ^ N.of_nat k.
Proof. intros E. rewrite ways_cons, ways_zeros, E. reflexivity. Qed.
Lemma passing_four : exists c, c < 256 /\ passing SubByte 1 c = 4%nat.
Proof. exists 31. split; [reflexivity|]. rewrite passing_tree by reflexivity. vm_compute. reflexivity. Qed.

(** * Loops of rounds *)

Lemma for_n_bytes (body : N -> Block -> res Block) (f : N -> list N -> res (list N)) n : forall lo s, wf s ->
  (forall r s, wf s -> (exists t, body r (cols s) = Ret (cols t) /\ wf t) \/ body r (cols s) = Panic \/ body r (cols s) = Diverge) ->
  (forall r s, wf s -> f r (output_of_state s) = (let* t := body r (cols s) in from_block t)) ->
  for_n n lo f (output_of_state s) = (let* t := for_n n lo body (cols s) in from_block t).
Proof.
  induction n as [|n IH]; intros lo s Hs HB HF; [reflexivity|]. cbn [for_n]. rewrite HF by exact Hs.
  destruct (HB lo s Hs) as [(t & E & Ht)|[E|E]]; rewrite E; cbn [bind]; [|reflexivity..].
  rewrite from_block_ok. cbn [bind]. apply IH; assumption.
Qed.
Lemma for_n_rev_bytes (body : N -> Block -> res Block) (f : N -> list N -> res (list N)) n : forall lo s, wf s ->
  (forall r s, wf s -> (exists t, body r (cols s) = Ret (cols t) /\ wf t) \/ body r (cols s) = Panic \/ body r (cols s) = Diverge) ->
  (forall r s, wf s -> f r (output_of_state s) = (let* t := body r (cols s) in from_block t)) ->
  for_n_rev n lo f (output_of_state s) = (let* t := for_n_rev n lo body (cols s) in from_block t).
Proof.
  induction n as [|n IH]; intros lo s Hs HB HF; [reflexivity|]. cbn [for_n_rev]. rewrite HF by exact Hs.
  destruct (HB (lo + N.of_nat n) s Hs) as [(t & E & Ht)|[E|E]]; rewrite E; cbn [bind]; [|reflexivity..].
  rewrite from_block_ok. cbn [bind]. apply IH; assumption.
Qed.
Lemma round_cases w r s : wf s ->
  (exists t, round_body w r (cols s) = Ret (cols t) /\ wf t) \/ round_body w r (cols s) = Panic \/ round_body w r (cols s) = Diverge.
Proof.
  intros Hs. destruct (round_body w r (cols s)) as [B| |] eqn:E; [left|right; left; reflexivity|right; right; reflexivity].
  destruct (round_body_ok w r s B Hs E) as (k & _ & ->). eexists. split; [reflexivity|apply plus_key_wf, mix_with_wf].
Qed.
Lemma unround_cases w r s : wf s ->
  (exists t, unround_body w r (cols s) = Ret (cols t) /\ wf t) \/ unround_body w r (cols s) = Panic \/ unround_body w r (cols s) = Diverge.
Proof.
  intros Hs. destruct (unround_body w r (cols s)) as [B| |] eqn:E; [left|right; left; reflexivity|right; right; reflexivity].
  destruct (unround_body_ok w r s B Hs E) as (k & _ & ->). eexists. split; [reflexivity|apply mix_with_wf].
Qed.
Lemma block_of_output s : wf s -> to_block (output_of_state s) = Ret (cols s).
Proof. intros Hs. rewrite to_block_ok by apply output_length. rewrite input_of_output by exact Hs. reflexivity. Qed.
