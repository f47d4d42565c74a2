(** Families of AES states that differ in one byte, through the rounds. *)
From Coq Require Import ZArith NArith List Arith Lia Bool Permutation ZifyBool ZifyNat ZifyN.
From Verif Require Import Rust.
From Verif.Spec Require Import Octets Diffusion Integral Aes.
From Verif.Model Require Import Aes.
From Verif.Proofs Require Import Base Gf Count Aes Diffusion Differential.
Import ListNotations.
Local Open Scope N_scope.

(** * Functions of an octet *)

Definition runs (g : N -> N) : Prop := Permutation (map g all_octets) all_octets.
Definition still (g : N -> N) : Prop := forall x, x < 256 -> g x = g 0.

Lemma runs_id : runs (fun x => x).
Proof. unfold runs. rewrite map_id. apply Permutation_refl. Qed.
Lemma runs_ext g h : (forall x, x < 256 -> g x = h x) -> runs g -> runs h.
Proof.
  unfold runs. intros E H. rewrite <- (map_ext_in g h); [exact H|]. intros x Hx. apply E. apply all_octets_in. exact Hx.
Qed.
Lemma runs_comp h g : runs h -> runs g -> runs (fun x => h (g x)).
Proof.
  unfold runs. intros Hh Hg. rewrite <- (map_map g h). eapply Permutation_trans; [|exact Hh]. apply Permutation_map, Hg.
Qed.
Lemma runs_lt g x : runs g -> x < 256 -> g x < 256.
Proof.
  intros H Hx. apply all_octets_in. apply (Permutation_in _ H). apply in_map. apply all_octets_in. exact Hx.
Qed.
(** A bijection of the octets. *)
Lemma runs_bij g : (forall x, x < 256 -> g x < 256) ->
  (forall x y, x < 256 -> y < 256 -> g x = g y -> x = y) -> runs g.
Proof.
  intros Hlt Hinj. assert (ND : NoDup (map g all_octets)).
  { apply NoDup_map; [apply all_octets_nodup|]. intros x y Hx Hy. rewrite all_octets_in in Hx, Hy. apply Hinj; assumption. }
  assert (I : incl (map g all_octets) all_octets).
  { intros y Hy. rewrite in_map_iff in Hy. destruct Hy as (x & <- & Hx). rewrite all_octets_in in *. apply Hlt, Hx. }
  apply NoDup_Permutation_bis; [exact ND| |exact I]. rewrite map_length. apply le_n.
Qed.
Lemma runs_once g : runs g <-> (forall x, x < 256 -> g x < 256) /\ every_value_once g.
Proof.
  split.
  - intros H. split; [intros x Hx; apply runs_lt; assumption|]. intros y Hy.
    assert (In y (map g all_octets)) as Hi by (apply (Permutation_in _ (Permutation_sym H)), all_octets_in, Hy).
    rewrite in_map_iff in Hi. destruct Hi as (x & E & Hx). exists x. rewrite all_octets_in in Hx.
    split; [exact Hx|]. split; [exact E|]. intros x' Hx' E'.
    assert (ND : NoDup (map g all_octets)) by (apply (Permutation_NoDup (Permutation_sym H)), all_octets_nodup).
    assert (J : forall l a b, NoDup (map g l) -> In a l -> In b l -> g a = g b -> a = b).
    { clear. induction l as [|z l IH]; intros a b ND Ha Hb E; [destruct Ha|]. cbn [map] in ND. apply NoDup_cons_iff in ND.
      destruct ND as [NI ND]. destruct Ha as [->|Ha], Hb as [->|Hb].
      - reflexivity.
      - exfalso. apply NI. rewrite E. apply in_map, Hb.
      - exfalso. apply NI. rewrite <- E. apply in_map, Ha.
      - apply IH; assumption. }
    apply (J all_octets); [exact ND|apply all_octets_in, Hx'|apply all_octets_in, Hx|congruence].
  - intros [Hlt H]. apply runs_bij; [exact Hlt|]. intros x y Hx Hy E.
    destruct (H (g x) (Hlt x Hx)) as (z & _ & _ & U). rewrite (U x Hx eq_refl). symmetry. apply U; [exact Hy|congruence].
Qed.
Lemma still_one g : still g <-> one_value g.
Proof.
  split.
  - intros H x x' Hx Hx'. rewrite (H x Hx), (H x' Hx'). reflexivity.
  - intros H x Hx. apply H; [exact Hx|lia].
Qed.
Lemma still_comp h g : still g -> still (fun x => h (g x)).
Proof. intros H x Hx. rewrite (H x Hx). reflexivity. Qed.

Lemma runs_sub : runs SubByte.
Proof. apply runs_bij; [intros; apply SubByte_lt|intros x y; apply SubByte_inj]. Qed.
Lemma runs_inv_sub : runs InvSubByte.
Proof. apply runs_bij; [intros; apply InvSubByte_lt; assumption|intros x y; apply InvSubByte_inj]. Qed.
Lemma runs_lxor k : k < 256 -> runs (fun x => N.lxor x k).
Proof.
  intros Hk. apply runs_bij; [intros x Hx; apply lxor_lt256; assumption|]. intros x y _ _ E.
  apply (f_equal (fun z => N.lxor z k)) in E. rewrite !N.lxor_assoc, N.lxor_nilpotent, !N.lxor_0_r in E. exact E.
Qed.
Lemma gf_nonzero : forallb (fun k => forallb (fun x => negb (gf_mul x k =? 0)) (map N.of_nat (seq 1 255))) multipliers = true.
Proof. vm_compute. reflexivity. Qed.
Lemma runs_mul k : In k multipliers -> runs (fun x => gf_mul x k).
Proof.
  intros Hk. apply runs_bij; [intros; apply gf_mul_lt|]. intros x y Hx Hy E.
  assert (Z : gf_mul (N.lxor x y) k = 0) by (rewrite gf_mul_lxor, E; apply N.lxor_nilpotent).
  destruct (N.eq_dec (N.lxor x y) 0) as [D|D]; [apply N.lxor_eq, D|]. exfalso.
  pose proof gf_nonzero as G. rewrite forallb_forall in G. specialize (G k Hk).
  pose proof (forallb_nonzero _ G (N.lxor x y) D (lxor_lt256 x y Hx Hy)) as H. cbv beta in H. rewrite Z in H. discriminate.
Qed.

(** Sums of values. *)
Definition xsum (g : N -> N) : N := fold_right N.lxor 0 (map g all_octets).
Lemma fold_perm l m : Permutation l m -> fold_right N.lxor 0 l = fold_right N.lxor 0 m.
Proof.
  induction 1; cbn [fold_right]; [reflexivity|congruence| |congruence].
  rewrite <- !N.lxor_assoc, (N.lxor_comm x y). reflexivity.
Qed.
Lemma runs_sum g : runs g -> xsum g = 0.
Proof.
  intros H. unfold xsum. rewrite (fold_perm _ _ H). rewrite <- some_octets_all. vm_compute. reflexivity.
Qed.
Lemma xsum_ext g h : (forall x, x < 256 -> g x = h x) -> xsum g = xsum h.
Proof. intros H. unfold xsum. f_equal. apply map_ext_in. intros x Hx. apply H, all_octets_in, Hx. Qed.
Lemma xsum_lxor g h : xsum (fun x => N.lxor (g x) (h x)) = N.lxor (xsum g) (xsum h).
Proof.
  unfold xsum. induction all_octets as [|x l IH]; [reflexivity|]. cbn [map fold_right]. rewrite IH.
  rewrite !N.lxor_assoc. f_equal. rewrite <- !N.lxor_assoc. f_equal. apply N.lxor_comm.
Qed.
Lemma gf_mul_zero k : gf_mul 0 k = 0.
Proof. pose proof (gf_mul_lxor 0 0 k) as E. rewrite !N.lxor_nilpotent in E. exact E. Qed.
Lemma xsum_mul g k : xsum (fun x => gf_mul (g x) k) = gf_mul (xsum g) k.
Proof.
  unfold xsum. induction all_octets as [|x l IH]; [cbn [map fold_right]; symmetry; apply gf_mul_zero|]. cbn [map fold_right]. rewrite IH, gf_mul_lxor. reflexivity.
Qed.
Lemma xsum_const k : xsum (fun _ => k) = 0.
Proof.
  unfold xsum. rewrite <- some_octets_all.
  assert (E : forall l : list N, Nat.even (length l) = true -> fold_right N.lxor 0 (map (fun _ => k) l) = 0).
  { fix IH 1. intros [|a [|b l]] H; [reflexivity|discriminate|]. cbn [map fold_right].
    rewrite (IH l H), <- N.lxor_assoc, N.lxor_nilpotent. reflexivity. }
  apply E. reflexivity.
Qed.

(** * Families of states *)

(** The kind of each entry: one that takes all values, or one that stays. *)
Definition kinds (A : pattern) (f : N -> state) : Prop :=
  (forall x, x < 256 -> wf (f x)) /\
  forall r c, (r < 4)%nat -> (c < 4)%nat -> if A r c then runs (fun x => entry (f x) r c) else still (fun x => entry (f x) r c).

Lemma runs_circ k0 k1 k2 k3 a b c d (p q s t : bool) :
  In k0 multipliers -> In k1 multipliers -> In k2 multipliers -> In k3 multipliers ->
  (if p then runs a else still a) -> (if q then runs b else still b) ->
  (if s then runs c else still c) -> (if t then runs d else still d) ->
  (weight p + weight q + weight s + weight t <= 1)%nat ->
  if ((weight p + weight q + weight s + weight t) =? 1)%nat
  then runs (fun x => circ k0 k1 k2 k3 (a x) (b x) (c x) (d x))
  else still (fun x => circ k0 k1 k2 k3 (a x) (b x) (c x) (d x)).
Proof.
  intros H0 H1 H2 H3 Ha Hb Hc Hd W.
  assert (K : forall k g e, In k multipliers -> runs g -> e < 256 -> runs (fun x => N.lxor (gf_mul (g x) k) e)).
  { intros k g e Hk Hg He. apply (runs_comp (fun y => N.lxor y e) (fun x => gf_mul (g x) k)); [apply runs_lxor, He|].
    apply (runs_comp (fun y => gf_mul y k) g); [apply runs_mul, Hk|exact Hg]. }
  assert (L3 : forall x y z, x < 256 -> y < 256 -> z < 256 -> N.lxor x (N.lxor y z) < 256)
    by (intros; repeat apply lxor_lt256; assumption).
  destruct p, q, s, t; cbn [weight] in W; try lia; cbn [weight Nat.add Nat.eqb].
  - apply (runs_ext (fun x => N.lxor (gf_mul (a x) k0) (N.lxor (gf_mul (b 0) k1) (N.lxor (gf_mul (c 0) k2) (gf_mul (d 0) k3))))).
    + intros x Hx. unfold circ. rewrite (Hb x Hx), (Hc x Hx), (Hd x Hx). reflexivity.
    + apply K; [assumption..|]. apply L3; apply gf_mul_lt.
  - apply (runs_ext (fun x => N.lxor (gf_mul (b x) k1) (N.lxor (gf_mul (a 0) k0) (N.lxor (gf_mul (c 0) k2) (gf_mul (d 0) k3))))).
    + intros x Hx. unfold circ. rewrite (Ha x Hx), (Hc x Hx), (Hd x Hx).
      generalize (gf_mul (a 0) k0) (gf_mul (b x) k1) (N.lxor (gf_mul (c 0) k2) (gf_mul (d 0) k3)). intros u v w.
      rewrite <- !N.lxor_assoc, (N.lxor_comm u v). reflexivity.
    + apply K; [assumption..|]. apply L3; apply gf_mul_lt.
  - apply (runs_ext (fun x => N.lxor (gf_mul (c x) k2) (N.lxor (gf_mul (a 0) k0) (N.lxor (gf_mul (b 0) k1) (gf_mul (d 0) k3))))).
    + intros x Hx. unfold circ. rewrite (Ha x Hx), (Hb x Hx), (Hd x Hx).
      generalize (gf_mul (a 0) k0) (gf_mul (b 0) k1) (gf_mul (c x) k2) (gf_mul (d 0) k3). intros u v w z.
      apply N.bits_inj. intros i. rewrite !N.lxor_spec. Btauto.btauto.
    + apply K; [assumption..|]. apply L3; apply gf_mul_lt.
  - apply (runs_ext (fun x => N.lxor (gf_mul (d x) k3) (N.lxor (gf_mul (a 0) k0) (N.lxor (gf_mul (b 0) k1) (gf_mul (c 0) k2))))).
    + intros x Hx. unfold circ. rewrite (Ha x Hx), (Hb x Hx), (Hc x Hx).
      generalize (gf_mul (a 0) k0) (gf_mul (b 0) k1) (gf_mul (d x) k3) (gf_mul (c 0) k2). intros u v w z.
      apply N.bits_inj. intros i. rewrite !N.lxor_spec. Btauto.btauto.
    + apply K; [assumption..|]. apply L3; apply gf_mul_lt.
  - intros x Hx. rewrite (Ha x Hx), (Hb x Hx), (Hc x Hx), (Hd x Hx). reflexivity.
Qed.

Lemma kinds_sub g F A f : runs g -> (forall s, wf s -> wf (F s)) ->
  (forall s r c, (r < 4)%nat -> (c < 4)%nat -> entry (F s) r c = g (entry s r c)) ->
  kinds A f -> kinds A (fun x => F (f x)).
Proof.
  intros Hg WF HF [W K]. split; [intros x Hx; apply WF, W, Hx|]. intros r c Hr Hc. specialize (K r c Hr Hc).
  destruct (A r c).
  - apply (runs_ext (fun x => g (entry (f x) r c))); [intros x _; rewrite HF by assumption; reflexivity|].
    apply runs_comp; assumption.
  - intros x Hx. rewrite !HF by assumption. rewrite (K x Hx). reflexivity.
Qed.
Lemma kinds_shift A f : kinds A f -> kinds (fun r c => A r ((c + r) mod 4)%nat) (fun x => ShiftRows (f x)).
Proof.
  intros [W K]. split; [intros x Hx; apply ShiftRows_wf, W, Hx|]. intros r c Hr Hc.
  specialize (K r ((c + r) mod 4)%nat Hr ltac:(apply Nat.mod_upper_bound; lia)).
  assert (E : forall x, entry (ShiftRows (f x)) r c = entry (f x) r ((c + r) mod 4)%nat)
    by (intros x; unfold ShiftRows; rewrite entry_matrix by assumption; reflexivity).
  destruct (A r ((c + r) mod 4)%nat); [apply (runs_ext (fun x => entry (f x) r ((c + r) mod 4)%nat)); [intros; rewrite E; reflexivity|exact K]|].
  intros x Hx. rewrite !E. apply K, Hx.
Qed.
Lemma kinds_inv_shift A f : kinds A f -> kinds (fun r c => A r ((c + 4 - r) mod 4)%nat) (fun x => InvShiftRows (f x)).
Proof.
  intros [W K]. split; [intros x Hx; apply InvShiftRows_wf, W, Hx|]. intros r c Hr Hc.
  specialize (K r ((c + 4 - r) mod 4)%nat Hr ltac:(apply Nat.mod_upper_bound; lia)).
  assert (E : forall x, entry (InvShiftRows (f x)) r c = entry (f x) r ((c + 4 - r) mod 4)%nat)
    by (intros x; unfold InvShiftRows; rewrite entry_matrix by assumption; reflexivity).
  destruct (A r ((c + 4 - r) mod 4)%nat); [apply (runs_ext (fun x => entry (f x) r ((c + 4 - r) mod 4)%nat)); [intros; rewrite E; reflexivity|exact K]|].
  intros x Hx. rewrite !E. apply K, Hx.
Qed.
Lemma kinds_key k A f : kinds A f -> kinds A (fun x => plus_key k (f x)).
Proof.
  intros [W K]. split; [intros x Hx; apply plus_key_wf, W, Hx|]. intros r c Hr Hc. specialize (K r c Hr Hc).
  set (e := as_u8 (shr (nth c k 0) (24 - 8 * N.of_nat r))).
  assert (He : e < 256) by (apply N.mod_lt; discriminate).
  assert (E : forall x, entry (plus_key k (f x)) r c = N.lxor (entry (f x) r c) e)
    by (intros x; unfold plus_key; rewrite entry_matrix by assumption; reflexivity).
  destruct (A r c).
  - apply (runs_ext (fun x => N.lxor (entry (f x) r c) e)); [intros; rewrite E; reflexivity|].
    apply (runs_comp (fun y => N.lxor y e)); [apply runs_lxor, He|exact K].
  - intros x Hx. rewrite !E. rewrite (K x Hx). reflexivity.
Qed.
Lemma kinds_mix k0 k1 k2 k3 A f :
  In k0 multipliers -> In k1 multipliers -> In k2 multipliers -> In k3 multipliers ->
  (forall c, (c < 4)%nat -> (column A c <= 1)%nat) ->
  kinds A f -> kinds (fun r c => (column A c =? 1)%nat) (fun x => mix_with [k0; k1; k2; k3] (f x)).
Proof.
  intros H0 H1 H2 H3 HA [W K]. split; [intros x Hx; apply mix_with_wf|]. intros r c Hr Hc. specialize (HA c Hc).
  assert (E : forall x, x < 256 -> entry (mix_with [k0; k1; k2; k3] (f x)) r c =
    circ k0 k1 k2 k3 (entry (f x) r c) (entry (f x) ((r + 1) mod 4) c) (entry (f x) ((r + 2) mod 4) c) (entry (f x) ((r + 3) mod 4) c))
    by (intros x Hx; apply mix_entry; try assumption; apply W, Hx).
  assert (M : forall i, (i mod 4 < 4)%nat) by (intros; apply Nat.mod_upper_bound; lia).
  pose proof (runs_circ k0 k1 k2 k3 _ _ _ _ _ _ _ _ H0 H1 H2 H3 (K r c Hr Hc) (K ((r + 1) mod 4)%nat c (M _) Hc)
    (K ((r + 2) mod 4)%nat c (M _) Hc) (K ((r + 3) mod 4)%nat c (M _) Hc)) as R.
  assert (S : (weight (A r c) + weight (A ((r + 1) mod 4) c) + weight (A ((r + 2) mod 4) c) + weight (A ((r + 3) mod 4) c))%nat = column A c).
  { unfold column. destruct r as [|[|[|[|]]]]; [..|lia]; cbn [Nat.add Nat.modulo Nat.divmod fst snd Nat.sub]; lia. }
  rewrite S in R. specialize (R HA). cbv beta in R. destruct (column A c =? 1)%nat.
  - refine (runs_ext _ _ _ R). intros x Hx. symmetry. apply E, Hx.
  - intros x Hx. rewrite !E by (exact Hx || lia). apply (R x Hx).
Qed.
Lemma kinds_ext A B f : (forall r c, (r < 4)%nat -> (c < 4)%nat -> A r c = B r c) -> kinds A f -> kinds B f.
Proof. intros E [W K]. split; [exact W|]. intros r c Hr Hc. rewrite <- E by assumption. apply K; assumption. Qed.

(** A round. *)
Definition rnd (k : list N) (s : state) : state := plus_key k (MixColumns (ShiftRows (SubBytes s))).
Definition unrnd (k : list N) (s : state) : state := InvMixColumns (plus_key k (InvShiftRows (InvSubBytes s))).

Lemma diagonal_column A c : (c < 4)%nat -> column (fun r c => A r ((c + r) mod 4)%nat) c = diagonal A c.
Proof. intros Hc. unfold column, diagonal. rewrite Nat.add_0_r, (Nat.mod_small c 4) by exact Hc. reflexivity. Qed.
Lemma kinds_round k A f : (forall c, (c < 4)%nat -> (diagonal A c <= 1)%nat) ->
  kinds A f -> kinds (fun r c => (diagonal A c =? 1)%nat) (fun x => rnd k (f x)).
Proof.
  intros HD K. unfold rnd. apply kinds_key. apply (kinds_sub SubByte SubBytes) in K; [|exact runs_sub|intros; apply SubBytes_wf|].
  - apply kinds_shift in K. refine (kinds_ext _ _ _ _ (kinds_mix 2 3 1 1 _ _ _ _ _ _ _ K)); try in_mult.
    + intros r c Hr Hc. rewrite diagonal_column by exact Hc. reflexivity.
    + intros c Hc. rewrite diagonal_column by exact Hc. apply HD, Hc.
  - intros s r c Hr Hc. unfold SubBytes. rewrite entry_matrix by assumption. reflexivity.
Qed.
Definition antidiagonal (A : pattern) (c : nat) : nat := diagonal (reflect A) c.
Lemma antidiagonal_column A c : (c < 4)%nat -> column (fun r c => A r ((c + 4 - r) mod 4)%nat) c = antidiagonal A c.
Proof.
  intros Hc. unfold column, antidiagonal, diagonal, reflect.
  destruct c as [|[|[|[|]]]]; [..|lia]; cbn [Nat.add Nat.modulo Nat.divmod fst snd Nat.sub]; lia.
Qed.
Lemma kinds_unround k A f : (forall c, (c < 4)%nat -> (antidiagonal A c <= 1)%nat) ->
  kinds A f -> kinds (fun r c => (antidiagonal A c =? 1)%nat) (fun x => unrnd k (f x)).
Proof.
  intros HD K. unfold unrnd. apply (kinds_sub InvSubByte InvSubBytes) in K; [|exact runs_inv_sub|intros; apply InvSubBytes_wf; assumption|].
  - apply kinds_inv_shift in K. apply (kinds_key k) in K.
    refine (kinds_ext _ _ _ _ (kinds_mix 0x0e 0x0b 0x0d 0x09 _ _ _ _ _ _ _ K)); try in_mult.
    + intros r c Hr Hc. rewrite antidiagonal_column by exact Hc. reflexivity.
    + intros c Hc. rewrite antidiagonal_column by exact Hc. apply HD, Hc.
  - intros s r c Hr Hc. unfold InvSubBytes. rewrite entry_matrix by assumption. reflexivity.
Qed.

(** One entry, four entries, all entries. *)
Definition single (i j : nat) : pattern := fun r c => (r =? i)%nat && (c =? j)%nat.
Lemma single_diagonal i j c : (i < 4)%nat -> (j < 4)%nat -> (c < 4)%nat ->
  (diagonal (single i j) c <= 1)%nat /\ (antidiagonal (single i j) c <= 1)%nat.
Proof.
  intros Hi Hj Hc.
  destruct i as [|[|[|[|]]]]; [..|lia]; (destruct j as [|[|[|[|]]]]; [..|lia]); (destruct c as [|[|[|[|]]]]; [..|lia]);
    cbv; lia.
Qed.
Lemma second_diagonal i j c : (i < 4)%nat -> (j < 4)%nat -> (c < 4)%nat ->
  diagonal (fun _ c => (diagonal (single i j) c =? 1)%nat) c = 1%nat /\
  antidiagonal (fun _ c => (antidiagonal (single i j) c =? 1)%nat) c = 1%nat.
Proof.
  intros Hi Hj Hc.
  destruct i as [|[|[|[|]]]]; [..|lia]; (destruct j as [|[|[|[|]]]]; [..|lia]); (destruct c as [|[|[|[|]]]]; [..|lia]);
    split; reflexivity.
Qed.

(** The sum of the states after a round of a family all of whose entries take all
    values. *)
Lemma mix_sum k0 k1 k2 k3 f : In k0 multipliers -> In k1 multipliers -> In k2 multipliers -> In k3 multipliers ->
  (forall x, x < 256 -> wf (f x)) -> (forall r c, (r < 4)%nat -> (c < 4)%nat -> xsum (fun x => entry (f x) r c) = 0) ->
  forall r c, (r < 4)%nat -> (c < 4)%nat -> xsum (fun x => entry (mix_with [k0; k1; k2; k3] (f x)) r c) = 0.
Proof.
  intros H0 H1 H2 H3 W Z r c Hr Hc.
  rewrite (xsum_ext _ (fun x => circ k0 k1 k2 k3 (entry (f x) r c) (entry (f x) ((r + 1) mod 4) c)
    (entry (f x) ((r + 2) mod 4) c) (entry (f x) ((r + 3) mod 4) c))) by (intros x Hx; apply mix_entry; try assumption; apply W, Hx).
  unfold circ. rewrite !xsum_lxor, !xsum_mul, !Z by (assumption || apply Nat.mod_upper_bound; lia).
  rewrite !gf_mul_zero. reflexivity.
Qed.
Lemma key_sum k f : (forall r c, (r < 4)%nat -> (c < 4)%nat -> xsum (fun x => entry (f x) r c) = 0) ->
  forall r c, (r < 4)%nat -> (c < 4)%nat -> xsum (fun x => entry (plus_key k (f x)) r c) = 0.
Proof.
  intros Z r c Hr Hc.
  rewrite (xsum_ext _ (fun x => N.lxor (entry (f x) r c) (as_u8 (shr (nth c k 0) (24 - 8 * N.of_nat r)))))
    by (intros x Hx; unfold plus_key; rewrite entry_matrix by assumption; reflexivity).
  rewrite xsum_lxor, Z, xsum_const by assumption. reflexivity.
Qed.
Definition full : pattern := fun _ _ => true.
Lemma kinds_sum f : kinds full f -> forall r c, (r < 4)%nat -> (c < 4)%nat -> xsum (fun x => entry (f x) r c) = 0.
Proof. intros [_ K] r c Hr Hc. apply runs_sum. exact (K r c Hr Hc). Qed.
Lemma in_m1 : In 1 multipliers. Proof. in_mult. Qed.
Lemma in_m2 : In 2 multipliers. Proof. in_mult. Qed.
Lemma in_m3 : In 3 multipliers. Proof. in_mult. Qed.
Lemma in_m9 : In 9 multipliers. Proof. in_mult. Qed.
Lemma in_m11 : In 11 multipliers. Proof. in_mult. Qed.
Lemma in_m13 : In 13 multipliers. Proof. in_mult. Qed.
Lemma in_m14 : In 14 multipliers. Proof. in_mult. Qed.
Lemma round_sum k f : kinds full f -> forall r c, (r < 4)%nat -> (c < 4)%nat -> xsum (fun x => entry (rnd k (f x)) r c) = 0.
Proof.
  intros K. unfold rnd. apply key_sum. apply (kinds_sub SubByte SubBytes) in K; [|exact runs_sub|intros; apply SubBytes_wf|].
  - apply kinds_shift in K. exact (mix_sum 2 3 1 1 (fun x => ShiftRows (SubBytes (f x))) in_m2 in_m3 in_m1 in_m1 (proj1 K) (kinds_sum _ K)).
  - intros s r c Hr Hc. unfold SubBytes. rewrite entry_matrix by assumption. reflexivity.
Qed.
Lemma unround_sum k f : kinds full f -> forall r c, (r < 4)%nat -> (c < 4)%nat -> xsum (fun x => entry (unrnd k (f x)) r c) = 0.
Proof.
  intros K. unfold unrnd. apply (kinds_sub InvSubByte InvSubBytes) in K; [|exact runs_inv_sub|intros; apply InvSubBytes_wf; assumption|].
  - apply kinds_inv_shift in K. apply (kinds_key k) in K.
    exact (mix_sum 14 11 13 9 (fun x => plus_key k (InvShiftRows (InvSubBytes (f x)))) in_m14 in_m11 in_m13 in_m9 (proj1 K) (kinds_sum _ K)).
  - intros s r c Hr Hc. unfold InvSubBytes. rewrite entry_matrix by assumption. reflexivity.
Qed.

(** * Strings *)

Lemma put_length l i x : (i < length l)%nat -> length (put l i x) = length l.
Proof. intros H. unfold put. rewrite app_length, firstn_length. cbn [length]. rewrite skipn_length. lia. Qed.
Lemma put_octets l i x : octets l -> x < 256 -> octets (put l i x).
Proof.
  intros H Hx. unfold put. apply Forall_app. split; [apply octets_firstn, H|].
  constructor; [exact Hx|]. apply octets_skipn, H.
Qed.
Lemma put_nth l i x j : (i < length l)%nat -> nth j (put l i x) 0 = if (j =? i)%nat then x else nth j l 0.
Proof.
  revert i j. induction l as [|a l IH]; intros i j H; [cbn [length] in H; lia|].
  destruct i as [|i].
  - unfold put. cbn [firstn skipn app]. destruct j; reflexivity.
  - unfold put. cbn [firstn]. cbn [app]. change (skipn (S (S i)) (a :: l)) with (skipn (S i) l).
    destruct j as [|j]; [reflexivity|]. cbn [nth]. fold (put l i x). rewrite IH by (cbn [length] in H; lia). reflexivity.
Qed.

Lemma kinds_put b i : is16 b -> (i < 16)%nat -> kinds (single (i mod 4) (i / 4)) (fun x => state_of_input (put b i x)).
Proof.
  intros [Lb Ob] Hi. split; [intros x Hx; apply state_of_input_wf, put_octets; assumption|]. intros r c Hr Hc.
  assert (E : forall x, entry (state_of_input (put b i x)) r c = if ((r + 4 * c) =? i)%nat then x else nth (r + 4 * c) b 0).
  { intros x. unfold state_of_input. rewrite entry_matrix by assumption. apply put_nth. lia. }
  assert (S : single (i mod 4) (i / 4) r c = ((r + 4 * c) =? i)%nat).
  { unfold single. apply Bool.eq_iff_eq_true. rewrite andb_true_iff, !Nat.eqb_eq.
    pose proof (Nat.div_mod i 4 ltac:(lia)). pose proof (Nat.mod_upper_bound i 4 ltac:(lia)).
    split; [intros [-> ->]; lia|]. intros <-. rewrite (Nat.mul_comm 4 c), Nat.mod_add, Nat.div_add, Nat.mod_small, Nat.div_small by lia. lia. }
  rewrite S. destruct ((r + 4 * c) =? i)%nat.
  - refine (runs_ext _ _ _ runs_id). intros x _. rewrite E. reflexivity.
  - intros x _. rewrite !E. reflexivity.
Qed.

Lemma fold_xor_nth (g : N -> list N) l j : (forall x, In x l -> length (g x) = 16%nat) -> (j < 16)%nat ->
  length (fold_right xor (repeat 0 16) (map g l)) = 16%nat /\
  nth j (fold_right xor (repeat 0 16) (map g l)) 0 = fold_right N.lxor 0 (map (fun x => nth j (g x) 0) l).
Proof.
  intros H Hj. induction l as [|x l IH].
  - split; [reflexivity|]. cbn [map fold_right]. do 16 (destruct j as [|j]; [reflexivity|]). lia.
  - destruct IH as [L E]; [intros y Hy; apply H; right; exact Hy|]. cbn [map fold_right].
    assert (Lx : length (g x) = 16%nat) by (apply H; left; reflexivity).
    split; [rewrite xor_length, L, Lx; reflexivity|]. rewrite nth_xor by congruence. rewrite E. reflexivity.
Qed.
Lemma sum_zero (f : N -> state) (g : N -> list N) : (forall x, x < 256 -> g x = output_of_state (f x)) ->
  (forall r c, (r < 4)%nat -> (c < 4)%nat -> xsum (fun x => entry (f x) r c) = 0) -> sum256 g = repeat 0 16.
Proof.
  intros Hg Z. unfold sum256. rewrite <- (map_map N.of_nat g).
  assert (A : map N.of_nat (seq 0 256) = all_octets) by (rewrite <- some_octets_all; reflexivity). rewrite A.
  assert (L : forall x, In x all_octets -> length (g x) = 16%nat)
    by (intros x Hx; rewrite all_octets_in in Hx; rewrite Hg by exact Hx; reflexivity).
  apply (nth_ext _ _ 0 0).
  - destruct (fold_xor_nth g all_octets 0 L ltac:(lia)) as [E _]. rewrite E. reflexivity.
  - intros j Hj. destruct (fold_xor_nth g all_octets 0 L ltac:(lia)) as [E _]. rewrite E in Hj.
    destruct (fold_xor_nth g all_octets j L Hj) as [_ ->].
    replace (nth j (repeat 0 16) 0) with 0 by (do 16 (destruct j as [|j]; [reflexivity|]); lia).
    rewrite (map_ext_in (fun x => nth j (g x) 0) (fun x => entry (f x) (j mod 4) (j / 4))).
    + apply Z; [apply Nat.mod_upper_bound; lia|]. apply Nat.div_lt_upper_bound; lia.
    + intros x Hx. rewrite all_octets_in in Hx. rewrite Hg by exact Hx. unfold output_of_state.
      rewrite (nth_indep _ 0 (entry (f x) (0 mod 4) (0 / 4))) by (rewrite map_length, seq_length; exact Hj).
      rewrite (map_nth (fun i => entry (f x) (i mod 4) (i / 4))). rewrite seq_nth by exact Hj. reflexivity.
Qed.
Lemma output_nth s j : (j < 16)%nat -> nth j (output_of_state s) 0 = entry s (j mod 4) (j / 4).
Proof.
  intros Hj. unfold output_of_state. rewrite (nth_indep _ 0 (entry s (0 mod 4) (0 / 4))) by (rewrite map_length, seq_length; exact Hj).
  rewrite (map_nth (fun i => entry s (i mod 4) (i / 4))). rewrite seq_nth by exact Hj. reflexivity.
Qed.
