(** Sums of bits through the substitution table and through the rounds of AES. *)
From Coq Require Import ZArith NArith List Arith Lia Bool Btauto Permutation ZifyBool ZifyNat ZifyN.
From Verif Require Import Rust.
From Verif.Spec Require Import Octets Counting Diffusion Differential Linear Aes.
From Verif.Model Require Import Aes.
From Verif.Proofs Require Import Base Gf Count Aes Diffusion Differential.
Import ListNotations.
Local Open Scope N_scope.

(** * Parities *)

Lemma parity_double n : parity (N.double n) = parity n.
Proof. destruct n; reflexivity. Qed.
Lemma parity_succ_double n : parity (N.succ_double n) = negb (parity n).
Proof. destruct n; reflexivity. Qed.
Lemma parity_Pos_lxor p : forall q, parity (Pos.lxor p q) = xorb (parity_pos p) (parity_pos q).
Proof.
  induction p as [p IH|p IH|]; intros [q|q|]; cbn [Pos.lxor parity_pos];
    rewrite ?parity_double, ?parity_succ_double, ?IH; cbn [parity parity_pos]; try btauto.
Qed.
Lemma parity_lxor a b : parity (N.lxor a b) = xorb (parity a) (parity b).
Proof. destruct a, b; cbn [N.lxor parity]; rewrite ?xorb_false_l, ?xorb_false_r; try reflexivity. apply parity_Pos_lxor. Qed.
Lemma land_lxor_r a b c : N.land a (N.lxor b c) = N.lxor (N.land a b) (N.land a c).
Proof. apply N.bits_inj. intros i. rewrite !N.lxor_spec, !N.land_spec, N.lxor_spec. btauto. Qed.
Lemma land_lxor_l a b c : N.land (N.lxor a b) c = N.lxor (N.land a c) (N.land b c).
Proof. apply N.bits_inj. intros i. rewrite !N.lxor_spec, !N.land_spec, N.lxor_spec. btauto. Qed.

(** One octet of a mask. *)
Definition dot1 (a b : N) : bool := parity (N.land a b).
Lemma dot1_r a b c : dot1 a (N.lxor b c) = xorb (dot1 a b) (dot1 a c).
Proof. unfold dot1. rewrite land_lxor_r. apply parity_lxor. Qed.
Lemma dot1_l a b c : dot1 (N.lxor a b) c = xorb (dot1 a c) (dot1 b c).
Proof. unfold dot1. rewrite land_lxor_l. apply parity_lxor. Qed.
Lemma dot1_0_l x : dot1 0 x = false.
Proof. reflexivity. Qed.
Lemma dot_cons a u b x : dot (a :: u) (b :: x) = xorb (dot1 a b) (dot u x).
Proof. reflexivity. Qed.
Lemma dot_xor u : forall x y, length x = length u -> length y = length u -> dot u (xor x y) = xorb (dot u x) (dot u y).
Proof.
  induction u as [|a u IH]; intros [|b x] [|c y] Hx Hy; try discriminate; [reflexivity|].
  cbn [xor]. rewrite !dot_cons, dot1_r, IH by (cbn [length] in *; lia). btauto.
Qed.

(** Two sums of bits are the same if they are the same on the powers of two. *)
Lemma additive_0 (f : N -> bool) : (forall x y, f (N.lxor x y) = xorb (f x) (f y)) -> f 0 = false.
Proof. intros H. specialize (H 0 0). rewrite N.lxor_0_l, xorb_nilpotent in H. exact H. Qed.
Lemma additive_below (f g : N -> bool) : (forall x y, f (N.lxor x y) = xorb (f x) (f y)) ->
  (forall x y, g (N.lxor x y) = xorb (g x) (g y)) ->
  forall k, (forall i, (i < k)%nat -> f (2 ^ N.of_nat i) = g (2 ^ N.of_nat i)) ->
  forall x, x < 2 ^ N.of_nat k -> f x = g x.
Proof.
  intros Hf Hg. induction k as [|k IH]; intros H x Hx.
  - replace x with 0 by (cbn in Hx; lia). rewrite !additive_0 by assumption. reflexivity.
  - set (p := 2 ^ N.of_nat k) in *. assert (Hp : p <> 0) by (apply N.pow_nonzero; discriminate).
    assert (E : x = N.lxor (x mod p) (if N.testbit x (N.of_nat k) then p else 0)).
    { apply N.bits_inj. intros i. rewrite N.lxor_spec. unfold p. rewrite Nat2N.inj_succ in Hx.
      destruct (N.lt_trichotomy i (N.of_nat k)) as [L|[->|L]].
      - rewrite N.mod_pow2_bits_low by exact L.
        destruct (N.testbit x (N.of_nat k)); [rewrite N.pow2_bits_false by lia|rewrite N.bits_0]; btauto.
      - rewrite N.mod_pow2_bits_high by lia.
        destruct (N.testbit x (N.of_nat k)); [rewrite N.pow2_bits_true|rewrite N.bits_0]; reflexivity.
      - rewrite N.mod_pow2_bits_high by lia.
        assert (B : N.testbit x i = false).
        { destruct (N.eq_dec x 0) as [->|N0]; [apply N.bits_0|]. apply N.bits_above_log2.
          apply N.log2_lt_pow2; [lia|]. eapply N.lt_le_trans; [exact Hx|]. apply N.pow_le_mono_r; [discriminate|lia]. }
        rewrite B. destruct (N.testbit x (N.of_nat k)); [rewrite N.pow2_bits_false by lia|rewrite N.bits_0]; reflexivity. }
    rewrite E, Hf, Hg. f_equal.
    + apply IH; [intros i Hi; apply H; lia|]. apply N.mod_lt. exact Hp.
    + destruct (N.testbit x (N.of_nat k)); [apply H; lia|]. rewrite !additive_0 by assumption. reflexivity.
Qed.
Lemma additive_octets (f g : N -> bool) : (forall x y, f (N.lxor x y) = xorb (f x) (f y)) ->
  (forall x y, g (N.lxor x y) = xorb (g x) (g y)) ->
  forallb (fun i => Bool.eqb (f i) (g i)) [1; 2; 4; 8; 16; 32; 64; 128] = true ->
  forall x, x < 256 -> f x = g x.
Proof.
  intros Hf Hg H x Hx. apply (additive_below f g Hf Hg 8); [|exact Hx].
  rewrite forallb_forall in H. intros i Hi. apply eqb_prop. apply H.
  do 8 (destruct i as [|i]; [cbn; tauto|]). lia.
Qed.

(** * Sums of signs *)

Local Open Scope Z_scope.

Fixpoint zsum {A} (f : A -> Z) (l : list A) : Z := match l with [] => 0 | x :: l => f x + zsum f l end.
Definition sgn (b : bool) : Z := if b then -1 else 1.

Lemma sgn_xorb a b : sgn (xorb a b) = sgn a * sgn b.
Proof. destruct a, b; reflexivity. Qed.
Lemma zsum_ext {A} (f g : A -> Z) l : (forall x, In x l -> f x = g x) -> zsum f l = zsum g l.
Proof.
  induction l as [|x l IH]; intros H; [reflexivity|]. cbn [zsum].
  rewrite IH by (intros y Hy; apply H; right; exact Hy). rewrite (H x) by (left; reflexivity). reflexivity.
Qed.
Lemma zsum_scale {A} (f : A -> Z) k l : zsum (fun x => k * f x) l = k * zsum f l.
Proof. induction l as [|x l IH]; cbn [zsum]; [ring|]. rewrite IH. ring. Qed.
Lemma zsum_app {A} (f : A -> Z) l m : zsum f (l ++ m) = zsum f l + zsum f m.
Proof. induction l as [|x l IH]; cbn [zsum app]; [reflexivity|]. rewrite IH. ring. Qed.
Lemma zsum_map {A B} (f : B -> Z) (g : A -> B) l : zsum f (map g l) = zsum (fun x => f (g x)) l.
Proof. induction l as [|x l IH]; cbn [zsum map]; [reflexivity|]. rewrite IH. reflexivity. Qed.
Lemma zsum_flat_map {A B} (f : B -> Z) (g : A -> list B) l : zsum f (flat_map g l) = zsum (fun x => zsum f (g x)) l.
Proof. induction l as [|x l IH]; cbn [zsum flat_map]; [reflexivity|]. rewrite zsum_app, IH. reflexivity. Qed.
Lemma zsum_perm {A} (f : A -> Z) l m : Permutation l m -> zsum f l = zsum f m.
Proof. induction 1; cbn [zsum]; lia. Qed.
Lemma zsum_sgn {A} (p : A -> bool) l :
  zsum (fun x => sgn (negb (p x))) l = 2 * Z.of_nat (length (filter p l)) - Z.of_nat (length l).
Proof. induction l as [|x l IH]; [reflexivity|]. cbn [zsum filter length]. rewrite IH. destruct (p x); cbn [negb sgn length]; lia. Qed.

(** * The correlations of a table *)

Definition corr (f : N -> N) (u v : N) : Z := zsum (fun x => sgn (xorb (dot1 u x) (dot1 v (f x)))) all_octets.

(** All correlations for one mask behind the table at once. *)
Inductive ztree := ZLeaf (v : Z) | ZNode (even odd : ztree).
Fixpoint zlook (t : ztree) (x : N) : Z :=
  match t with
  | ZLeaf v => v
  | ZNode e o => if N.odd x then zlook o (N.div2 x) else zlook e (N.div2 x)
  end.
Fixpoint zip (f : Z -> Z -> Z) (s t : ztree) : ztree :=
  match s, t with
  | ZLeaf a, ZLeaf b => ZLeaf (f a b)
  | ZNode e o, ZNode e' o' => ZNode (zip f e e') (zip f o o')
  | _, _ => s
  end.
Fixpoint transform (t : ztree) : ztree :=
  match t with
  | ZLeaf v => ZLeaf v
  | ZNode e o => let a := transform e in let b := transform o in ZNode (zip Z.add a b) (zip Z.sub a b)
  end.
Fixpoint paint (g : N -> Z) (t : tree) : ztree :=
  match t with Leaf v => ZLeaf (g v) | Node e o => ZNode (paint g e) (paint g o) end.
Fixpoint all_le (m : Z) (t : ztree) : bool :=
  match t with ZLeaf v => Z.abs v <=? m | ZNode e o => all_le m e && all_le m o end.

Fixpoint perfect (d : nat) (t : ztree) : Prop :=
  match d, t with
  | O, ZLeaf _ => True
  | S d, ZNode e o => perfect d e /\ perfect d o
  | _, _ => False
  end.
Lemma zip_ok f d : forall s t, perfect d s -> perfect d t -> perfect d (zip f s t) /\
  forall x, zlook (zip f s t) x = f (zlook s x) (zlook t x).
Proof.
  induction d as [|d IH]; intros [v|e o] [v'|e' o'] Hs Ht; try contradiction.
  - split; [exact I|reflexivity].
  - destruct Hs as [He Ho], Ht as [He' Ho']. destruct (IH e e' He He') as [Pe Le]. destruct (IH o o' Ho Ho') as [Po Lo].
    cbn [zip]. split; [split; assumption|]. intros x. cbn [zlook]. rewrite Le, Lo. destruct (N.odd x); reflexivity.
Qed.

Fixpoint signed (u : N) (t : ztree) : Z :=
  match t with
  | ZLeaf v => v
  | ZNode e o => signed (N.div2 u) e + sgn (N.odd u) * signed (N.div2 u) o
  end.
Lemma transform_ok d : forall t, perfect d t -> perfect d (transform t) /\ forall u, zlook (transform t) u = signed u t.
Proof.
  induction d as [|d IH]; intros [v|e o] H; try contradiction.
  - split; [exact I|reflexivity].
  - destruct H as [He Ho]. destruct (IH e He) as [Pe Le]. destruct (IH o Ho) as [Po Lo]. cbn [transform].
    destruct (zip_ok Z.add d _ _ Pe Po) as [P1 L1]. destruct (zip_ok Z.sub d _ _ Pe Po) as [P2 L2].
    split; [split; assumption|]. intros u. cbn [zlook signed]. rewrite L1, L2, Le, Lo.
    destruct (N.odd u); cbn [sgn]; ring.
Qed.
Lemma all_le_ok m t : all_le m t = true -> forall x, Z.abs (zlook t x) <= m.
Proof.
  induction t as [v|e IHe o IHo]; intros H x; cbn [all_le zlook] in *.
  - apply Z.leb_le, H.
  - apply andb_true_iff in H. destruct H as [He Ho]. destruct (N.odd x); auto.
Qed.
Lemma zlook_paint g t : forall x, zlook (paint g t) x = g (look t x).
Proof. induction t as [v|e IHe o IHo]; intros x; cbn [paint zlook look]; [reflexivity|]. rewrite IHe, IHo. destruct (N.odd x); reflexivity. Qed.

(** The numbers below a power of two. *)
Fixpoint below (d : nat) : list N :=
  match d with O => [0%N] | S d => map N.double (below d) ++ map N.succ_double (below d) end.
Lemma dot1_double u x : dot1 u (N.double x) = dot1 (N.div2 u) x.
Proof. unfold dot1. destruct u as [|[p|p|]], x as [|x]; cbn; try reflexivity; apply parity_double || (destruct (Pos.land p x); reflexivity). Qed.
Lemma dot1_succ_double u x : dot1 u (N.succ_double x) = xorb (N.odd u) (dot1 (N.div2 u) x).
Proof.
  unfold dot1. destruct u as [|[p|p|]], x as [|x]; cbn [N.land N.succ_double Pos.land N.div2 N.odd xorb parity parity_pos];
    try reflexivity; rewrite ?parity_succ_double, ?parity_double, ?xorb_false_l, ?xorb_true_l; reflexivity.
Qed.
Lemma signed_ok u d : forall t, perfect d t ->
  signed u t = zsum (fun x => sgn (dot1 u x) * zlook t x) (below d).
Proof.
  revert u. induction d as [|d IH]; intros u [v|e o] H; try contradiction.
  - cbn [signed below zsum zlook]. unfold dot1. rewrite N.land_0_r. cbn [parity sgn]. ring.
  - destruct H as [He Ho]. cbn [signed below]. rewrite zsum_app, !zsum_map, !(IH (N.div2 u)) by assumption. f_equal.
    + apply zsum_ext. intros x _. rewrite dot1_double. cbn [zlook].
      replace (N.odd (N.double x)) with false by (destruct x; reflexivity). rewrite N.div2_double. reflexivity.
    + rewrite <- zsum_scale. apply zsum_ext. intros x _. rewrite dot1_succ_double, sgn_xorb. cbn [zlook].
      replace (N.odd (N.succ_double x)) with true by (destruct x; reflexivity). rewrite N.div2_succ_double. ring.
Qed.
Lemma below_all : Permutation (below 8) all_octets.
Proof.
  rewrite <- some_octets_all. apply NoDup_Permutation.
  - assert (E : (fix nd (l : list N) := match l with [] => true | x :: l => negb (existsb (N.eqb x) l) && nd l end) (below 8) = true)
      by (vm_compute; reflexivity).
    revert E. generalize (below 8). induction l as [|x l IH]; intros E; [constructor|].
    apply andb_true_iff in E. destruct E as [E1 E2]. constructor; [|apply IH, E2].
    intros Hx. apply negb_true_iff in E1. rewrite <- not_true_iff_false in E1. apply E1. apply existsb_exists.
    exists x. split; [exact Hx|apply N.eqb_refl].
  - rewrite some_octets_all. apply all_octets_nodup.
  - intros x. rewrite some_octets_all, all_octets_in. split.
    + intros H. assert (E : forallb (fun x => N.ltb x 256) (below 8) = true) by (vm_compute; reflexivity).
      rewrite forallb_forall in E. apply N.ltb_lt, E, H.
    + intros H. assert (E : forallb (fun x => existsb (N.eqb x) (below 8)) some_octets = true) by (vm_compute; reflexivity).
      rewrite forallb_forall in E. rewrite <- all_octets_in, <- some_octets_all in H. specialize (E x H).
      apply existsb_exists in E. destruct E as (y & Hy & E). apply N.eqb_eq in E. subst y. exact Hy.
Qed.

Definition row (v : N) : ztree := paint (fun y => sgn (dot1 v y)) sbox_tree.
Lemma row_perfect v : perfect 8 (row v).
Proof. unfold row, sbox_tree. cbn [paint perfect]. repeat split. Qed.
Lemma corr_row u v : corr SubByte u v = zlook (transform (row v)) u.
Proof.
  destruct (transform_ok 8 _ (row_perfect v)) as [_ L]. rewrite L, (signed_ok u 8 _ (row_perfect v)).
  rewrite (zsum_perm _ _ _ below_all). unfold corr. apply zsum_ext. intros x Hx. rewrite all_octets_in in Hx.
  rewrite sgn_xorb. unfold row. rewrite zlook_paint, look_sbox by exact Hx. reflexivity.
Qed.

Lemma rows_small : forallb (fun v => all_le 32 (transform (row v)) && (zlook (transform (row v)) 0 =? 0)) (map N.of_nat (seq 1 255)) = true.
Proof. vm_compute. reflexivity. Qed.
Lemma row_zero : forallb (fun u => zlook (transform (row 0)) u =? 0) (map N.of_nat (seq 1 255)) = true.
Proof. vm_compute. reflexivity. Qed.

Lemma corr_le u v : v <> 0%N -> (v < 256)%N -> Z.abs (corr SubByte u v) <= 32.
Proof.
  intros Hv Hv'. rewrite corr_row. pose proof (forallb_nonzero _ rows_small v Hv Hv') as H. cbv beta in H.
  apply andb_true_iff in H. destruct H as [H _]. exact (all_le_ok 32 _ H u).
Qed.
Lemma corr_0_l v : v <> 0%N -> (v < 256)%N -> corr SubByte 0 v = 0.
Proof.
  intros Hv Hv'. rewrite corr_row. pose proof (forallb_nonzero _ rows_small v Hv Hv') as H. cbv beta in H.
  apply andb_true_iff in H. destruct H as [_ H]. apply Z.eqb_eq, H.
Qed.
Lemma corr_0_r u : u <> 0%N -> (u < 256)%N -> corr SubByte u 0 = 0.
Proof.
  intros Hu Hu'. rewrite corr_row. pose proof (forallb_nonzero _ row_zero u Hu Hu') as H. cbv beta in H. apply Z.eqb_eq, H.
Qed.

(** The inverse table has the same correlations. *)
Lemma inv_octets_perm : Permutation (map InvSubByte all_octets) all_octets.
Proof.
  apply NoDup_Permutation.
  - apply NoDup_map; [apply all_octets_nodup|]. intros x y Hx Hy. rewrite all_octets_in in Hx, Hy.
    apply InvSubByte_inj; assumption.
  - apply all_octets_nodup.
  - intros y. rewrite in_map_iff, all_octets_in. split.
    + intros (x & <- & Hx). rewrite all_octets_in in Hx. apply InvSubByte_lt, Hx.
    + intros Hy. exists (SubByte y). rewrite InvSubByte_SubByte by exact Hy. split; [reflexivity|].
      apply all_octets_in, SubByte_lt.
Qed.
Lemma corr_inv u v : corr InvSubByte u v = corr SubByte v u.
Proof.
  unfold corr at 2. rewrite <- (zsum_perm _ _ _ inv_octets_perm), zsum_map. unfold corr. apply zsum_ext.
  intros x Hx. rewrite all_octets_in in Hx. rewrite SubByte_InvSubByte by exact Hx. f_equal. apply xorb_comm.
Qed.

Lemma zsum_const {A} (k : Z) (l : list A) : zsum (fun _ => k) l = k * Z.of_nat (length l).
Proof. induction l as [|x l IH]; [cbn [zsum length]; ring|]. cbn [zsum length]. rewrite IH, Nat2Z.inj_succ. ring. Qed.
Lemma corr_0 f : corr f 0 0 = 256.
Proof.
  unfold corr. rewrite (zsum_ext _ (fun _ => 1)) by reflexivity. rewrite zsum_const, all_octets_length. reflexivity.
Qed.

(** A table whose correlations are as small as those of the substitution table. *)
Definition flat (f : N -> N) : Prop := forall u v, (u < 256)%N -> (v < 256)%N ->
  (u <> 0%N -> v <> 0%N -> Z.abs (corr f u v) <= 32) /\ (u = 0%N -> v <> 0%N -> corr f u v = 0) /\ (u <> 0%N -> v = 0%N -> corr f u v = 0).
Lemma sub_flat : flat SubByte.
Proof.
  intros u v Hu Hv. split; [intros _ V; apply corr_le; assumption|]. split.
  - intros -> V. apply corr_0_l; assumption.
  - intros U ->. apply corr_0_r; assumption.
Qed.
Lemma inv_flat : flat InvSubByte.
Proof.
  intros u v Hu Hv. rewrite corr_inv. split; [intros U _; apply corr_le; assumption|]. split.
  - intros -> V. apply corr_0_r; assumption.
  - intros U ->. apply corr_0_l; assumption.
Qed.

(** * Strings *)

Fixpoint prod (f : N -> N) (u v : list N) : Z :=
  match u, v with a :: u, b :: v => corr f a b * prod f u v | _, _ => 1 end.

Lemma words_sum f u : forall v, length v = length u ->
  zsum (fun x => sgn (xorb (dot u x) (dot v (map f x)))) (words (length u)) = prod f u v.
Proof.
  induction u as [|a u IH]; intros [|b v] Hv; try discriminate; [reflexivity|].
  cbn [length words prod]. rewrite zsum_flat_map. unfold corr. rewrite <- (Z.mul_comm (prod f u v)), <- zsum_scale.
  apply zsum_ext. intros x _. rewrite zsum_map, <- (IH v) by (cbn [length] in Hv; lia).
  rewrite Z.mul_comm, <- zsum_scale. apply zsum_ext. intros y _. cbn [map]. rewrite !dot_cons, <- sgn_xorb.
  f_equal. btauto.
Qed.

Lemma prod_bound f : flat f -> forall u v, octets u -> octets v -> length v = length u ->
  Z.abs (prod f u v) * 8 ^ Z.of_N (active u) <= 256 ^ Z.of_nat (length u).
Proof.
  intros Hf. induction u as [|a u IH]; intros [|b v] Hu Hv Hl; try discriminate.
  apply Forall_cons_iff in Hu, Hv. destruct Hu as [Ha Hu], Hv as [Hb Hv].
  assert (Hl' : length v = length u) by (cbn [length] in Hl; lia).
  specialize (IH v Hu Hv Hl'). destruct (Hf a b Ha Hb) as (F1 & F2 & F3).
  cbn [prod length]. rewrite Z.abs_mul, Nat2Z.inj_succ, Z.pow_succ_r by lia. unfold active in *. cbn [filter].
  destruct (N.eqb_spec a 0) as [E|E]; cbn [negb].
  - assert (Z.abs (corr f a b) <= 256).
    { subst a. destruct (N.eq_dec b 0) as [->|Nb]; [rewrite corr_0; reflexivity|]. rewrite F2 by (assumption || reflexivity). lia. }
    rewrite <- Z.mul_assoc. apply Z.mul_le_mono_nonneg; [lia|assumption| |exact IH].
    apply Z.mul_nonneg_nonneg; [lia|apply Z.pow_nonneg; lia].
  - assert (Z.abs (corr f a b) <= 32).
    { destruct (N.eq_dec b 0) as [Eb|Nb]; [rewrite F3 by assumption; cbn; lia|]. apply F1; assumption. }
    cbn [length]. rewrite Nat2N.inj_succ, N2Z.inj_succ, Z.pow_succ_r by lia.
    set (p := 8 ^ _) in *. replace (Z.abs (corr f a b) * Z.abs (prod f u v) * (8 * p))
      with (Z.abs (corr f a b) * 8 * (Z.abs (prod f u v) * p)) by ring.
    apply Z.mul_le_mono_nonneg; [lia|lia| |exact IH]. apply Z.mul_nonneg_nonneg; [lia|apply Z.pow_nonneg; lia].
Qed.

(** Masks that have anything to do with each other select from the same octets. *)
Lemma prod_places f : flat f -> forall u v, octets u -> octets v -> length v = length u -> prod f u v <> 0 ->
  forall i, nth i u 0%N = 0%N <-> nth i v 0%N = 0%N.
Proof.
  intros Hf. induction u as [|a u IH]; intros [|b v] Hu Hv Hl HP i; try discriminate; [destruct i; tauto|].
  apply Forall_cons_iff in Hu, Hv. destruct Hu as [Ha Hu], Hv as [Hb Hv].
  assert (Hl' : length v = length u) by (cbn [length] in Hl; lia). destruct (Hf a b Ha Hb) as (_ & F2 & F3).
  cbn [prod] in HP. destruct i as [|i]; cbn [nth].
  - split; intros E.
    + destruct (N.eq_dec b 0) as [?|Nb]; [assumption|]. rewrite F2 in HP by assumption. lia.
    + destruct (N.eq_dec a 0) as [?|Na]; [assumption|]. rewrite F3 in HP by assumption. lia.
  - apply IH; try assumption. intros E. rewrite E in HP. lia.
Qed.

(** * Masks before the mixing of columns *)

Local Open Scope N_scope.

(** Masks named by elements of the field: the mask [form a] sums the bits that make up the
    lowest bit of the product with [a]. *)
Definition form (a : N) : N :=
  fold_right N.lxor 0 (map (fun i => if N.odd (gf_mul a (2 ^ N.of_nat i)) then 2 ^ N.of_nat i else 0) (seq 0 8)).

Lemma odd_lxor a b : N.odd (N.lxor a b) = xorb (N.odd a) (N.odd b).
Proof. rewrite <- !N.bit0_odd. apply N.lxor_spec. Qed.
Lemma form_lxor a b : form (N.lxor a b) = N.lxor (form a) (form b).
Proof.
  unfold form. induction (seq 0 8) as [|i l IH]; [reflexivity|]. cbn [map fold_right].
  rewrite IH, gf_mul_lxor, odd_lxor. set (p := 2 ^ N.of_nat i).
  generalize (fold_right N.lxor 0 (map (fun i => if N.odd (gf_mul a (2 ^ N.of_nat i)) then 2 ^ N.of_nat i else 0) l)).
  generalize (fold_right N.lxor 0 (map (fun i => if N.odd (gf_mul b (2 ^ N.of_nat i)) then 2 ^ N.of_nat i else 0) l)).
  intros x y. apply N.bits_inj. intros j. destruct (N.odd (gf_mul a p)), (N.odd (gf_mul b p));
    cbn [xorb]; rewrite !N.lxor_spec, ?N.bits_0; btauto.
Qed.

Definition pairing (a z : N) : bool := dot1 (form a) z.
Lemma pairing_r a x y : pairing a (N.lxor x y) = xorb (pairing a x) (pairing a y).
Proof. apply dot1_r. Qed.
Lemma pairing_l a b z : pairing (N.lxor a b) z = xorb (pairing a z) (pairing b z).
Proof. unfold pairing. rewrite form_lxor. apply dot1_l. Qed.

(** A factor on one side is a factor on the other. *)
Lemma pairing_mul k a z : In k [2; 3] -> a < 256 -> z < 256 -> pairing a (gf_mul z k) = pairing (gf_mul a k) z.
Proof.
  intros Hk Ha Hz. revert z Hz. apply additive_octets.
  - intros x y. rewrite gf_mul_lxor. apply pairing_r.
  - intros x y. apply pairing_r.
  - apply forallb_forall. intros z Hz. apply eqb_true_iff.
    revert a Ha. apply additive_octets.
    + intros x y. apply pairing_l.
    + intros x y. rewrite gf_mul_lxor. apply pairing_l.
    + assert (E : forallb (fun k => forallb (fun z => forallb (fun i => Bool.eqb (pairing i (gf_mul z k)) (pairing (gf_mul i k) z))
        [1; 2; 4; 8; 16; 32; 64; 128]) [1; 2; 4; 8; 16; 32; 64; 128]) [2; 3] = true) by (vm_compute; reflexivity).
      rewrite forallb_forall in E. specialize (E k Hk). rewrite forallb_forall in E. exact (E z Hz).
Qed.

(** Every mask has a name, and only the mask 0 has the name 0. *)
Definition forms : list (N * N) := Eval vm_compute in map (fun a => (form a, a)) some_octets.
Definition name (v : N) : N :=
  match find (fun p => fst p =? v) forms with Some p => snd p | None => 0 end.
Lemma names_ok : forallb (fun v => (form (name v) =? v) && (name v <? 256) && Bool.eqb (name v =? 0) (v =? 0)) some_octets = true.
Proof. vm_compute. reflexivity. Qed.
Lemma name_ok v : v < 256 -> form (name v) = v /\ name v < 256 /\ (name v = 0 <-> v = 0).
Proof.
  intros Hv. pose proof names_ok as H. rewrite forallb_forall in H. specialize (H v).
  rewrite some_octets_all, all_octets_in in H. specialize (H Hv).
  rewrite !andb_true_iff in H. destruct H as [[H1 H2] H3]. apply N.eqb_eq in H1. apply N.ltb_lt in H2. apply eqb_prop in H3.
  split; [exact H1|]. split; [exact H2|]. rewrite <- !N.eqb_eq, H3. tauto.
Qed.
Lemma forms_ok : forallb (fun a => (form a <? 256) && Bool.eqb (form a =? 0) (a =? 0)) some_octets = true.
Proof. vm_compute. reflexivity. Qed.
Lemma form_ok a : a < 256 -> form a < 256 /\ (form a = 0 <-> a = 0).
Proof.
  intros Ha. pose proof forms_ok as H. rewrite forallb_forall in H. specialize (H a).
  rewrite some_octets_all, all_octets_in in H. specialize (H Ha).
  rewrite !andb_true_iff in H. destruct H as [H2 H3]. apply N.ltb_lt in H2. apply eqb_prop in H3.
  split; [exact H2|]. rewrite <- !N.eqb_eq, H3. tauto.
Qed.

(** Masks of states. *)
Definition named (A : state) : state := matrix (fun r c => form (entry A r c)).
Definition names (V : state) : state := matrix (fun r c => name (entry V r c)).
Definition pair_states (V s : state) : bool := dot (output_of_state V) (output_of_state s).

Lemma named_names V : wf V -> named (names V) = V.
Proof.
  intros [E H]. rewrite E at 2. unfold named. apply matrix_ext. intros r c Hr Hc. unfold names.
  rewrite entry_matrix by assumption. apply name_ok, H.
Qed.
Lemma names_wf V : wf V -> wf (names V).
Proof. intros [_ H]. apply matrix_wf. intros r c _ _. apply name_ok, H. Qed.
Lemma named_wf A : wf A -> wf (named A).
Proof. intros [_ H]. apply matrix_wf. intros r c _ _. apply form_ok, H. Qed.

Definition col_pair (V s : state) (c : nat) : bool :=
  xorb (dot1 (entry V 0 c) (entry s 0 c)) (xorb (dot1 (entry V 1 c) (entry s 1 c))
    (xorb (dot1 (entry V 2 c) (entry s 2 c)) (dot1 (entry V 3 c) (entry s 3 c)))).
Lemma pair_cols V s : pair_states V s = xorb (col_pair V s 0) (xorb (col_pair V s 1) (xorb (col_pair V s 2) (col_pair V s 3))).
Proof.
  unfold pair_states, output_of_state, col_pair. cbn [seq map Nat.modulo Nat.div Nat.divmod fst snd Nat.sub].
  rewrite !dot_cons. cbn [dot]. btauto.
Qed.

(** The mixing of the columns seen from the masks. *)
Definition unmix (A : state) : state :=
  matrix (fun r c => circ 2 3 1 1 (entry A r c) (entry A ((r + 3) mod 4) c) (entry A ((r + 2) mod 4) c) (entry A ((r + 1) mod 4) c)).
Lemma circ_lt k0 k1 k2 k3 a b c d : circ k0 k1 k2 k3 a b c d < 256.
Proof. unfold circ. repeat apply lxor_lt256; apply gf_mul_lt. Qed.
Lemma unmix_wf A : wf (unmix A).
Proof. apply matrix_wf. intros. apply circ_lt. Qed.

Lemma pairing_circ a x y z t : a < 256 -> x < 256 -> y < 256 -> z < 256 -> t < 256 ->
  pairing a (circ 2 3 1 1 x y z t) = xorb (pairing (gf_mul a 2) x) (xorb (pairing (gf_mul a 3) y) (xorb (pairing a z) (pairing a t))).
Proof.
  intros Ha Hx Hy Hz Ht. unfold circ. rewrite !pairing_r, !(gf_mul_1 z), !(gf_mul_1 t) by assumption.
  rewrite !pairing_mul by (assumption || cbn; tauto). btauto.
Qed.
Lemma circ_pairing a b c d x : a < 256 -> b < 256 -> c < 256 -> d < 256 ->
  pairing (circ 2 3 1 1 a b c d) x = xorb (pairing (gf_mul a 2) x) (xorb (pairing (gf_mul b 3) x) (xorb (pairing c x) (pairing d x))).
Proof. intros Ha Hb Hc Hd. unfold circ. rewrite !pairing_l, !(gf_mul_1 c), !(gf_mul_1 d) by assumption. btauto. Qed.

Lemma pair_mix A s : wf A -> wf s -> pair_states (named A) (MixColumns s) = pair_states (named (unmix A)) s.
Proof.
  intros [_ HA] Hs. pose proof Hs as [_ Hs'].
  assert (C : forall c, (c < 4)%nat -> col_pair (named A) (MixColumns s) c = col_pair (named (unmix A)) s c).
  { intros c Hc. unfold col_pair, named, unmix. rewrite !entry_matrix by lia.
    unfold MixColumns. rewrite !mix_entry by (assumption || lia || in_mult).
    cbn [Nat.add Nat.modulo Nat.divmod fst snd Nat.sub]. fold (pairing (entry A 0 c)) (pairing (entry A 1 c)) (pairing (entry A 2 c)) (pairing (entry A 3 c)).
    repeat match goal with |- context [dot1 (form ?a) ?b] => fold (pairing a b) end.
    rewrite !pairing_circ by (apply HA || apply Hs'). rewrite !circ_pairing by apply HA. btauto. }
  rewrite !pair_cols, !C by lia. reflexivity.
Qed.

Lemma unmix_branch A c : wf A -> (c < 4)%nat ->
  branch (column (fun r c => nonzero (entry (unmix A) r c)) c) (column (fun r c => nonzero (entry A r c)) c).
Proof.
  intros [_ HA] Hc. apply branch_sym. unfold column, unmix. rewrite !entry_matrix by lia.
  cbn [Nat.add Nat.modulo Nat.divmod fst snd Nat.sub].
  pose proof (column_branch (entry A 0 c) (entry A 3 c) (entry A 2 c) (entry A 1 c) (HA _ _) (HA _ _) (HA _ _) (HA _ _)) as B.
  unfold w4 in B. unfold branch in *. lia.
Qed.

(** * Masks before a round *)

Lemma pair_shift V s : pair_states V (ShiftRows s) = pair_states (InvShiftRows V) s.
Proof.
  rewrite !pair_cols. unfold col_pair, ShiftRows, InvShiftRows. rewrite !entry_matrix by lia.
  cbn [Nat.add Nat.modulo Nat.divmod fst snd Nat.sub]. btauto.
Qed.
Lemma pair_inv_shift V s : pair_states V (InvShiftRows s) = pair_states (ShiftRows V) s.
Proof.
  rewrite !pair_cols. unfold col_pair, ShiftRows, InvShiftRows. rewrite !entry_matrix by lia.
  cbn [Nat.add Nat.modulo Nat.divmod fst snd Nat.sub]. btauto.
Qed.
Lemma pair_sxor V s t : pair_states V (sxor s t) = xorb (pair_states V s) (pair_states V t).
Proof. unfold pair_states. rewrite sxor_output. apply dot_xor; rewrite !output_length; reflexivity. Qed.
Definition blank : state := matrix (fun _ _ => 0).
Lemma plus_key_blank k s : wf s -> plus_key k s = sxor (plus_key k blank) s.
Proof.
  intros Hs. rewrite <- plus_key_sxor. f_equal. apply wf_eq; [exact Hs|apply sxor_wf; [apply matrix_wf; lia|exact Hs]|].
  intros r c Hr Hc. rewrite sxor_entry by assumption. unfold blank. rewrite entry_matrix by assumption. reflexivity.
Qed.

Definition flip (s : state) : state := matrix (fun r c => entry s ((4 - r) mod 4) c).
Lemma flip_wf s : wf s -> wf (flip s).
Proof. intros [_ H]. apply matrix_wf. intros. apply H. Qed.
Lemma flip_flip s : wf s -> flip (flip s) = s.
Proof.
  intros [E _]. rewrite E at 2. unfold flip. apply matrix_ext. intros r c Hr Hc.
  rewrite entry_matrix by (assumption || apply Nat.mod_upper_bound; lia). f_equal.
  destruct r as [|[|[|[|]]]]; [reflexivity..|lia].
Qed.
Lemma unmix_flip A : wf A -> unmix A = flip (MixColumns (flip A)).
Proof.
  intros HA. unfold unmix. unfold flip at 1. apply matrix_ext. intros r c Hr Hc. unfold MixColumns.
  rewrite mix_entry by (assumption || in_mult || (apply flip_wf, HA) || (apply Nat.mod_upper_bound; lia)).
  unfold flip. rewrite !entry_matrix by (assumption || apply Nat.mod_upper_bound; lia).
  destruct r as [|[|[|[|]]]]; [reflexivity..|lia].
Qed.
(** Masks behind the mixing whose mask before it is given. *)
Definition remix (A : state) : state := flip (InvMixColumns (flip A)).
Lemma remix_wf A : wf (remix A).
Proof. apply flip_wf, mix_with_wf. Qed.
Lemma unmix_remix A : wf A -> unmix (remix A) = A.
Proof.
  intros HA. rewrite unmix_flip by apply remix_wf. unfold remix. rewrite flip_flip by apply mix_with_wf.
  rewrite MixColumns_InvMixColumns by apply flip_wf, HA. apply flip_flip, HA.
Qed.

Definition before (V : state) : state := InvShiftRows (named (unmix (names V))).
Definition unbefore (V : state) : state := ShiftRows (named (remix (names V))).
Lemma before_wf V : wf (before V).
Proof. apply InvShiftRows_wf, named_wf, unmix_wf. Qed.
Lemma unbefore_wf V : wf (unbefore V).
Proof. apply ShiftRows_wf, named_wf, remix_wf. Qed.

Lemma pair_before V k s : wf V -> wf s ->
  pair_states V (plus_key k (MixColumns (ShiftRows s))) = xorb (pair_states V (plus_key k blank)) (pair_states (before V) s).
Proof.
  intros HV Hs. rewrite plus_key_blank by apply mix_with_wf. rewrite pair_sxor. f_equal.
  rewrite <- (named_names V HV) at 1. rewrite pair_mix by (apply names_wf, HV || apply ShiftRows_wf, Hs).
  unfold before. rewrite pair_shift. reflexivity.
Qed.
Lemma pair_remix V t : wf V -> wf t -> pair_states V (InvMixColumns t) = pair_states (named (remix (names V))) t.
Proof.
  intros HV Ht. pose proof (pair_mix (remix (names V)) (InvMixColumns t) (remix_wf _) (mix_with_wf _ _)) as E.
  rewrite (MixColumns_InvMixColumns t Ht), (unmix_remix (names V) (names_wf V HV)), (named_names V HV) in E. symmetry. exact E.
Qed.
Lemma pair_unbefore V k s : wf V -> wf s ->
  pair_states V (InvMixColumns (plus_key k (InvShiftRows s))) =
  xorb (pair_states (named (remix (names V))) (plus_key k blank)) (pair_states (unbefore V) s).
Proof.
  intros HV Hs. rewrite (pair_remix V _ HV (plus_key_wf k _ (InvShiftRows_wf s Hs))).
  rewrite (plus_key_blank k _ (InvShiftRows_wf s Hs)), pair_sxor, pair_inv_shift. reflexivity.
Qed.

(** * A round *)

Lemma agreeing_prod (R : list N -> res (list N)) (f : N -> N) (F L : state -> state) (W : state) (k : bool) u v :
  (forall x, is16 x -> R x = Ret (output_of_state (L (F (state_of_input x))))) ->
  (forall s, wf s -> wf (F s)) -> (forall s, output_of_state (F s) = map f (output_of_state s)) ->
  (forall s, wf s -> pair_states (state_of_input v) (L s) = xorb k (pair_states W s)) ->
  is16 u -> is16 v ->
  exists n, agreeing (giving R) u v n /\ (2 * Z.of_N n - 2 ^ 128 = sgn k * prod f u (output_of_state W))%Z.
Proof.
  intros HR WF HF HL Hu Hv. set (w := output_of_state W).
  set (p := fun x => negb (xorb k (xorb (dot u x) (dot w (map f x))))).
  assert (K : forall x, is16 x -> (p x = true <-> exists y, giving R x y /\ dot u x = dot v y)).
  { intros x Hx. assert (Wx : wf (state_of_input x)) by apply state_of_input_wf, Hx.
    assert (E : dot v (output_of_state (L (F (state_of_input x)))) = xorb k (dot w (map f x))).
    { specialize (HL (F (state_of_input x)) (WF _ Wx)). unfold pair_states in HL.
      rewrite output_of_input in HL by apply Hv. rewrite HL, HF, output_of_input by apply Hx. reflexivity. }
    unfold giving. rewrite HR by exact Hx. split.
    - intros H. eexists. split; [reflexivity|]. rewrite E. unfold p in H.
      destruct k, (dot u x), (dot w (map f x)); (reflexivity || discriminate).
    - intros (y & Ey & D). apply Ret_inj in Ey. rewrite <- Ey, E in D. unfold p.
      destruct k, (dot u x), (dot w (map f x)); (reflexivity || discriminate). }
  exists (N.of_nat (length (filter p (words 16)))). split.
  - exists (filter p (words 16)). split; [apply NoDup_filter, words_nodup|]. split; [|reflexivity].
    intros x. rewrite filter_In, words_in. split.
    + intros [[Hl Ho] HF']. split; [exact Hl|]. split; [exact Ho|]. apply K; [split; assumption|exact HF'].
    + intros (Hl & Ho & HF'). split; [split; assumption|]. apply K; [split; assumption|exact HF'].
  - pose proof (zsum_sgn p (words 16)) as S. rewrite nat_N_Z.
    assert (E128 : Z.of_nat (length (words 16)) = (2 ^ 128)%Z).
    { pose proof (words_length 16) as E. rewrite <- nat_N_Z, E. reflexivity. }
    rewrite E128 in S. rewrite <- S. destruct Hu as [Hu _].
    rewrite <- (words_sum f u w) by (rewrite Hu; reflexivity). rewrite Hu, <- zsum_scale. apply zsum_ext.
    intros x _. unfold p. rewrite negb_involutive. apply sgn_xorb.
Qed.

Lemma round_agreeing w r u v : (r + 1) * 4 <= N.of_nat (length w) -> is16 u -> is16 v ->
  exists n k, agreeing (giving (round_bytes w r)) u v n /\
    (2 * Z.of_N n - 2 ^ 128 = sgn k * prod SubByte u (output_of_state (before (state_of_input v))))%Z.
Proof.
  intros Hw Hu Hv. destruct (round_slice w r Hw) as (k & Ek & Hk).
  assert (WV : wf (state_of_input v)) by apply state_of_input_wf, Hv.
  destruct (agreeing_prod (round_bytes w r) SubByte SubBytes (fun s => plus_key k (MixColumns (ShiftRows s)))
    (before (state_of_input v)) (pair_states (state_of_input v) (plus_key k blank)) u v) as (n & A & E).
  - intros x Hx. apply round_bytes_ok; assumption.
  - intros s _. apply SubBytes_wf.
  - exact sub_output.
  - intros s Hs. apply pair_before; assumption.
  - exact Hu.
  - exact Hv.
  - exists n. eexists. split; [exact A|exact E].
Qed.
Lemma unround_agreeing w r u v : (r + 1) * 4 <= N.of_nat (length w) -> is16 u -> is16 v ->
  exists n k, agreeing (giving (unround_bytes w r)) u v n /\
    (2 * Z.of_N n - 2 ^ 128 = sgn k * prod InvSubByte u (output_of_state (unbefore (state_of_input v))))%Z.
Proof.
  intros Hw Hu Hv. destruct (round_slice w r Hw) as (k & Ek & Hk).
  assert (WV : wf (state_of_input v)) by apply state_of_input_wf, Hv.
  destruct (agreeing_prod (unround_bytes w r) InvSubByte InvSubBytes (fun s => InvMixColumns (plus_key k (InvShiftRows s)))
    (unbefore (state_of_input v)) (pair_states (named (remix (names (state_of_input v)))) (plus_key k blank)) u v) as (n & A & E).
  - intros x Hx. apply unround_bytes_ok; assumption.
  - intros s Hs. apply InvSubBytes_wf, Hs.
  - exact inv_sub_output.
  - intros s Hs. apply pair_unbefore; assumption.
  - exact Hu.
  - exact Hv.
  - exists n. eexists. split; [exact A|exact E].
Qed.

(** * Four rounds *)

Lemma nonzero_iff x y : (x = 0 <-> y = 0) -> nonzero x = nonzero y.
Proof. intros H. unfold nonzero. f_equal. apply Bool.eq_iff_eq_true. rewrite !N.eqb_eq. exact H. Qed.

Lemma before_step V : wf V -> step (fun r c => nonzero (entry (before V) r c)) (fun r c => nonzero (entry V r c)).
Proof.
  intros HV c Hc. pose proof (names_wf V HV) as HN. pose proof (unmix_branch (names V) c HN Hc) as B.
  assert (E1 : diagonal (fun r c => nonzero (entry (before V) r c)) c = column (fun r c => nonzero (entry (unmix (names V)) r c)) c).
  { assert (Z : forall r, (r < 4)%nat -> nonzero (entry (before V) r ((c + r) mod 4)%nat) = nonzero (entry (unmix (names V)) r c)).
    { intros r Hr. unfold before, InvShiftRows. rewrite entry_matrix by (assumption || apply Nat.mod_upper_bound; lia).
      replace (((c + r) mod 4 + 4 - r) mod 4)%nat with c.
      - unfold named. rewrite entry_matrix by assumption. apply nonzero_iff, form_ok. apply unmix_wf.
      - destruct c as [|[|[|[|]]]]; [..|lia]; (destruct r as [|[|[|[|]]]]; [..|lia]); reflexivity. }
    unfold diagonal, column. pose proof (Z 0%nat ltac:(lia)) as Z0. rewrite Nat.add_0_r, (Nat.mod_small c 4) in Z0 by exact Hc.
    rewrite Z0, !Z by lia. reflexivity. }
  assert (E2 : column (fun r c => nonzero (entry (names V) r c)) c = column (fun r c => nonzero (entry V r c)) c).
  { assert (Z : forall r, (r < 4)%nat -> nonzero (entry (names V) r c) = nonzero (entry V r c)).
    { intros r Hr. unfold names. rewrite entry_matrix by assumption. apply nonzero_iff, name_ok, HV. }
    unfold column. rewrite !Z by lia. reflexivity. }
  rewrite E1, <- E2. exact B.
Qed.
Lemma unbefore_step V : wf V ->
  step (reflect (fun r c => nonzero (entry (unbefore V) r c))) (reflect (fun r c => nonzero (entry V r c))).
Proof.
  intros HV c Hc. pose proof (names_wf V HV) as HN. pose proof (unmix_branch (remix (names V)) c (remix_wf _) Hc) as B.
  rewrite unmix_remix in B by exact HN. apply branch_sym in B.
  assert (E1 : diagonal (reflect (fun r c => nonzero (entry (unbefore V) r c))) c = column (fun r c => nonzero (entry (remix (names V)) r c)) c).
  { assert (Z : forall r, (r < 4)%nat -> nonzero (entry (unbefore V) ((4 - r) mod 4) ((c + r) mod 4)%nat) =
      nonzero (entry (remix (names V)) ((4 - r) mod 4) c)).
    { intros r Hr. unfold unbefore, ShiftRows. rewrite entry_matrix by (assumption || apply Nat.mod_upper_bound; lia).
      replace (((c + r) mod 4 + (4 - r) mod 4) mod 4)%nat with c.
      - unfold named. rewrite entry_matrix by (assumption || apply Nat.mod_upper_bound; lia). apply nonzero_iff, form_ok. apply remix_wf.
      - destruct c as [|[|[|[|]]]]; [..|lia]; (destruct r as [|[|[|[|]]]]; [..|lia]); reflexivity. }
    unfold diagonal, reflect. pose proof (Z 0%nat ltac:(lia)) as Z0. rewrite Nat.add_0_r, (Nat.mod_small c 4) in Z0 by exact Hc.
    rewrite Z0, !Z by lia. unfold column. cbn [Nat.modulo Nat.divmod fst snd Nat.sub]. lia. }
  assert (E2 : column (fun r c => nonzero (entry (names V) r c)) c = column (reflect (fun r c => nonzero (entry V r c))) c).
  { assert (Z : forall r, (r < 4)%nat -> nonzero (entry (names V) r c) = nonzero (entry V r c)).
    { intros r Hr. unfold names. rewrite entry_matrix by assumption. apply nonzero_iff, name_ok, HV. }
    unfold column, reflect. rewrite !Z by lia. cbn [Nat.modulo Nat.divmod fst snd Nat.sub]. lia. }
  rewrite E1, <- E2. exact B.
Qed.

Lemma prod_same f u W : flat f -> is16 u -> wf W -> prod f u (output_of_state W) <> 0%Z ->
  forall r c, (r < 4)%nat -> (c < 4)%nat -> places u r c = nonzero (entry W r c).
Proof.
  intros Hf [Lu Ou] HW HP r c Hr Hc. unfold places. apply nonzero_iff.
  rewrite <- (input_of_output W HW). unfold state_of_input. rewrite !entry_matrix by assumption.
  apply (prod_places f Hf); [exact Ou|apply octets_output, HW|rewrite Lu; reflexivity|exact HP].
Qed.

Lemma mask_step u v : is16 u -> is16 v -> prod SubByte u (output_of_state (before (state_of_input v))) <> 0%Z ->
  step (places u) (places v).
Proof.
  intros Hu Hv HP. assert (WV : wf (state_of_input v)) by apply state_of_input_wf, Hv.
  refine (step_ext _ _ _ _ _ _ (before_step (state_of_input v) WV)); [|reflexivity].
  intros r c Hr Hc. symmetry. apply (prod_same SubByte); [exact sub_flat|exact Hu|apply before_wf|exact HP|exact Hr|exact Hc].
Qed.
Lemma unmask_step u v : is16 u -> is16 v -> prod InvSubByte u (output_of_state (unbefore (state_of_input v))) <> 0%Z ->
  step (reflect (places u)) (reflect (places v)).
Proof.
  intros Hu Hv HP. assert (WV : wf (state_of_input v)) by apply state_of_input_wf, Hv.
  refine (step_ext _ _ _ _ _ _ (unbefore_step (state_of_input v) WV)); [|reflexivity].
  intros r c Hr Hc. symmetry. unfold reflect.
  apply (prod_same InvSubByte); [exact inv_flat|exact Hu|apply unbefore_wf|exact HP|apply Nat.mod_upper_bound; lia|exact Hc].
Qed.

Lemma four_corrs p1 p2 p3 p4 k1 k2 k3 k4 m : 25 <= k1 + k2 + k3 + k4 -> (0 <= m)%Z ->
  (Z.abs p1 * 8 ^ Z.of_N k1 <= m)%Z -> (Z.abs p2 * 8 ^ Z.of_N k2 <= m)%Z ->
  (Z.abs p3 * 8 ^ Z.of_N k3 <= m)%Z -> (Z.abs p4 * 8 ^ Z.of_N k4 <= m)%Z ->
  (Z.abs (p1 * p2 * p3 * p4) * 2 ^ 75 <= m * m * m * m)%Z.
Proof.
  intros H Hm H1 H2 H3 H4. rewrite !Z.abs_mul.
  assert (P : forall p k, (0 <= Z.abs p * 8 ^ Z.of_N k)%Z) by (intros; apply Z.mul_nonneg_nonneg; [lia|apply Z.pow_nonneg; lia]).
  etransitivity; [|apply Z.mul_le_mono_nonneg; [|apply Z.mul_le_mono_nonneg; [|apply Z.mul_le_mono_nonneg; [|exact H1| |exact H2]| |exact H3]| |exact H4]].
  - replace (Z.abs p1 * 8 ^ Z.of_N k1 * (Z.abs p2 * 8 ^ Z.of_N k2) * (Z.abs p3 * 8 ^ Z.of_N k3) * (Z.abs p4 * 8 ^ Z.of_N k4))%Z
      with (Z.abs p1 * Z.abs p2 * Z.abs p3 * Z.abs p4 * (8 ^ Z.of_N k1 * 8 ^ Z.of_N k2 * 8 ^ Z.of_N k3 * 8 ^ Z.of_N k4))%Z by ring.
    rewrite <- !Z.pow_add_r by lia. apply Z.mul_le_mono_nonneg_l; [repeat apply Z.mul_nonneg_nonneg; lia|].
    change (2 ^ 75)%Z with (8 ^ 25)%Z. apply Z.pow_le_mono_r; lia.
  - repeat apply Z.mul_nonneg_nonneg; try lia; apply Z.pow_nonneg; lia.
  - repeat apply Z.mul_nonneg_nonneg; try lia; apply Z.pow_nonneg; lia.
  - apply P.
  - apply P.
  - apply P.
  - apply P.
Qed.
