(** Reasoning about the records of Heap/: erasure, and the exact change and
    highest level of the heap during scrypt. *)
From Coq Require Import ZArith NArith List Arith Lia Bool ZifyBool ZifyNat ZifyN.
From Verif Require Import Rust.
From Verif.Spec Require Import Heap.
From Verif.Spec Require Octets Pbkdf2 Scrypt.
From Verif.Model Require Pbkdf2 Salsa20 Scrypt.
From Verif.Heap Require Ops Scrypt.
From Verif.Proofs Require Import Base.
From Verif.Proofs Require Pbkdf2 Scrypt.
Import ListNotations.
Import Spec.Octets.
Import Model.Scrypt.
Local Open Scope N_scope.

(** * Erasure *)
Definition erases {A} (m : Ops.res A) (m' : res A) : Prop := Ops.outcome m = m'.

Lemma outcome_bind {A B} (m : Ops.res A) (f : A -> Ops.res B) :
  Ops.outcome (Ops.bind m f) = bind (Ops.outcome m) (fun a => Ops.outcome (f a)).
Proof. destruct m as [t [a| |]]; cbn; try reflexivity. destruct (f a); reflexivity. Qed.
Lemma er_lift {A} (m : res A) : erases (Ops.lift m) m.
Proof. reflexivity. Qed.
Lemma er_bind {A B} (m : Ops.res A) m' (f : A -> Ops.res B) f' :
  erases m m' -> (forall a, erases (f a) (f' a)) -> erases (Ops.bind m f) (bind m' f').
Proof. unfold erases; intros Hm Hf. rewrite outcome_bind, Hm. destruct m'; cbn; auto. Qed.
(** A step that only records. *)
Lemma er_pure {A B} (m : Ops.res A) a (f : A -> Ops.res B) k :
  erases m (Ret a) -> erases (f a) k -> erases (Ops.bind m f) k.
Proof. unfold erases; rewrite outcome_bind; intros -> H; exact H. Qed.
Lemma er_tail {A} (m : Ops.res A) (m' : res A) : erases m m' -> erases m (bind m' Ret).
Proof. unfold erases. intros ->. destruct m'; reflexivity. Qed.
Lemma er_for_n {St} n : forall i (b : N -> St -> Ops.res St) b' s,
  (forall i s, erases (b i s) (b' i s)) -> erases (Ops.for_n n i b s) (for_n n i b' s).
Proof. induction n as [|n IH]; intros i b b' s Hb; cbn; [reflexivity|]. apply er_bind; auto. Qed.
Lemma er_for_each {A St} l : forall (b : A -> St -> Ops.res St) b' s,
  (forall x s, erases (b x s) (b' x s)) -> erases (Ops.for_each l b s) (for_each l b' s).
Proof. induction l as [|x l IH]; intros b b' s Hb; cbn; [reflexivity|]. apply er_bind; auto. Qed.
Lemma er_map_res {A B} l : forall (f : A -> Ops.res B) f',
  (forall x, erases (f x) (f' x)) -> erases (Ops.map_res f l) (map_res f' l).
Proof.
  induction l as [|x l IH]; intros f f' Hf; cbn; [reflexivity|].
  apply er_bind; [auto|]. intros y. apply er_bind; [auto|]. reflexivity.
Qed.
Lemma er_map_pure {A B} l : forall (f : A -> Ops.res B) g,
  (forall x, erases (f x) (Ret (g x))) -> erases (Ops.map_res f l) (Ret (map g l)).
Proof.
  induction l as [|x l IH]; intros f g Hf; cbn; [reflexivity|].
  eapply er_pure; [apply Hf|]. eapply er_pure; [apply IH; exact Hf|]. reflexivity.
Qed.
Lemma er_with_capacity T a n : erases (Ops.with_capacity T a n) (alloc T a n).
Proof. unfold Ops.with_capacity, erases. rewrite outcome_bind. cbn. destruct (alloc T a n) as [[]| |]; reflexivity. Qed.
Lemma er_each_unit {A} l (f : A -> unit -> Ops.res unit) :
  (forall x, erases (f x tt) (Ret tt)) -> erases (Ops.for_each l f tt) (Ret tt).
Proof. intros H. induction l as [|x l IH]; cbn; [reflexivity|]. eapply er_pure; [apply H|exact IH]. Qed.
Lemma er_drop_lane T l : erases (Heap.Scrypt.drop_lane T l) (Ret tt).
Proof. eapply er_pure; [apply er_each_unit; reflexivity|reflexivity]. Qed.

Lemma block_mix_er T s b : erases (Heap.Scrypt.block_mix T s b) (block_mix T s b).
Proof.
  unfold Heap.Scrypt.block_mix, block_mix.
  apply er_bind; [apply er_lift|]. intros r2.
  apply er_bind; [apply er_lift|]. intros j.
  apply er_bind; [apply er_lift|]. intros x.
  eapply er_pure; [reflexivity|].
  apply er_bind; [apply er_with_capacity|]. intros _.
  apply er_bind.
  - apply er_for_each. intros e [x' y]. eapply er_pure; [reflexivity|]. cbv zeta.
    apply er_bind; [apply er_lift|]. intros x2.
    eapply er_pure; [reflexivity|]. eapply er_pure; [reflexivity|]. reflexivity.
  - intros [x' y].
    apply er_bind; [apply er_with_capacity|]. intros _.
    apply er_bind; [apply er_with_capacity|]. intros _.
    destruct (split_parity 0 y) as [h t].
    do 3 (eapply er_pure; [reflexivity|]). reflexivity.
Qed.

Lemma xor_blocks_er x : forall v, erases (Heap.Scrypt.xor_blocks x v) (Ret (xor_blocks x v)).
Proof.
  induction x as [|a x IH]; intros [|b v]; cbn [Heap.Scrypt.xor_blocks xor_blocks]; try reflexivity.
  eapply er_pure; [reflexivity|]. eapply er_pure; [apply IH|]. reflexivity.
Qed.

Lemma ro_mix_er T s b : erases (Heap.Scrypt.ro_mix T s b) (ro_mix T s b).
Proof.
  unfold Heap.Scrypt.ro_mix, ro_mix. cbv zeta.
  apply er_bind; [apply er_with_capacity|]. intros _.
  apply er_bind.
  - apply er_for_n. intros i [x v]. apply er_bind; [apply block_mix_er|]. reflexivity.
  - intros [x v].
    match goal with |- erases (Ops.bind _ ?k) ?m =>
      unfold erases; rewrite outcome_bind;
      assert (E : forall a, Ops.outcome (k a) = Ret a) end.
    { intros a. eapply er_pure; [apply er_each_unit; intros; apply er_drop_lane|].
      eapply er_pure; [reflexivity|]. reflexivity. }
    match goal with |- bind (Ops.outcome ?l) _ = ?m => assert (E' : erases l m) end.
    { apply er_for_n. intros i y.
      apply er_bind; [apply er_lift|]. intros k.
      apply er_bind; [apply er_lift|]. intros j.
      apply er_bind; [apply er_lift|]. intros vj.
      eapply er_pure; [reflexivity|].
      eapply er_pure; [apply xor_blocks_er|]. cbv zeta.
      unfold erases. rewrite outcome_bind, block_mix_er.
      destruct (block_mix T s _) as [z| |]; try reflexivity. cbn [bind].
      eapply er_pure; [apply er_drop_lane|]. eapply er_pure; [apply er_drop_lane|]. reflexivity. }
    rewrite E'. match goal with |- bind ?m _ = _ => destruct m end; cbn [bind]; auto.
Qed.

Lemma split_blocks_er T s raw : erases (Heap.Scrypt.split_blocks T s raw) (split_blocks T s raw).
Proof.
  unfold Heap.Scrypt.split_blocks, split_blocks.
  apply er_bind; [apply er_lift|]. intros n.
  apply er_bind; [apply er_lift|]. intros cs.
  eapply er_pure; [reflexivity|].
  apply er_map_res. intros c. unfold erases. rewrite outcome_bind.
  change (Ops.outcome (Ops.lift (chunks_exact c BLOCK_SIZE))) with (chunks_exact c BLOCK_SIZE).
  destruct (chunks_exact c BLOCK_SIZE) as [bs| |]; try reflexivity. cbn [bind].
  eapply er_pure; [reflexivity|].
  etransitivity; [apply (er_map_pure bs Ops.new_bytes (fun b => b)); reflexivity|].
  rewrite map_id. reflexivity.
Qed.

Lemma scrypt_derive_er reuse T s P S out :
  erases (Heap.Scrypt.scrypt_derive reuse T s P S out) (scrypt_derive T s P S out).
Proof.
  unfold Heap.Scrypt.scrypt_derive, scrypt_derive.
  destruct (sr s <? 1); [reflexivity|]. destruct (sn s <? 1); [reflexivity|].
  apply er_bind; [apply er_lift|]. intros n1.
  destruct (negb _); [reflexivity|]. destruct (sp s <? 1); [reflexivity|].
  apply er_bind; [apply er_lift|]. intros m1.
  apply er_bind; [apply er_lift|]. intros m2.
  apply er_bind; [apply er_lift|]. intros m.
  apply er_bind; [apply er_with_capacity|]. intros _. cbv zeta.
  apply er_bind; [apply er_lift|]. intros raw.
  apply er_bind; [apply split_blocks_er|]. intros b.
  eapply er_pure; [destruct reuse; reflexivity|].
  apply er_bind; [apply er_map_res; intros; apply ro_mix_er|]. intros b'.
  eapply er_pure; [destruct reuse; reflexivity|].
  apply er_bind; [apply er_lift|]. reflexivity.
Qed.

(** * Levels *)
Local Open Scope Z_scope.

Fixpoint top (t : list event) : Z :=
  match t with
  | [] => 0
  | e :: t' => Z.max 0 (change e + top t')
  end.
Lemma top_nonneg t : 0 <= top t.
Proof. destruct t; cbn; lia. Qed.
Lemma top_highest t : highest t (top t).
Proof.
  induction t as [|e t [[k IHk] IHa]].
  - split; [exists O; reflexivity|]. intros k. rewrite firstn_nil. cbn. lia.
  - split.
    + cbn [top]. destruct (Z.max_spec 0 (change e + top t)) as [[_ ->]|[_ ->]].
      * exists (S k). cbn [firstn level fold_right]. fold (level (firstn k t)). lia.
      * exists O. reflexivity.
    + intros [|j]; cbn [firstn top]; [cbn; lia|]. cbn [level fold_right].
      specialize (IHa j). fold (level (firstn j t)). lia.
Qed.
Lemma highest_unique t h h' : highest t h -> highest t h' -> h = h'.
Proof. intros [[k <-] A] [[k' <-] A']. specialize (A k'). specialize (A' k). lia. Qed.
Lemma level_app t u : level (t ++ u) = level t + level u.
Proof. induction t as [|e t IH]; cbn [app level fold_right]; [reflexivity|]. fold (level (t ++ u)) (level t). lia. Qed.
Lemma level_le_top t : level t <= top t.
Proof. induction t as [|e t IH]; cbn [level fold_right top]; [lia|]. fold (level t). lia. Qed.
Lemma top_app t u : top (t ++ u) = Z.max (top t) (level t + top u).
Proof.
  induction t as [|e t IH]; cbn [app level fold_right top].
  - pose proof (top_nonneg u). lia.
  - fold (level t). rewrite IH. lia.
Qed.

(** The run returns a value that satisfies [P], changing the level by [d] and
    reaching [h] on the way. *)
Definition uses {A} (m : Ops.res A) (d h : Z) (P : A -> Prop) : Prop :=
  exists a, Ops.outcome m = Ret a /\ level (Ops.trace m) = d /\ top (Ops.trace m) = h /\ P a.

Lemma uses_bind {A B} (m : Ops.res A) (f : A -> Ops.res B) d1 h1 d2 h2 P Q :
  uses m d1 h1 P -> (forall a, P a -> uses (f a) d2 h2 Q) ->
  uses (Ops.bind m f) (d1 + d2) (Z.max h1 (d1 + h2)) Q.
Proof.
  intros (a & Ha & Hd & Hh & HP) Hf. destruct (Hf a HP) as (b & Hb & Hd2 & Hh2 & HQ).
  destruct m as [t o]. unfold Ops.outcome, Ops.trace in *. cbn [fst snd] in *. subst o.
  exists b. unfold Ops.outcome, Ops.trace. cbn [Ops.bind].
  destruct (f a) as [t' o']. cbn [fst snd] in *.
  split; [exact Hb|]. rewrite level_app, top_app. split; [lia|]. split; [lia|exact HQ].
Qed.
Lemma uses_eq {A} (m : Ops.res A) d h d' h' P : uses m d h P -> d = d' -> h = h' -> uses m d' h' P.
Proof. intros H -> ->. exact H. Qed.
Lemma uses_post {A} (m : Ops.res A) d h (P Q : A -> Prop) a :
  uses m d h P -> Ops.outcome m = Ret a -> Q a -> uses m d h Q.
Proof. intros (a' & Ha & Hd & Hh & HP) E HQ. exists a. auto. Qed.
Lemma uses_lift {A} (m : res A) a (P : A -> Prop) : m = Ret a -> P a -> uses (Ops.lift m) 0 0 P.
Proof. intros -> H. exists a. repeat split; assumption || reflexivity. Qed.
Lemma uses_ret {A} (a : A) (P : A -> Prop) : P a -> uses (Ops.Ret a) 0 0 P.
Proof. apply uses_lift. reflexivity. Qed.
Lemma uses_take n : uses (Ops.take n) (Z.of_N n) (Z.of_N n) (fun _ => True).
Proof. exists tt. cbn. repeat split; lia. Qed.
Lemma uses_give n : uses (Ops.give n) (- Z.of_N n) 0 (fun _ => True).
Proof. exists tt. cbn. repeat split; lia. Qed.
Lemma uses_with_capacity T a n : (a * n <= isize_max T)%N ->
  uses (Ops.with_capacity T a n) (Z.of_N (a * n)) (Z.of_N (a * n)) (fun _ => True).
Proof.
  intros H. eapply uses_eq.
  - eapply uses_bind; [apply (uses_lift _ tt (fun _ => True)); [apply Scrypt.alloc_ok; exact H|exact I]|].
    intros _ _. apply uses_take.
  - lia.
  - lia.
Qed.
Lemma uses_new_bytes b l (P : list N -> Prop) : Z.of_nat (length b) = l -> P b ->
  uses (Ops.new_bytes b) l l P.
Proof.
  intros <- H. eapply uses_eq.
  - eapply uses_bind; [apply uses_take|]. intros _ _. apply uses_ret. exact H.
  - unfold len. lia.
  - unfold len. lia.
Qed.
Lemma uses_drop_bytes b l : Z.of_nat (length b) = l ->
  uses (Ops.drop_bytes b) (- l) 0 (fun _ => True).
Proof. intros <-. eapply uses_eq; [apply uses_give| |]; unfold len; lia. Qed.

(** What [k] repetitions reach, when one changes the level by [d] and reaches [h]. *)
Definition reach (k : nat) (d h : Z) : Z := match k with O => 0 | S k' => Z.of_nat k' * d + h end.

Lemma reach_S k d h : 0 <= d <= h -> Z.max h (d + reach k d h) = reach (S k) d h.
Proof. intros H. unfold reach. destruct k as [|k]; [lia|]. nia. Qed.

Lemma uses_for_n {St} (P : nat -> St -> Prop) d h n : 0 <= d <= h -> forall i j (b : N -> St -> Ops.res St) s,
  (forall i k s, (k < j + n)%nat -> P k s -> uses (b i s) d h (P (S k))) -> P j s ->
  uses (Ops.for_n n i b s) (Z.of_nat n * d) (reach n d h) (P (j + n)%nat).
Proof.
  intros Hd. induction n as [|n IH]; intros i j b s Hb Hs; cbn [Ops.for_n].
  - rewrite Nat.add_0_r. eapply uses_eq; [apply uses_ret; exact Hs|lia|reflexivity].
  - eapply uses_eq.
    + eapply uses_bind; [apply Hb; [|exact Hs]; lia|]. intros s' Hs'.
      replace (j + S n)%nat with (S j + n)%nat by lia. apply (IH _ (S j)); [|exact Hs'].
      intros i' k s0 Hk. apply Hb. lia.
    + lia.
    + apply reach_S. exact Hd.
Qed.
Lemma uses_for_each {A St} (P : nat -> St -> Prop) d h l : 0 <= d <= h -> forall j (b : A -> St -> Ops.res St) s,
  (forall x k s, In x l -> P k s -> uses (b x s) d h (P (S k))) -> P j s ->
  uses (Ops.for_each l b s) (Z.of_nat (length l) * d) (reach (length l) d h) (P (j + length l)%nat).
Proof.
  intros Hd. induction l as [|x l IH]; intros j b s Hb Hs; cbn [Ops.for_each length].
  - rewrite Nat.add_0_r. eapply uses_eq; [apply uses_ret; exact Hs|lia|reflexivity].
  - eapply uses_eq.
    + eapply uses_bind; [apply Hb; [left; reflexivity|exact Hs]|]. intros s' Hs'.
      replace (j + S (length l))%nat with (S j + length l)%nat by lia. apply (IH (S j)); [|exact Hs'].
      intros y k s0 Hy. apply Hb. right; exact Hy.
    + lia.
    + apply reach_S. exact Hd.
Qed.
(** Dropping many. *)
Lemma uses_drop_each {A} (b : A -> unit -> Ops.res unit) d l : 0 <= d ->
  (forall x, In x l -> uses (b x tt) (- d) 0 (fun _ => True)) ->
  uses (Ops.for_each l b tt) (- (Z.of_nat (length l) * d)) 0 (fun _ => True).
Proof.
  intros Hd Hb. induction l as [|x l IH]; cbn [Ops.for_each length].
  - eapply uses_eq; [apply (uses_ret tt); exact I|lia|lia].
  - eapply uses_eq.
    + eapply uses_bind; [apply Hb; left; reflexivity|]. intros [] _. apply IH.
      intros y Hy. apply Hb. right; exact Hy.
    + lia.
    + lia.
Qed.
Lemma uses_map {A B} (f : A -> Ops.res B) (P : B -> Prop) d h l : 0 <= d <= h ->
  (forall x, In x l -> uses (f x) d h P) ->
  uses (Ops.map_res f l) (Z.of_nat (length l) * d) (reach (length l) d h)
    (fun ys => length ys = length l /\ Forall P ys).
Proof.
  intros Hd. induction l as [|x l IH]; intros Hf; cbn [Ops.map_res length].
  - eapply uses_eq; [apply uses_ret; split; [reflexivity|constructor]|lia|reflexivity].
  - eapply uses_eq.
    + eapply uses_bind; [apply Hf; left; reflexivity|]. intros y Hy.
      eapply uses_bind; [apply IH; intros z Hz; apply Hf; right; exact Hz|].
      intros ys [Hl Hys]. apply uses_ret. split; [cbn; lia|constructor; assumption].
    + lia.
    + rewrite Z.add_0_r. rewrite <- reach_S by exact Hd.
      assert (Z.of_nat (length l) * d <= reach (length l) d h) by (unfold reach; destruct (length l); nia).
      lia.
Qed.

(** * scrypt *)
Notation block64 := Proofs.Scrypt.block64.
Notation vec := Proofs.Scrypt.vec.
Notation r_fits := Proofs.Scrypt.r_fits.

(** Bytes of a lane of [2r] blocks: the blocks and the headers in its buffer. *)
Definition lane_bytes (T : target) (r : N) : Z := 2 * Z.of_N r * (64 + Z.of_N (vec_size T)).
(** The highest level during one [block_mix], result included. *)
Definition mix_top (T : target) (r : N) : Z :=
  64 + 128 * Z.of_N r + 2 * Z.of_N r * Z.of_N (vec_size T)
  + Z.max 64 (3 * Z.of_N r * Z.of_N (vec_size T)).

Lemma block_xor_uses a b : block64 a -> block64 b ->
  uses (Heap.Scrypt.block_xor a b) 64 64 (fun t => t = block_xor a b /\ block64 t).
Proof.
  intros Ha Hb. pose proof (Proofs.Scrypt.block64_xor a b Ha Hb) as H.
  unfold Heap.Scrypt.block_xor. apply uses_new_bytes.
  - unfold block_xor. rewrite zip_xor_xor. destruct H as [-> _]. reflexivity.
  - split; [reflexivity|]. unfold block_xor. rewrite zip_xor_xor. exact H.
Qed.

Lemma vec_size_pos T : (12 <= vec_size T <= 24)%N.
Proof. unfold vec_size, usize_bits. destruct (width T); vm_compute; split; discriminate. Qed.

Lemma drop_lane_uses T r l : vec (N.to_nat r) l ->
  uses (Heap.Scrypt.drop_lane T l) (- lane_bytes T r) 0 (fun _ => True).
Proof.
  intros [Hl Hf]. pose proof (vec_size_pos T). unfold Heap.Scrypt.drop_lane. eapply uses_eq.
  - eapply uses_bind.
    + apply (uses_drop_each _ 64); [lia|]. intros x Hx.
      rewrite Forall_forall in Hf. destruct (Hf x Hx) as [Hx1 _].
      apply uses_drop_bytes. rewrite Hx1. reflexivity.
    + intros _ _. apply uses_give.
  - unfold lane_bytes, len. assert (Hz : Z.of_nat (@length Block l) = 2 * Z.of_N r) by (unfold Block; lia).
    rewrite N2Z.inj_mul, nat_N_Z, Hz. ring.
  - lia.
Qed.

Lemma block_mix_uses T s b : r_fits T (sr s) -> vec (N.to_nat (sr s)) b ->
  uses (Heap.Scrypt.block_mix T s b) (lane_bytes T (sr s)) (mix_top T (sr s)) (vec (N.to_nat (sr s))).
Proof.
  intros Hr Hb.
  destruct (Proofs.Scrypt.block_mix_ok T s b Hr Hb) as (b' & E & Hb' & _).
  apply (uses_post _ _ _ (fun _ => True) _ b'); [|rewrite <- E; apply block_mix_er|exact Hb'].
  clear b' E Hb'. destruct Hr as [Hr1 Hr2]. destruct Hb as [Hlb Hfb].
  pose proof (isize_usize T) as Hus. pose proof (vec_size_pos T) as Hvs.
  assert (E1 : umul T 2 (sr s) = Ret (2 * sr s)%N) by (apply umul_ok; lia).
  assert (E2 : usub T (2 * sr s) 1 = Ret (2 * sr s - 1)%N) by (apply usub_ok; lia).
  assert (E3 : idx b (2 * sr s - 1)%N = Ret (nth (N.to_nat (2 * sr s - 1)) b [])) by (apply idx_nth; lia).
  unfold Heap.Scrypt.block_mix. eapply uses_eq.
  - eapply uses_bind; [apply (uses_lift _ _ (fun z => z = 2 * sr s)%N E1); reflexivity|].
    intros r2 ->.
    eapply uses_bind; [apply (uses_lift _ _ (fun z => z = 2 * sr s - 1)%N E2); reflexivity|].
    intros j ->.
    eapply uses_bind.
    { apply (uses_lift _ _ block64 E3).
      apply (proj1 (Forall_forall _ _) Hfb), nth_In; lia. }
    intros x Hx.
    eapply uses_bind; [apply (uses_new_bytes x 64 block64); [destruct Hx as [-> _]; reflexivity|exact Hx]|].
    clear x Hx. intros x Hx.
    eapply uses_bind; [apply uses_with_capacity; nia|]. intros _ _.
    eapply uses_bind.
    { apply (uses_for_each (fun k st => block64 (fst st)) 64 128 b ltac:(lia) 0); [|exact Hx].
      clear x Hx. intros e k [x y] He Hx. cbn [fst] in Hx.
      rewrite Forall_forall in Hfb. specialize (Hfb e He).
      eapply uses_eq.
      - eapply uses_bind; [apply block_xor_uses; eassumption|]. intros t [-> Ht].
        eapply uses_bind.
        { eapply (uses_lift _ _ block64 (Proofs.Scrypt.salsa_step x e Hx Hfb)).
          apply Proofs.Scrypt.block64_Salsa, Proofs.Scrypt.block64_xor; assumption. }
        intros x' Hx'.
        eapply uses_bind; [apply (uses_new_bytes x' 64 block64); [destruct Hx' as [-> _]; reflexivity|exact Hx']|].
        intros c Hc.
        eapply uses_bind; [apply (uses_drop_bytes _ 64); destruct Ht as [-> _]; reflexivity|].
        intros _ _. apply uses_ret. exact Hx'.
      - lia.
      - lia. }
    clear x Hx. intros [x y] Hx. cbn [fst] in Hx.
    eapply uses_bind; [apply uses_with_capacity; nia|]. intros _ _.
    eapply uses_bind; [apply uses_with_capacity; nia|]. intros _ _.
    match goal with |- uses (match ?p with _ => _ end) _ _ _ => destruct p as [h t] end.
    eapply uses_bind; [apply uses_give|]. intros _ _.
    eapply uses_bind; [apply uses_give|]. intros _ _.
    eapply uses_bind; [apply (uses_drop_bytes _ 64); destruct Hx as [-> _]; reflexivity|].
    intros _ _. apply uses_ret. exact I.
  - assert (Hz : Z.of_nat (length b) = 2 * Z.of_N (sr s)) by lia.
    rewrite Hz. unfold lane_bytes. rewrite !N2Z.inj_mul. ring.
  - assert (Hz : Z.of_nat (length b) = 2 * Z.of_N (sr s)) by lia.
    assert (Hc : reach (length b) 64 128 = 128 * Z.of_N (sr s) + 64).
    { unfold reach. destruct (length b); lia. }
    rewrite Hz, Hc. unfold mix_top. rewrite !N2Z.inj_mul.
    pose proof (Z.mul_nonneg_nonneg (Z.of_N (vec_size T)) (Z.of_N (sr s)) ltac:(lia) ltac:(lia)).
    set (q := Z.of_N (vec_size T) * Z.of_N (sr s)) in *.
    replace (Z.of_N (vec_size T) * (Z.of_N 2 * Z.of_N (sr s))) with (2 * q) by (unfold q; ring).
    replace (2 * Z.of_N (sr s) * Z.of_N (vec_size T)) with (2 * q) by (unfold q; ring).
    replace (3 * Z.of_N (sr s) * Z.of_N (vec_size T)) with (3 * q) by (unfold q; ring).
    lia.
Qed.

Lemma xor_blocks_uses x : forall v, length v = length x -> Forall block64 x -> Forall block64 v ->
  uses (Heap.Scrypt.xor_blocks x v) (64 * Z.of_nat (length x)) (64 * Z.of_nat (length x))
    (fun t => length t = length x /\ Forall block64 t).
Proof.
  induction x as [|a x IH]; intros [|b v] Hl Hx Hv; try discriminate Hl; cbn [Heap.Scrypt.xor_blocks length].
  - eapply uses_eq; [apply uses_ret; split; [reflexivity|constructor]|reflexivity|reflexivity].
  - apply Forall_cons_iff in Hx; destruct Hx as [Ha Hx].
    apply Forall_cons_iff in Hv; destruct Hv as [Hb Hv]. eapply uses_eq.
    + eapply uses_bind; [apply block_xor_uses; assumption|]. intros c [_ Hc].
      eapply uses_bind; [apply IH; [injection Hl; auto|assumption|assumption]|].
      intros cs [Hlc Hcs]. apply uses_ret. split; [cbn; lia|constructor; assumption].
    + lia.
    + lia.
Qed.

Lemma mix_top_ge T r : lane_bytes T r <= mix_top T r.
Proof. unfold lane_bytes, mix_top. lia. Qed.
Lemma lane_bytes_nonneg T r : 0 <= lane_bytes T r.
Proof. unfold lane_bytes. lia. Qed.

(** The highest level during one [ro_mix], its argument already counted. *)
Definition ro_top (T : target) (s : Scrypt) : Z :=
  Z.of_N (sn s) * Z.of_N (vec_size T) + (Z.of_N (sn s) + 1) * lane_bytes T (sr s) + mix_top T (sr s).

Lemma ro_mix_uses T s b k : r_fits T (sr s) -> sn s = (2 ^ k)%N -> (sn s < usize_mod T)%N ->
  (vec_size T * sn s <= isize_max T)%N -> vec (N.to_nat (sr s)) b ->
  uses (Heap.Scrypt.ro_mix T s b) 0 (ro_top T s) (vec (N.to_nat (sr s))).
Proof.
  intros Hr Hk Hn Ha Hb. pose proof (vec_size_pos T) as Hvs.
  pose proof (mix_top_ge T (sr s)) as Hmt. pose proof (lane_bytes_nonneg T (sr s)) as Hln.
  assert (Hr1 : (1 <= N.to_nat (sr s))%nat) by (destruct Hr; lia).
  assert (Hn0 : sn s <> 0%N) by (rewrite Hk; apply N.pow_nonzero; discriminate).
  set (r := N.to_nat (sr s)) in *.
  unfold Heap.Scrypt.ro_mix. cbv zeta. unfold Block. eapply uses_eq.
  - eapply uses_bind; [apply uses_with_capacity; exact Ha|]. intros _ _.
    eapply uses_bind.
    { unfold Ops.for_range.
      apply (uses_for_n (fun k st => vec r (fst st) /\ length (snd st) = k /\ Forall (vec r) (snd st))
               (lane_bytes T (sr s)) (mix_top T (sr s)) _ (conj Hln Hmt) _ 0).
      - intros i j [x v] _ (Hx & Hlv & Hv). cbn [fst snd] in *. eapply uses_eq.
        + eapply uses_bind; [apply block_mix_uses; assumption|]. intros t Ht. apply uses_ret.
          cbn [fst snd]. split; [exact Ht|]. rewrite app_length. cbn [length]. split; [unfold Block in *; lia|].
          apply Forall_app. split; [exact Hv|]. constructor; [exact Hx|constructor].
        + lia.
        + lia.
      - cbn [fst snd]. split; [exact Hb|]. split; [reflexivity|constructor]. }
    intros [x v] (Hx & Hlv & Hv). cbn [fst snd] in *. rewrite N.sub_0_r, Nat.add_0_l in *.
    eapply uses_bind.
    { unfold Ops.for_range.
      apply (uses_for_n (fun _ x => vec r x) 0 (lane_bytes T (sr s) + mix_top T (sr s)) _ ltac:(lia) _ 0);
        [|exact Hx].
      clear x Hx. intros i j x _ Hx.
      pose proof (Proofs.Scrypt.index_ok T r x k Hr1 Hx) as Hi. rewrite <- Hk in Hi. specialize (Hi Hn).
      destruct (integerify T x) as [w| |] eqn:Ew; try discriminate Hi. cbn [bind] in Hi.
      set (ix := (Spec.Scrypt.Integerify r (concat x) mod sn s)%N) in *.
      assert (Hix : (ix < sn s)%N) by (apply N.mod_lt; assumption).
      assert (Ev : idx v ix = Ret (nth (N.to_nat ix) v [])) by (apply idx_nth; unfold Block in *; lia).
      assert (Hvv : vec r (nth (N.to_nat ix) v [])).
      { rewrite Forall_forall in Hv. apply Hv, nth_In. unfold Block in *; lia. }
      eapply uses_eq.
      - eapply uses_bind; [apply (uses_lift _ _ (fun z => z = w) eq_refl); reflexivity|]. intros w' ->.
        eapply uses_bind; [apply (uses_lift _ _ (fun z => z = ix) Hi); reflexivity|]. intros z ->.
        eapply uses_bind; [apply (uses_lift _ _ (vec r) Ev); exact Hvv|]. clear Ev Hvv. intros vj [Hl1 Hf1].
        pose proof Hx as [Hl2 Hf2].
        assert (Hm : N.min (len x) (len vj) = (2 * sr s)%N).
        { unfold len. rewrite Hl2, Hl1. lia. }
        rewrite Hm. clear Hm.
        eapply uses_bind; [apply uses_take|]. intros _ _.
        eapply uses_bind; [apply xor_blocks_uses; [rewrite Hl2; exact Hl1|exact Hf2|exact Hf1]|].
        rewrite Hl2. intros t Ht.
        eapply uses_bind; [apply block_mix_uses; [exact Hr|exact Ht]|]. intros x' Hx'.
        eapply uses_bind; [apply (drop_lane_uses T (sr s)); exact Hx|]. intros _ _.
        eapply uses_bind; [apply (drop_lane_uses T (sr s)); exact Ht|]. intros _ _.
        apply uses_ret. exact Hx'.
      - destruct Hx as [-> _]. unfold lane_bytes. rewrite !N2Z.inj_mul. unfold r. rewrite Nat2Z.inj_mul, N_nat_Z. ring.
      - destruct Hx as [-> _]. assert (HL : Z.of_N (vec_size T * (2 * sr s)) + 64 * Z.of_nat (2 * r) = lane_bytes T (sr s)).
        { unfold lane_bytes. rewrite !N2Z.inj_mul. unfold r. rewrite Nat2Z.inj_mul, N_nat_Z. ring. }
        lia. }
    intros x' Hx'.
    eapply uses_bind.
    { pose proof (fun H => uses_drop_each (fun l _ => Heap.Scrypt.drop_lane T l) _ v Hln H) as HD.
      unfold Block in HD, Hlv. rewrite Hlv in HD. apply HD. intros l Hl.
      apply drop_lane_uses. rewrite Forall_forall in Hv. apply Hv, Hl. }
    intros _ _.
    eapply uses_bind; [apply uses_give|]. intros _ _. apply uses_ret. exact Hx'.
  - rewrite !N.sub_0_r, !N2Z.inj_mul, !N_nat_Z. ring.
  - rewrite !N.sub_0_r.
    assert (Hre : reach (N.to_nat (sn s)) (lane_bytes T (sr s)) (mix_top T (sr s)) =
                  (Z.of_N (sn s) - 1) * lane_bytes T (sr s) + mix_top T (sr s)).
    { unfold reach. destruct (N.to_nat (sn s)) eqn:En; [lia|].
      replace (Z.of_N (sn s) - 1) with (Z.of_nat n) by lia. reflexivity. }
    assert (Hre0 : reach (N.to_nat (sn s)) 0 (lane_bytes T (sr s) + mix_top T (sr s)) =
                  lane_bytes T (sr s) + mix_top T (sr s)).
    { unfold reach. destruct (N.to_nat (sn s)) eqn:En; lia. }
    rewrite Hre, Hre0, !N2Z.inj_mul, !N_nat_Z. unfold ro_top.
    set (L := lane_bytes T (sr s)) in *. set (M := mix_top T (sr s)) in *. set (n := Z.of_N (sn s)) in *.
    set (w := Z.of_N (vec_size T)) in *.
    assert (0 <= n * L) by (apply Z.mul_nonneg_nonneg; lia).
    assert (0 <= w * n) by (apply Z.mul_nonneg_nonneg; lia).
    replace ((n - 1) * L) with (n * L - L) by ring.
    replace ((n + 1) * L) with (n * L + L) by ring.
    replace (n * w) with (w * n) by ring.
    clearbody L M n w. lia.
Qed.

Lemma split_blocks_uses T s raw p : r_fits T (sr s) -> octets raw ->
  length raw = (p * (128 * N.to_nat (sr s)))%nat ->
  uses (Heap.Scrypt.split_blocks T s raw)
    (Z.of_nat p * (Z.of_N (vec_size T) + lane_bytes T (sr s)))
    (Z.of_nat p * (Z.of_N (vec_size T) + lane_bytes T (sr s)))
    (fun b => length b = p /\ Forall (vec (N.to_nat (sr s))) b).
Proof.
  intros [Hr1 Hr2] Ho Hl. pose proof (isize_usize T) as Hus. pose proof (vec_size_pos T) as Hvs.
  pose proof (lane_bytes_nonneg T (sr s)) as Hln.
  set (r := N.to_nat (sr s)) in *.
  assert (E1 : umul T (2 * BLOCK_SIZE) (sr s) = Ret (128 * sr s)%N).
  { change (2 * BLOCK_SIZE)%N with 128%N. apply umul_ok. lia. }
  assert (E2 : chunks_exact raw (128 * sr s)%N = Ret (blocks (128 * r) raw)).
  { rewrite Proofs.Scrypt.chunks_exact_all by lia. do 2 f_equal. lia. }
  assert (Hlen : length (blocks (128 * r) raw) = p).
  { rewrite blocks_length, Hl. apply Nat.div_mul. lia. }
  unfold Heap.Scrypt.split_blocks. unfold Block. eapply uses_eq.
  - eapply uses_bind; [apply (uses_lift _ _ (fun z => z = 128 * sr s)%N E1); reflexivity|]. intros n ->.
    eapply uses_bind; [apply (uses_lift _ _ (fun z => z = blocks (128 * r) raw) E2); reflexivity|]. intros cs ->.
    eapply uses_bind; [apply uses_take|]. intros _ _.
    pose proof (fun H => uses_map (fun chunk =>
       Ops.bind (Ops.lift (chunks_exact chunk BLOCK_SIZE)) (fun bs =>
       Ops.bind (Ops.take (vec_size T * len bs)) (fun _ => Ops.map_res Ops.new_bytes bs)))
       (vec r) (lane_bytes T (sr s)) (lane_bytes T (sr s)) (blocks (128 * r) raw) ltac:(lia) H) as HM.
    rewrite Hlen in HM. apply HM. clear HM. intros c Hc.
    pose proof (blocks_all_length _ _ _ Hc) as Hlc. pose proof (octets_blocks _ _ _ Ho Hc) as Hoc.
    pose proof (Proofs.Scrypt.vec_of_octets r c Hoc Hlc) as [Hl2 Hf2].
    assert (E3 : chunks_exact c BLOCK_SIZE = Ret (blocks 64 c))
      by (rewrite Proofs.Scrypt.chunks_exact_all by discriminate; reflexivity).
    eapply uses_eq.
    + eapply uses_bind; [apply (uses_lift _ _ (fun z => z = blocks 64 c) E3); reflexivity|]. intros bs ->.
      eapply uses_bind; [apply uses_take|]. intros _ _.
      pose proof (fun H => uses_map Ops.new_bytes block64 64 64 (blocks 64 c) ltac:(lia) H) as HM.
      rewrite Hl2 in HM. apply HM. intros x Hx. rewrite Forall_forall in Hf2. specialize (Hf2 x Hx).
      apply uses_new_bytes; [destruct Hf2 as [-> _]; reflexivity|exact Hf2].
    + unfold len. rewrite Hl2. unfold lane_bytes, r. rewrite N2Z.inj_mul, nat_N_Z, Nat2Z.inj_mul, N_nat_Z. ring.
    + assert (HR : reach (2 * r) 64 64 = 64 * Z.of_nat (2 * r)) by (unfold reach; destruct (2 * r)%nat; lia).
      rewrite HR. unfold len. rewrite Hl2.
      assert (HL : Z.of_N (vec_size T * N.of_nat (2 * r)) + 64 * Z.of_nat (2 * r) = lane_bytes T (sr s)).
      { unfold lane_bytes, r. rewrite N2Z.inj_mul, nat_N_Z, Nat2Z.inj_mul, N_nat_Z. ring. }
      lia.
  - unfold len. rewrite Hlen, N2Z.inj_mul, nat_N_Z. ring.
  - unfold len. rewrite Hlen, N2Z.inj_mul, nat_N_Z.
    assert (HR : reach p (lane_bytes T (sr s)) (lane_bytes T (sr s)) = Z.of_nat p * lane_bytes T (sr s)).
    { unfold reach. destruct p; [lia|]. rewrite Nat2Z.inj_succ. ring. }
    rewrite HR.
    assert (0 <= Z.of_nat p * lane_bytes T (sr s)) by (apply Z.mul_nonneg_nonneg; lia).
    assert (0 <= Z.of_N (vec_size T) * Z.of_nat p) by (apply Z.mul_nonneg_nonneg; lia).
    rewrite Z.mul_add_distr_l. rewrite (Z.mul_comm (Z.of_nat p) (Z.of_N (vec_size T))). lia.
Qed.

(** The highest level up to the end of step 2 of [derive]. *)
Definition derive_top (reuse : bool) (T : target) (s : Scrypt) : Z :=
  Z.of_N (sp s) * (128 * Z.of_N (sr s) + Z.of_N (vec_size T) + lane_bytes T (sr s))
  + (if reuse then 0 else Z.of_N (sp s) * Z.of_N (vec_size T)) + ro_top T s.

Lemma ro_top_nonneg T s : 0 <= ro_top T s.
Proof.
  pose proof (mix_top_ge T (sr s)). pose proof (lane_bytes_nonneg T (sr s)). unfold ro_top. nia.
Qed.

Lemma lanes_bytes r b : Forall (vec r) b ->
  octets (concat (concat b)) /\ length (concat (concat b)) = (length b * (128 * r))%nat.
Proof.
  induction 1 as [|x b Hx Hb [IH1 IH2]]; [split; [constructor|reflexivity]|].
  cbn [concat length]. rewrite concat_app. split.
  - apply octets_app. split; [eapply Proofs.Scrypt.vec_octets; exact Hx|exact IH1].
  - rewrite app_length, IH2, (Proofs.Scrypt.vec_concat_length r) by assumption. lia.
Qed.

Lemma derive_uses reuse T s P S out : Proofs.Scrypt.accepted s -> (sn s < usize_mod T)%N ->
  (8 * (sp s * 128 * sr s + 68) < usize_mod T)%N -> (vec_size T * sn s <= isize_max T)%N ->
  octets P -> octets S -> Pbkdf2.fits T P S -> (len out <= isize_max T)%N ->
  uses (Heap.Scrypt.scrypt_derive reuse T s P S out)
    (Z.of_N (sp s) * (128 * Z.of_N (sr s) + Z.of_N (vec_size T) + lane_bytes T (sr s)))
    (derive_top reuse T s) (fun _ => True).
Proof.
  intros Hacc Hn Hm Ha HP HS Hf Hout.
  pose proof (isize_usize T) as Hus. pose proof (vec_size_pos T) as Hvs.
  pose proof Hacc as (Hr1 & Hn1 & [k Hk] & Hp1).
  set (m := (sp s * 128 * sr s)%N) in *.
  assert (Hm' : (m <= isize_max T)%N) by lia.
  assert (Hr2 : (128 * sr s <= isize_max T)%N) by (unfold m in Hm'; nia).
  assert (Hr : r_fits T (sr s)) by (split; assumption).
  assert (E0 : usub T (sn s) 1 = Ret (sn s - 1)%N) by (apply usub_ok; lia).
  assert (E1 : umul T (sp s) 2 = Ret (sp s * 2)%N) by (apply umul_ok; unfold m in *; nia).
  assert (E2 : umul T (sp s * 2)%N BLOCK_SIZE = Ret (sp s * 2 * 64)%N)
    by (apply umul_ok; unfold m in *; change BLOCK_SIZE with 64%N; nia).
  assert (E3 : umul T (sp s * 2 * 64)%N (sr s) = Ret m).
  { rewrite umul_ok by (unfold m in *; lia). f_equal. unfold m. lia. }
  unfold Heap.Scrypt.scrypt_derive.
  destruct (sr s <? 1)%N eqn:C1; [lia|]. destruct (sn s <? 1)%N eqn:C2; [lia|].
  assert (C3 : (N.land (sn s - 1) (sn s) =? 0)%N = true).
  { apply N.eqb_eq. rewrite Hk. apply Proofs.Scrypt.land_pred_pow2. }
  destruct (sp s <? 1)%N eqn:C4; [lia|].
  pose proof (ro_top_nonneg T s) as H0. pose proof (lane_bytes_nonneg T (sr s)) as H1.
  assert (HP2 : forall S', octets S' -> Pbkdf2.fits T P S' -> forall o, (len o <= isize_max T)%N ->
     Model.Pbkdf2.pbkdf2_sha256 T P S' PBKDF2_ROUNDS o = Ret (Spec.Pbkdf2.pbkdf2 P S' PBKDF2_ROUNDS (length o))).
  { intros S' HS' Hf' o Ho. apply Pbkdf2.pbkdf2_ok; assumption. }
  assert (E4 := HP2 S HS Hf (repeat 0%N (N.to_nat m))). rewrite len_repeat, N2Nat.id in E4. specialize (E4 Hm').
  eapply uses_eq.
  - eapply uses_bind; [apply (uses_lift _ _ (fun z => z = sn s - 1)%N E0); reflexivity|]. intros n1 ->.
    rewrite C3. cbn [negb].
    eapply uses_bind; [apply (uses_lift _ _ (fun z => z = sp s * 2)%N E1); reflexivity|]. intros m1 ->.
    eapply uses_bind; [apply (uses_lift _ _ (fun z => z = sp s * 2 * 64)%N E2); reflexivity|]. intros m2 ->.
    eapply uses_bind; [apply (uses_lift _ _ (fun z => z = m)%N E3); reflexivity|]. intros m3 ->.
    eapply uses_bind; [apply uses_with_capacity; lia|]. intros _ _. cbv zeta.
    eapply uses_bind.
    { eapply (uses_lift _ _ (fun raw => octets raw /\ length raw = (N.to_nat (sp s) * (128 * N.to_nat (sr s)))%nat)
        E4).
      split; [apply Pbkdf2.octets_pbkdf2|]. rewrite Pbkdf2.pbkdf2_length, repeat_length. unfold m. lia. }
    intros raw [Ho Hl].
    eapply uses_bind; [apply split_blocks_uses; eassumption|]. intros b [Hlb Hvb].
    assert (Hlen : len b = sp s) by (unfold len, Block in *; lia). rewrite Hlen.
    eapply (uses_bind _ _ (if reuse then 0 else Z.of_N (vec_size T * sp s))
                          (if reuse then 0 else Z.of_N (vec_size T * sp s)) _ _ (fun _ => True)).
    { destruct reuse; [apply uses_ret; exact I|apply uses_take]. }
    intros _ _.
    eapply uses_bind.
    { pose proof (fun H => uses_map (Heap.Scrypt.ro_mix T s) (vec (N.to_nat (sr s))) 0 (ro_top T s) b ltac:(lia) H) as HM.
      unfold Block in HM, Hlb. rewrite Hlb in HM. apply HM. intros x Hx. apply (ro_mix_uses T s x k); try assumption.
      rewrite Forall_forall in Hvb. apply Hvb, Hx. }
    intros b' [Hlb' Hvb'].
    eapply (uses_bind _ _ (if reuse then 0 else - Z.of_N (vec_size T * sp s)) 0 _ _ (fun _ => True)).
    { destruct reuse; [apply uses_ret; exact I|apply uses_give]. }
    intros _ _.
    destruct (lanes_bytes _ _ Hvb') as [Ho' Hl'].
    eapply uses_bind.
    { refine (uses_lift _ _ (fun _ => True) (HP2 _ Ho' _ out Hout) I).
      split; [apply Hf|]. unfold Block in *. unfold m in *. lia. }
    intros o _. apply uses_ret. exact I.
  - rewrite N_nat_Z, Z.mul_1_l || idtac. destruct reuse; unfold m; rewrite !N2Z.inj_mul, ?N_nat_Z; ring.
  - assert (HR : reach (N.to_nat (sp s)) 0 (ro_top T s) = ro_top T s).
    { unfold reach. destruct (N.to_nat (sp s)) eqn:En; lia. }
    rewrite HR. unfold derive_top. rewrite N_nat_Z.
    set (p := Z.of_N (sp s)) in *. set (w := Z.of_N (vec_size T)) in *. set (L := lane_bytes T (sr s)) in *.
    replace (p * (128 * Z.of_N (sr s) + w + L)) with (Z.of_N m + p * (w + L))
      by (unfold p, m; rewrite !N2Z.inj_mul; ring).
    replace (Z.of_N (1 * m)) with (Z.of_N m) by lia.
    assert (0 <= p * (w + L)) by (apply Z.mul_nonneg_nonneg; unfold p, w in *; lia).
    assert (Hq : Z.of_N (vec_size T * sp s) = p * w) by (unfold p, w; rewrite N2Z.inj_mul; ring).
    assert (0 <= p * w) by lia. rewrite Hq. clearbody p w L.
    destruct reuse; lia.
Qed.

Lemma bind_lift {A B} (a : A) (f : A -> Ops.res B) : Ops.bind (Ops.lift (Ret a)) f = f a.
Proof. cbn. destruct (f a); reflexivity. Qed.

Lemma rejected_takes_nothing reuse T s P S out e out' :
  Ops.outcome (Heap.Scrypt.scrypt_derive reuse T s P S out) = Ret (Err e, out') ->
  Ops.trace (Heap.Scrypt.scrypt_derive reuse T s P S out) = [].
Proof.
  unfold Heap.Scrypt.scrypt_derive.
  destruct (sr s <? 1)%N; [reflexivity|]. destruct (sn s <? 1)%N; [reflexivity|].
  destruct (usub T (sn s) 1) as [n1| |]; try discriminate. rewrite !bind_lift.
  destruct (negb _); [reflexivity|]. destruct (sp s <? 1)%N; [reflexivity|].
  intros H. exfalso. revert H.
  repeat match goal with
  | |- Ops.outcome (Ops.bind ?m ?f) = _ -> _ =>
      rewrite (outcome_bind m f); destruct (Ops.outcome m); cbn [bind]; try discriminate
  end.
Qed.
