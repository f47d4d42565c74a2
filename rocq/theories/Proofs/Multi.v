(** Counting messages per digest, and chains of colliding blocks. *)
From Coq Require Import ZArith NArith List Arith Lia Bool ZifyBool ZifyNat ZifyN.
From Verif.Spec Require Octets Sha256 Hasher Collision Counting Multi.
From Verif.Proofs Require Import Base Bits Sha256Core Sha256 Sha256Main Count.
From Verif.Proofs Require Collision.
Import Spec.Octets Spec.Sha256 Spec.Collision Spec.Counting Spec.Multi.
Import Proofs.Collision.
Import ListNotations.
Local Open Scope N_scope.

(** * The pigeonhole principle *)

Lemma filter_split {A} (p : A -> bool) l :
  length l = (length (filter p l) + length (filter (fun x => negb (p x)) l))%nat.
Proof. induction l as [|x l IH]; [reflexivity|]. cbn. destruct (p x); cbn; lia. Qed.

Lemma filter_filter {A} (p q : A -> bool) l : (forall x, In x l -> p x = true -> q x = true) ->
  filter p (filter q l) = filter p l.
Proof.
  induction l as [|x l IH]; intros H; [reflexivity|].
  assert (IH' : filter p (filter q l) = filter p l) by (apply IH; intros y Hy; apply H; right; exact Hy).
  cbn. destruct (q x) eqn:Q; cbn; destruct (p x) eqn:P; try congruence.
  exfalso. assert (q x = true) by (apply H; [left; reflexivity|exact P]). congruence.
Qed.

Lemma crowded {A} (f : A -> list N) (eqb := fun u v => if list_eq_dec N.eq_dec u v then true else false) q Ys :
  forall X, (forall x, In x X -> In (f x) Ys) ->
  N.of_nat (length Ys) * q < N.of_nat (length X) ->
  exists y, In y Ys /\ q < N.of_nat (length (filter (fun x => eqb (f x) y) X)).
Proof.
  induction Ys as [|y Ys IH]; intros X Hf Hc.
  - exfalso. destruct X as [|x X]; [cbn in Hc; lia|]. exact (Hf x (or_introl eq_refl)).
  - set (p := fun x => eqb (f x) y).
    destruct (N.lt_ge_cases q (N.of_nat (length (filter p X)))) as [Hq|Hq].
    + exists y. split; [left; reflexivity|exact Hq].
    + destruct (IH (filter (fun x => negb (p x)) X)) as (z & Hz & Hl).
      * intros x Hx. apply filter_In in Hx. destruct Hx as [Hx Hp]. destruct (Hf x Hx) as [E|E]; [|exact E].
        exfalso. unfold p, eqb in Hp. destruct (list_eq_dec N.eq_dec (f x) y) as [|n]; [discriminate|]. apply n. symmetry. exact E.
      * pose proof (filter_split p X). cbn [length] in Hc. nia.
      * exists z. split; [right; exact Hz|].
        assert (Hle : forall (g h : A -> bool) l, (length (filter g (filter h l)) <= length (filter g l))%nat).
        { intros g h l. induction l as [|w l IHl]; [cbn; lia|]. cbn. destruct (h w); cbn; destruct (g w); cbn; lia. }
        pose proof (Hle (fun x => eqb (f x) z) (fun x => negb (p x)) X). lia.
Qed.

(** Of the strings of [L] octets, more than [q] have one and the same image. *)
Lemma crowded_words (f : list N -> list N) k L q :
  (forall w, length w = L -> octets w -> length (f w) = k /\ octets (f w)) ->
  256 ^ N.of_nat k * q < 256 ^ N.of_nat L ->
  exists y n, length y = k /\ octets y /\ counted L (fun w => f w = y) n /\ q < n.
Proof.
  intros Hf Hq. destruct (crowded f q (Count.words k) (Count.words L)) as (y & Hy & Hn).
  - intros x Hx. apply words_in in Hx. destruct Hx as [Hl Ho]. apply words_in. apply Hf; assumption.
  - rewrite !words_length. exact Hq.
  - apply words_in in Hy. destruct Hy as [Hyl Hyo].
    eexists y, _. split; [exact Hyl|]. split; [exact Hyo|]. split; [|exact Hn].
    eexists. split; [|split; [|reflexivity]].
    + apply NoDup_filter, words_nodup.
    + intros b. rewrite filter_In, words_in.
      destruct (list_eq_dec N.eq_dec (f b) y); intuition congruence.
Qed.

Lemma counted_two L P n : counted L P n -> 1 < n ->
  exists a b, length a = L /\ octets a /\ P a /\ length b = L /\ octets b /\ P b /\ a <> b.
Proof.
  intros (l & Hnd & Hin & Hl) Hn. destruct l as [|a [|b l]]; [cbn in Hl; lia|cbn in Hl; lia|].
  exists a, b. destruct (proj1 (Hin a) (or_introl eq_refl)) as (? & ? & ?).
  destruct (proj1 (Hin b) (or_intror (or_introl eq_refl))) as (? & ? & ?).
  repeat split; try assumption. inversion Hnd as [|? ? Hx _]. intros E. apply Hx. rewrite E. left. reflexivity.
Qed.

(** * Chains of colliding blocks *)

Lemma sixteen_words b : is_block64 b -> words_of_bits (bits_of_octets b) = sixteen b.
Proof. intros [Hl Ho]. apply words_of_block; assumption. Qed.

Lemma absorb_sixteen h b : is_block64 b -> absorb h b = compress h (sixteen b).
Proof. intros H. rewrite absorb_one by apply H. unfold absorb_block, Hasher.absorb_block. rewrite sixteen_words by exact H. reflexivity. Qed.

Lemma behind_absorb m : octets m -> behind m = absorb H0 m.
Proof.
  intros Ho. unfold behind, absorb, Hasher.absorb.
  assert (HB : forall b, In b (blocks 64 m) -> is_block64 b).
  { intros b Hb. split; [eapply blocks_all_length; eassumption|eapply octets_blocks; eassumption]. }
  revert HB. generalize (blocks 64 m) as B, H0 as h. induction B as [|b B IH]; intros h HB; [reflexivity|].
  cbn [fold_left]. unfold Hasher.absorb_block at 2. rewrite sixteen_words by (apply HB; left; reflexivity).
  apply IH. intros b' Hb'. apply HB. right. exact Hb'.
Qed.

Lemma chaining_ok h : chaining h <-> state_ok h.
Proof. reflexivity. Qed.

Lemma choose_absorb find : finds find -> forall k h c, chaining h -> length c = k ->
  absorb h (choose c (pairs find h k)) = absorb h (choose (repeat true k) (pairs find h k)) /\
  length (choose c (pairs find h k)) = (64 * k)%nat /\ octets (choose c (pairs find h k)).
Proof.
  intros Hf. induction k as [|k IH]; intros h c Hh Hc.
  - destruct c; [|discriminate]. cbn. split; [reflexivity|split; [reflexivity|constructor]].
  - destruct c as [|x c]; [discriminate|]. cbn [repeat choose pairs].
    destruct (Hf h Hh) as (Ha & Hb & _ & E). set (a := fst (find h)) in *. set (b := snd (find h)) in *.
    assert (Hx : is_block64 (if x then a else b)) by (destruct x; assumption).
    assert (Hh' : chaining (compress h (sixteen a))).
    { rewrite <- absorb_sixteen by exact Ha. apply chaining_ok, absorb_ok, chaining_ok, Hh. }
    destruct (IH (compress h (sixteen a)) c Hh' ltac:(cbn in Hc; lia)) as (E1 & E2 & E3).
    split; [|split].
    + rewrite !absorb_app; [|rewrite (proj1 Ha); reflexivity|rewrite (proj1 Hx); reflexivity].
      rewrite (absorb_sixteen h _ Hx), (absorb_sixteen h a Ha).
      assert (Ex : compress h (sixteen (if x then a else b)) = compress h (sixteen a)) by (destruct x; [reflexivity|symmetry; exact E]).
      rewrite Ex.
      exact E1.
    + rewrite app_length, (proj1 Hx), E2. lia.
    + apply octets_app. split; [apply Hx|exact E3].
Qed.

Lemma choose_inj find : finds find -> forall k h c c', chaining h -> length c = k -> length c' = k ->
  choose c (pairs find h k) = choose c' (pairs find h k) -> c = c'.
Proof.
  intros Hf. induction k as [|k IH]; intros h c c' Hh Hc Hc' E.
  - destruct c, c'; try discriminate. reflexivity.
  - destruct c as [|x c]; [discriminate|]. destruct c' as [|x' c']; [discriminate|]. cbn [choose pairs] in E.
    destruct (Hf h Hh) as (Ha & Hb & Hne & _). set (a := fst (find h)) in *. set (b := snd (find h)) in *.
    apply app_inj_length in E; [|destruct x, x'; rewrite ?(proj1 Ha), ?(proj1 Hb); reflexivity].
    destruct E as [E1 E2].
    assert (Hh' : chaining (compress h (sixteen a))).
    { rewrite <- absorb_sixteen by exact Ha. apply chaining_ok, absorb_ok, chaining_ok, Hh. }
    f_equal.
    + destruct x, x'; try reflexivity; exfalso; apply Hne; [|symmetry]; exact E1.
    + apply (IH (compress h (sixteen a))); [exact Hh'|cbn in Hc; lia|cbn in Hc'; lia|exact E2].
Qed.

Lemma sha256_whole q s : (length q mod 64 = 0)%nat ->
  sha256 (q ++ s) = flat_map (be_octets 4) (absorb (absorb H0 q) (s ++ glue (length q + length s))).
Proof.
  intros Hq. rewrite sha256_padded. unfold padded. rewrite <- app_assoc, absorb_app by exact Hq.
  rewrite app_length. reflexivity.
Qed.

(** * A way to find colliding blocks exists (by trying all pairs of blocks) *)

Definition clash (h : list N) (p : list N * list N) : bool :=
  (if list_eq_dec N.eq_dec (fst p) (snd p) then false else true) &&
  (if list_eq_dec N.eq_dec (compress h (sixteen (fst p))) (compress h (sixteen (snd p))) then true else false).
Definition search (W : list (list N)) (h : list N) : list N * list N :=
  match List.find (clash h) (list_prod W W) with Some p => p | None => ([], []) end.

Lemma chain_octets h : chaining h ->
  length (flat_map (be_octets 4) h) = 32%nat /\ octets (flat_map (be_octets 4) h).
Proof.
  intros [Hl _]. split; [rewrite flat_map_be4_length by exact Hl; reflexivity|apply octets_flat_map_be].
Qed.

Lemma search_finds W : (forall b, In b W <-> is_block64 b) -> NoDup W ->
  256 ^ N.of_nat 32 < N.of_nat (length W) -> finds (search W).
Proof.
  intros HW Hnd Hlen h Hh.
  set (f := fun b => flat_map (be_octets 4) (compress h (sixteen b))).
  assert (Hok : forall b, is_block64 b -> chaining (compress h (sixteen b))).
  { intros b Hb. rewrite <- absorb_sixteen by exact Hb. apply chaining_ok, absorb_ok, chaining_ok, Hh. }
  destruct (crowded f 1 (Count.words 32) W) as (y & _ & Hn).
  { intros x Hx. apply HW in Hx. apply words_in. apply chain_octets, Hok, Hx. }
  { rewrite words_length, N.mul_1_r. exact Hlen. }
  assert (HF : exists a b, In a W /\ In b W /\ a <> b /\ f a = y /\ f b = y).
  { revert Hn. set (F := filter _ W). assert (HFd : NoDup F) by (apply NoDup_filter; exact Hnd).
    assert (HFi : forall b, In b F -> In b W /\ f b = y).
    { intros b Hb. apply filter_In in Hb. destruct Hb as [Hb E]. split; [exact Hb|].
      destruct (list_eq_dec N.eq_dec (f b) y); [assumption|discriminate]. }
    clearbody F. intros Hn. destruct F as [|a [|b F]]; [cbn in Hn; lia|cbn in Hn; lia|].
    exists a, b. destruct (HFi a (or_introl eq_refl)) as [Ha1 Ha2].
    destruct (HFi b (or_intror (or_introl eq_refl))) as [Hb1 Hb2].
    split; [exact Ha1|]. split; [exact Hb1|]. split; [|split; assumption].
    inversion HFd as [|? ? Hx _]. intros E. apply Hx. rewrite E. left. reflexivity. }
  destruct HF as (a & b & Ha & Hb & Hne & Ea & Eb).
  assert (Ec : compress h (sixteen a) = compress h (sixteen b)).
  { apply words_octets_inj; [apply Hok, HW, Ha|apply Hok, HW, Hb|]. unfold f in Ea, Eb. congruence. }
  unfold search. destruct (List.find (clash h) (list_prod W W)) as [[u v]|] eqn:E.
  - apply find_some in E. destruct E as [Hin Hc]. apply in_prod_iff in Hin. destruct Hin as [Hu Hv].
    unfold clash in Hc. cbn [fst snd] in *. apply andb_true_iff in Hc. destruct Hc as [C1 C2].
    destruct (list_eq_dec N.eq_dec u v) as [|n]; [discriminate|].
    destruct (list_eq_dec N.eq_dec (compress h (sixteen u)) (compress h (sixteen v))) as [e|]; [|discriminate].
    split; [apply HW, Hu|]. split; [apply HW, Hv|]. split; [exact n|exact e].
  - exfalso. assert (Hc : clash h (a, b) = false) by (apply (find_none _ _ E), in_prod; assumption).
    unfold clash in Hc. cbn [fst snd] in Hc. apply andb_false_iff in Hc. destruct Hc as [C|C].
    + destruct (list_eq_dec N.eq_dec a b) as [e|]; [exact (Hne e)|discriminate].
    + destruct (list_eq_dec N.eq_dec (compress h (sixteen a)) (compress h (sixteen b))) as [|n]; [discriminate|exact (n Ec)].
Qed.
