(** The padding attack of [Spec.Oracle] against the acceptance test of
    [Spec.Stream.strip]. *)
From Coq Require Import ZArith NArith List Arith Lia Bool ZifyBool ZifyNat ZifyN.
From Verif.Spec Require Import Octets Cbc Stream Oracle.
From Verif.Spec Require Aes.
From Verif.Proofs Require Import Base Bits Stream.
Import ListNotations.
Local Open Scope N_scope.

Lemma nth_skipn {A} n : forall (l : list A) i d, nth i (skipn n l) d = nth (n + i) l d.
Proof.
  induction n as [|n IH]; intros l i d; [reflexivity|].
  destruct l as [|x l]; [destruct i; reflexivity|]. cbn [skipn Nat.add nth]. apply IH.
Qed.

(** The block decrypted to [x] is accepted. *)
Definition good (x : list N) : bool :=
  match strip 16 x with Stripped _ => true | _ => false end.

Lemma good_spec x : length x = 16%nat ->
  good x = true <->
  exists n, (n <= 16)%nat /\ last x 256 = N.of_nat n /\
    forall i, (16 - n <= i < 16)%nat -> nth i x 256 = N.of_nat n.
Proof.
  intros Hl. unfold good, strip. rewrite Hl. cbn [Nat.eqb negb]. cbv zeta.
  set (n := N.to_nat (last x 256)).
  destruct (Nat.leb n 16 && forallb (N.eqb (N.of_nat n)) (skipn (16 - n) x))%bool eqn:E.
  - split; [|reflexivity]. intros _. apply andb_true_iff in E. destruct E as [E1 E2].
    apply Nat.leb_le in E1. exists n. split; [assumption|]. split; [unfold n; lia|].
    intros i Hi. rewrite forallb_forall in E2.
    assert (Hin : In (nth i x 256) (skipn (16 - n) x)).
    { replace (nth i x 256) with (nth (i - (16 - n)) (skipn (16 - n) x) 256).
      - apply nth_In. rewrite skipn_length. lia.
      - rewrite nth_skipn. f_equal. lia. }
    apply E2 in Hin. apply N.eqb_eq in Hin. auto.
  - split; [discriminate|]. intros (m & Hm & HL & Hall). exfalso.
    assert (Hmn : m = n) by (unfold n; lia). subst m.
    rewrite (proj2 (Nat.leb_le n 16) Hm) in E. cbn [andb] in E.
    assert (forallb (N.eqb (N.of_nat n)) (skipn (16 - n) x) = true); [|congruence].
    apply forallb_forall. intros y Hy. apply N.eqb_eq.
    destruct (In_nth _ _ 256 Hy) as (i & Hi & Ei). rewrite skipn_length in Hi.
    rewrite nth_skipn in Ei. rewrite Hall in Ei by lia. auto.
Qed.

(** * Searches *)

Lemma search_ok o q cands : forall found, exists c, (c <= length cands)%nat /\
  play o (search q cands found) =
  (fst (play o (found (find (fun w => o (q w)) cands))),
   (c + snd (play o (found (find (fun w => o (q w)) cands))))%nat).
Proof.
  induction cands as [|w ws IH]; intros found.
  - exists 0%nat. split; [cbn; lia|]. cbn [search find]. apply surjective_pairing.
  - cbn [search find play]. destruct (o (q w)).
    + exists 1%nat. split; [cbn [length]; lia|].
      destruct (play o (found (Some w))). reflexivity.
    + destruct (IH found) as (c & Hc & E). exists (S c). split; [cbn [length]; lia|].
      rewrite E. reflexivity.
Qed.
Lemma search_both_ok o q1 q2 cands : forall found, exists c, (c <= 2 * length cands)%nat /\
  let r := find (fun w => o (q1 w) && o (q2 w))%bool cands in
  play o (search_both q1 q2 cands found) =
  (fst (play o (found r)), (c + snd (play o (found r)))%nat).
Proof.
  induction cands as [|w ws IH]; intros found.
  - exists 0%nat. split; [cbn; lia|]. cbn [search_both find]. apply surjective_pairing.
  - cbn [search_both find play]. destruct (IH found) as (c & Hc & E). cbv zeta in *.
    destruct (o (q1 w)); cbn [andb play].
    + destruct (o (q2 w)).
      * exists 2%nat. split; [cbn [length]; lia|].
        destruct (play o (found (Some w))). reflexivity.
      * exists (S (S c)). split; [cbn [length]; lia|]. rewrite E. reflexivity.
    + exists (S c). split; [cbn [length]; lia|]. rewrite E. reflexivity.
Qed.

Lemma in_all_octets v : In v Aes.all_octets <-> v < 256.
Proof.
  unfold Aes.all_octets. rewrite in_map_iff. split.
  - intros (i & <- & Hi). apply in_seq in Hi. lia.
  - intros H. exists (N.to_nat v). split; [lia|]. apply in_seq. lia.
Qed.
Lemma all_octets_length : length Aes.all_octets = 256%nat.
Proof. reflexivity. Qed.

Lemma find_unique f v : v < 256 -> f v = true -> (forall w, w < 256 -> f w = true -> w = v) ->
  find f Aes.all_octets = Some v.
Proof.
  intros Hv Hf Hu. destruct (find f Aes.all_octets) as [w|] eqn:E.
  - apply find_some in E. destruct E as [Hin Hw]. apply in_all_octets in Hin.
    rewrite (Hu w) by assumption. reflexivity.
  - exfalso. rewrite (find_none _ _ E v) in Hf; [discriminate|]. apply in_all_octets. assumption.
Qed.
Lemma lxor_octet a b : a < 256 -> b < 256 -> N.lxor a b < 256.
Proof. apply lxor_lt256. Qed.

(** * Extending a known tail *)

Lemma xor_repeat_0 : forall a n, length a = n -> xor a (repeat 0 n) = a.
Proof.
  induction a as [|x a IH]; intros n <-; [reflexivity|].
  cbn [length repeat xor]. rewrite N.lxor_0_r, IH; reflexivity.
Qed.
Lemma xor_known p : forall l, xor l (map (N.lxor p) l) = repeat p (length l).
Proof.
  induction l as [|x l IH]; [reflexivity|]. cbn [map xor length repeat]. rewrite IH. f_equal.
  rewrite (N.lxor_comm p x), <- N.lxor_assoc, N.lxor_nilpotent. apply N.lxor_0_l.
Qed.
Lemma lxor_eq_iff a b c : N.lxor a b = c <-> b = N.lxor a c.
Proof.
  split; [intros <-|intros ->]; rewrite <- N.lxor_assoc, N.lxor_nilpotent; symmetry; apply N.lxor_0_l.
Qed.

Lemma last_nth (l : list N) d : l <> [] -> last l d = nth (length l - 1) l d.
Proof.
  induction l as [|x [|y l] IH]; intros H; [contradiction|reflexivity|].
  change (last (x :: y :: l) d) with (last (y :: l) d). rewrite IH by discriminate.
  cbn [length]. replace (S (S (length l)) - 1)%nat with (S (S (length l) - 1)) by lia. reflexivity.
Qed.

(** A plaintext ending in [p - 1] octets [p] is accepted iff the one before is [p]. *)
Lemma good_tail pre y p : (2 <= p <= 16)%nat -> length (pre ++ [y] ++ repeat (N.of_nat p) (p - 1)) = 16%nat ->
  good (pre ++ [y] ++ repeat (N.of_nat p) (p - 1)) = true <-> y = N.of_nat p.
Proof.
  intros Hp HL. rewrite good_spec by assumption.
  rewrite !app_length, repeat_length in HL. cbn [length] in HL.
  assert (Hpre : length pre = (16 - p)%nat) by lia.
  set (x := pre ++ [y] ++ repeat (N.of_nat p) (p - 1)).
  assert (Hnth : forall i, (16 - p < i < 16)%nat -> nth i x 256 = N.of_nat p).
  { intros i Hi. unfold x. rewrite app_nth2 by lia. rewrite app_nth2 by (cbn [length]; lia).
    apply (repeat_spec (p - 1)). apply nth_In. rewrite repeat_length. cbn [length]. lia. }
  assert (Hy : nth (16 - p) x 256 = y).
  { unfold x. rewrite app_nth2 by lia. rewrite Hpre, Nat.sub_diag. reflexivity. }
  assert (Hlast : last x 256 = N.of_nat p).
  { rewrite last_nth by (unfold x; destruct pre; discriminate).
    apply Hnth. unfold x. rewrite !app_length, repeat_length. cbn [length]. lia. }
  split.
  - intros (n & Hn & E & Hall). rewrite Hlast in E. assert (n = p) by lia. subst n.
    rewrite <- Hy. apply Hall. lia.
  - intros ->. exists p. split; [lia|]. split; [assumption|]. intros i Hi.
    destruct (Nat.eq_dec i (16 - p)) as [->|Hne]; [assumption|]. apply Hnth. lia.
Qed.

Lemma extend_ok n : forall pre known, octets (pre ++ known) -> length pre = n ->
  (length pre + length known = 16)%nat -> (1 <= length known)%nat ->
  exists q, (q <= 256 * n)%nat /\
  play (fun iv => good (xor (pre ++ known) iv)) (extend n known) = (pre ++ known, q).
Proof.
  induction n as [|n IH]; intros pre known Ho Hn HL Hk.
  - destruct pre; [|discriminate]. exists 0%nat. split; [lia|]. reflexivity.
  - destruct (@exists_last _ pre) as (pre' & d & ->); [destruct pre; discriminate|].
    rewrite app_length in Hn, HL. cbn [length] in Hn, HL.
    rewrite <- app_assoc in *. cbn [app] in *.
    set (D := pre' ++ d :: known) in *. set (o := fun iv => good (xor D iv)).
    set (p := S (length known)).
    assert (Hd : d < 256).
    { apply octets_app in Ho. destruct Ho as [_ Ho]. inversion Ho; assumption. }
    assert (Hp : N.of_nat p < 256) by lia.
    cbn [extend]. fold p.
    match goal with |- context [search ?q ?c ?f] => destruct (search_ok o q c f) as (c0 & Hc & E) end.
    rewrite (find_unique _ (N.lxor d (N.of_nat p))) in E.
    + rewrite (N.lxor_assoc d), N.lxor_nilpotent, N.lxor_0_r in E.
      destruct (IH pre' (d :: known)) as (q & Hq & Eq);
        [assumption|lia|cbn [length]; lia|cbn [length]; lia|].
      fold D in Eq. fold o in Eq. rewrite Eq in E. cbn [fst snd] in E.
      exists (c0 + q)%nat. split; [rewrite all_octets_length in Hc; lia|exact E].
    + apply lxor_octet; assumption.
    + unfold o, D. change (d :: known) with ([d] ++ known).
      rewrite xor_app by (rewrite repeat_length; lia).
      rewrite xor_app by reflexivity. rewrite xor_repeat_0 by lia. cbn [xor].
      rewrite xor_known. replace (length known) with (p - 1)%nat by (unfold p; lia).
      apply good_tail; [lia| |].
      * rewrite !app_length, repeat_length. cbn [length]. lia.
      * apply lxor_eq_iff. reflexivity.
    + intros w Hw Hg. revert Hg. unfold o, D. change (d :: known) with ([d] ++ known).
      rewrite xor_app by (rewrite repeat_length; lia).
      rewrite xor_app by reflexivity. rewrite xor_repeat_0 by lia. cbn [xor].
      rewrite xor_known. replace (length known) with (p - 1)%nat by (unfold p; lia).
      intros Hg. apply good_tail in Hg; [|lia|].
      * apply lxor_eq_iff. assumption.
      * rewrite !app_length, repeat_length. cbn [length]. lia.
Qed.

(** * The last octet *)

Lemma good_nth x n : length x = 16%nat -> nth 15 x 256 = N.of_nat n -> good x = true ->
  (n <= 16)%nat /\ forall i, (16 - n <= i < 16)%nat -> nth i x 256 = N.of_nat n.
Proof.
  intros HL H15 Hg. apply (good_spec x HL) in Hg. destruct Hg as (m & Hm & E & Hall).
  rewrite last_nth, HL in E by (destruct x; discriminate).
  change (16 - 1)%nat with 15%nat in E. assert (m = n) by lia. subst m. auto.
Qed.
Lemma good_low x : length x = 16%nat -> nth 15 x 256 <= 1 -> good x = true.
Proof.
  intros HL H. apply good_spec; [assumption|]. exists (N.to_nat (nth 15 x 256)).
  rewrite last_nth, HL by (destruct x; discriminate). change (16 - 1)%nat with 15%nat.
  split; [lia|]. split; [lia|]. intros i Hi. assert (i = 15)%nat by lia. subst i. lia.
Qed.

Lemma xor1_neq n : N.lxor n 1 <> n.
Proof.
  intros H. rewrite N.lxor_comm in H. apply lxor_eq_iff in H. destruct n as [|[p|p|]]; discriminate.
Qed.
Lemma xor1_low n : N.lxor n 1 <= 1 -> n <= 1.
Proof. destruct n as [|[p|p|]]; cbn; lia. Qed.

(** Two plaintexts that differ in bit 0 of the last octet only. *)
Lemma good_pair pre n : length pre = 15%nat ->
  good (pre ++ [n]) = true -> good (pre ++ [N.lxor n 1]) = true -> n <= 1.
Proof.
  intros HL H1 H2.
  assert (HL' : forall z, length (pre ++ [z]) = 16%nat) by (intros z; rewrite app_length, HL; reflexivity).
  assert (Hlast : forall z, nth 15 (pre ++ [z]) 256 = z).
  { intros z. rewrite app_nth2 by lia. rewrite HL. reflexivity. }
  assert (H14 : forall z, nth 14 (pre ++ [z]) 256 = nth 14 pre 256).
  { intros z. apply app_nth1. lia. }
  destruct (good_nth _ (N.to_nat n) (HL' n) ltac:(rewrite Hlast, N2Nat.id; reflexivity) H1) as [_ A1].
  destruct (good_nth _ (N.to_nat (N.lxor n 1)) (HL' _) ltac:(rewrite Hlast, N2Nat.id; reflexivity) H2) as [_ A2].
  destruct (N.le_gt_cases n 1) as [Hn|Hn]; [assumption|].
  destruct (N.le_gt_cases (N.lxor n 1) 1) as [Hm|Hm]; [apply xor1_low; assumption|].
  specialize (A1 14%nat ltac:(lia)). specialize (A2 14%nat ltac:(lia)).
  rewrite H14 in A1, A2. exfalso. apply (xor1_neq n). lia.
Qed.

Theorem attack_ok D : octets D -> length D = 16%nat ->
  exists q, (q <= 4864)%nat /\ play (fun iv => good (xor D iv)) attack = (D, q).
Proof.
  intros Ho HL. set (o := fun iv => good (xor D iv)).
  (* D = a ++ [x; y; z] *)
  destruct (@exists_last _ D) as (D1 & z & ED); [destruct D; discriminate|].
  destruct (@exists_last _ D1) as (D2 & y & ED1).
  { intros ->. rewrite ED in HL. discriminate. }
  destruct (@exists_last _ D2) as (a & x & ED2).
  { intros ->. rewrite ED, ED1 in HL. discriminate. }
  assert (Ha : length a = 13%nat).
  { rewrite ED, ED1, ED2, !app_length in HL. cbn [length] in HL. lia. }
  assert (HD1 : length D1 = 15%nat) by (rewrite ED1, ED2, !app_length; cbn [length]; lia).
  assert (EDa : D = a ++ [x; y; z]).
  { rewrite ED, ED1, ED2, <- !app_assoc. reflexivity. }
  assert (Hz : z < 256 /\ y < 256).
  { rewrite EDa in Ho. apply octets_app in Ho. destruct Ho as [_ Ho].
    inversion Ho as [|? ? _ Ho1]. inversion Ho1 as [|? ? Hy Ho2]. inversion Ho2. auto. }
  destruct Hz as [Hz Hy].
  assert (Hq1 : forall v, o (repeat 0 15 ++ [v]) = good (D1 ++ [N.lxor z v])).
  { intros v. unfold o. rewrite ED, xor_app by (rewrite repeat_length; assumption).
    rewrite xor_repeat_0 by assumption. reflexivity. }
  assert (Hq2 : forall b w v, o (repeat 0 13 ++ [b; w; v]) =
                good (a ++ [N.lxor x b; N.lxor y w; N.lxor z v])).
  { intros b w v. unfold o. rewrite EDa, xor_app by (rewrite repeat_length; assumption).
    rewrite xor_repeat_0 by assumption. reflexivity. }
  unfold attack.
  match goal with |- context [search_both ?q1 ?q2 ?c ?f] =>
    destruct (search_both_ok o q1 q2 c f) as (c1 & Hc1 & E1) end.
  cbv zeta in E1. rewrite all_octets_length in Hc1.
  destruct (find _ Aes.all_octets) as [v|] eqn:Ef in E1.
  2:{ exfalso. pose proof (find_none _ _ Ef z) as Hn. cbv beta in Hn.
      rewrite !Hq1 in Hn. rewrite !good_low in Hn.
      - discriminate Hn. apply in_all_octets. assumption.
      - rewrite app_length, HD1. reflexivity.
      - rewrite app_nth2 by lia. rewrite HD1, Nat.sub_diag. cbn [nth].
        rewrite <- N.lxor_assoc, N.lxor_nilpotent. cbn. lia.
      - rewrite app_length, HD1. reflexivity.
      - rewrite app_nth2 by lia. rewrite HD1, Nat.sub_diag. cbn [nth].
        rewrite N.lxor_nilpotent. lia. }
  apply find_some in Ef. destruct Ef as [Hv Hf]. apply in_all_octets in Hv.
  rewrite !Hq1 in Hf. apply andb_true_iff in Hf. destruct Hf as [Hf1 Hf2].
  rewrite <- N.lxor_assoc in Hf2.
  pose proof (good_pair _ _ HD1 Hf1 Hf2) as Hlow. set (n := N.lxor z v) in *.
  assert (Hvn : v = N.lxor z n) by (apply lxor_eq_iff; reflexivity).
  match type of E1 with _ = (fst (play o (search_both ?q1 ?q2 ?c ?f)), _) =>
    destruct (search_both_ok o q1 q2 c f) as (c2 & Hc2 & E2) end.
  cbv zeta in E2. rewrite all_octets_length in Hc2. rewrite E2 in E1. cbn [fst snd] in E1. clear E2.
  destruct (extend_ok 15 D1 [z]) as (q & Hq & Ex);
    [rewrite <- ED; assumption|assumption|rewrite HD1; reflexivity|cbn [length]; lia|].
  rewrite <- ED in Ex. fold o in Ex.
  assert (Hn01 : n = 0 \/ n = 1) by lia.
  destruct Hn01 as [Hn|Hn]; rewrite Hn in Hvn.
  - (* the pair's first member makes the plaintext end in 0 *)
    rewrite N.lxor_0_r in Hvn. subst v.
    destruct (find _ Aes.all_octets) as [w|] eqn:Ef in E1.
    + rewrite Ex in E1. cbn [fst snd] in E1. eexists. split; [|exact E1]. lia.
    + exfalso. pose proof (find_none _ _ Ef (N.lxor y 2)) as Hno. cbv beta in Hno.
      rewrite !Hq2 in Hno. rewrite <- !N.lxor_assoc, !N.lxor_nilpotent, !N.lxor_0_l in Hno.
      change 2 with (N.of_nat 2) in Hno.
      assert (Hgood : forall b, good (a ++ [N.lxor x b; N.of_nat 2; N.of_nat 2]) = true).
      { intros b. change [N.lxor x b; N.of_nat 2; N.of_nat 2]
          with ([N.lxor x b] ++ [N.of_nat 2] ++ repeat (N.of_nat 2) (2 - 1)).
        rewrite app_assoc. apply good_tail; [lia| |reflexivity].
        rewrite !app_length, repeat_length. cbn [length]. lia. }
      rewrite !Hgood in Hno. discriminate Hno.
      apply in_all_octets. apply lxor_octet; [assumption|reflexivity].
  - (* the second member does *)
    subst v.
    assert (Ezz : N.lxor (N.lxor z 1) 1 = z) by (rewrite N.lxor_assoc; apply N.lxor_0_r).
    rewrite Ezz in E1.
    destruct (find _ Aes.all_octets) as [w|] eqn:Ef in E1.
    + exfalso. apply find_some in Ef. destruct Ef as [_ Hb]. rewrite !Hq2 in Hb.
      apply andb_true_iff in Hb. destruct Hb as [B1 B2].
      assert (E3 : N.lxor z (N.lxor (N.lxor z 1) 2) = N.of_nat 3).
      { rewrite <- !N.lxor_assoc, N.lxor_nilpotent. reflexivity. }
      rewrite E3 in B1, B2.
      apply (good_nth _ 3%nat) in B1; [|rewrite app_length, Ha; reflexivity
                                   |rewrite app_nth2, Ha by lia; reflexivity].
      apply (good_nth _ 3%nat) in B2; [|rewrite app_length, Ha; reflexivity
                                   |rewrite app_nth2, Ha by lia; reflexivity].
      destruct B1 as [_ B1], B2 as [_ B2].
      specialize (B1 13%nat ltac:(lia)). specialize (B2 13%nat ltac:(lia)).
      rewrite app_nth2, Ha in B1, B2 by lia. cbn [nth Nat.sub] in B1, B2.
      rewrite N.lxor_0_r in B1. rewrite B1 in B2. discriminate B2.
    + rewrite Ex in E1. cbn [fst snd] in E1. eexists. split; [|exact E1]. lia.
Qed.

(** * The questions asked *)

Fixpoint asks_only (P : list N -> Prop) (s : strategy) : Prop :=
  match s with
  | Answer _ => True
  | Ask iv next => P iv /\ forall b, asks_only P (next b)
  end.

Lemma play_ext (P : list N -> Prop) o o' s : (forall iv, P iv -> o iv = o' iv) -> asks_only P s -> play o s = play o' s.
Proof.
  intros H. induction s as [a|iv next IH]; intros Ha; [reflexivity|].
  destruct Ha as [Hp Hn]. cbn [play]. rewrite <- (H iv Hp), IH by apply Hn. reflexivity.
Qed.

Lemma search_asks (P : list N -> Prop) q cands : forall found,
  (forall w, In w cands -> P (q w)) ->
  asks_only P (found None) -> (forall w, In w cands -> asks_only P (found (Some w))) ->
  asks_only P (search q cands found).
Proof.
  induction cands as [|w ws IH]; intros found Hq Hn Hs; [exact Hn|].
  cbn [search asks_only]. split; [apply Hq; left; reflexivity|].
  intros [|]; [apply Hs; left; reflexivity|].
  apply IH; [intros; apply Hq; right; assumption|assumption|intros; apply Hs; right; assumption].
Qed.
Lemma search_both_asks (P : list N -> Prop) q1 q2 cands : forall found,
  (forall w, In w cands -> P (q1 w) /\ P (q2 w)) ->
  asks_only P (found None) -> (forall w, In w cands -> asks_only P (found (Some w))) ->
  asks_only P (search_both q1 q2 cands found).
Proof.
  induction cands as [|w ws IH]; intros found Hq Hn Hs; [exact Hn|].
  assert (Hrest : asks_only P (search_both q1 q2 ws found)).
  { apply IH; [intros; apply Hq; right; assumption|assumption|intros; apply Hs; right; assumption]. }
  destruct (Hq w (or_introl eq_refl)) as [H1 H2].
  cbn [search_both asks_only]. split; [assumption|].
  intros [|]; [|assumption]. cbn [asks_only]. split; [assumption|].
  intros [|]; [apply Hs; left; reflexivity|assumption].
Qed.

Lemma octets_zeros n : octets (repeat 0 n).
Proof. apply Forall_forall. intros x H. apply repeat_spec in H. subst x. reflexivity. Qed.

Lemma extend_asks n : forall known, octets known -> (n + length known = 16)%nat ->
  asks_only is_block (extend n known).
Proof.
  induction n as [|n IH]; intros known Ho HL; [exact I|].
  cbn [extend]. set (p := N.of_nat (S (length known))). assert (Hp : p < 256) by lia.
  apply search_asks; [|exact I|].
  - intros w Hw. apply in_all_octets in Hw. split.
    + apply octets_app. split; [apply octets_zeros|]. constructor; [assumption|].
      apply Forall_map. eapply Forall_impl; [|exact Ho]. intros x Hx. apply lxor_octet; assumption.
    + rewrite app_length, repeat_length. cbn [app length]. rewrite map_length. lia.
  - intros w Hw. apply in_all_octets in Hw. apply IH; [|cbn [length]; lia].
    constructor; [apply lxor_octet; assumption|assumption].
Qed.

Lemma attack_asks : asks_only is_block attack.
Proof.
  assert (Hb : forall n l, Forall (fun b => b < 256) l -> (n + length l = 16)%nat ->
                 is_block (repeat 0 n ++ l)).
  { intros n l H HL. split; [apply octets_app; split; [apply octets_zeros|assumption]|].
    rewrite app_length, repeat_length. assumption. }
  unfold attack. apply search_both_asks; [|exact I|].
  - intros v Hv. apply in_all_octets in Hv.
    split; (apply Hb; [|reflexivity]); constructor; try constructor; try assumption.
    apply lxor_octet; [assumption|reflexivity].
  - intros v Hv. apply in_all_octets in Hv.
    assert (Hv2 : N.lxor v 2 < 256) by (apply lxor_octet; [assumption|reflexivity]).
    apply search_both_asks.
    + intros w Hw. apply in_all_octets in Hw.
      split; (apply Hb; [|reflexivity]); repeat constructor; assumption.
    + apply extend_asks; [|reflexivity]. constructor; [|constructor].
      apply lxor_octet; [assumption|reflexivity].
    + intros w _. apply extend_asks; [|reflexivity]. constructor; [assumption|constructor].
Qed.
