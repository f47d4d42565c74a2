(** SHA-256: collisions, length extension, fixed points of the compression. *)
From Coq Require Import ZArith NArith List Arith Lia Bool ZifyBool ZifyNat ZifyN.
From Verif.Spec Require Octets Sha256 Hasher Hmac Collision.
From Verif.Proofs Require Import Base Bits Sha256Core Sha256 Sha256Main.
From Verif.Proofs Require Hmac.
Import Spec.Octets Spec.Sha256 Spec.Collision.
Import ListNotations.
Local Open Scope N_scope.
Ltac Zify.zify_post_hook ::= Z.div_mod_to_equations.

Definition padded (m : list N) : list N := m ++ glue (length m).

Lemma glue_length n : (length (glue n) = 9 + (119 - n mod 64) mod 64)%nat.
Proof. unfold glue. rewrite !app_length, repeat_length, be_octets_length. cbn [length]. lia. Qed.
Lemma padded_mod m : (length (padded m) mod 64 = 0)%nat.
Proof. unfold padded. rewrite app_length, glue_length. lia. Qed.
Lemma octets_glue n : octets (glue n).
Proof.
  unfold glue. apply octets_app. split; [repeat constructor|].
  apply octets_app. split; [apply octets_repeat; lia|apply octets_be_octets].
Qed.
Lemma octets_padded m : octets m -> octets (padded m).
Proof. intros H. apply octets_app. split; [assumption|apply octets_glue]. Qed.

Lemma pad_padded m : pad (bits_of_octets m) = bits_of_octets (padded m).
Proof.
  unfold padded, glue. rewrite <- pad_octets. unfold Hasher.pad_with_length, pad.
  rewrite bits_of_octets_length. do 3 f_equal. f_equal. lia.
Qed.

Lemma sha256_padded m : sha256 m = flat_map (be_octets 4) (absorb H0 (padded m)).
Proof. unfold sha256, hash_bits. rewrite pad_padded, absorb_bits. reflexivity. Qed.

(** * Injectivity of the encodings *)

Lemma be_octets_inj k x y : x < 256 ^ N.of_nat k -> y < 256 ^ N.of_nat k ->
  be_octets k x = be_octets k y -> x = y.
Proof.
  intros Hx Hy E. apply (f_equal be_num) in E. rewrite !be_num_be_octets in E.
  rewrite !N.mod_small in E by assumption. assumption.
Qed.

Lemma app_inj_length {A} (a b c d : list A) : length a = length c -> a ++ b = c ++ d -> a = c /\ b = d.
Proof.
  revert c. induction a as [|x a IH]; intros [|y c] Hl E; cbn in *; try discriminate; [auto|].
  injection E as -> E. destruct (IH c) as [-> ->]; [lia|assumption|auto].
Qed.
Lemma app_inj_length_r {A} (a b c d : list A) : length b = length d -> a ++ b = c ++ d -> a = c /\ b = d.
Proof.
  intros Hl E. apply app_inj_length; [|assumption].
  apply (f_equal (@length A)) in E. rewrite !app_length in E. lia.
Qed.

Lemma words_octets_inj h : forall h', words h -> words h' ->
  flat_map (be_octets 4) h = flat_map (be_octets 4) h' -> h = h'.
Proof.
  induction h as [|x h IH]; intros [|y h'] Hw Hw' E; cbn [flat_map] in E.
  - reflexivity.
  - apply (f_equal (@length N)) in E. rewrite app_length, be_octets_length in E. cbn in E. lia.
  - apply (f_equal (@length N)) in E. rewrite app_length, be_octets_length in E. cbn in E. lia.
  - inversion Hw as [|? ? Hx Hh]. inversion Hw' as [|? ? Hy Hh']. subst.
    apply app_inj_length in E; [|rewrite !be_octets_length; reflexivity].
    destruct E as [E1 E2]. f_equal; [apply (be_octets_inj 4); assumption|apply IH; assumption].
Qed.

Lemma block_words_octets b : octets b -> (length b mod 4 = 0)%nat ->
  flat_map (be_octets 4) (map be_num (blocks 4 b)) = b.
Proof.
  intros Hb Hm. rewrite <- (blocks_concat 4 b) at 2 by (assumption || lia).
  rewrite flat_map_concat_map, map_map. f_equal. rewrite <- (map_id (blocks 4 b)) at 2.
  apply map_ext_in. intros g Hg. rewrite <- (blocks_all_length _ _ _ Hg).
  apply be_octets_be_num. eapply octets_blocks; eassumption.
Qed.

Lemma block_words_inj b b' : octets b -> octets b' -> length b = 64%nat -> length b' = 64%nat ->
  words_of_bits (bits_of_octets b) = words_of_bits (bits_of_octets b') -> b = b'.
Proof.
  intros Hb Hb' Hl Hl' E. rewrite !words_of_block in E by assumption.
  rewrite <- (block_words_octets b), <- (block_words_octets b'); try assumption.
  - f_equal. exact E.
  - rewrite Hl'. reflexivity.
  - rewrite Hl. reflexivity.
Qed.

(** * Two computations ending in the same chaining value *)

Definition run (h : list N) (Ms : list (list N)) : list N := fold_left compress Ms h.

Lemma inputs_app h Ms Ms' : inputs h (Ms ++ Ms') = inputs h Ms ++ inputs (run h Ms) Ms'.
Proof.
  revert h. induction Ms as [|M Ms IH]; intros h; [reflexivity|]. cbn. f_equal. apply IH.
Qed.

Definition collide (P P' : list (list N * list N)) : Prop :=
  exists p p', In p P /\ In p' P' /\ p <> p' /\
    compress (fst p) (snd p) = compress (fst p') (snd p').

Lemma pair_dec (p q : list N * list N) : {p = q} + {p <> q}.
Proof.
  assert (D : forall a b : list N, {a = b} + {a <> b}) by (intros; apply (list_eq_dec N.eq_dec)).
  destruct p as [a b], q as [c d]. destruct (D a c), (D b d); subst; auto; right; congruence.
Qed.

Lemma collide_app P P' Q Q' : collide P P' -> collide (P ++ Q) (P' ++ Q').
Proof.
  intros (p & p' & H1 & H2 & H3). exists p, p'.
  split; [apply in_or_app; auto|]. split; [apply in_or_app; auto|]. assumption.
Qed.

Lemma same_result h : forall Ms Ms', length Ms = length Ms' -> run h Ms = run h Ms' ->
  Ms = Ms' \/ collide (inputs h Ms) (inputs h Ms').
Proof.
  intros Ms. induction Ms as [|M Ms IH] using rev_ind; intros Ms' Hl E.
  - destruct Ms'; [auto|discriminate].
  - destruct Ms' as [|M' Ms' _] using rev_ind; [rewrite app_length in Hl; cbn in Hl; lia|].
    rewrite !app_length in Hl. cbn [length] in Hl.
    unfold run in E. rewrite !fold_left_app in E. cbn [fold_left] in E. fold (run h Ms) (run h Ms') in E.
    destruct (pair_dec (run h Ms, M) (run h Ms', M')) as [Ep|Np].
    + injection Ep as E1 ->. destruct (IH Ms') as [->|C]; [lia|assumption|auto|].
      right. rewrite !inputs_app. apply collide_app. assumption.
    + right. rewrite !inputs_app. exists (run h Ms, M), (run h Ms', M').
      cbn [inputs fst snd]. split; [apply in_or_app; cbn; auto|].
      split; [apply in_or_app; cbn; auto|]. split; assumption.
Qed.

Lemma last_differs h Ms M Ms' M' : M <> M' -> run h (Ms ++ [M]) = run h (Ms' ++ [M']) ->
  collide (inputs h (Ms ++ [M])) (inputs h (Ms' ++ [M'])).
Proof.
  intros N E. unfold run in E. rewrite !fold_left_app in E. cbn [fold_left] in E.
  fold (run h Ms) (run h Ms') in E. rewrite !inputs_app.
  exists (run h Ms, M), (run h Ms', M'). cbn [inputs fst snd].
  split; [apply in_or_app; cbn; auto|]. split; [apply in_or_app; cbn; auto|].
  split; [congruence|assumption].
Qed.

(** * From messages to blocks *)

Definition block_words (m : list N) : list (list N) :=
  map (fun b => words_of_bits (bits_of_octets b)) (blocks 64 (padded m)).

Lemma compressions_eq m : compressions m = inputs H0 (block_words m).
Proof.
  unfold compressions, block_words. rewrite pad_padded. change 512%nat with (8 * 64)%nat.
  rewrite blocks_bits by discriminate. rewrite map_map. reflexivity.
Qed.

Lemma run_absorb h l : run h (map (fun b => words_of_bits (bits_of_octets b)) (blocks 64 l)) = absorb h l.
Proof.
  unfold run, absorb, Hasher.absorb, absorb_block. generalize (blocks 64 l) as B. intros B. revert h.
  induction B as [|b B IH]; intros h; [reflexivity|]. cbn [map fold_left]. apply IH.
Qed.

Lemma map_inj_in {A B} (f : A -> B) l : forall l',
  (forall x y, In x l -> In y l' -> f x = f y -> x = y) -> map f l = map f l' -> l = l'.
Proof.
  induction l as [|x l IH]; intros [|y l'] Hf E; try discriminate; [reflexivity|].
  cbn in E. injection E as E1 E2. f_equal.
  - apply Hf; cbn; auto.
  - apply IH; [|assumption]. intros u v Hu Hv. apply Hf; cbn; auto.
Qed.

Lemma block_words_all m m' : octets m -> octets m' -> block_words m = block_words m' -> padded m = padded m'.
Proof.
  intros Ho Ho' E. unfold block_words in E.
  assert (EB : blocks 64 (padded m) = blocks 64 (padded m')).
  { revert E. apply map_inj_in. intros x y Hx Hy. apply block_words_inj.
    - eapply octets_blocks; [apply octets_padded; exact Ho|eassumption].
    - eapply octets_blocks; [apply octets_padded; exact Ho'|eassumption].
    - eapply blocks_all_length; eassumption.
    - eapply blocks_all_length; eassumption. }
  rewrite <- (blocks_concat 64 (padded m)), <- (blocks_concat 64 (padded m')) by (apply padded_mod || lia).
  rewrite EB. reflexivity.
Qed.

(** The last block ends with the length. *)
Lemma padded_split m : exists l b, padded m = l ++ b ++ be_octets 8 (8 * N.of_nat (length m)) /\
  length b = 56%nat /\ (length l mod 64 = 0)%nat.
Proof.
  set (q := m ++ [128] ++ repeat 0 ((119 - length m mod 64) mod 64)).
  assert (Hq : (length q mod 64 = 56)%nat).
  { unfold q. rewrite !app_length, repeat_length. cbn [length]. lia. }
  exists (firstn (length q - 56) q), (skipn (length q - 56) q).
  rewrite app_assoc, firstn_skipn. split; [|split].
  - unfold padded, glue, q. rewrite <- !app_assoc. reflexivity.
  - rewrite skipn_length. lia.
  - rewrite firstn_length. lia.
Qed.

Lemma block_words_last m : exists Bs b, length b = 56%nat /\
  block_words m = Bs ++ [words_of_bits (bits_of_octets (b ++ be_octets 8 (8 * N.of_nat (length m))))]
  /\ (octets m -> octets b).
Proof.
  destruct (padded_split m) as (l & b & E & Hb & Hl). unfold block_words. rewrite E.
  rewrite blocks_app by (assumption || lia). rewrite map_app.
  rewrite (blocks_single 64 (b ++ _)) by (try rewrite app_length, be_octets_length, Hb; (reflexivity || lia)).
  exists (map (fun b => words_of_bits (bits_of_octets b)) (blocks 64 l)), b.
  split; [assumption|]. split; [reflexivity|]. intros Ho.
  pose proof (octets_padded m Ho) as Hp. rewrite E in Hp. apply octets_app in Hp as [_ Hp].
  apply octets_app in Hp. apply Hp.
Qed.

Lemma sha256_collision m m' : octets m -> octets m' ->
  N.of_nat (length m) < 2 ^ 61 -> N.of_nat (length m') < 2 ^ 61 ->
  sha256 m = sha256 m' -> m <> m' -> collision_within m m'.
Proof.
  intros Ho Ho' Hl Hl' E Hne. unfold collision_within. rewrite !compressions_eq.
  change (collide (inputs H0 (block_words m)) (inputs H0 (block_words m'))).
  assert (ER : run H0 (block_words m) = run H0 (block_words m')).
  { unfold block_words. rewrite !run_absorb. rewrite !sha256_padded in E.
    apply words_octets_inj in E; [assumption|apply absorb_ok|apply absorb_ok];
      (split; [apply H0_length|apply words_H0]). }
  destruct (Nat.eq_dec (length m) (length m')) as [El|Nl].
  - destruct (same_result H0 (block_words m) (block_words m')) as [EB|C]; try assumption.
    + unfold block_words. rewrite !map_length, !blocks_length. unfold padded. rewrite !app_length, El. reflexivity.
    + exfalso. apply Hne. apply block_words_all in EB; try assumption. unfold padded in EB.
      rewrite El in EB. apply app_inv_tail in EB. assumption.
  - destruct (block_words_last m) as (Bs & b & Hb & EB & Hbo).
    destruct (block_words_last m') as (Bs' & b' & Hb' & EB' & Hbo').
    rewrite EB, EB' in *. apply last_differs; [|assumption].
    intros Ew. apply block_words_inj in Ew.
    + apply app_inj_length in Ew; [|lia]. destruct Ew as [_ Ew].
      apply (be_octets_inj 8) in Ew; [lia| |].
      * change (256 ^ N.of_nat 8) with (8 * 2 ^ 61). lia.
      * change (256 ^ N.of_nat 8) with (8 * 2 ^ 61). lia.
    + apply octets_app. split; [auto|apply octets_be_octets].
    + apply octets_app. split; [auto|apply octets_be_octets].
    + rewrite app_length, be_octets_length, Hb. reflexivity.
    + rewrite app_length, be_octets_length, Hb'. reflexivity.
Qed.

(** * HMAC *)

Lemma xor_pad_inj K K' P : length K = length K' -> length P = length K -> xor K P = xor K' P -> K = K'.
Proof.
  intros H1 H2 E. apply (f_equal (fun l => xor l P)) in E.
  rewrite !xor_cancel_r in E by lia. assumption.
Qed.

Lemma hmac_collision K K' t t' : octets K -> octets K' -> octets t -> octets t' ->
  N.of_nat (64 + length t) < 2 ^ 61 -> N.of_nat (64 + length t') < 2 ^ 61 ->
  Spec.Hmac.hmac K t = Spec.Hmac.hmac K' t' ->
  (Spec.Hmac.block_key K, t) <> (Spec.Hmac.block_key K', t') ->
  let inner K t := xor (Spec.Hmac.block_key K) Spec.Hmac.ipad ++ t in
  let outer K t := xor (Spec.Hmac.block_key K) Spec.Hmac.opad ++ sha256 (inner K t) in
  collision_within (inner K t) (inner K' t') \/ collision_within (outer K t) (outer K' t').
Proof.
  intros HK HK' Ht Ht' Hl Hl' E Hne inner outer.
  assert (Hip : forall K t, length (inner K t) = (64 + length t)%nat).
  { intros. unfold inner. rewrite app_length, (proj1 (Proofs.Hmac.keyed_pads_length _)). reflexivity. }
  assert (Hop : forall K t, length (outer K t) = 96%nat).
  { intros. unfold outer. rewrite app_length, (proj2 (Proofs.Hmac.keyed_pads_length _)), spec_sha256_length. reflexivity. }
  assert (Hio : forall K t, octets K -> octets t -> octets (inner K t)).
  { intros. apply octets_app. split; [|assumption].
    apply octets_xor; [apply Proofs.Hmac.octets_block_key; assumption|apply Proofs.Hmac.octets_ipad]. }
  assert (Hoo : forall K t, octets K -> octets (outer K t)).
  { intros. apply octets_app. split; [|apply octets_spec_sha256].
    apply octets_xor; [apply Proofs.Hmac.octets_block_key; assumption|apply Proofs.Hmac.octets_opad]. }
  destruct (list_eq_dec N.eq_dec (outer K t) (outer K' t')) as [Eo|No].
  - left. unfold outer in Eo. apply app_inj_length in Eo.
    2: { rewrite !(proj2 (Proofs.Hmac.keyed_pads_length _)). reflexivity. }
    destruct Eo as [Ek Ed].
    apply xor_pad_inj in Ek; [|rewrite !Proofs.Hmac.block_key_length; reflexivity..].
    apply sha256_collision; auto; try (rewrite Hip; assumption).
    intros Ei. unfold inner in Ei. apply app_inj_length in Ei.
    2: { rewrite !(proj1 (Proofs.Hmac.keyed_pads_length _)). reflexivity. }
    apply Hne. destruct Ei as [_ ->]. rewrite Ek. reflexivity.
  - right. apply sha256_collision; auto; rewrite Hop; reflexivity.
Qed.

(** * Length extension *)

Lemma length_extension m suffix : octets m -> octets suffix ->
  sha256 (m ++ glue (length m) ++ suffix) = continue (sha256 m) (length m) suffix.
Proof.
  intros Hm Hs. rewrite !sha256_padded. unfold continue.
  set (n' := (length m + length (glue (length m)) + length suffix)%nat).
  assert (E : padded (m ++ glue (length m) ++ suffix) = padded m ++ suffix ++ glue n').
  { unfold padded at 1. rewrite !app_length. fold n'. replace (length m + (length (glue (length m)) + length suffix))%nat with n' by (unfold n'; lia).
    unfold padded. rewrite <- !app_assoc. reflexivity. }
  rewrite E, absorb_app by apply padded_mod.
  assert (Hok : state_ok (absorb H0 (padded m))) by (apply absorb_ok; split; [apply H0_length|apply words_H0]).
  set (h := absorb H0 (padded m)) in *. destruct Hok as [Hl Hw].
  assert (Eh : map be_num (blocks 4 (flat_map (be_octets 4) h)) = h).
  { apply words_octets_inj; [|assumption|].
    - apply Forall_map, Forall_forall. intros g Hg. pose proof (blocks_all_length _ _ _ Hg) as Hgl.
      pose proof (octets_blocks _ _ _ (octets_flat_map_be 4 h) Hg) as Hgo.
      apply be_num_lt in Hgo. rewrite Hgl in Hgo. exact Hgo.
    - apply block_words_octets; [apply octets_flat_map_be|]. rewrite flat_map_be4_length by assumption. reflexivity. }
  rewrite Eh. f_equal. unfold absorb, Hasher.absorb.
  assert (HB : forall b, In b (blocks 64 (suffix ++ glue n')) -> octets b /\ length b = 64%nat).
  { intros b Hb. split; [|eapply blocks_all_length; eassumption].
    eapply octets_blocks; [|eassumption]. apply octets_app. split; [assumption|apply octets_glue]. }
  clearbody h. clear - HB. revert h HB. generalize (blocks 64 (suffix ++ glue n')) as B.
  induction B as [|b B IH]; intros h HB; [reflexivity|]. cbn [fold_left].
  unfold Hasher.absorb_block at 2. rewrite words_of_block by (apply HB; cbn; auto). apply IH. intros b' Hb'. apply HB. cbn. auto.
Qed.

(** * Fixed points *)

Definition sub32 (a b : N) : N := (a + (2 ^ 32 - b)) mod 2 ^ 32.
Lemma word_sub32 a b : word (sub32 a b).
Proof. apply N.mod_lt. discriminate. Qed.
Lemma add_sub a b : word a -> word b -> sub32 (add32 a b) b = a.
Proof. unfold word, sub32, add32. change (2 ^ 32) with 4294967296. lia. Qed.
Lemma sub_add a b : word a -> word b -> add32 (sub32 a b) b = a.
Proof. unfold word, sub32, add32. change (2 ^ 32) with 4294967296. lia. Qed.

Definition unround (v : vars) (kw : N * N) : vars :=
  let '(a', a, b, c, e', e, f, g) := v in
  let '(k, w) := kw in
  let T2 := add32 (BSIG0 a) (MAJ a b c) in
  let T1 := sub32 a' T2 in
  (a, b, c, sub32 e' T1, e, f, g, sub32 T1 (sum32 [BSIG1 e; CH e f g; k; w])).

Lemma unround_ok v kw : vars_ok v -> vars_ok (unround v kw).
Proof.
  destruct v as [[[[[[[a b] c] d] e] f] g] h], kw as [k w]. cbn [vars_ok unround].
  intros (Ha & Hb & Hc & Hd & He & Hf & Hg & Hh). repeat split; try assumption; apply word_sub32.
Qed.
Lemma word_sum32 l : word (sum32 l).
Proof. destruct l; cbn; [reflexivity|apply word_add32]. Qed.

Lemma unround_round v kw : vars_ok v -> unround (round v kw) kw = v.
Proof.
  destruct v as [[[[[[[a b] c] d] e] f] g] h], kw as [k w]. cbn [vars_ok round unround].
  intros (Ha & Hb & Hc & Hd & He & Hf & Hg & Hh).
  rewrite add_sub by apply word_sum32 || apply word_add32.
  change (sum32 [h; BSIG1 e; CH e f g; k; w]) with (add32 h (sum32 [BSIG1 e; CH e f g; k; w])).
  rewrite !add_sub by (assumption || apply word_sum32 || apply word_add32). reflexivity.
Qed.
Lemma round_unround v kw : vars_ok v -> round (unround v kw) kw = v.
Proof.
  destruct v as [[[[[[[a b] c] d] e] f] g] h], kw as [k w]. cbn [vars_ok round unround].
  intros (Ha & Hb & Hc & Hd & He & Hf & Hg & Hh).
  match goal with |- context [sum32 (?x :: ?l)] => change (sum32 (x :: l)) with (add32 x (sum32 l)) end.
  rewrite !sub_add by (assumption || apply word_sum32 || apply word_add32 || apply word_sub32).
  reflexivity.
Qed.

Lemma rounds_inverse L : forall v, vars_ok v ->
  vars_ok (fold_left round L v) /\ vars_ok (fold_left unround (rev L) v) /\
  fold_left unround (rev L) (fold_left round L v) = v /\
  fold_left round L (fold_left unround (rev L) v) = v.
Proof.
  induction L as [|kw L IH]; intros v Hv; [cbn; auto|]. cbn [rev fold_left]. rewrite !fold_left_app. cbn [fold_left].
  pose proof (round_ok v kw Hv) as Hr. destruct (IH _ Hr) as (A & B & C & D).
  destruct (IH v Hv) as (A' & B' & C' & D').
  split; [assumption|]. split; [apply unround_ok; assumption|]. split.
  - rewrite C. apply unround_round. assumption.
  - rewrite round_unround by assumption. assumption.
Qed.

Lemma mix_bijective M h : chaining h ->
  chaining (mix M h) /\ exists h0, chaining h0 /\ mix M h0 = h /\ forall h1, chaining h1 -> mix M h1 = h -> h1 = h0.
Proof.
  intros [Hl Hw]. destruct (length_8 h Hl) as (a & b & c & d & e & f & g & k & ->).
  assert (Hv : vars_ok (a, b, c, d, e, f, g, k)).
  { unfold words in Hw. rewrite !Forall_cons_iff in Hw. cbn. unfold word. tauto. }
  set (L := combine Kt (schedule 48 M)).
  destruct (rounds_inverse L _ Hv) as (A & B & C & D). split.
  - cbn [mix]. fold L. destruct (fold_left round L _) as [[[[[[[a' b'] c'] d'] e'] f'] g'] k'].
    cbn in A. split; [reflexivity|]. repeat (apply Forall_cons; [tauto|]). constructor.
  - destruct (fold_left unround (rev L) (a, b, c, d, e, f, g, k)) as [[[[[[[a' b'] c'] d'] e'] f'] g'] k'] eqn:EU.
    exists [a'; b'; c'; d'; e'; f'; g'; k']. split; [|split].
    + cbn in B. split; [reflexivity|]. repeat (apply Forall_cons; [tauto|]). constructor.
    + cbn [mix]. fold L. rewrite D. reflexivity.
    + intros h1 [Hl1 Hw1] E1. destruct (length_8 h1 Hl1) as (a1 & b1 & c1 & d1 & e1 & f1 & g1 & k1 & ->).
      assert (Hv1 : vars_ok (a1, b1, c1, d1, e1, f1, g1, k1)).
      { unfold words in Hw1. rewrite !Forall_cons_iff in Hw1. cbn. unfold word. tauto. }
      destruct (rounds_inverse L _ Hv1) as (_ & _ & C1 & _). cbn [mix] in E1. fold L in E1.
      destruct (fold_left round L (a1, b1, c1, d1, e1, f1, g1, k1)) as [[[[[[[a2 b2] c2] d2] e2] f2] g2] k2].
      injection E1 as -> -> -> -> -> -> -> ->. rewrite EU in C1. injection C1 as <- <- <- <- <- <- <- <-. reflexivity.
Qed.

Lemma compress_mix M h : length h = 8%nat ->
  compress h M = map (fun p => add32 (fst p) (snd p)) (combine (mix M h) h).
Proof.
  intros Hl. destruct (length_8 h Hl) as (a & b & c & d & e & f & g & k & ->). unfold compress, mix.
  destruct (fold_left round _ _) as [[[[[[[a' b'] c'] d'] e'] f'] g'] k']. reflexivity.
Qed.

Lemma add32_fix a b : word a -> word b -> (add32 a b = b <-> a = 0).
Proof. unfold word, add32. change (2 ^ 32) with 4294967296. lia. Qed.

Lemma compress_fix M h : chaining h -> (compress h M = h <-> mix M h = repeat 0 8).
Proof.
  intros Hc. pose proof (proj1 (mix_bijective M h Hc)) as [Hml Hmw]. destruct Hc as [Hl Hw].
  rewrite compress_mix by assumption.
  destruct (length_8 h Hl) as (a & b & c & d & e & f & g & k & ->).
  destruct (length_8 _ Hml) as (a' & b' & c' & d' & e' & f' & g' & k' & Em). rewrite Em in *.
  rewrite !Forall_cons_iff in Hw, Hmw.
  destruct Hw as (?&?&?&?&?&?&?&?&_), Hmw as (?&?&?&?&?&?&?&?&_).
  cbn [combine map fst snd repeat]. split.
  - intros E. injection E as E0 E1 E2 E3 E4 E5 E6 E7.
    apply add32_fix in E0; [|assumption..]. apply add32_fix in E1; [|assumption..].
    apply add32_fix in E2; [|assumption..]. apply add32_fix in E3; [|assumption..].
    apply add32_fix in E4; [|assumption..]. apply add32_fix in E5; [|assumption..].
    apply add32_fix in E6; [|assumption..]. apply add32_fix in E7; [|assumption..].
    subst. reflexivity.
  - intros E. injection E as -> -> -> -> -> -> -> ->. repeat f_equal; apply add32_fix; (assumption || reflexivity).
Qed.

Lemma fixed_point M : exists h, chaining h /\ compress h M = h /\
  forall h', chaining h' -> compress h' M = h' -> h' = h.
Proof.
  assert (Hz : chaining (repeat 0 8)).
  { split; [reflexivity|]. apply Forall_forall. intros x Hx. apply repeat_spec in Hx. subst. reflexivity. }
  destruct (mix_bijective M _ Hz) as (_ & h & Hh & E & U). exists h. split; [assumption|]. split.
  - apply compress_fix; assumption.
  - intros h' Hh' E'. apply U; [assumption|]. apply compress_fix; assumption.
Qed.
