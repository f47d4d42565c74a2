(** Facts about cutting streams, padding and chaining: nothing here mentions the
    model. *)
From Coq Require Import ZArith NArith List Arith Lia Bool ZifyBool ZifyNat ZifyN.
From Verif.Spec Require Import Octets Aes Cbc Stream.
From Verif.Proofs Require Import Base.
Import ListNotations.
Local Open Scope N_scope.
Ltac Zify.zify_post_hook ::= Z.div_mod_to_equations.

(** * Cutting *)

Lemma whole_rest k l : whole k l ++ rest k l = l.
Proof. apply firstn_skipn. Qed.
Lemma settled_held k l : settled k l ++ held k l = l.
Proof. apply firstn_skipn. Qed.

Lemma div_mul_le k n : (k <> 0 -> k * (n / k) <= n)%nat.
Proof. apply Nat.mul_div_le. Qed.

Lemma whole_length k l : (k <> 0)%nat -> length (whole k l) = (k * (length l / k))%nat.
Proof. intros Hk. unfold whole. rewrite firstn_length. pose proof (div_mul_le k (length l) Hk). lia. Qed.
Lemma whole_mod k l : (k <> 0)%nat -> (length (whole k l) mod k = 0)%nat.
Proof. intros Hk. rewrite whole_length, Nat.mul_comm by assumption. apply Nat.mod_mul. assumption. Qed.
Lemma rest_length k l : (k <> 0)%nat -> length (rest k l) = (length l mod k)%nat.
Proof.
  intros Hk. unfold rest. rewrite skipn_length.
  pose proof (Nat.div_mod (length l) k Hk). lia.
Qed.
Lemma rest_lt k l : (k <> 0 -> length (rest k l) < k)%nat.
Proof. intros Hk. rewrite rest_length by assumption. apply Nat.mod_upper_bound. assumption. Qed.
Lemma settled_length k l : (k <> 0)%nat -> length (settled k l) = (k * ((length l - 1) / k))%nat.
Proof. intros Hk. unfold settled. rewrite firstn_length. pose proof (div_mul_le k (length l - 1) Hk). lia. Qed.
Lemma held_length k l : (k <> 0)%nat -> length (held k l) = (length l - k * ((length l - 1) / k))%nat.
Proof. intros Hk. unfold held. apply skipn_length. Qed.
Lemma held_le k l : (k <> 0 -> length (held k l) <= k)%nat.
Proof.
  intros Hk. rewrite held_length by assumption.
  pose proof (Nat.div_mod (length l - 1) k Hk). pose proof (Nat.mod_upper_bound (length l - 1) k Hk).
  lia.
Qed.
Lemma held_pos k l : (k <> 0)%nat -> l <> [] -> (0 < length (held k l))%nat.
Proof.
  intros Hk Hl. rewrite held_length by assumption.
  destruct l as [|x l]; [contradiction|]. cbn [length].
  pose proof (div_mul_le k (S (length l) - 1) Hk). lia.
Qed.

Lemma cut_front {A} (a b : list A) n m : n = (length a + m)%nat ->
  firstn n (a ++ b) = a ++ firstn m b /\ skipn n (a ++ b) = skipn m b.
Proof.
  intros ->. rewrite firstn_app_2, skipn_app.
  rewrite (skipn_all2 a) by lia. cbn [app].
  replace (length a + m - length a)%nat with m by lia. auto.
Qed.

Lemma whole_front k q a b : (k <> 0)%nat -> length a = (k * q)%nat ->
  whole k (a ++ b) = a ++ whole k b /\ rest k (a ++ b) = rest k b.
Proof.
  intros Hk Ha. unfold whole, rest. apply cut_front. rewrite app_length, Ha.
  rewrite (Nat.mul_comm k q), (Nat.add_comm (q * k)), Nat.div_add by assumption. lia.
Qed.
Lemma settled_front k q a b : (k <> 0)%nat -> length a = (k * q)%nat -> (q = 0%nat \/ b <> []) ->
  settled k (a ++ b) = a ++ settled k b /\ held k (a ++ b) = held k b.
Proof.
  intros Hk Ha Hb. unfold settled, held. apply cut_front. rewrite app_length, Ha.
  destruct Hb as [->|Hb]; [rewrite Nat.mul_0_r; reflexivity|].
  destruct b as [|x b]; [contradiction|]. cbn [length].
  replace (k * q + S (length b) - 1)%nat with (S (length b) - 1 + q * k)%nat by lia.
  rewrite Nat.div_add by assumption. lia.
Qed.

Lemma whole_app k s d : (k <> 0)%nat ->
  whole k (s ++ d) = whole k s ++ whole k (rest k s ++ d) /\
  rest k (s ++ d) = rest k (rest k s ++ d).
Proof.
  intros Hk.
  pose proof (whole_front k _ (whole k s) (rest k s ++ d) Hk (whole_length k s Hk)) as H.
  rewrite app_assoc, whole_rest in H. exact H.
Qed.
Lemma settled_app k s d : (k <> 0)%nat ->
  settled k (s ++ d) = settled k s ++ settled k (held k s ++ d) /\
  held k (s ++ d) = held k (held k s ++ d).
Proof.
  intros Hk.
  pose proof (settled_front k _ (settled k s) (held k s ++ d) Hk (settled_length k s Hk)) as H.
  rewrite app_assoc, settled_held in H. apply H. clear H.
  destruct s as [|x s].
  - left. cbn [length Nat.sub]. apply Nat.div_0_l. assumption.
  - right. pose proof (held_pos k (x :: s) Hk) as H.
    destruct (held k (x :: s)); [|discriminate].
    assert (x :: s <> []) by discriminate. specialize (H H0). cbn in H. lia.
Qed.

Lemma whole_short k l : (length l < k)%nat -> whole k l = [] /\ rest k l = l.
Proof. intros H. unfold whole, rest. rewrite Nat.div_small, Nat.mul_0_r by assumption. auto. Qed.
Lemma settled_short k l : (k <> 0)%nat -> (length l <= k)%nat -> settled k l = [] /\ held k l = l.
Proof. intros Hk H. unfold settled, held. rewrite Nat.div_small, Nat.mul_0_r by lia. auto. Qed.

Lemma whole_all k l : (k <> 0)%nat -> (length l mod k = 0)%nat -> whole k l = l /\ rest k l = [].
Proof.
  intros Hk H. assert (E : length (rest k l) = 0%nat) by (rewrite rest_length; assumption).
  pose proof (whole_rest k l) as W. destruct (rest k l); [|discriminate E].
  rewrite app_nil_r in W. auto.
Qed.

Lemma groups_firstn {A} k n (l l' : list A) : firstn (k * n) l = firstn (k * n) l' ->
  groups k n l = groups k n l'.
Proof.
  revert l l'. induction k as [|k IH]; intros l l' H; [reflexivity|].
  cbn [groups]. f_equal.
  - apply (f_equal (firstn n)) in H. rewrite !firstn_firstn in H.
    replace (Nat.min n (S k * n)) with n in H by lia. assumption.
  - apply IH. apply (f_equal (skipn n)) in H. rewrite !skipn_firstn_comm in H.
    replace (S k * n - n)%nat with (k * n)%nat in H by lia. assumption.
Qed.
Lemma blocks_whole k l : (k <> 0)%nat -> blocks k (whole k l) = blocks k l.
Proof.
  intros Hk. unfold blocks. rewrite whole_length by assumption.
  rewrite (Nat.mul_comm k), Nat.div_mul by assumption.
  apply groups_firstn. unfold whole. rewrite firstn_firstn. f_equal. lia.
Qed.
Lemma concat_blocks_whole k l : (k <> 0)%nat -> concat (blocks k l) = whole k l.
Proof.
  intros Hk. rewrite <- blocks_whole by assumption. apply blocks_concat; [assumption|].
  apply whole_mod. assumption.
Qed.

Lemma octets_whole k l : octets l -> octets (whole k l).
Proof. apply octets_firstn. Qed.
Lemma octets_rest k l : octets l -> octets (rest k l).
Proof. apply octets_skipn. Qed.
Lemma octets_held k l : octets l -> octets (held k l).
Proof. apply octets_skipn. Qed.

(** * Padding *)

Lemma pkcs7_pad_length k m : (k <> 0)%nat ->
  length (pkcs7_pad k m) = (k * (length m / k + 1))%nat.
Proof.
  intros Hk. unfold pkcs7_pad. rewrite app_length, repeat_length.
  pose proof (Nat.div_mod (length m) k Hk). pose proof (Nat.mod_upper_bound (length m) k Hk). lia.
Qed.
Lemma pkcs7_pad_mod k m : (k <> 0)%nat -> (length (pkcs7_pad k m) mod k = 0)%nat.
Proof. intros Hk. rewrite pkcs7_pad_length, Nat.mul_comm by assumption. apply Nat.mod_mul. assumption. Qed.

(** Padding a stream is its complete blocks and then the padded remainder. *)
Lemma pkcs7_pad_split k m : (k <> 0)%nat -> pkcs7_pad k m = whole k m ++ pkcs7_pad k (rest k m).
Proof.
  intros Hk. unfold pkcs7_pad. rewrite rest_length, Nat.mod_mod by assumption.
  rewrite app_assoc, whole_rest. reflexivity.
Qed.
Lemma pkcs7_pad_short_length k m : (length m < k)%nat -> length (pkcs7_pad k m) = k.
Proof. intros H. rewrite pkcs7_pad_length by lia. rewrite Nat.div_small by assumption. lia. Qed.
Lemma octets_pkcs7_pad k m : (k < 256)%nat -> octets m -> octets (pkcs7_pad k m).
Proof.
  intros Hk Hm. unfold pkcs7_pad. apply octets_app. split; [assumption|].
  apply octets_repeat. lia.
Qed.

Lemma pkcs7_pad_valid k m : (k <> 0)%nat -> pkcs7_valid k (pkcs7_pad k m) m.
Proof.
  intros Hk. exists (k - length m mod k)%nat. pose proof (Nat.mod_upper_bound (length m) k Hk).
  repeat split; [lia|lia|]. apply pkcs7_pad_mod. assumption.
Qed.

Lemma last_app_repeat {A} (m : list A) x n d : (1 <= n)%nat -> last (m ++ repeat x n) d = x.
Proof.
  intros Hn. destruct n as [|n]; [lia|].
  replace (S n) with (n + 1)%nat by lia. rewrite repeat_app. cbn [repeat].
  rewrite app_assoc. apply last_last.
Qed.

Lemma last_skipn {A} (l : list A) n d : (n < length l)%nat -> last (skipn n l) d = last l d.
Proof.
  revert l. induction n as [|n IH]; intros l H; [reflexivity|].
  destruct l as [|x l]; [cbn in H; lia|]. cbn [skipn]. cbn [length] in H.
  rewrite IH by lia. destruct l; [cbn in H; lia|reflexivity].
Qed.
Lemma last_app {A} (a b : list A) d : b <> [] -> last (a ++ b) d = last b d.
Proof.
  intros Hb. induction a as [|x a IH]; [reflexivity|]. cbn [app].
  rewrite <- IH. destruct (a ++ b) eqn:E; [|reflexivity].
  apply app_eq_nil in E. tauto.
Qed.
Lemma last_nth {A} (l : list A) d : last l d = nth (length l - 1) l d.
Proof.
  induction l as [|x l IH]; [reflexivity|]. destruct l as [|y l]; [reflexivity|].
  change (last (x :: y :: l) d) with (last (y :: l) d). rewrite IH.
  cbn [length]. replace (S (S (length l)) - 1)%nat with (S (S (length l) - 1)) by lia. reflexivity.
Qed.

Lemma forallb_repeat x l : forallb (N.eqb x) l = true <-> l = repeat x (length l).
Proof.
  induction l as [|y l IH]; cbn; [tauto|].
  rewrite andb_true_iff, IH, N.eqb_eq. split.
  - intros [-> H]. f_equal. assumption.
  - intros H. injection H as H1 H2. auto.
Qed.

Lemma strip_incomplete k b : strip k b = Incomplete <-> length b <> k.
Proof.
  unfold strip. destruct (Nat.eqb_spec (length b) k) as [E|E]; cbn [negb].
  - split; [|tauto]. destruct (_ && _); discriminate.
  - tauto.
Qed.
Lemma strip_stripped k b m :
  strip k b = Stripped m <->
  length b = k /\ exists n, (n <= k)%nat /\ ends_with_pad b m n.
Proof.
  unfold strip. destruct (Nat.eqb_spec (length b) k) as [E|E]; cbn [negb].
  2:{ split; [discriminate|tauto]. }
  cbv zeta. set (n := N.to_nat (last b 256)). split.
  - destruct (Nat.leb_spec n k) as [Hn|]; cbn [andb]; [|discriminate].
    destruct (forallb _ _) eqn:F; [|discriminate]. intros H. injection H as <-.
    split; [assumption|]. exists n. split; [assumption|].
    apply forallb_repeat in F. rewrite skipn_length in F. split; [|subst n; lia].
    rewrite <- (firstn_skipn (k - n) b) at 1. rewrite F. f_equal. f_equal. lia.
  - intros (_ & n' & Hn & Hb & Hl). assert (n = n') as -> by (subst n; lia).
    assert (Hm : length m = (k - n')%nat).
    { rewrite Hb, app_length, repeat_length in E. lia. }
    destruct (Nat.leb_spec n' k) as [_|]; [|lia]. cbn [andb].
    rewrite Hb. destruct (cut_front m (repeat (N.of_nat n') n') (k - n') 0) as [E1 E2]; [lia|].
    rewrite E1, E2. cbn [skipn firstn]. rewrite app_nil_r.
    replace (forallb _ _) with true; [reflexivity|]. symmetry. apply forallb_repeat.
    rewrite repeat_length. reflexivity.
Qed.

Lemma strip_dec k b : exists v, strip k b = v /\
  (v = Incomplete \/ v = Invalid \/ exists m, v = Stripped m).
Proof. destruct (strip k b) as [m| |]; eauto 6. Qed.

(** The decision on the held block, in terms of the whole stream. *)
Lemma held_complete k s : (k <> 0)%nat ->
  (length (held k s) = k <-> s <> [] /\ (length s mod k = 0)%nat).
Proof.
  intros Hk. rewrite held_length by assumption.
  pose proof (Nat.div_mod (length s - 1) k Hk) as D.
  pose proof (Nat.mod_upper_bound (length s - 1) k Hk) as M.
  set (q := ((length s - 1) / k)%nat) in *. set (r := ((length s - 1) mod k)%nat) in *.
  split.
  - intros H. split.
    + intros ->. cbn in H. subst q. cbn in *. lia.
    + replace (length s) with ((q + 1) * k)%nat by lia. apply Nat.mod_mul. assumption.
  - intros [Hs H]. assert (0 < length s)%nat by (destruct s; [contradiction|cbn; lia]).
    apply Nat.mod_divides in H; [|assumption]. destruct H as [c Hc].
    destruct c as [|c]; [lia|].
    assert (c = q) as <- by (apply (Nat.div_unique (length s - 1) k c (k - 1)); lia). lia.
Qed.

Lemma stream_stripped k s m : (k <> 0)%nat ->
  (strip k (held k s) = Stripped m <->
   s <> [] /\ (length s mod k = 0)%nat /\
   exists n, (n <= k)%nat /\ ends_with_pad s (settled k s ++ m) n).
Proof.
  intros Hk. rewrite strip_stripped, (held_complete k s Hk).
  split.
  - intros [[Hs Hm] (n & Hn & Hb & Hl)]. repeat split; [assumption..|].
    exists n. split; [assumption|]. split.
    + rewrite <- app_assoc, <- Hb. symmetry. apply settled_held.
    + rewrite <- Hl. rewrite <- (settled_held k s) at 1. apply last_app.
      pose proof (held_pos k s Hk Hs). intros E. rewrite E in H. cbn in H. lia.
  - intros (Hs & Hm & n & Hn & Hb & Hl). repeat split; [assumption..|].
    exists n. split; [assumption|]. split.
    + rewrite <- (settled_held k s) in Hb at 1. rewrite <- app_assoc in Hb.
      apply app_inv_head in Hb. assumption.
    + rewrite <- Hl. rewrite <- (settled_held k s) at 2. symmetry. apply last_app.
      pose proof (held_pos k s Hk Hs). intros E. rewrite E in H. cbn in H. lia.
Qed.

Lemma stream_incomplete k s : (k <> 0)%nat ->
  (strip k (held k s) = Incomplete <-> s = [] \/ (length s mod k <> 0)%nat).
Proof.
  intros Hk. rewrite strip_incomplete, (held_complete k s Hk).
  destruct s as [|x s]; [tauto|].
  split; [|intros [H|H]; [discriminate|tauto]].
  intros H. right. intros E. apply H. split; [discriminate|assumption].
Qed.

(** A padded message is stripped to what is missing of the message. *)
Lemma stream_padded k m : (k <> 0)%nat ->
  strip k (held k (pkcs7_pad k m)) = Stripped (skipn (k * (length m / k)) m) /\
  settled k (pkcs7_pad k m) = firstn (k * (length m / k)) m.
Proof.
  intros Hk. set (n := (k - length m mod k)%nat).
  pose proof (Nat.mod_upper_bound (length m) k Hk) as Hmod.
  assert (Hs : settled k (pkcs7_pad k m) = firstn (k * (length m / k)) m).
  { unfold settled. rewrite pkcs7_pad_length by assumption.
    replace ((k * (length m / k + 1) - 1) / k)%nat with (length m / k)%nat.
    - unfold pkcs7_pad. rewrite firstn_app.
      replace (k * (length m / k) - length m)%nat with 0%nat
        by (pose proof (div_mul_le k (length m) Hk); lia).
      cbn [firstn]. apply app_nil_r.
    - replace (k * (length m / k + 1) - 1)%nat with (k - 1 + length m / k * k)%nat by lia.
      rewrite Nat.div_add by assumption. rewrite (Nat.div_small (k - 1) k) by (clear - Hk; lia). reflexivity. }
  split; [|assumption].
  apply stream_stripped; [assumption|]. split; [|split; [apply pkcs7_pad_mod; assumption|]].
  { intros E. apply (f_equal (@length N)) in E. rewrite pkcs7_pad_length in E by assumption.
    cbn [length] in E. apply Nat.mul_eq_0 in E. lia. }
  exists n. split; [subst n; lia|]. split.
  - rewrite Hs, firstn_skipn. reflexivity.
  - unfold pkcs7_pad. apply last_app_repeat. lia.
Qed.

(** * Chaining *)

Lemma cbc_encrypt_app E IV P Q :
  cbc_encrypt E IV (P ++ Q) =
  cbc_encrypt E IV P ++ cbc_encrypt E (last (cbc_encrypt E IV P) IV) Q.
Proof.
  revert IV. induction P as [|b P IH]; intros IV; [reflexivity|].
  cbn [app cbc_encrypt]. rewrite IH. cbn [app]. do 2 f_equal.
  destruct (cbc_encrypt E (E (xor b IV)) P) as [|c cs] eqn:Ec; [reflexivity|].
  f_equal. cbn [last]. clear. revert c. induction cs as [|x xs IH]; intros c; [reflexivity|].
  cbn [last] in *. apply IH.
Qed.
Lemma cbc_decrypt_app D IV C C' :
  cbc_decrypt D IV (C ++ C') = cbc_decrypt D IV C ++ cbc_decrypt D (last C IV) C'.
Proof.
  revert IV. induction C as [|b C IH]; intros IV; [reflexivity|].
  cbn [app cbc_decrypt]. rewrite IH. cbn [app]. do 2 f_equal.
  destruct C as [|c cs]; [reflexivity|]. cbn [last]. clear.
  revert c. induction cs as [|x xs IH]; intros c; [reflexivity|]. cbn [last] in *. apply IH.
Qed.
Lemma cbc_encrypt_length E IV P : length (cbc_encrypt E IV P) = length P.
Proof. revert IV. induction P as [|b P IH]; intros IV; cbn; [reflexivity|]. f_equal. apply IH. Qed.
Lemma cbc_decrypt_length D IV C : length (cbc_decrypt D IV C) = length C.
Proof. revert IV. induction C as [|b C IH]; intros IV; cbn; [reflexivity|]. f_equal. apply IH. Qed.

Lemma last_default {A} (l : list A) d d' : l <> [] -> last l d = last l d'.
Proof.
  induction l as [|x l IH]; [contradiction|]. intros _. destruct l as [|y l]; [reflexivity|].
  change (last (y :: l) d = last (y :: l) d'). apply IH. discriminate.
Qed.
Lemma last_cons {A} (x : A) l d : last (x :: l) d = last l x.
Proof.
  destruct l as [|y l]; [reflexivity|].
  change (last (x :: y :: l) d) with (last (y :: l) d). apply last_default. discriminate.
Qed.
Lemma last_app_default {A} (a b : list A) d : last (a ++ b) d = last b (last a d).
Proof.
  revert d. induction a as [|x a IH]; intros d; [reflexivity|].
  cbn [app]. rewrite !last_cons. apply IH.
Qed.
Lemma last_Forall {A} (P : A -> Prop) l d : Forall P l -> P d -> P (last l d).
Proof.
  intros Hl. revert d. induction Hl as [|x l Hx Hl IH]; intros d Hd; [assumption|].
  rewrite last_cons. apply IH. assumption.
Qed.

Definition is_block (b : list N) : Prop := octets b /\ length b = 16%nat.

Lemma is_block_xor a b : is_block a -> is_block b -> is_block (xor a b).
Proof. intros [Ha La] [Hb Lb]. split; [apply octets_xor; assumption|]. rewrite xor_length. lia. Qed.
Lemma blocks_are_blocks l : octets l -> Forall is_block (blocks 16 l).
Proof.
  intros Hl. apply Forall_forall. intros b Hb. split.
  - apply (octets_blocks 16 l); assumption.
  - apply (blocks_all_length 16 l). assumption.
Qed.
Lemma cbc_encrypt_blocks E IV P : (forall b, is_block b -> is_block (E b)) ->
  is_block IV -> Forall is_block P -> Forall is_block (cbc_encrypt E IV P).
Proof.
  intros HE HIV HP. revert IV HIV. induction HP as [|b P Hb HP IH]; intros IV HIV; [constructor|].
  cbn [cbc_encrypt]. assert (is_block (E (xor b IV))) by (apply HE, is_block_xor; assumption).
  constructor; [assumption|]. apply IH. assumption.
Qed.
Lemma cbc_decrypt_blocks D IV C : (forall b, is_block b -> is_block (D b)) ->
  is_block IV -> Forall is_block C -> Forall is_block (cbc_decrypt D IV C).
Proof.
  intros HD HIV HC. revert IV HIV. induction HC as [|b C Hb HC IH]; intros IV HIV; [constructor|].
  cbn [cbc_decrypt]. constructor; [apply is_block_xor; auto|]. apply IH. assumption.
Qed.
Lemma cbc_decrypt_encrypt E D IV P :
  (forall b, is_block b -> is_block (E b)) -> (forall b, is_block b -> D (E b) = b) ->
  is_block IV -> Forall is_block P ->
  cbc_decrypt D IV (cbc_encrypt E IV P) = P.
Proof.
  intros HE HDE HIV HP. revert IV HIV. induction HP as [|b P Hb HP IH]; intros IV HIV; [reflexivity|].
  cbn [cbc_encrypt cbc_decrypt]. rewrite HDE by (apply is_block_xor; assumption).
  rewrite xor_cancel_r by (destruct Hb, HIV; congruence). f_equal.
  apply IH. apply HE, is_block_xor; assumption.
Qed.

Lemma concat_blocks_length L : Forall is_block L -> length (concat L) = (16 * length L)%nat.
Proof.
  induction 1 as [|b L [_ Hb] HL IH]; [reflexivity|]. cbn [concat]. rewrite app_length, IH, Hb. cbn [length]. lia.
Qed.
Lemma is_blocks_octets L : Forall is_block L -> octets (concat L).
Proof. intros H. apply octets_concat. eapply Forall_impl; [|exact H]. intros b [Hb _]. exact Hb. Qed.
Lemma blocks_concat_blocks L : Forall is_block L -> blocks 16 (concat L) = L.
Proof.
  intros H. apply blocks_of_concat; [lia|]. eapply Forall_impl; [|exact H]. intros b [_ Hb]. exact Hb.
Qed.
