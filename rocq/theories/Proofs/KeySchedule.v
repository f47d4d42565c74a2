(** The AES key schedule can be run backwards from any [Nk] consecutive words. *)
From Coq Require Import ZArith NArith List Arith Lia Bool ZifyBool ZifyNat ZifyN.
From Verif.Spec Require Octets Aes.
From Verif.Proofs Require Import Base.
From Verif.Proofs Require Aes.
Import Spec.Octets Spec.Aes.
Import ListNotations.
Local Open Scope nat_scope.

(** The word that is combined with [w[i - Nk]] to give [w[i]]. *)
Definition temp_of (nk i : nat) (temp : list N) : list N :=
  if Nat.eqb (i mod nk) 0 then xor (SubWord (RotWord temp)) (Rcon (i / nk))
  else if andb (Nat.ltb 6 nk) (Nat.eqb (i mod nk) 4) then SubWord temp
  else temp.

Lemma expansion_length nk n w : length (KeyExpansion_from nk n w) = length w + n.
Proof. induction n as [|n IH]; cbn; [lia|]. rewrite app_length, IH. cbn. lia. Qed.

Lemma expansion_prefix nk n w i : i < length w -> nth i (KeyExpansion_from nk n w) [] = nth i w [].
Proof.
  induction n as [|n IH]; intros Hi; [reflexivity|]. cbn.
  rewrite app_nth1 by (rewrite expansion_length; lia). auto.
Qed.

Lemma expansion_nth nk n w i : 0 < nk -> length w = nk -> nk <= i < nk + n ->
  nth i (KeyExpansion_from nk n w) [] =
  xor (nth (i - nk) (KeyExpansion_from nk n w) []) (temp_of nk i (nth (i - 1) (KeyExpansion_from nk n w) [])).
Proof.
  intros Hnk Hw. induction n as [|n IH]; intros Hi; [lia|].
  cbn [KeyExpansion_from]. cbv zeta. set (W := KeyExpansion_from nk n w) in *.
  assert (HL : length W = nk + n) by (unfold W; rewrite expansion_length; lia).
  rewrite (app_nth1 W _ _ (n := i - nk)) by lia. rewrite (app_nth1 W _ _ (n := i - 1)) by lia.
  destruct (Nat.eq_dec i (nk + n)) as [->|Hne].
  - rewrite app_nth2 by lia. rewrite HL, Nat.sub_diag. reflexivity.
  - rewrite app_nth1 by lia. apply IH. lia.
Qed.

Definition words4 (W : list (list N)) : Prop := Forall (fun w => length w = 4) W.

Lemma words4_nth W i : words4 W -> i < length W -> length (nth i W []) = 4.
Proof. intros H Hi. unfold words4 in H. rewrite Forall_forall in H. apply H, nth_In, Hi. Qed.

Lemma RotWord_length t : length t = 4 -> length (RotWord t) = 4.
Proof. intros H. destruct t as [|a [|b [|c [|d [|]]]]]; try discriminate. reflexivity. Qed.

Lemma temp_of_length nk i t : length t = 4 -> length (temp_of nk i t) = 4.
Proof.
  intros H. unfold temp_of, SubWord. destruct (Nat.eqb _ _).
  - rewrite xor_length, map_length, RotWord_length by assumption. reflexivity.
  - destruct (andb _ _); [rewrite map_length|]; assumption.
Qed.

Lemma expansion_words4 nk n w : 0 < nk -> length w = nk -> words4 w -> words4 (KeyExpansion_from nk n w).
Proof.
  intros Hnk Hl Hw. induction n as [|n IH]; [assumption|]. cbn [KeyExpansion_from]. cbv zeta.
  set (W := KeyExpansion_from nk n w) in *.
  assert (HL : length W = nk + n) by (unfold W; rewrite expansion_length; lia).
  apply Forall_app. split; [assumption|]. constructor; [|constructor].
  rewrite xor_length. fold (temp_of nk (length W) (nth (length W - 1) W [])).
  rewrite temp_of_length by (apply words4_nth; [assumption|lia]).
  rewrite words4_nth by (assumption || lia). reflexivity.
Qed.

(** One step back. *)
Lemma window_back nk n w w' j : 2 <= nk -> length w = nk -> length w' = nk -> words4 w -> words4 w' ->
  j < n ->
  (forall i, S j <= i < S j + nk ->
     nth i (KeyExpansion_from nk n w) [] = nth i (KeyExpansion_from nk n w') []) ->
  nth j (KeyExpansion_from nk n w) [] = nth j (KeyExpansion_from nk n w') [].
Proof.
  intros Hnk Hl Hl' Hw Hw' Hj H.
  pose proof (expansion_nth nk n w (j + nk) ltac:(lia) Hl ltac:(lia)) as E.
  pose proof (expansion_nth nk n w' (j + nk) ltac:(lia) Hl' ltac:(lia)) as E'.
  replace (j + nk - nk) with j in E, E' by lia.
  assert (Hw4 := expansion_words4 nk n w ltac:(lia) Hl Hw).
  assert (Hw4' := expansion_words4 nk n w' ltac:(lia) Hl' Hw').
  assert (HL : length (KeyExpansion_from nk n w) = nk + n) by (rewrite expansion_length; lia).
  assert (HL' : length (KeyExpansion_from nk n w') = nk + n) by (rewrite expansion_length; lia).
  rewrite <- (H (j + nk)), <- (H (j + nk - 1)) in E' by lia.
  set (t := temp_of nk (j + nk) (nth (j + nk - 1) (KeyExpansion_from nk n w) [])) in *.
  assert (Ht : length t = 4) by (apply temp_of_length, words4_nth; [assumption|lia]).
  rewrite E in E'. apply (f_equal (fun l => xor l t)) in E'.
  rewrite !xor_cancel_r in E' by (rewrite Ht; apply words4_nth; (assumption || lia)). assumption.
Qed.

Lemma window_start nk n w w' j : 2 <= nk -> length w = nk -> length w' = nk -> words4 w -> words4 w' ->
  j <= n ->
  (forall i, j <= i < j + nk ->
     nth i (KeyExpansion_from nk n w) [] = nth i (KeyExpansion_from nk n w') []) -> w = w'.
Proof.
  intros Hnk Hl Hl' Hw Hw' Hj H. induction j as [|j IH].
  - apply (list_ext _ _ []); [lia|]. intros i Hi.
    rewrite <- (expansion_prefix nk n w), <- (expansion_prefix nk n w') by lia. apply H. lia.
  - apply IH; [lia|]. intros i Hi. destruct (Nat.eq_dec i j) as [->|Hne]; [|apply H; lia].
    apply window_back; assumption.
Qed.

Lemma blocks4_words4 key : words4 (blocks 4 key).
Proof. apply Forall_forall. intros g Hg. eapply blocks_all_length; eassumption. Qed.

Lemma key_window key key' j : valid_key_size key -> length key' = length key ->
  j + Nk key <= length (KeyExpansion key) ->
  (forall i, j <= i < j + Nk key -> nth i (KeyExpansion key) [] = nth i (KeyExpansion key') []) ->
  key = key'.
Proof.
  intros Hk Hl Hj H.
  assert (Hm : length key mod 4 = 0) by (destruct Hk as [-> | [-> | ->]]; reflexivity).
  assert (Hnk : 2 <= Nk key) by (unfold Nk; destruct Hk as [-> | [-> | ->]]; cbn; lia).
  assert (Enk : Nk key' = Nk key) by (unfold Nk; rewrite Hl; reflexivity).
  assert (Enr : Nr key' = Nr key) by (unfold Nr; rewrite Enk; reflexivity).
  assert (Hb : length (blocks 4 key) = Nk key) by (rewrite blocks_length; reflexivity).
  assert (Hb' : length (blocks 4 key') = Nk key) by (rewrite blocks_length, Hl; reflexivity).
  unfold KeyExpansion in *. rewrite Enk, Enr in H. rewrite expansion_length, Hb in Hj.
  assert (E : blocks 4 key = blocks 4 key').
  { eapply (window_start (Nk key) (4 * (Nr key + 1) - Nk key) _ _ j); try assumption;
      try apply blocks4_words4; lia. }
  rewrite <- (blocks_concat 4 key), <- (blocks_concat 4 key') by (lia || (rewrite ?Hl; assumption)).
  rewrite E. reflexivity.
Qed.
