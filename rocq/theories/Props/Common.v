(** C67: the hexadecimal reader used by the tests. *)
From Coq Require Import ZArith NArith List Arith Lia Bool ZifyBool ZifyNat ZifyN Ascii String.
From Verif Require Import Rust.
From Verif.Model Require Import Common.
From Verif.Spec Require Octets Hex.
Import Spec.Octets Spec.Hex.
Import ListNotations.
Local Open Scope N_scope.

(** The text as a Rust [&str] of at most [isize::MAX] bytes. *)
Definition fits (T : target) (t : list N) : Prop := N.of_nat (List.length t) <= isize_max T.

Lemma digit_cases : forall c v, digit c v ->
  (48 <= c <= 57 /\ v = c - 48) \/ (97 <= c <= 102 /\ v = c - 87) \/ (65 <= c <= 70 /\ v = c - 55).
Proof.
  intros c v H.
  assert (Hv : (N.to_nat v < 16)%nat).
  { destruct H as [H|H].
    - change 16%nat with (List.length lower). apply nth_error_Some. rewrite H. discriminate.
    - change 16%nat with (List.length upper). apply nth_error_Some. rewrite H. discriminate. }
  assert (E : In v (map N.of_nat (seq 0 16))).
  { apply in_map_iff. exists (N.to_nat v). split; [lia|]. apply in_seq. lia. }
  cbv [map seq] in E.
  repeat (destruct E as [<-|E]; [destruct H as [H|H]; vm_compute in H; injection H as <-; lia|]).
  destruct E.
Qed.

Lemma digit_intro : forall c,
  (48 <= c <= 57) \/ (97 <= c <= 102) \/ (65 <= c <= 70) -> exists v, digit c v.
Proof.
  intros c H.
  assert (E : In c (map N.of_nat (seq 48 10 ++ seq 97 6 ++ seq 65 6))).
  { apply in_map_iff. exists (N.to_nat c). split; [lia|].
    rewrite !in_app_iff, !in_seq. lia. }
  cbv [map seq app] in E.
  repeat (destruct E as [<-|E];
    [first [exists 0; left; reflexivity | exists 1; left; reflexivity | exists 2; left; reflexivity
           |exists 3; left; reflexivity | exists 4; left; reflexivity | exists 5; left; reflexivity
           |exists 6; left; reflexivity | exists 7; left; reflexivity | exists 8; left; reflexivity
           |exists 9; left; reflexivity
           |exists 10; ((left; reflexivity) || (right; reflexivity))
           |exists 11; ((left; reflexivity) || (right; reflexivity))
           |exists 12; ((left; reflexivity) || (right; reflexivity))
           |exists 13; ((left; reflexivity) || (right; reflexivity))
           |exists 14; ((left; reflexivity) || (right; reflexivity))
           |exists 15; ((left; reflexivity) || (right; reflexivity))]|]).
  destruct E.
Qed.

Lemma hex_letter_digit : forall T c v, digit c v -> hex_letter T c = Ret v.
Proof.
  intros T c v H. apply digit_cases in H. unfold hex_letter, usub8, uadd8.
  destruct H as [[H ->]|[[H ->]|[H ->]]].
  - rewrite (proj2 (andb_true_iff (48 <=? c) (c <=? 57))) by lia.
    rewrite (proj2 (N.leb_le 48 c)) by lia. reflexivity.
  - rewrite (proj2 (andb_false_iff (48 <=? c) (c <=? 57))) by lia.
    rewrite (proj2 (andb_true_iff (97 <=? c) (c <=? 102))) by lia.
    rewrite (proj2 (N.leb_le 97 c)) by lia. cbn [bind].
    rewrite (proj2 (N.ltb_lt (c - 97 + 10) 256)) by lia. f_equal. lia.
  - rewrite (proj2 (andb_false_iff (48 <=? c) (c <=? 57))) by lia.
    rewrite (proj2 (andb_false_iff (97 <=? c) (c <=? 102))) by lia.
    rewrite (proj2 (andb_true_iff (65 <=? c) (c <=? 70))) by lia.
    rewrite (proj2 (N.leb_le 65 c)) by lia. cbn [bind].
    rewrite (proj2 (N.ltb_lt (c - 65 + 10) 256)) by lia. f_equal. lia.
Qed.

Lemma hex_letter_other : forall T c, ~ (exists v, digit c v) -> hex_letter T c = Panic.
Proof.
  intros T c H. unfold hex_letter.
  assert (H' : ~ ((48 <= c <= 57) \/ (97 <= c <= 102) \/ (65 <= c <= 70)))
    by (intros X; apply H, digit_intro, X).
  rewrite (proj2 (andb_false_iff (48 <=? c) (c <=? 57))) by lia.
  rewrite (proj2 (andb_false_iff (97 <=? c) (c <=? 102))) by lia.
  rewrite (proj2 (andb_false_iff (65 <=? c) (c <=? 70))) by lia. reflexivity.
Qed.

Lemma join_nibbles : forall c1 c2 h l, digit c1 h -> digit c2 l ->
  N.lor (shl8 h 4) l = 16 * h + l /\ h < 16 /\ l < 16.
Proof.
  intros c1 c2 h l Hh Hl. apply digit_cases in Hh, Hl.
  assert (A : h < 16) by lia. assert (B : l < 16) by lia. clear Hh Hl. split; [|lia].
  assert (X : In h (map N.of_nat (seq 0 16))).
  { apply in_map_iff. exists (N.to_nat h). split; [lia|]. apply in_seq. lia. }
  assert (Y : In l (map N.of_nat (seq 0 16))).
  { apply in_map_iff. exists (N.to_nat l). split; [lia|]. apply in_seq. lia. }
  assert (K : forallb (fun h => forallb (fun l => N.lor (shl8 h 4) l =? 16 * h + l)
                (map N.of_nat (seq 0 16))) (map N.of_nat (seq 0 16)) = true) by reflexivity.
  rewrite forallb_forall in K. specialize (K h X). cbv beta in K.
  rewrite forallb_forall in K. specialize (K l Y). cbv beta in K. lia.
Qed.

Lemma hex_loop_spells : forall T t bytes, spells t bytes -> forall rest fuel acc,
  (rest = [] \/ exists c v, rest = [c] /\ digit c v) ->
  (List.length t < fuel)%nat ->
  hex_loop fuel T (t ++ rest) acc = Ret (acc ++ bytes).
Proof.
  intros T t bytes H. induction H as [|c1 c2 h l t bytes Hh Hl H IH]; intros rest fuel acc Hr Hf.
  - destruct fuel as [|fuel]; [cbn in Hf; lia|]. rewrite app_nil_r.
    destruct Hr as [->|(c & v & -> & Hc)]; [reflexivity|].
    cbn. rewrite (hex_letter_digit T c v Hc). reflexivity.
  - destruct fuel as [|fuel]; [cbn in Hf; lia|]. cbn [app hex_loop hex_next].
    rewrite (hex_letter_digit T c1 h Hh). cbn [bind hex_next].
    rewrite (hex_letter_digit T c2 l Hl). cbn [bind].
    rewrite (proj1 (join_nibbles c1 c2 h l Hh Hl)).
    rewrite IH; [rewrite <- app_assoc; reflexivity|exact Hr|cbn in Hf; lia].
Qed.

Lemma alloc_half : forall T t, fits T t ->
  hex_to_vec T t = hex_loop (S (List.length t)) T t [].
Proof.
  intros T t H. unfold hex_to_vec, udiv. cbn [N.eqb bind].
  unfold alloc. unfold fits in H.
  assert (N.of_nat (List.length t) / 2 <= N.of_nat (List.length t)) by (apply N.div_le_upper_bound; lia).
  unfold len.
  rewrite (proj2 (N.leb_le (1 * (N.of_nat (List.length t) / 2)) (isize_max T))) by lia. reflexivity.
Qed.

(** Text that spells octets is read as those octets, on every target. *)
Theorem C67_reads : forall T t bytes, fits T t -> spells t bytes ->
  hex_to_vec T t = Ret bytes /\ octets bytes.
Proof.
  intros T t bytes Hf H. split.
  - rewrite alloc_half by exact Hf.
    replace t with (t ++ []) at 2 by apply app_nil_r.
    rewrite (hex_loop_spells T t bytes H [] _ []); [reflexivity|left; reflexivity|lia].
  - clear Hf. induction H as [|c1 c2 h l t bytes Hh Hl H IH]; [constructor|].
    constructor; [|exact IH]. pose proof (join_nibbles c1 c2 h l Hh Hl). lia.
Qed.
Print Assumptions C67_reads.

(** An odd digit at the end is dropped without notice. *)
Theorem C67_odd_digit_dropped : forall T t bytes c v, fits T (t ++ [c]) ->
  spells t bytes -> digit c v -> hex_to_vec T (t ++ [c]) = Ret bytes.
Proof.
  intros T t bytes c v Hf H Hc. rewrite alloc_half by exact Hf.
  rewrite (hex_loop_spells T t bytes H [c] _ []); [reflexivity|right; eauto|].
  rewrite app_length. cbn. lia.
Qed.
Print Assumptions C67_odd_digit_dropped.

(** Any other character anywhere panics, in the odd place at the end too. *)
Theorem C67_rejects : forall T t, fits T t ->
  (exists c, In c t /\ ~ exists v, digit c v) -> hex_to_vec T t = Panic.
Proof.
  intros T t Hf H. rewrite alloc_half by exact Hf. clear Hf.
  assert (G : forall n t acc fuel, (List.length t <= n)%nat -> (List.length t < fuel)%nat ->
    (exists c, In c t /\ ~ exists v, digit c v) -> hex_loop fuel T t acc = Panic).
  { clear. assert (D : forall c, (exists v, digit c v) \/ ~ exists v, digit c v).
    { intros c.
      destruct (((48 <=? c) && (c <=? 57)) || ((97 <=? c) && (c <=? 102)) || ((65 <=? c) && (c <=? 70))) eqn:E.
      - left. apply digit_intro. lia.
      - right. intros [v Hv]. apply digit_cases in Hv. lia. }
    induction n as [|n IH]; intros t acc fuel Hn Hf (c & Hin & Hc).
    - destruct t; [destruct Hin|cbn in Hn; lia].
    - destruct fuel as [|fuel]; [lia|]. destruct t as [|c1 t]; [destruct Hin|].
      cbn [hex_loop hex_next]. destruct (D c1) as [[h Hh]|H1].
      2: { rewrite (hex_letter_other T c1 H1). reflexivity. }
      rewrite (hex_letter_digit T c1 h Hh). cbn [bind].
      destruct Hin as [->|Hin]; [exfalso; eauto|].
      destruct t as [|c2 t]; [destruct Hin|]. cbn [hex_next].
      destruct (D c2) as [[l Hl]|H2].
      2: { rewrite (hex_letter_other T c2 H2). reflexivity. }
      rewrite (hex_letter_digit T c2 l Hl). cbn [bind].
      destruct Hin as [->|Hin]; [exfalso; eauto|].
      apply IH; [cbn in Hn; lia|cbn in Hf; lia|eauto]. }
  apply (G (List.length t)); [lia|lia|exact H].
Qed.
Print Assumptions C67_rejects.

(** Reading undoes encoding. *)
Theorem C67_round_trip : forall T bytes, octets bytes -> fits T (encode bytes) ->
  hex_to_vec T (encode bytes) = Ret bytes.
Proof.
  intros T bytes H Hf. apply C67_reads; [exact Hf|]. clear Hf.
  induction H as [|b bytes Hb H IH]; [constructor|]. cbn [encode flat_map app].
  assert (X : b = 16 * (b / 16) + b mod 16) by (apply N.div_mod'; lia).
  rewrite X at 3.
  assert (A : b / 16 < 16) by (apply N.div_lt_upper_bound; lia).
  assert (B : b mod 16 < 16) by (apply N.mod_lt; lia).
  constructor; [| |exact IH]; left; apply nth_error_nth'; change (List.length lower) with 16%nat; lia.
Qed.
Print Assumptions C67_round_trip.

(** Not every text that is read is an encoding: reading an odd-length text is not
    refused. *)
Theorem C67_odd_length_refused_refuted : exists T t bytes,
  hex_to_vec T t = Ret bytes /\ ~ exists bytes', spells t bytes'.
Proof.
  exists (mkTarget W64 true), (text "abc"), [171]. split; [reflexivity|].
  intros [bytes' H]. inversion H; subst. inversion H6.
Qed.
Print Assumptions C67_odd_length_refused_refuted.

Example C67_example :
  hex_to_vec (mkTarget W64 true) (text "00fFa90") = Ret [0; 255; 169] /\
  hex_to_vec (mkTarget W32 false) (text "0g") = Panic /\
  encode [0; 255; 169] = text "00ffa9".
Proof. repeat split. Qed.
