(** The record of AES gives the key away: encryption, decryption and key setup. *)
From Coq Require Import ZArith NArith List Arith Lia Bool ZifyBool ZifyNat ZifyN.
From Verif Require Import Rust.
From Verif.Model Require Aes.
From Verif.Leak Require Ops Aes.
From Verif.Spec Require Octets Aes.
From Verif.Proofs Require Import Base Bits Leak LeakErase.
From Verif.Proofs Require Aes KeySchedule.
Import ListNotations.
Import Spec.Octets Spec.Aes.
Import Proofs.Aes.
Local Open Scope N_scope.
Ltac Zify.zify_post_hook ::= Z.div_mod_to_equations.

(** * Learning from equal records *)

(** Equal records starting with those of [m1] and [m2] go on equally, and [R]. *)
Definition learn {A} (R : Prop) (m1 m2 : Ops.res A) : Prop :=
  forall r1 r2, Ops.trace m1 ++ r1 = Ops.trace m2 ++ r2 -> R /\ r1 = r2.
Definition tells {A} (R : Prop) (m1 m2 : Ops.res A) : Prop :=
  forall r1 r2, Ops.trace m1 ++ r1 = Ops.trace m2 ++ r2 -> R.

Lemma learn_tells {A} R (m1 m2 : Ops.res A) : learn R m1 m2 -> tells R m1 m2.
Proof. intros H r1 r2 E. apply (H r1 r2 E). Qed.
Lemma tells_visible {A} R (m1 m2 : Ops.res A) : tells R m1 m2 -> Ops.visible m1 = Ops.visible m2 -> R.
Proof.
  intros H E. unfold Ops.visible in E. injection E as E _. apply (H [] []). rewrite E. reflexivity.
Qed.
Lemma trace_bind_prefix {A B} (m : Ops.res A) (f : A -> Ops.res B) :
  exists r, Ops.trace (Ops.bind m f) = Ops.trace m ++ r.
Proof.
  destruct m as [t [a| |]]; cbn; [destruct (f a) as [t' o]; exists t'; reflexivity| |];
    exists []; unfold Ops.trace; cbn; rewrite app_nil_r; reflexivity.
Qed.
Lemma tells_head {A B} R (m1 m2 : Ops.res A) (f1 f2 : A -> Ops.res B) :
  tells R m1 m2 -> tells R (Ops.bind m1 f1) (Ops.bind m2 f2).
Proof.
  intros H r1 r2 E. destruct (trace_bind_prefix m1 f1) as [x1 E1], (trace_bind_prefix m2 f2) as [x2 E2].
  rewrite E1, E2, <- !app_assoc in E. exact (H _ _ E).
Qed.
Lemma tells_bind {A B} R P (m1 m2 : Ops.res A) (f1 f2 : A -> Ops.res B) a b :
  Ops.outcome m1 = Ret a -> Ops.outcome m2 = Ret b -> learn R m1 m2 ->
  (R -> tells P (f1 a) (f2 b)) -> tells P (Ops.bind m1 f1) (Ops.bind m2 f2).
Proof.
  intros H1 H2 Hm Hf r1 r2 E. rewrite (trace_bind m1 f1 a H1), (trace_bind m2 f2 b H2), <- !app_assoc in E.
  destruct (Hm _ _ E) as [HR E']. exact (Hf HR _ _ E').
Qed.
Lemma learn_bind {A B} R P (m1 m2 : Ops.res A) (f1 f2 : A -> Ops.res B) a b :
  Ops.outcome m1 = Ret a -> Ops.outcome m2 = Ret b -> learn R m1 m2 ->
  (R -> learn P (f1 a) (f2 b)) -> learn P (Ops.bind m1 f1) (Ops.bind m2 f2).
Proof.
  intros H1 H2 Hm Hf r1 r2 E. rewrite (trace_bind m1 f1 a H1), (trace_bind m2 f2 b H2), <- !app_assoc in E.
  destruct (Hm _ _ E) as [HR E']. exact (Hf HR _ _ E').
Qed.
Lemma learn_weaken {A} (R S : Prop) (m1 m2 : Ops.res A) : (R -> S) -> learn R m1 m2 -> learn S m1 m2.
Proof. intros H Hm r1 r2 E. destruct (Hm r1 r2 E). auto. Qed.
Lemma app_cut {A} (a b : list A) : forall r1 r2, length a = length b -> a ++ r1 = b ++ r2 -> r1 = r2.
Proof.
  revert b; induction a as [|x a IH]; intros [|y b] r1 r2 Hl E; try discriminate Hl; [exact E|].
  cbn in Hl, E. injection E as _ E. apply (IH b); [congruence|exact E].
Qed.
Lemma learn_len {A} (m1 m2 : Ops.res A) :
  length (Ops.trace m1) = length (Ops.trace m2) -> learn True m1 m2.
Proof. intros H r1 r2 E. split; [exact I|]. exact (app_cut _ _ _ _ H E). Qed.
Lemma learn_same {A} (m : Ops.res A) : learn True m m.
Proof. apply learn_len. reflexivity. Qed.
Lemma learn_read {A} (l1 l2 : list A) i j : learn (i = j) (Ops.idx l1 i) (Ops.idx l2 j).
Proof.
  intros r1 r2 E. change (Ops.Read i :: r1 = Ops.Read j :: r2) in E. injection E as E1 E2. auto.
Qed.

Lemma learn_slice {A} (l1 l2 : list A) a b c d : learn True (Ops.slice l1 a b) (Ops.slice l2 c d).
Proof. apply learn_len. reflexivity. Qed.
Lemma learn_slice_from {A} (l1 l2 : list A) a b : learn True (Ops.slice_from l1 a) (Ops.slice_from l2 b).
Proof. apply learn_len. reflexivity. Qed.

Lemma tells_emit {B} P e (f1 f2 : unit -> Ops.res B) :
  tells P (f1 tt) (f2 tt) -> tells P (Ops.bind (Ops.emit e) f1) (Ops.bind (Ops.emit e) f2).
Proof. intros H. eapply tells_bind; [reflexivity..|apply learn_same|]. intros _. exact H. Qed.
Lemma learn_emit {B} P e (f1 f2 : unit -> Ops.res B) :
  learn P (f1 tt) (f2 tt) -> learn P (Ops.bind (Ops.emit e) f1) (Ops.bind (Ops.emit e) f2).
Proof. intros H. eapply learn_bind; [reflexivity..|apply learn_same|]. intros _. exact H. Qed.

Lemma outcome_emit {B} e (f : unit -> Ops.res B) : Ops.outcome (Ops.bind (Ops.emit e) f) = Ops.outcome (f tt).
Proof. rewrite outcome_bind. reflexivity. Qed.

(** Every element's record gives the element away. *)
Lemma learn_map_res {A B} (P : A -> A -> Prop) (f : A -> Ops.res B) (g : A -> B) :
  (forall x y, P x y -> Ops.outcome (f x) = Ret (g x) /\ Ops.outcome (f y) = Ret (g y) /\
                        learn (x = y) (f x) (f y)) ->
  forall l1 l2, Forall2 P l1 l2 ->
    Ops.outcome (Ops.map_res f l1) = Ret (map g l1) /\
    Ops.outcome (Ops.map_res f l2) = Ret (map g l2) /\
    learn (l1 = l2) (Ops.map_res f l1) (Ops.map_res f l2).
Proof.
  intros Hf l1 l2 Hl. induction Hl as [|x y l1 l2 Hxy Hl (IH1 & IH2 & IH3)].
  - split; [reflexivity|split; [reflexivity|]]. eapply learn_weaken; [|apply learn_same]. reflexivity.
  - destruct (Hf x y Hxy) as (H1 & H2 & H3). cbn [Ops.map_res map].
    rewrite !outcome_emit, !outcome_bind, H1, H2. cbn [bind]. rewrite !outcome_bind, IH1, IH2. cbn [bind].
    split; [reflexivity|split; [reflexivity|]]. apply learn_emit.
    eapply learn_bind; [exact H1|exact H2|exact H3|]. intros ->.
    eapply learn_bind; [exact IH1|exact IH2|exact IH3|]. intros ->.
    eapply learn_weaken; [|apply learn_same]. reflexivity.
Qed.

(** A loop whose states are known. *)
Lemma learn_for_n {St} (Q : nat -> Prop) (s1 s2 : nat -> St) b1 b2 i n :
  (forall j, (j < n)%nat ->
     Ops.outcome (b1 (i + N.of_nat j) (s1 j)) = Ret (s1 (S j)) /\
     Ops.outcome (b2 (i + N.of_nat j) (s2 j)) = Ret (s2 (S j)) /\
     learn (Q j) (b1 (i + N.of_nat j) (s1 j)) (b2 (i + N.of_nat j) (s2 j))) ->
  learn (forall j, (j < n)%nat -> Q j) (Ops.for_n n i b1 (s1 O)) (Ops.for_n n i b2 (s2 O)).
Proof.
  revert Q s1 s2 i. induction n as [|n IH]; intros Q s1 s2 i H.
  - eapply learn_weaken; [|apply learn_len; reflexivity]. intros _ j Hj. lia.
  - cbn [Ops.for_n]. apply learn_emit. destruct (H O) as (H1 & H2 & H3); [lia|].
    rewrite N.add_0_r in H1, H2, H3.
    eapply learn_bind; [exact H1|exact H2|exact H3|]. intros Q0.
    eapply learn_weaken; [|apply (IH (fun j => Q (S j)) (fun j => s1 (S j)) (fun j => s2 (S j)))].
    + intros HQ [|j] Hj; [exact Q0|]. apply HQ. lia.
    + intros j Hj. replace (N.succ i + N.of_nat j) with (i + N.of_nat (S j)) by lia. apply H. lia.
Qed.

(** * Records of the same length *)
Definition level {A} (R : A -> A -> Prop) (m1 m2 : Ops.res A) : Prop :=
  length (Ops.trace m1) = length (Ops.trace m2) /\
  match Ops.outcome m1, Ops.outcome m2 with
  | Ret a, Ret b => R a b
  | Panic, Panic => True
  | Diverge, Diverge => True
  | _, _ => False
  end.
Definition any {A} (a b : A) : Prop := True.
Lemma level_ret {A} (R : A -> A -> Prop) a b : R a b -> level R (Ops.Ret a) (Ops.Ret b).
Proof. split; [reflexivity|assumption]. Qed.
Lemma level_bind {A B} (R : A -> A -> Prop) (S : B -> B -> Prop) m1 m2 f1 f2 :
  level R m1 m2 -> (forall a b, R a b -> level S (f1 a) (f2 b)) ->
  level S (Ops.bind m1 f1) (Ops.bind m2 f2).
Proof.
  destruct m1 as [t1 o1], m2 as [t2 o2]; unfold level, Ops.trace, Ops.outcome; cbn [fst snd].
  intros [Ht Ho] Hf; destruct o1 as [a| |], o2 as [b| |]; cbn; try contradiction; auto.
  specialize (Hf a b Ho); destruct (f1 a) as [u1 p1], (f2 b) as [u2 p2]; cbn in *.
  destruct Hf as [Hu Hp]. rewrite !app_length, Ht, Hu. auto.
Qed.
Lemma level_branch {A} (R : A -> A -> Prop) c1 c2 x1 y1 x2 y2 :
  level R x1 x2 -> level R x1 y2 -> level R y1 x2 -> level R y1 y2 ->
  level R (Ops.branch c1 x1 y1) (Ops.branch c2 x2 y2).
Proof.
  intros. eapply (level_bind any); [split; [reflexivity|exact I]|]. intros _ _ _.
  destruct c1, c2; assumption.
Qed.
Lemma level_while {St} (R : St -> St -> Prop) c b :
  (forall s1 s2, R s1 s2 -> c s1 = c s2) ->
  (forall s1 s2, R s1 s2 -> level R (b s1) (b s2)) ->
  forall fuel s1 s2, R s1 s2 -> level R (Ops.while_loop fuel c b s1) (Ops.while_loop fuel c b s2).
Proof.
  intros Hc Hb; induction fuel as [|fuel IH]; intros s1 s2 Hs; cbn [Ops.while_loop];
    rewrite (Hc s1 s2 Hs); (eapply (level_bind any); [split; [reflexivity|exact I]|]); intros _ _ _;
    destruct (c s2); try (apply level_ret; assumption).
  - split; [reflexivity|exact I].
  - eapply level_bind; [apply Hb, Hs|]. auto.
Qed.
Lemma level_map_res {A B} (P : A -> A -> Prop) (f : A -> Ops.res B) :
  (forall x y, P x y -> level any (f x) (f y)) ->
  forall l1 l2, Forall2 P l1 l2 -> level any (Ops.map_res f l1) (Ops.map_res f l2).
Proof.
  intros Hf l1 l2 Hl; induction Hl as [|x y l1 l2 Hxy Hl IH]; cbn [Ops.map_res];
    (eapply (level_bind any); [split; [reflexivity|exact I]|]); intros _ _ _.
  - apply level_ret. exact I.
  - eapply level_bind; [apply Hf, Hxy|]. intros y1 y2 _.
    eapply level_bind; [exact IH|]. intros. apply level_ret. exact I.
Qed.

Lemma double_level a b : level any (Leak.Aes.double a) (Leak.Aes.double b).
Proof. unfold Leak.Aes.double. apply level_branch; apply level_ret; exact I. Qed.
Lemma mul_level a b k : level any (Leak.Aes.mul a k) (Leak.Aes.mul b k).
Proof.
  unfold Leak.Aes.mul.
  eapply (level_bind (fun s1 s2 : N * N * N => fst (fst s1) = fst (fst s2))).
  - apply level_while; [| |reflexivity].
    + intros [[x1 r1] p1] [[x2 r2] p2] H. cbn in H. subst. reflexivity.
    + intros [[x1 r1] p1] [[x2 r2] p2] H. cbn in H. subst.
      eapply (level_bind any); [apply level_branch; apply level_ret; exact I|]. intros q1 q2 _.
      eapply (level_bind any); [apply double_level|]. intros w1 w2 _. apply level_ret. reflexivity.
  - intros [[x1 r1] p1] [[x2 r2] p2] H. apply level_ret. exact I.
Qed.
Definition col4 (c d : list N) : Prop := length c = 4%nat /\ length d = 4%nat.
Lemma enc_mix_level c d : col4 c d -> level any (Leak.Aes.enc_mix_column c) (Leak.Aes.enc_mix_column d).
Proof.
  intros [Hc Hd]. destruct c as [|c0 [|c1 [|c2 [|c3 [|]]]]]; try discriminate.
  destruct d as [|d0 [|d1 [|d2 [|d3 [|]]]]]; try discriminate. cbn [Leak.Aes.enc_mix_column].
  do 8 (eapply (level_bind any); [apply mul_level|intros ? ? _]). apply level_ret. exact I.
Qed.
Lemma dec_mix_level c d : col4 c d -> level any (Leak.Aes.dec_mix_column c) (Leak.Aes.dec_mix_column d).
Proof.
  intros [Hc Hd]. destruct c as [|c0 [|c1 [|c2 [|c3 [|]]]]]; try discriminate.
  destruct d as [|d0 [|d1 [|d2 [|d3 [|]]]]]; try discriminate. cbn [Leak.Aes.dec_mix_column].
  assert (H : forall a b c d a' b' c' d',
    level any (Leak.Aes.dec_mix_byte a b c d) (Leak.Aes.dec_mix_byte a' b' c' d')).
  { intros. unfold Leak.Aes.dec_mix_byte.
    do 4 (eapply (level_bind any); [apply mul_level|intros ? ? _]). apply level_ret. exact I. }
  do 4 (eapply (level_bind any); [apply H|intros ? ? _]). apply level_ret. exact I.
Qed.

(** * States *)
Lemma cols_cols4 s t : Forall2 col4 (cols s) (cols t).
Proof. unfold cols. cbn [map]. repeat constructor. Qed.
Lemma cols_inj s t : wf s -> wf t -> cols s = cols t -> s = t.
Proof.
  intros Hs Ht E. apply wf_eq; [assumption..|]. unfold cols in E. cbn [map] in E. injection E as
    ? ? ? ? ? ? ? ? ? ? ? ? ? ? ? ?.
  intros r c Hr Hc.
  destruct r as [|[|[|[|]]]]; [..|lia]; destruct c as [|[|[|[|]]]]; try lia; assumption.
Qed.

Definition octet2 (x y : N) : Prop := x < 256 /\ y < 256.
Lemma sub_learn s t : wf s -> wf t ->
  learn (s = t) (Leak.Aes.sub_bytes Leak.Aes.enc_lookup_sbox (cols s))
                (Leak.Aes.sub_bytes Leak.Aes.enc_lookup_sbox (cols t)).
Proof.
  intros Hs Ht. eapply learn_weaken; [apply (cols_inj s t); assumption|].
  unfold Leak.Aes.sub_bytes, Leak.Aes.enc_lookup_sbox.
  apply (learn_map_res (Forall2 octet2) _ (map SubByte)).
  - intros x y Hxy. apply (learn_map_res octet2); [|exact Hxy].
    intros a b [Ha Hb]. split; [exact (sbox_ok a Ha)|split; [exact (sbox_ok b Hb)|apply learn_read]].
  - unfold cols. cbn [map]. destruct Hs as [_ Hs], Ht as [_ Ht].
    repeat (constructor; [repeat (constructor; [split; [apply Hs|apply Ht]|]); constructor|]).
    constructor.
Qed.
Lemma inv_sub_learn s t : wf s -> wf t ->
  learn (s = t) (Leak.Aes.sub_bytes Leak.Aes.dec_lookup_sbox (cols s))
                (Leak.Aes.sub_bytes Leak.Aes.dec_lookup_sbox (cols t)).
Proof.
  intros Hs Ht. eapply learn_weaken; [apply (cols_inj s t); assumption|].
  unfold Leak.Aes.sub_bytes, Leak.Aes.dec_lookup_sbox.
  apply (learn_map_res (Forall2 octet2) _ (map InvSubByte)).
  - intros x y Hxy. apply (learn_map_res octet2); [|exact Hxy].
    intros a b [Ha Hb]. split; [exact (inv_sbox_ok a Ha)|split; [exact (inv_sbox_ok b Hb)|apply learn_read]].
  - unfold cols. cbn [map]. destruct Hs as [_ Hs], Ht as [_ Ht].
    repeat (constructor; [repeat (constructor; [split; [apply Hs|apply Ht]|]); constructor|]).
    constructor.
Qed.

Lemma add_round_key_level k l : forall s t : Aes.Block,
  length k = length l -> length s = length t -> Forall (fun c => length c = 4%nat) s ->
  Forall (fun c => length c = 4%nat) t ->
  length (Ops.trace (Leak.Aes.add_round_key s k)) = length (Ops.trace (Leak.Aes.add_round_key t l)).
Proof.
  intros s t Hk Hs H1 H2.
  cut (level any (Leak.Aes.add_round_key s k) (Leak.Aes.add_round_key t l)); [intros H; apply H|].
  revert k l t Hk Hs H2. induction H1 as [|c s Hc H1 IH]; intros k l t Hk Hs H2;
    destruct H2 as [|d t Hd H2]; try discriminate Hs; destruct k as [|x k], l as [|y l];
    try discriminate Hk; cbn [Leak.Aes.add_round_key];
    (eapply (level_bind any); [split; [reflexivity|exact I]|]); intros _ _ _;
    try (apply level_ret; exact I).
  eapply (level_bind any).
  - destruct c as [|c0 [|c1 [|c2 [|c3 [|]]]]]; try discriminate Hc.
    destruct d as [|d0 [|d1 [|d2 [|d3 [|]]]]]; try discriminate Hd. apply level_ret. exact I.
  - intros a b _. eapply level_bind; [apply IH; cbn in Hk, Hs; [congruence..|assumption]|].
    intros. apply level_ret. exact I.
Qed.
Lemma cols_columns s : Forall (fun c => length c = 4%nat) (cols s).
Proof. unfold cols. cbn [map]. repeat constructor. Qed.

(** The same column with different key words gives different columns. *)
Lemma AddRoundKey_words w w' i s : Forall word_ok w -> Forall word_ok w' ->
  (4 * (i + 1) <= length w)%nat -> length w' = length w ->
  AddRoundKey w i s = AddRoundKey w' i s ->
  forall j, (4 * i <= j < 4 * (i + 1))%nat -> nth j w [] = nth j w' [].
Proof.
  intros Hw Hw' Hl Hl' E j Hj.
  assert (W : length (nth j w []) = 4%nat).
  { apply (proj1 (Forall_forall _ _) Hw). apply nth_In. lia. }
  assert (W' : length (nth j w' []) = 4%nat).
  { apply (proj1 (Forall_forall _ _) Hw'). apply nth_In. lia. }
  apply (list_ext _ _ 0); [congruence|]. intros r Hr. rewrite W in Hr.
  set (c := (j - 4 * i)%nat).
  apply (f_equal (fun m => entry m r c)) in E. unfold AddRoundKey in E.
  rewrite !entry_matrix in E by (unfold c; lia).
  replace (i * 4 + c)%nat with j in E by (unfold c; lia).
  apply (f_equal (N.lxor (entry s r c))) in E.
  rewrite <- !N.lxor_assoc, N.lxor_nilpotent, !N.lxor_0_l in E. exact E.
Qed.
Lemma AddRoundKey_state w i s t : wf s -> wf t -> AddRoundKey w i s = AddRoundKey w i t -> s = t.
Proof.
  intros Hs Ht E. rewrite <- (AddRoundKey_twice w i s Hs), E. apply AddRoundKey_twice, Ht.
Qed.

(** Equal records over a key addition: only that the rest is equal. *)
Lemma key_learn w w' i s t : Forall word_ok w -> Forall word_ok w' ->
  (4 * i + 4 <= length w)%nat -> length w' = length w ->
  learn True (Leak.Aes.add_round_key (cols s) (map be_num (firstn 4 (skipn (4 * i) w))))
             (Leak.Aes.add_round_key (cols t) (map be_num (firstn 4 (skipn (4 * i) w')))).
Proof.
  intros Hw Hw' Hl Hl'. apply learn_len, add_round_key_level; try apply cols_columns; [|reflexivity].
  rewrite !map_length, !firstn_length, !skipn_length, Hl'. reflexivity.
Qed.

(** The outcomes of the recorded steps. *)
Lemma slice_out w a b : (a <= b)%nat -> (b <= length w)%nat ->
  Ops.outcome (Ops.slice (map be_num w) (N.of_nat a) (N.of_nat b)) =
  Ret (map be_num (firstn (b - a) (skipn a w))).
Proof. intros Ha Hb. exact (slice_words w a b Ha Hb). Qed.
Lemma ark_out w i s : Forall word_ok w -> (4 * i + 4 <= length w)%nat ->
  Ops.outcome (Leak.Aes.add_round_key (cols s) (map be_num (firstn 4 (skipn (4 * i) w)))) =
  Ret (cols (AddRoundKey w i s)).
Proof. intros Hw Hl. exact (eq_trans (add_round_key_er _ _) (add_round_key_ok w i s Hw Hl)). Qed.
Lemma sub_out s : wf s ->
  Ops.outcome (Leak.Aes.sub_bytes Leak.Aes.enc_lookup_sbox (cols s)) = Ret (cols (SubBytes s)).
Proof.
  intros H. exact (eq_trans (sub_bytes_er _ _ _ enc_lookup_er) (sub_bytes_ok s H)).
Qed.
Lemma inv_sub_out s : wf s ->
  Ops.outcome (Leak.Aes.sub_bytes Leak.Aes.dec_lookup_sbox (cols s)) = Ret (cols (InvSubBytes s)).
Proof.
  intros H. exact (eq_trans (sub_bytes_er _ _ _ dec_lookup_er) (inv_sub_bytes_ok s H)).
Qed.
Lemma shift_out s : Ops.outcome (Leak.Aes.enc_shift_rows (cols s)) = Ret (cols (ShiftRows s)).
Proof. exact (eq_trans (enc_shift_rows_er _) (shift_rows_ok s)). Qed.
Lemma inv_shift_out s : Ops.outcome (Leak.Aes.dec_shift_rows (cols s)) = Ret (cols (InvShiftRows s)).
Proof. exact (eq_trans (dec_shift_rows_er _) (inv_shift_rows_ok s)). Qed.
Lemma mix_out s : wf s ->
  Ops.outcome (Leak.Aes.mix_columns Leak.Aes.enc_mix_column (cols s)) = Ret (cols (MixColumns s)).
Proof.
  intros H. exact (eq_trans (mix_columns_er _ _ _ enc_mix_column_er) (mix_columns_ok s H)).
Qed.
Lemma inv_mix_out s : wf s ->
  Ops.outcome (Leak.Aes.mix_columns Leak.Aes.dec_mix_column (cols s)) = Ret (cols (InvMixColumns s)).
Proof.
  intros H. exact (eq_trans (mix_columns_er _ _ _ dec_mix_column_er) (inv_mix_columns_ok s H)).
Qed.
Lemma to_out b : length b = 16%nat ->
  Ops.outcome (Leak.Aes.to_block b) = Ret (cols (state_of_input b)).
Proof. intros H. exact (eq_trans (to_block_er b) (to_block_ok b H)). Qed.
Lemma to_learn b c : length b = 16%nat -> length c = 16%nat ->
  learn True (Leak.Aes.to_block b) (Leak.Aes.to_block c).
Proof.
  intros Hb Hc. do 16 (destruct b as [|? b]; [discriminate|]). destruct b; [|discriminate].
  do 16 (destruct c as [|? c]; [discriminate|]). destruct c; [|discriminate].
  apply learn_len. reflexivity.
Qed.

Lemma learn_shift s t : learn True (Leak.Aes.dec_shift_rows (cols s)) (Leak.Aes.dec_shift_rows (cols t)).
Proof. apply learn_len. unfold cols. cbn [map Leak.Aes.dec_shift_rows]. reflexivity. Qed.

(** * Encryption and decryption *)
Section Blocks.
  Variables (key key' b b' : list N).
  Hypothesis (Hk : octets key) (Hk' : octets key') (Hs : valid_key_size key)
    (Hl : length key' = length key) (Hb : octets b) (Hb' : octets b')
    (Hbl : length b = 16%nat) (Hbl' : length b' = 16%nat).

  Let w := KeyExpansion key.
  Let w' := KeyExpansion key'.
  Let s := AddRoundKey w 0 (state_of_input b).
  Let s' := AddRoundKey w' 0 (state_of_input b').

  Lemma nr_eq : Nr key' = Nr key.
  Proof. unfold Nr, Nk. rewrite Hl. reflexivity. Qed.
  Lemma nr_ge : (10 <= Nr key <= 14)%nat.
  Proof. unfold Nr, Nk. destruct Hs as [-> | [-> | ->]]; cbn; lia. Qed.
  Lemma Hs' : valid_key_size key'.
  Proof. unfold valid_key_size. rewrite Hl. exact Hs. Qed.
  Lemma w_ok : Forall word_ok w /\ length w = (4 * (Nr key + 1))%nat.
  Proof. apply (expand_key_ok key _ Hk Hs eq_refl). Qed.
  Lemma w'_ok : Forall word_ok w' /\ length w' = length w.
  Proof.
    destruct w_ok as [_ L]. rewrite L, <- nr_eq. apply (expand_key_ok key' _ Hk' Hs' eq_refl).
  Qed.

  Lemma encrypt_tells :
    tells (s = s' /\ enc_round w s 1 = enc_round w' s' 1)
      (Leak.Aes.aes_encrypt (keyed key) b) (Leak.Aes.aes_encrypt (keyed key') b').
  Proof.
    destruct w_ok as [Hw HwL], w'_ok as [Hw' HwL']. pose proof nr_ge as Hn.
    unfold Leak.Aes.aes_encrypt, keyed. cbn [Aes.round_count Aes.round_keys]. rewrite nr_eq.
    fold w w'.
    eapply tells_bind; [apply to_out; assumption..|apply to_learn; assumption|]. intros _.
    apply tells_emit.
    eapply tells_bind; [apply (slice_out w 0 4); lia|apply (slice_out w' 0 4); lia
      |apply learn_slice|]. intros _. change (4 - 0)%nat with 4%nat.
    eapply tells_bind; [apply (ark_out w 0); [assumption|lia]|apply (ark_out w' 0); [assumption|lia]
      |apply (key_learn w w' 0); try assumption; lia|]. intros _. fold s s'.
    assert (W : wf s) by (apply AddRoundKey_wf, state_of_input_wf; assumption).
    assert (W' : wf s') by (apply AddRoundKey_wf, state_of_input_wf; assumption).
    apply tells_head. unfold Ops.for_range.
    replace (N.to_nat (N.of_nat (Nr key) - 1)) with (S (S (Nr key - 3))) by lia.
    cbn [Ops.for_n]. apply tells_emit.
    eapply (tells_bind (s = s') _ _ _ _ _ (cols (enc_round w s 1)) (cols (enc_round w' s' 1))).
    4: { intros E. apply tells_emit, tells_head, tells_head, learn_tells.
         eapply learn_weaken; [|apply sub_learn; apply enc_round_wf; assumption]. auto. }
    - rewrite !outcome_bind, sub_out by assumption. cbn [bind].
      rewrite !outcome_bind, shift_out. cbn [bind].
      rewrite !outcome_bind, mix_out by (apply ShiftRows_wf, SubBytes_wf). cbn [bind].
      change (1 * Model.Aes.NB) with (N.of_nat 4). change ((1 + 1) * Model.Aes.NB) with (N.of_nat 8).
      rewrite outcome_bind, (slice_out w 4 8) by lia. cbn [bind].
      exact (ark_out w 1 _ Hw ltac:(lia)).
    - rewrite !outcome_bind, sub_out by assumption. cbn [bind].
      rewrite !outcome_bind, shift_out. cbn [bind].
      rewrite !outcome_bind, mix_out by (apply ShiftRows_wf, SubBytes_wf). cbn [bind].
      change (1 * Model.Aes.NB) with (N.of_nat 4). change ((1 + 1) * Model.Aes.NB) with (N.of_nat 8).
      rewrite outcome_bind, (slice_out w' 4 8) by lia. cbn [bind].
      exact (ark_out w' 1 _ Hw' ltac:(lia)).
    - eapply learn_bind; [apply sub_out; assumption..|apply sub_learn; assumption|]. intros E.
      rewrite <- E. eapply learn_bind; [apply shift_out..|apply learn_same|]. intros _.
      eapply learn_bind; [apply mix_out, ShiftRows_wf, SubBytes_wf..|apply learn_same|]. intros _.
      eapply learn_bind; [apply (slice_out w 4 8); lia|apply (slice_out w' 4 8); lia
        |apply learn_slice|]. intros _. change (8 - 4)%nat with 4%nat.
      eapply learn_weaken; [|apply (key_learn w w' 1); try assumption; lia]. auto.
  Qed.

  (** The record and the block determine the key. *)
  Lemma encrypt_key : b = b' ->
    Ops.visible (Leak.Aes.aes_encrypt (keyed key) b) = Ops.visible (Leak.Aes.aes_encrypt (keyed key') b') ->
    key = key'.
  Proof.
    intros Eb E. destruct (tells_visible _ _ _ encrypt_tells E) as [E0 E1].
    destruct w_ok as [Hw HwL], w'_ok as [Hw' HwL']. pose proof nr_ge as Hn.
    unfold enc_round in E1. rewrite <- E0 in E1.
    unfold s, s' in E0. rewrite <- Eb in E0.
    apply (KeySchedule.key_window key key' 0); try assumption.
    - fold w. rewrite HwL. unfold Nr. lia.
    - fold w w'. intros i Hi. destruct (le_lt_dec 4 i) as [H4|H4].
      + eapply (AddRoundKey_words w w' 1); [exact Hw|exact Hw'|lia|assumption|exact E1|].
        unfold Nk in Hi. destruct Hs as [L|[L|L]]; rewrite L in Hi; cbn in Hi; lia.
      + eapply (AddRoundKey_words w w' 0); [exact Hw|exact Hw'|lia|assumption|exact E0|]. lia.
  Qed.

  (** The record and the first round key determine the block. *)
  Lemma encrypt_block : key = key' ->
    Ops.visible (Leak.Aes.aes_encrypt (keyed key) b) = Ops.visible (Leak.Aes.aes_encrypt (keyed key') b') ->
    b = b'.
  Proof.
    intros Ek E. destruct (tells_visible _ _ _ encrypt_tells E) as [E0 _].
    unfold s, s', w' in E0. rewrite <- Ek in E0. fold w in E0.
    apply AddRoundKey_state in E0; [|apply state_of_input_wf; assumption..].
    rewrite <- (output_of_input b Hbl), <- (output_of_input b' Hbl'), E0. reflexivity.
  Qed.

  Let n := Nr key.
  Let d := AddRoundKey w n (state_of_input b).
  Let d' := AddRoundKey w' n (state_of_input b').

  Lemma InvShiftRows_inj x y : wf x -> wf y -> InvShiftRows x = InvShiftRows y -> x = y.
  Proof.
    intros Hx Hy E. rewrite <- (ShiftRows_InvShiftRows x Hx), E. apply ShiftRows_InvShiftRows, Hy.
  Qed.
  Lemma InvSub_sub_wf x : wf x -> wf (InvSubBytes (InvShiftRows x)).
  Proof. intros H. apply InvSubBytes_wf, InvShiftRows_wf, H. Qed.
  Lemma last_out v : length v = (4 * (n + 1))%nat ->
    Ops.outcome (Ops.slice_from (map be_num v) (N.of_nat n * Model.Aes.NB)) =
    Ret (map be_num (firstn 4 (skipn (4 * n) v))).
  Proof. intros H. exact (last_round_key v n H). Qed.

  Lemma decrypt_tells :
    tells (d = d' /\ dec_round w d (n - 1) = dec_round w' d' (n - 1))
      (Leak.Aes.aes_decrypt (keyed key) b) (Leak.Aes.aes_decrypt (keyed key') b').
  Proof.
    destruct w_ok as [Hw HwL], w'_ok as [Hw' HwL']. pose proof nr_ge as Hn. fold n in HwL, Hn.
    unfold Leak.Aes.aes_decrypt, keyed. cbn [Aes.round_count Aes.round_keys]. rewrite nr_eq.
    fold w w' n.
    eapply tells_bind; [apply to_out; assumption..|apply to_learn; assumption|]. intros _.
    apply tells_emit.
    eapply tells_bind; [apply last_out; lia|apply last_out; lia| |].
    { apply learn_slice_from. }
    intros _.
    eapply tells_bind; [apply (ark_out w n); [assumption|lia]|apply (ark_out w' n); [assumption|lia]
      |apply (key_learn w w' n); try assumption; lia|]. intros _. fold d d'.
    assert (W : wf d) by (apply AddRoundKey_wf, state_of_input_wf; assumption).
    assert (W' : wf d') by (apply AddRoundKey_wf, state_of_input_wf; assumption).
    apply tells_head. unfold Ops.for_range_rev.
    replace (N.to_nat (N.of_nat n - 1)) with (S (S (n - 3))) by lia.
    cbn [Ops.for_n_rev]. apply tells_emit.
    assert (N1 : (1 + N.of_nat (S (n - 3))) * Model.Aes.NB = N.of_nat (4 * (n - 1)))
      by (unfold Model.Aes.NB; lia).
    assert (N2 : (1 + N.of_nat (S (n - 3)) + 1) * Model.Aes.NB = N.of_nat (4 * (n - 1) + 4))
      by (unfold Model.Aes.NB; lia).
    rewrite N1, N2.
    assert (N3 : (4 * (n - 1) + 4 - 4 * (n - 1) = 4)%nat) by lia.
    assert (HO : forall v x, Forall word_ok v -> (4 * (n - 1) + 4 <= length v)%nat -> wf x ->
      Ops.outcome (Ops.bind (Leak.Aes.dec_shift_rows (cols x)) (fun state =>
        Ops.bind (Leak.Aes.sub_bytes Leak.Aes.dec_lookup_sbox state) (fun state =>
        Ops.bind (Ops.slice (map be_num v) (N.of_nat (4 * (n - 1))) (N.of_nat (4 * (n - 1) + 4))) (fun k =>
        Ops.bind (Leak.Aes.add_round_key state k) (fun state =>
        Leak.Aes.mix_columns Leak.Aes.dec_mix_column state))))) = Ret (cols (dec_round v x (n - 1)))).
    { intros v x Hv Hlv Hx. rewrite outcome_bind, inv_shift_out. cbn [bind].
      rewrite outcome_bind, inv_sub_out by (apply InvShiftRows_wf; assumption). cbn [bind].
      rewrite outcome_bind, slice_out by lia. cbn [bind]. rewrite N3.
      rewrite outcome_bind, ark_out by (assumption || lia). cbn [bind].
      apply inv_mix_out, AddRoundKey_wf; [assumption|]. apply InvSub_sub_wf, Hx. }
    eapply (tells_bind (d = d')); [apply HO; try assumption; lia|apply HO; try assumption; lia| |].
    - eapply learn_bind; [apply inv_shift_out..|apply learn_shift|]. intros _.
      eapply learn_bind; [apply inv_sub_out, InvShiftRows_wf; assumption..
        |apply inv_sub_learn; apply InvShiftRows_wf; assumption|]. intros E.
      apply InvShiftRows_inj in E; [|assumption..]. rewrite <- E.
      eapply learn_bind; [apply slice_out; lia..|apply learn_slice|]. intros _. rewrite N3.
      eapply learn_bind; [apply (ark_out w (n - 1)); [assumption|lia]|apply (ark_out w' (n - 1)); [assumption|lia]
        |apply (key_learn w w' (n - 1)); try assumption; lia|]. intros _.
      eapply learn_weaken; [intros _; reflexivity|]. apply learn_len.
      eapply (level_map_res col4 _ dec_mix_level _ _ (cols_cols4 _ _)).
    - intros E. apply tells_emit, tells_head.
      eapply tells_bind; [apply inv_shift_out..|apply learn_shift|]. intros _.
      apply tells_head, learn_tells.
      eapply learn_weaken; [|apply inv_sub_learn; apply InvShiftRows_wf, mix_with_wf].
      intros E'. split; [exact E|]. apply InvShiftRows_inj in E'; [exact E'|apply mix_with_wf..].
  Qed.

  Lemma decrypt_key : b = b' ->
    Ops.visible (Leak.Aes.aes_decrypt (keyed key) b) = Ops.visible (Leak.Aes.aes_decrypt (keyed key') b') ->
    key = key'.
  Proof.
    intros Eb E. destruct (tells_visible _ _ _ decrypt_tells E) as [E0 E1].
    destruct w_ok as [Hw HwL], w'_ok as [Hw' HwL']. pose proof nr_ge as Hn. fold n in HwL, Hn.
    assert (W : wf d) by (apply AddRoundKey_wf, state_of_input_wf; assumption).
    unfold dec_round in E1. rewrite <- E0 in E1.
    apply (f_equal MixColumns) in E1.
    rewrite !MixColumns_InvMixColumns in E1 by (apply AddRoundKey_wf, InvSub_sub_wf; assumption).
    unfold d, d' in E0. rewrite <- Eb in E0.
    assert (Hnk : (Nk key <= 8)%nat) by (unfold n, Nr in Hn; lia).
    apply (KeySchedule.key_window key key' (4 * (n + 1) - Nk key)); try assumption.
    - fold w. rewrite HwL. lia.
    - fold w w'. intros i Hi. destruct (le_lt_dec (4 * n) i) as [H4|H4].
      + eapply (AddRoundKey_words w w' n); [exact Hw|exact Hw'|lia|assumption|exact E0|]. lia.
      + eapply (AddRoundKey_words w w' (n - 1)); [exact Hw|exact Hw'|lia|assumption|exact E1|]. lia.
  Qed.
  Lemma decrypt_block : key = key' ->
    Ops.visible (Leak.Aes.aes_decrypt (keyed key) b) = Ops.visible (Leak.Aes.aes_decrypt (keyed key') b') ->
    b = b'.
  Proof.
    intros Ek E. destruct (tells_visible _ _ _ decrypt_tells E) as [E0 _].
    unfold d, d', w' in E0. rewrite <- Ek in E0. fold w in E0.
    apply AddRoundKey_state in E0; [|apply state_of_input_wf; assumption..].
    rewrite <- (output_of_input b Hbl), <- (output_of_input b' Hbl'), E0. reflexivity.
  Qed.
End Blocks.

(** * Key setup *)

(** The words whose octets the key expansion looks up. *)
Definition looked_up (nk j : nat) : bool :=
  Nat.eqb (j mod nk) 0 || (Nat.ltb 6 nk && Nat.eqb (j mod nk) 4).

Lemma sub_word_trace w : word_ok w -> Ops.trace (Leak.Aes.sub_word (be_num w)) = map Ops.Read w.
Proof.
  intros H. destruct (word_cases w H) as (a & b & c & d & -> & Ha & Hb & Hc & Hd).
  unfold Leak.Aes.sub_word. rewrite !shr_div.
  replace (be_num [a; b; c; d] / 2 ^ 24) with a
    by (rewrite be_num_4; change (2 ^ 24) with 16777216; lia).
  replace (N.land (be_num [a; b; c; d] / 2 ^ 16) 255) with b
    by (change 255 with (N.ones 8); rewrite N.land_ones, be_num_4;
        change (2 ^ 16) with 65536; change (2 ^ 8) with 256; lia).
  replace (N.land (be_num [a; b; c; d] / 2 ^ 8) 255) with c
    by (change 255 with (N.ones 8); rewrite N.land_ones, be_num_4; change (2 ^ 8) with 256; lia).
  replace (N.land (be_num [a; b; c; d]) 255) with d
    by (change 255 with (N.ones 8); rewrite N.land_ones, be_num_4; change (2 ^ 8) with 256; lia).
  rewrite (trace_bind _ _ (SubByte a)) by exact (sbox_ok a Ha).
  rewrite (trace_bind _ _ (SubByte b)) by exact (sbox_ok b Hb).
  rewrite (trace_bind _ _ (SubByte c)) by exact (sbox_ok c Hc).
  rewrite (trace_bind _ _ (SubByte d)) by exact (sbox_ok d Hd).
  reflexivity.
Qed.
Lemma sub_word_out w : word_ok w -> Ops.outcome (Leak.Aes.sub_word (be_num w)) = Ret (be_num (SubWord w)).
Proof. intros H. exact (eq_trans (sub_word_er _) (sub_word_ok w H)). Qed.
Lemma sub_word_learn w v : word_ok w -> word_ok v ->
  learn (w = v) (Leak.Aes.sub_word (be_num w)) (Leak.Aes.sub_word (be_num v)).
Proof.
  intros Hw Hv r1 r2 E. rewrite !sub_word_trace in E by assumption.
  destruct (word_cases w Hw) as (a & b & c & d & -> & _).
  destruct (word_cases v Hv) as (a' & b' & c' & d' & -> & _).
  cbn [map app] in E. injection E as -> -> -> -> ->. auto.
Qed.

(** The body of the second loop, on the words known so far. *)
Definition expand_body (nk : N) (i : N) (w : list N) : Ops.res (list N) :=
  Ops.bind (Ops.idx w (i - 1)) (fun temp =>
  Ops.bind (Ops.urem i nk) (fun m =>
  Ops.bind (Ops.branch (m =? 0)
      (Ops.bind (Ops.udiv i nk) (fun q =>
       Ops.bind (Leak.Aes.sub_word (Model.Aes.rot_word temp)) (fun s =>
       Ops.bind (Ops.idx Model.Aes.RCON (q - 1)) (fun rc => Ops.Ret (N.lxor s rc)))))
      (Ops.branch ((6 <? nk) && (m =? 4))%bool (Leak.Aes.sub_word temp) (Ops.Ret temp))) (fun temp =>
  Ops.bind (Ops.idx w (i - nk)) (fun prev =>
  Ops.Ret (w ++ [N.lxor prev temp]))))).
Definition expand_body_model (nk : N) (i : N) (w : list N) : res (list N) :=
  let* temp := idx w (i - 1) in
  let* m := urem i nk in
  let* temp :=
     (if m =? 0 then
        let* q := udiv i nk in
        let* s := Model.Aes.sub_word (Model.Aes.rot_word temp) in
        let* rc := idx Model.Aes.RCON (q - 1) in
        Ret (N.lxor s rc)
      else if (6 <? nk) && (m =? 4) then Model.Aes.sub_word temp
      else Ret temp)%bool in
   let* prev := idx w (i - nk) in
   Ret (w ++ [N.lxor prev temp]).
Lemma expand_body_er nk i w : erases (expand_body nk i w) (expand_body_model nk i w).
Proof. unfold expand_body, expand_body_model. er. Qed.

Lemma expand_body_learn k w v : (1 <= k)%nat -> (k <= length w)%nat -> (length w / k <= 10)%nat ->
  Forall word_ok w -> Forall word_ok v -> length v = length w ->
  learn (looked_up k (length w) = true -> nth (length w - 1) w [] = nth (length w - 1) v [])
    (expand_body (N.of_nat k) (N.of_nat (length w)) (map be_num w))
    (expand_body (N.of_nat k) (N.of_nat (length w)) (map be_num v)).
Proof.
  intros Hk Hkl Hq Hw Hv Hl.
  assert (Hn : forall i, (i < length w)%nat -> word_ok (nth i w []) /\ word_ok (nth i v [])).
  { intros i Hi. split; [apply (proj1 (Forall_forall _ _) Hw)|apply (proj1 (Forall_forall _ _) Hv)];
      apply nth_In; lia. }
  assert (I : forall u i, (i < length u)%nat ->
    Ops.outcome (Ops.idx (map be_num u) (N.of_nat i)) = Ret (be_num (nth i u []))).
  { intros u i Hi. change (idx (map be_num u) (N.of_nat i) = Ret (be_num (nth i u []))).
    rewrite (idx_nth _ _ (be_num [])) by (rewrite map_length; lia).
    rewrite map_nth, Nat2N.id. reflexivity. }
  unfold expand_body.
  replace (N.of_nat (length w) - 1) with (N.of_nat (length w - 1)) by lia.
  replace (N.of_nat (length w) - N.of_nat k) with (N.of_nat (length w - k)) by lia.
  eapply learn_bind; [apply I; lia|apply I; lia|apply learn_len; reflexivity|]. intros _.
  set (t := nth (length w - 1) w []). set (u := nth (length w - 1) v []).
  destruct (Hn (length w - 1)%nat ltac:(lia)) as [Ht Hu]. fold t in Ht. fold u in Hu.
  assert (U : Ops.outcome (Ops.urem (N.of_nat (length w)) (N.of_nat k)) = Ret (N.of_nat (length w mod k))).
  { change (urem (N.of_nat (length w)) (N.of_nat k) = Ret (N.of_nat (length w mod k))).
    rewrite urem_ok, <- Nat2N.inj_mod by lia. reflexivity. }
  eapply learn_bind; [exact U|exact U|apply learn_same|]. intros _.
  assert (D : Ops.outcome (Ops.udiv (N.of_nat (length w)) (N.of_nat k)) = Ret (N.of_nat (length w / k))).
  { change (udiv (N.of_nat (length w)) (N.of_nat k) = Ret (N.of_nat (length w / k))).
    rewrite udiv_ok, <- Nat2N.inj_div by lia. reflexivity. }
  assert (RC : (1 <= length w / k <= 10)%nat).
  { split; [|assumption]. apply Nat.div_le_lower_bound; lia. }
  assert (Fin : forall x y, learn True
    (Ops.bind (Ops.idx (map be_num w) (N.of_nat (length w - k)))
       (fun prev => Ops.Ret (map be_num w ++ [N.lxor prev x])))
    (Ops.bind (Ops.idx (map be_num v) (N.of_nat (length w - k)))
       (fun prev => Ops.Ret (map be_num v ++ [N.lxor prev y])))).
  { intros x y. eapply learn_bind; [apply I; lia|apply I; lia|apply learn_len; reflexivity|]. intros _.
    apply learn_len. reflexivity. }
  unfold looked_up. unfold Ops.branch.
  destruct (Nat.eqb_spec (length w mod k) 0) as [Hm|Hm].
  - rewrite Hm. cbn [N.of_nat N.eqb orb].
    rewrite !rot_word_ok by assumption.
    pose proof (RotWord_ok t Ht) as Hrt. pose proof (RotWord_ok u Hu) as Hru.
    eapply (learn_bind (RotWord t = RotWord u)).
    + rewrite outcome_emit, outcome_bind, D. cbn [bind].
      rewrite outcome_bind, sub_word_out by assumption. cbn [bind].
      rewrite outcome_bind. unfold Ops.outcome at 1, Ops.idx.
      cbn [Ops.emit Ops.bind Ops.lift snd app]. rewrite (proj1 (rcon_ok _ RC)). reflexivity.
    + rewrite outcome_emit, outcome_bind, D. cbn [bind].
      rewrite outcome_bind, sub_word_out by assumption. cbn [bind].
      rewrite outcome_bind. unfold Ops.outcome at 1, Ops.idx.
      cbn [Ops.emit Ops.bind Ops.lift snd app]. rewrite (proj1 (rcon_ok _ RC)). reflexivity.
    + apply learn_emit. eapply learn_bind; [exact D|exact D|apply learn_same|]. intros _.
      eapply learn_bind; [apply sub_word_out; assumption..|apply sub_word_learn; assumption|]. intros E.
      eapply learn_weaken; [intros _; exact E|]. apply learn_len.
      unfold Ops.idx. cbn [Ops.emit Ops.bind Ops.lift snd app].
      rewrite (proj1 (rcon_ok _ RC)). reflexivity.
    + intros E. eapply learn_weaken; [intros _ _|apply Fin].
      destruct (word_cases t Ht) as (a & b & c & d & Et & _).
      destruct (word_cases u Hu) as (a' & b' & c' & d' & Eu & _).
      rewrite Et, Eu in *. cbn in E. injection E as -> -> -> ->. reflexivity.
  - destruct (N.eqb_spec (N.of_nat (length w mod k)) 0) as [Hm'|Hm']; [lia|]. cbn [orb].
    replace (6 <? N.of_nat k) with (Nat.ltb 6 k) by (destruct (N.ltb_spec 6 (N.of_nat k)), (Nat.ltb_spec 6 k); lia).
    replace (N.of_nat (length w mod k) =? 4) with (Nat.eqb (length w mod k) 4)
      by (destruct (N.eqb_spec (N.of_nat (length w mod k)) 4), (Nat.eqb_spec (length w mod k) 4); lia).
    destruct (Nat.ltb 6 k && Nat.eqb (length w mod k) 4)%bool.
    + eapply (learn_bind (t = u)).
      * rewrite !outcome_emit. apply sub_word_out. assumption.
      * rewrite !outcome_emit. apply sub_word_out. assumption.
      * do 2 apply learn_emit. apply sub_word_learn; assumption.
      * intros E. eapply learn_weaken; [intros _ _; exact E|apply Fin].
    + eapply (learn_bind True); [reflexivity..| |].
      * do 2 apply learn_emit. apply learn_len. reflexivity.
      * intros _. eapply learn_weaken; [intros _ H; discriminate|apply Fin].
Qed.

Lemma expansion_ok nk n w : (1 <= nk)%nat -> length w = nk -> Forall word_ok w ->
  (forall m, (m < n)%nat -> ((nk + m) / nk <= 10)%nat) ->
  forall m, (m <= n)%nat -> Forall word_ok (KeyExpansion_from nk m w).
Proof.
  intros Hnk Hl Hw Hq m Hm. induction m as [|m IH]; [exact Hw|].
  assert (L : length (KeyExpansion_from nk m w) = (nk + m)%nat)
    by (rewrite KeySchedule.expansion_length, Hl; reflexivity).
  apply (expand_step nk (KeyExpansion_from nk m w)); [assumption|lia| |apply IH; lia].
  rewrite L. apply Hq. lia.
Qed.
Lemma expansion_stable nk n w i : forall m, (m <= n)%nat -> (i < length w + m)%nat ->
  nth i (KeyExpansion_from nk n w) [] = nth i (KeyExpansion_from nk m w) [].
Proof.
  intros m Hm Hi. induction Hm as [|n Hm IH]; [reflexivity|].
  cbn [KeyExpansion_from]. cbv zeta. rewrite app_nth1 by (rewrite KeySchedule.expansion_length; lia). exact IH.
Qed.

(** The second loop gives away every word it looks up. *)
Lemma expand_loop_learn nk n w v : (1 <= nk)%nat -> length w = nk -> length v = nk ->
  Forall word_ok w -> Forall word_ok v -> (forall m, (m < n)%nat -> ((nk + m) / nk <= 10)%nat) ->
  learn (forall j, (nk <= j < nk + n)%nat -> looked_up nk j = true ->
           nth (j - 1) (KeyExpansion_from nk n w) [] = nth (j - 1) (KeyExpansion_from nk n v) [])
    (Ops.for_n n (N.of_nat nk) (expand_body (N.of_nat nk)) (map be_num w))
    (Ops.for_n n (N.of_nat nk) (expand_body (N.of_nat nk)) (map be_num v)).
Proof.
  intros Hnk Hw Hv Ow Ov Hq.
  eapply learn_weaken; [|apply (learn_for_n
    (fun m => looked_up nk (nk + m) = true ->
       nth (nk + m - 1) (KeyExpansion_from nk m w) [] = nth (nk + m - 1) (KeyExpansion_from nk m v) [])
    (fun m => map be_num (KeyExpansion_from nk m w)) (fun m => map be_num (KeyExpansion_from nk m v)))].
  - intros H j Hj Hu. specialize (H (j - nk)%nat ltac:(lia)).
    replace (nk + (j - nk))%nat with j in H by lia. specialize (H Hu).
    rewrite (expansion_stable nk n w (j - 1) (j - nk)) by lia.
    rewrite (expansion_stable nk n v (j - 1) (j - nk)) by lia. exact H.
  - intros m Hm.
    pose proof (expansion_ok nk n w Hnk Hw Ow Hq m ltac:(lia)) as O1.
    pose proof (expansion_ok nk n v Hnk Hv Ov Hq m ltac:(lia)) as O2.
    assert (L1 : length (KeyExpansion_from nk m w) = (nk + m)%nat)
      by (rewrite KeySchedule.expansion_length; lia).
    assert (L2 : length (KeyExpansion_from nk m v) = (nk + m)%nat)
      by (rewrite KeySchedule.expansion_length; lia).
    pose proof (Hq m Hm) as Hqm.
    split; [|split].
    + eapply eq_trans; [apply expand_body_er|].
      destruct (expand_step nk (KeyExpansion_from nk m w)) as [E _]; [lia|lia|rewrite L1; exact Hqm|assumption|].
      rewrite L1 in E. replace (N.of_nat nk + N.of_nat m) with (N.of_nat (nk + m)) by lia. exact E.
    + eapply eq_trans; [apply expand_body_er|].
      destruct (expand_step nk (KeyExpansion_from nk m v)) as [E _]; [lia|lia|rewrite L2; exact Hqm|assumption|].
      rewrite L2 in E. replace (N.of_nat nk + N.of_nat m) with (N.of_nat (nk + m)) by lia. exact E.
    + pose proof (expand_body_learn nk (KeyExpansion_from nk m w) (KeyExpansion_from nk m v)) as L.
      rewrite L1 in L. replace (N.of_nat nk + N.of_nat m) with (N.of_nat (nk + m)) by lia.
      apply L; try assumption; try lia. 
Qed.

(** Equal at the positions looked up, two schedules are equal somewhere on [nk]
    consecutive words: moving one row down extends the equality by one column. *)
Section Triangle.
  Variables (nk n : nat) (w v : list (list N)).
  Hypothesis (Hnk : (2 <= nk)%nat) (Hw : length w = nk) (Hv : length v = nk)
    (Ow : KeySchedule.words4 w) (Ov : KeySchedule.words4 v).
  Let W := KeyExpansion_from nk n w.
  Let V := KeyExpansion_from nk n v.
  Hypothesis Hlook : forall j, (nk <= j < nk + n)%nat -> looked_up nk j = true ->
    nth (j - 1) W [] = nth (j - 1) V [].

  Lemma extend j : (nk <= j < nk + n)%nat -> nth j W [] = nth j V [] ->
    nth (j - nk) W [] = nth (j - nk) V [] -> nth (j - 1) W [] = nth (j - 1) V [].
  Proof.
    intros Hj E1 E2. destruct (looked_up nk j) eqn:L; [apply Hlook; assumption|].
    pose proof (KeySchedule.expansion_nth nk n w j ltac:(lia) Hw Hj) as Ew.
    pose proof (KeySchedule.expansion_nth nk n v j ltac:(lia) Hv Hj) as Ev.
    fold W in Ew. fold V in Ev. rewrite E1, E2 in Ew. rewrite Ew in Ev.
    unfold looked_up in L. apply orb_false_iff in L as [L1 L2].
    unfold KeySchedule.temp_of in Ev. rewrite L1, L2 in Ev.
    assert (LW : length (nth (j - 1) W []) = 4%nat).
    { apply KeySchedule.words4_nth; [apply KeySchedule.expansion_words4; (assumption || lia)|].
      unfold W. rewrite KeySchedule.expansion_length. lia. }
    assert (LV : length (nth (j - 1) V []) = 4%nat).
    { apply KeySchedule.words4_nth; [apply KeySchedule.expansion_words4; (assumption || lia)|].
      unfold V. rewrite KeySchedule.expansion_length. lia. }
    assert (LP : length (nth (j - nk) V []) = 4%nat).
    { apply KeySchedule.words4_nth; [apply KeySchedule.expansion_words4; (assumption || lia)|].
      unfold V. rewrite KeySchedule.expansion_length. lia. }
    clear - Ev LW LV LP.
    destruct (nth (j - nk) V []) as [|p0 [|p1 [|p2 [|p3 [|]]]]]; try discriminate LP.
    destruct (nth (j - 1) W []) as [|a0 [|a1 [|a2 [|a3 [|]]]]]; try discriminate LW.
    destruct (nth (j - 1) V []) as [|b0 [|b1 [|b2 [|b3 [|]]]]]; try discriminate LV.
    cbn [xor] in Ev. injection Ev as H0 H1 H2 H3.
    assert (C : forall p a b, N.lxor p a = N.lxor p b -> a = b).
    { intros p a b H. apply (f_equal (N.lxor p)) in H.
      rewrite <- !N.lxor_assoc, N.lxor_nilpotent, !N.lxor_0_l in H. exact H. }
    apply C in H0, H1, H2, H3. congruence.
  Qed.

  Lemma triangle c r : (c < nk)%nat ->
    (forall m, (r <= m)%nat -> (m * nk + c + 1 < nk + n)%nat -> nth (m * nk + c) W [] = nth (m * nk + c) V []) ->
    forall t, (t <= c)%nat -> forall m, (r + t <= m)%nat -> (m * nk + c + 1 < nk + n)%nat ->
      nth (m * nk + c - t) W [] = nth (m * nk + c - t) V [].
  Proof.
    intros Hc H t. induction t as [|t IH]; intros Ht m Hm Hn.
    - rewrite Nat.sub_0_r. apply H; lia.
    - replace (m * nk + c - S t)%nat with (m * nk + c - t - 1)%nat by lia.
      assert (Hm1 : ((m - 1) * nk = m * nk - nk)%nat) by (rewrite Nat.mul_sub_distr_r; lia).
      assert (Hge : (nk <= m * nk)%nat).
      { destruct m as [|m]; [lia|]. cbn. lia. }
      apply extend; [lia|apply IH; lia|].
      specialize (IH ltac:(lia) (m - 1)%nat ltac:(lia)).
      rewrite Hm1 in IH. replace (m * nk + c - t - nk)%nat with (m * nk - nk + c - t)%nat by lia.
      apply IH. lia.
  Qed.
End Triangle.

Lemma window_known nk n w v : (nk = 4 /\ n = 40 \/ nk = 6 /\ n = 46 \/ nk = 8 /\ n = 52)%nat ->
  length w = nk -> length v = nk -> KeySchedule.words4 w -> KeySchedule.words4 v ->
  (forall j, (nk <= j < nk + n)%nat -> looked_up nk j = true ->
     nth (j - 1) (KeyExpansion_from nk n w) [] = nth (j - 1) (KeyExpansion_from nk n v) []) ->
  exists j, (j <= n)%nat /\ forall i, (j <= i < j + nk)%nat ->
    nth i (KeyExpansion_from nk n w) [] = nth i (KeyExpansion_from nk n v) [].
Proof.
  intros Hc Hw Hv Ow Ov H.
  assert (Hnk : (2 <= nk)%nat) by lia.
  assert (Last : forall m, (m * nk + (nk - 1) + 1 < nk + n)%nat ->
    nth (m * nk + (nk - 1)) (KeyExpansion_from nk n w) [] = nth (m * nk + (nk - 1)) (KeyExpansion_from nk n v) []).
  { intros m Hm. specialize (H (S m * nk)%nat).
    replace (S m * nk - 1)%nat with (m * nk + (nk - 1))%nat in H by lia.
    apply H; [lia|]. unfold looked_up. rewrite Nat.mod_mul by lia. reflexivity. }
  pose proof (triangle nk n w v Hnk Hw Hv Ow Ov H (nk - 1) 0 ltac:(lia) (fun m _ => Last m)) as T.
  destruct (Nat.eq_dec nk 8) as [E8|E8].
  - assert (Mid : forall m, (1 <= m)%nat -> (m * nk + 3 + 1 < nk + n)%nat ->
      nth (m * nk + 3) (KeyExpansion_from nk n w) [] = nth (m * nk + 3) (KeyExpansion_from nk n v) []).
    { intros m Hm1 Hm. specialize (H (m * nk + 4)%nat).
      replace (m * nk + 4 - 1)%nat with (m * nk + 3)%nat in H by lia.
      apply H; [subst nk; lia|]. unfold looked_up.
      rewrite Nat.add_comm, Nat.mod_add, E8 by lia. reflexivity. }
    pose proof (triangle nk n w v Hnk Hw Hv Ow Ov H 3 1 ltac:(lia) Mid) as T'.
    exists 32%nat. split; [lia|]. intros i Hi. destruct (le_lt_dec 36 i) as [Hi'|Hi'].
    + specialize (T (39 - i)%nat ltac:(lia) 4%nat ltac:(lia) ltac:(lia)).
      replace (4 * nk + (nk - 1) - (39 - i))%nat with i in T by lia. exact T.
    + specialize (T' (35 - i)%nat ltac:(lia) 4%nat ltac:(lia) ltac:(lia)).
      replace (4 * nk + 3 - (35 - i))%nat with i in T' by lia. exact T'.
  - exists ((nk - 1) * nk)%nat. split.
    + destruct Hc as [[-> ->]|[[-> ->]|[-> ->]]]; lia.
    + intros i Hi. specialize (T (nk * nk - 1 - i)%nat).
      assert (S2 : ((nk - 1) * nk = nk * nk - nk)%nat) by (rewrite Nat.mul_sub_distr_r; lia).
      assert (S3 : (nk <= nk * nk)%nat) by nia.
      specialize (T ltac:(lia) (nk - 1)%nat ltac:(lia)).
      rewrite S2 in T. replace (nk * nk - nk + (nk - 1) - (nk * nk - 1 - i))%nat with i in T by lia.
      apply T. destruct Hc as [[-> ->]|[[-> ->]|[-> ->]]]; lia.
Qed.

Lemma agree_learn {A} R (m1 m2 : Ops.res A) : agree R m1 m2 -> learn True m1 m2.
Proof.
  intros H. apply learn_len. apply agree_visible in H. unfold Ops.visible in H. congruence.
Qed.

Lemma init_tells a a' key key' : octets key -> octets key' -> valid_key_size key ->
  length key' = length key ->
  tells (key = key') (Leak.Aes.aes_init a key) (Leak.Aes.aes_init a' key').
Proof.
  intros Ok Ok' Hs Hl.
  set (nk := Nk key). set (n := (4 * (Nr key + 1) - Nk key)%nat).
  assert (Hc : (nk = 4 /\ n = 40 \/ nk = 6 /\ n = 46 \/ nk = 8 /\ n = 52)%nat).
  { unfold n, nk, Nr, Nk. destruct Hs as [-> | [-> | ->]]; cbn; lia. }
  assert (Hm : (length key mod 4 = 0)%nat) by (destruct Hs as [-> | [-> | ->]]; reflexivity).
  assert (Hm' : (length key' mod 4 = 0)%nat) by (rewrite Hl; exact Hm).
  assert (Hb : length (blocks 4 key) = nk) by (rewrite blocks_length; reflexivity).
  assert (Hb' : length (blocks 4 key') = nk) by (rewrite blocks_length, Hl; reflexivity).
  assert (Hlen : len key' = len key) by (unfold len; rewrite Hl; reflexivity).
  unfold Leak.Aes.aes_init. rewrite Hlen.
  assert (E : match len key with 16 => Some 10 | 24 => Some 12 | 32 => Some 14 | _ => None end
              = Some (N.of_nat (Nr key))).
  { unfold len, Nr, Nk. destruct Hs as [-> | [-> | ->]]; reflexivity. }
  rewrite E. apply tells_emit, tells_head.
  unfold Leak.Aes.expand_key. cbv zeta. rewrite Hlen.
  assert (Hk : len key / 4 = N.of_nat nk) by (unfold nk, Nk, len; lia).
  eapply (tells_bind True _ _ _ _ _ (map be_num (blocks 4 key)) (map be_num (blocks 4 key'))).
  - eapply eq_trans; [|exact (expand_first key Ok Hm)]. apply (er_for_range 0 (len key / 4)). intros. er.
  - rewrite <- Hlen. eapply eq_trans; [|exact (expand_first key' Ok' Hm')].
    apply (er_for_range 0 (len key' / 4)). intros. er.
  - apply (agree_learn (fun _ _ => True)). apply (agree_weaken bytes); [auto|].
    assert (B : bytes key key') by (apply bytes_length; congruence).
    apply agree_for_range; [apply bytes_refl|]. intros i s1 s2 Hs12.
    do 4 (eapply agree_bind; [apply agree_idx, B|intros ? ? _]). apply agree_ret.
    apply Forall2_app; [exact Hs12|]. apply bytes_length. reflexivity.
  - intros _. rewrite Hk. unfold Ops.for_range.
    replace (N.to_nat (Model.Aes.NB * (N.of_nat (Nr key) + 1) - N.of_nat nk)) with n
      by (unfold n, nk, Model.Aes.NB; lia).
    change (tells (key = key')
      (Ops.for_n n (N.of_nat nk) (expand_body (N.of_nat nk)) (map be_num (blocks 4 key)))
      (Ops.for_n n (N.of_nat nk) (expand_body (N.of_nat nk)) (map be_num (blocks 4 key')))).
    apply learn_tells. eapply learn_weaken; [|apply expand_loop_learn].
    + intros H. destruct (window_known nk n _ _ Hc Hb Hb' (KeySchedule.blocks4_words4 _)
        (KeySchedule.blocks4_words4 _) H) as (j & Hj & Hw).
      assert (Enk : Nk key' = nk) by (unfold nk, Nk; rewrite Hl; reflexivity).
      assert (Enr : Nr key' = Nr key) by (unfold Nr, Nk; rewrite Hl; reflexivity).
      apply (KeySchedule.key_window key key' j); try assumption.
      * unfold KeyExpansion. fold nk. fold n. rewrite KeySchedule.expansion_length, Hb. lia.
      * intros i Hi. unfold KeyExpansion. rewrite Enk, Enr. fold nk. fold n. apply Hw, Hi.
    + lia.
    + exact Hb.
    + exact Hb'.
    + apply blocks4_words, Ok.
    + apply blocks4_words, Ok'.
    + intros m Hmn. destruct Hc as [[-> ->]|[[-> ->]|[-> ->]]]; lia.
Qed.
Lemma init_key a a' key key' : octets key -> octets key' -> valid_key_size key ->
  length key' = length key ->
  Ops.visible (Leak.Aes.aes_init a key) = Ops.visible (Leak.Aes.aes_init a' key') -> key = key'.
Proof. intros. eapply tells_visible; [apply (init_tells a a')|]; eassumption. Qed.
