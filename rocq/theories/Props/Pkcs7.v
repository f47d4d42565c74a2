(** C33-C36 and C47: PKCS#7 padding. *)
From Coq Require Import NArith List Arith Lia Bool.
From Verif Require Import Rust Calls.
From Verif.Model Require Import Pkcs7.
From Verif.Spec Require Octets Cbc Stream.
From Verif.Proofs Require Import Base.
From Verif.Proofs Require Stream Pkcs7.
Import Spec.Octets Spec.Cbc Spec.Stream.
Import ListNotations.
Local Open Scope N_scope.

(** C33. Padding of a stream.  [outs] are the results of the writes, [b] of the
    flush: together they are the padded data; after [i] writes exactly the
    complete blocks of the data so far have been returned. *)
Theorem C33_pad_conforms : forall T k chunks, (1 <= k <= 255)%nat ->
  exists outs b, pad_stream T (N.of_nat k) chunks = Ret (outs, b) /\
    emitted outs ++ b = pkcs7_pad k (concat chunks) /\
    pkcs7_valid k (emitted outs ++ b) (concat chunks).
Proof.
  intros T k chunks Hk.
  destruct (Proofs.Pkcs7.pad_stream_ok T k chunks) as (outs & b & E & _ & _ & _ & H); [lia|].
  exists outs, b. split; [assumption|]. split; [assumption|]. rewrite H.
  apply Proofs.Stream.pkcs7_pad_valid. lia.
Qed.
Print Assumptions C33_pad_conforms.

Theorem C33_complete_blocks_returned : forall T k chunks outs b, (1 <= k <= 255)%nat ->
  pad_stream T (N.of_nat k) chunks = Ret (outs, b) ->
  length outs = length chunks /\ length b = k /\
  forall i, (i <= length chunks)%nat ->
    let data := concat (firstn i chunks) in
    let out := emitted (firstn i outs) in
    exists pending, data = out ++ pending /\ (length out mod k = 0)%nat /\ (length pending < k)%nat.
Proof.
  intros T k chunks outs b Hk E.
  destruct (Proofs.Pkcs7.pad_stream_ok T k chunks) as (outs' & b' & E' & Hl & Ho & Hb & _); [lia|].
  assert (outs' = outs /\ b' = b) as [-> ->] by (split; congruence).
  split; [assumption|]. split.
  - rewrite Hb. apply Proofs.Stream.pkcs7_pad_short_length, Proofs.Stream.rest_lt. lia.
  - intros i Hi. cbv zeta. rewrite Ho by assumption.
    exists (rest k (concat (firstn i chunks))).
    split; [symmetry; apply Proofs.Stream.whole_rest|].
    split; [apply Proofs.Stream.whole_mod; lia|apply Proofs.Stream.rest_lt; lia].
Qed.
Print Assumptions C33_complete_blocks_returned.

(** Eleven bytes in three writes, blocks of four. *)
Example C33_example :
  pad_stream (mkTarget W64 true) 4 [[1; 2; 3]; [4; 5]; [6; 7; 8; 9; 10; 11]] =
  Ret ([None; Some [1; 2; 3; 4]; Some [5; 6; 7; 8]], [9; 10; 11; 1]) /\
  pad_stream (mkTarget W64 true) 4 [[1; 2; 3; 4]] = Ret ([Some [1; 2; 3; 4]], [4; 4; 4; 4]).
Proof. vm_compute. auto. Qed.

(** C34. Unpadding inverts padding, however the padded stream is cut. *)
Definition round_trips (T : target) (k : N) (chunks : list (list N)) : Prop :=
  exists outs b, pad_stream T k chunks = Ret (outs, b) /\
  forall chunks', concat chunks' = emitted outs ++ b ->
  exists outs' m, unpad_stream T k chunks' = Ret (outs', Ok m) /\
    emitted outs' ++ m = concat chunks.

Theorem C34_unpad_inverts_pad : forall T k chunks, 1 <= k <= 255 -> round_trips T k chunks.
Proof.
  intros T k chunks Hk. replace k with (N.of_nat (N.to_nat k)) by lia.
  set (k' := N.to_nat k). assert (Hk' : (1 <= k' < 256)%nat) by (subst k'; lia).
  destruct (Proofs.Pkcs7.pad_stream_ok T k' chunks) as (outs & b & E & _ & _ & _ & H); [lia|].
  exists outs, b. split; [assumption|]. intros chunks' Hc.
  destruct (Proofs.Pkcs7.unpad_stream_ok T k' chunks') as (outs' & E' & _ & _ & H'); [lia|].
  rewrite Hc, H in E', H'.
  destruct (Proofs.Stream.stream_padded k' (concat chunks)) as [S1 S2]; [lia|].
  rewrite S1 in E'. rewrite S2 in H'. do 2 eexists. split; [exact E'|].
  rewrite H'. apply firstn_skipn.
Qed.
Print Assumptions C34_unpad_inverts_pad.

(** After each write everything but the last, possibly complete, block has been
    released: on any input, so in particular on padded data. *)
Theorem C34_one_block_held_back : forall T k chunks outs r, (1 <= k <= 255)%nat ->
  unpad_stream T (N.of_nat k) chunks = Ret (outs, r) ->
  length outs = length chunks /\
  forall i, (i <= length chunks)%nat ->
    let data := concat (firstn i chunks) in
    let out := emitted (firstn i outs) in
    exists back, data = out ++ back /\ (length out mod k = 0)%nat /\
      (length back <= k)%nat /\ (data <> [] -> back <> []).
Proof.
  intros T k chunks outs r Hk E.
  destruct (Proofs.Pkcs7.unpad_stream_ok T k chunks) as (outs' & E' & Hl & Ho & _); [lia|].
  assert (outs' = outs) as -> by congruence.
  split; [assumption|]. intros i Hi. cbv zeta. rewrite Ho by assumption.
  exists (held k (concat (firstn i chunks))).
  split; [symmetry; apply Proofs.Stream.settled_held|]. split; [|split].
  - rewrite Proofs.Stream.settled_length, Nat.mul_comm by lia. apply Nat.mod_mul. lia.
  - apply Proofs.Stream.held_le. lia.
  - intros Hd. pose proof (Proofs.Stream.held_pos k (concat (firstn i chunks))) as P.
    intros Eh. rewrite Eh in P. assert (0 < 0)%nat by (apply P; [lia|assumption]). lia.
Qed.
Print Assumptions C34_one_block_held_back.

(** A complete block is held back until something follows it. *)
Example C34_example :
  unpad_stream (mkTarget W32 false) 4 [[1]; [2; 3; 4]; [5; 6]; [7; 8; 9; 10]; [11; 1]] =
  Ret ([None; None; Some [1; 2; 3; 4]; Some [5; 6; 7; 8]; None], Ok [9; 10; 11]) /\
  (forall T, round_trips T 4 [[1; 2; 3]; [4; 5]; [6; 7; 8; 9; 10; 11]]).
Proof. split; [vm_compute; reflexivity|]. intros T. apply C34_unpad_inverts_pad. lia. Qed.

(** C35. Exactly which streams are accepted. *)
Theorem C35_accepts_exactly : forall T k chunks data, (1 <= k <= 255)%nat ->
  concat chunks = data ->
  exists outs r, unpad_stream T (N.of_nat k) chunks = Ret (outs, r) /\
  (forall m, r = Ok m <->
     data <> [] /\ (length data mod k = 0)%nat /\
     exists n, (n <= k)%nat /\ last data 256 = N.of_nat n /\
       data = (emitted outs ++ m) ++ repeat (N.of_nat n) n) /\
  (r = Err UnfinishedBlock <-> data = [] \/ (length data mod k <> 0)%nat) /\
  (r = Err InvalidPadding <->
     data <> [] /\ (length data mod k = 0)%nat /\
     ~ exists n m, (n <= k)%nat /\ last data 256 = N.of_nat n /\ data = m ++ repeat (N.of_nat n) n).
Proof.
  intros T k chunks data Hk <-.
  destruct (Proofs.Pkcs7.unpad_stream_ok T k chunks) as (outs & E & _ & _ & H); [lia|].
  exists outs. eexists. split; [exact E|]. rewrite H.
  set (s := concat chunks) in *.
  assert (Hk0 : (k <> 0)%nat) by lia.
  pose proof (Proofs.Stream.stream_incomplete k s Hk0) as HI.
  pose proof (fun m => Proofs.Stream.stream_stripped k s m Hk0) as HS.
  assert (Hm : forall m, strip k (held k s) = Stripped m <->
     s <> [] /\ (length s mod k = 0)%nat /\
     exists n, (n <= k)%nat /\ last s 256 = N.of_nat n /\
       s = (settled k s ++ m) ++ repeat (N.of_nat n) n).
  { intros m. rewrite HS. unfold ends_with_pad. split; intros (A & B & n & C & D).
    - split; [assumption|]. split; [assumption|]. exists n. tauto.
    - split; [assumption|]. split; [assumption|]. exists n. tauto. }
  split; [|split].
  - intros m. rewrite <- Hm. destruct (strip k (held k s)); split; congruence.
  - rewrite <- HI. destruct (strip k (held k s)); split; congruence.
  - assert (HV : strip k (held k s) = Invalid <->
       s <> [] /\ (length s mod k = 0)%nat /\
       ~ exists n m, (n <= k)%nat /\ last s 256 = N.of_nat n /\ s = m ++ repeat (N.of_nat n) n).
    { destruct (strip k (held k s)) as [m| |] eqn:Es.
      - split; [discriminate|]. intros (_ & _ & Hno). exfalso. apply Hno.
        destruct (proj1 (Hm m) eq_refl) as (_ & _ & n & Hn & Hl & Hd).
        exists n, (settled k s ++ m). auto.
      - split; [discriminate|]. intros (A & B & _). destruct (proj1 HI eq_refl); contradiction.
      - split; [|reflexivity]. intros _.
        assert (A : s <> []) by (intros ->; discriminate (proj2 HI (or_introl eq_refl))).
        assert (B : (length s mod k = 0)%nat).
        { destruct (Nat.eq_dec (length s mod k) 0) as [e|e]; [assumption|].
          discriminate (proj2 HI (or_intror e)). }
        split; [assumption|]. split; [assumption|].
        intros (n & m & Hn & Hl & Hd).
        (* the message part contains the settled blocks *)
        assert (Hlen : (length s <= length (settled k s) + k)%nat).
        { pose proof (f_equal (@length N) (Proofs.Stream.settled_held k s)) as L.
          rewrite app_length in L. pose proof (Proofs.Stream.held_le k s Hk0). lia. }
        assert (Hm' : (length (settled k s) <= length m)%nat).
        { pose proof (f_equal (@length N) Hd) as L. rewrite app_length, repeat_length in L.
          pose proof (proj2 (Proofs.Stream.held_complete k s Hk0) (conj A B)) as Hh.
          pose proof (f_equal (@length N) (Proofs.Stream.settled_held k s)) as L'.
          rewrite app_length in L'. lia. }
        assert (Ep : settled k s = firstn (length (settled k s)) m).
        { assert (G : forall A, firstn (length A) s = A -> (length A <= length m)%nat ->
            A = firstn (length A) m).
          { intros A0 HA HL. rewrite <- HA at 1. rewrite Hd, firstn_app.
            replace (length A0 - length m)%nat with 0%nat by lia.
            cbn [firstn]. apply app_nil_r. }
          apply G; [|assumption].
          pose proof (firstn_app_2 0 (settled k s) (held k s)) as P.
          rewrite Proofs.Stream.settled_held, Nat.add_0_r in P. cbn [firstn] in P.
          rewrite app_nil_r in P. exact P. }
        assert (Stripped (skipn (length (settled k s)) m) = Invalid) as C; [|discriminate C].
        rewrite <- (proj2 (Hm (skipn (length (settled k s)) m))); [reflexivity|].
        split; [assumption|]. split; [assumption|]. exists n. split; [assumption|].
        split; [assumption|]. rewrite Ep at 1. rewrite firstn_skipn. assumption. }
    rewrite <- HV. destruct (strip k (held k s)); split; congruence.
Qed.
Print Assumptions C35_accepts_exactly.

Example C35_example :
  let T := mkTarget W64 false in
  unpad_stream T 4 [[9; 9]; [2; 2]] = Ret ([None; None], Ok [9; 9]) /\
  unpad_stream T 4 [[9; 9]; [1; 2]] = Ret ([None; None], Err InvalidPadding) /\
  unpad_stream T 4 [[9; 9; 9; 5]] = Ret ([None], Err InvalidPadding) /\
  unpad_stream T 4 [[9; 9; 9; 9; 1]] = Ret ([Some [9; 9; 9; 9]], Err UnfinishedBlock) /\
  unpad_stream T 4 [] = Ret ([], Err UnfinishedBlock).
Proof. vm_compute. auto 6. Qed.

(** C36. "Only valid PKCS#7 padding is accepted": refuted.  Final byte 0 is
    accepted, as no padding; nothing else invalid is. *)
Theorem C36_only_valid_padding_refuted :
  exists T chunks outs m, octets (concat chunks) /\
    unpad_stream T 16 chunks = Ret (outs, Ok m) /\
    (forall m', ~ pkcs7_valid 16 (concat chunks) m').
Proof.
  exists (mkTarget W64 true), [repeat 7 15 ++ [0]], [None], (repeat 7 15 ++ [0]).
  split; [|split].
  - apply octets_concat. constructor; [|constructor]. repeat constructor.
  - vm_compute. reflexivity.
  - intros m' (n & Hn & E & _). apply (f_equal (fun l => last l 256)) in E.
    rewrite Proofs.Stream.last_app_repeat in E by lia. change (0 = N.of_nat n) in E. lia.
Qed.
Print Assumptions C36_only_valid_padding_refuted.

Theorem C36_accepted_is_valid_or_ends_in_zero : forall T k chunks outs m, (1 <= k <= 255)%nat ->
  unpad_stream T (N.of_nat k) chunks = Ret (outs, Ok m) ->
  pkcs7_valid k (concat chunks) (emitted outs ++ m) \/
  (last (concat chunks) 256 = 0 /\ emitted outs ++ m = concat chunks).
Proof.
  intros T k chunks outs m Hk E.
  destruct (C35_accepts_exactly T k chunks _ Hk eq_refl) as (outs' & r & E' & H & _).
  assert (outs' = outs /\ r = Ok m) as [-> ->] by (split; congruence).
  destruct (proj1 (H m) eq_refl) as (_ & Hm & n & Hn & Hl & Hd).
  destruct n as [|n].
  - right. split; [exact Hl|]. cbn [repeat] in Hd. rewrite app_nil_r in Hd. auto.
  - left. exists (S n). split; [lia|]. auto.
Qed.
Print Assumptions C36_accepted_is_valid_or_ends_in_zero.

(** Valid padding is always accepted, and removed. *)
Theorem C36_valid_is_accepted : forall T k chunks m, (1 <= k <= 255)%nat ->
  pkcs7_valid k (concat chunks) m ->
  exists outs m', unpad_stream T (N.of_nat k) chunks = Ret (outs, Ok m') /\ emitted outs ++ m' = m.
Proof.
  intros T k chunks m Hk (n & Hn & Hd & Hmod).
  destruct (C35_accepts_exactly T k chunks _ Hk eq_refl) as (outs & r & E & H & HU & HI).
  assert (Hl : last (concat chunks) 256 = N.of_nat n).
  { rewrite Hd. apply Proofs.Stream.last_app_repeat. lia. }
  assert (Hne : concat chunks <> []).
  { intros C. rewrite C in Hd. destruct m; [|discriminate]. destruct n; [lia|discriminate]. }
  destruct r as [m'|[|]].
  - exists outs, m'. split; [assumption|].
    destruct (proj1 (H m') eq_refl) as (_ & _ & n' & _ & Hl' & Hd').
    assert (n' = n) as -> by lia. rewrite Hd in Hd'. apply app_inv_tail in Hd'. auto.
  - destruct (proj1 HU eq_refl); contradiction.
  - destruct (proj1 HI eq_refl) as (_ & _ & Hno). exfalso. apply Hno. exists n, m. auto with arith.
    split; [lia|]. auto.
Qed.
Print Assumptions C36_valid_is_accepted.

Example C36_example :
  let T := mkTarget W64 true in
  pkcs7_valid 4 [8; 8; 2; 2] [8; 8] /\
  unpad_stream T 4 [[8; 8; 2; 2]] = Ret ([None], Ok [8; 8]) /\
  unpad_stream T 4 [[8; 8; 2; 0]] = Ret ([None], Ok [8; 8; 2; 0]).
Proof. split; [exists 2%nat; repeat split; auto|]. vm_compute. auto. Qed.

Lemma unpad_zero_panics T : unpad_stream T 0 [] = Panic.
Proof.
  assert (Hn : unpad_new T 0 = Ret (mkUnpad 0 [])) by (destruct T as [[|] [|]]; reflexivity).
  unfold unpad_stream. rewrite Hn. cbn [bind unpad_writes]. unfold unpad_flush.
  cbn [unpad_block_size unpad_storage len length N.of_nat]. cbn [N.eqb negb].
  unfold usub. change (1 <=? 0) with false. cbv iota.
  destruct (overflow_checks T); [reflexivity|]. cbn [bind].
  rewrite idx_none by apply Nat.le_0_l. reflexivity.
Qed.

(** C47. Padding followed by unpadding is sound for block sizes 1 to 255 and for
    no other: at every other size it fails on the empty message already. *)
Theorem C47_sound_exactly : forall T k,
  (forall chunks, round_trips T k chunks) <-> 1 <= k <= 255.
Proof.
  intros T k. split; [|intros Hk chunks; apply C34_unpad_inverts_pad; assumption].
  intros H. destruct (N.eq_dec k 0) as [->|H0].
  - exfalso. destruct (H []) as (outs & b & E & Hu).
    assert (E0 : pad_stream T 0 [] = Ret ([], [])) by (destruct T as [[|] [|]]; reflexivity).
    rewrite E0 in E. assert (outs = [] /\ b = []) as [-> ->] by (split; congruence).
    destruct (Hu []) as (outs' & m & E' & _); [reflexivity|].
    rewrite unpad_zero_panics in E'. discriminate E'.
  - split; [lia|]. destruct (N.le_gt_cases k 255) as [Hle|Hgt]; [assumption|]. exfalso.
    destruct (H []) as (outs & b & E & Hu).
    assert (Hnew : exists x, pad_new T k = x /\ unpad_new T k =
              match x with Ret _ => Ret (mkUnpad k []) | Panic => Panic | Diverge => Diverge end /\
              (x = Ret (mkPad k []) \/ x = Panic)).
    { eexists. split; [reflexivity|]. unfold pad_new, unpad_new, umul, fit_usize, alloc.
      destruct (2 * k <? usize_mod T); [|destruct (overflow_checks T); [cbn; auto|]]; cbn [bind];
        (destruct (_ <=? isize_max T); cbn; auto). }
    destruct Hnew as (x & Ex & Eu & [->| ->]);
      [|unfold pad_stream in E; rewrite Ex in E; discriminate E].
    unfold pad_stream in E. rewrite Ex in E. cbn [bind pad_writes] in E.
    set (n := N.to_nat k) in *. assert (Hn : k = N.of_nat n) by (subst n; lia).
    rewrite Hn in E at 1. rewrite Proofs.Pkcs7.pad_flush_any in E by (cbn; lia).
    cbn [bind app length] in E. rewrite Nat.sub_0_r, <- Hn in E.
    assert (outs = [] /\ b = repeat (k mod 256) n) as [-> ->] by (split; congruence).
    destruct (Hu [repeat (k mod 256) n]) as (outs' & m & E' & Hm);
      [cbn [concat emitted map app]; apply app_nil_r|].
    cbn [concat] in Hm. apply app_eq_nil in Hm. destruct Hm as [_ ->].
    unfold unpad_stream in E'. rewrite Eu in E'. cbn [bind unpad_writes] in E'.
    rewrite Hn in E' at 1. rewrite Proofs.Pkcs7.unpad_write_ok in E' by lia.
    cbn [bind app] in E'. rewrite repeat_length, Nat.leb_refl in E'.
    rewrite (proj2 (Proofs.Stream.settled_short n (repeat (k mod 256) n)
      ltac:(lia) ltac:(rewrite repeat_length; lia))) in E'.
    unfold unpad_flush in E'. cbn [unpad_block_size unpad_storage] in E'.
    unfold len in E'. rewrite repeat_length, N.eqb_refl in E'. cbn [negb] in E'.
    rewrite usub_ok in E' by lia. cbn [bind] in E'.
    rewrite (idx_nth _ _ 256) in E' by (rewrite repeat_length; lia). cbn [bind] in E'.
    assert (Hnth : nth (N.to_nat (N.of_nat n - 1)) (repeat (k mod 256) n) 256 = k mod 256).
    { rewrite (nth_indep _ 256 (k mod 256)) by (rewrite repeat_length; lia). apply nth_repeat. }
    rewrite Hnth, <- Hn in E'. unfold as_u8 in E'. rewrite N.ltb_irrefl in E'.
    pose proof (N.mod_upper_bound k 256 ltac:(discriminate)) as Hb.
    rewrite usub_ok in E' by lia. cbn [bind] in E'. unfold slice_from, slice_to in E'.
    rewrite (slice_ok (repeat (k mod 256) n) (k - k mod 256)) in E'
      by (unfold len; rewrite repeat_length; lia).
    cbn [bind] in E'. destruct (negb _); [discriminate E'|].
    rewrite slice_ok in E' by (try (unfold len; rewrite repeat_length); lia).
    cbn [bind N.to_nat skipn] in E'.
    assert (L : firstn (N.to_nat (k - k mod 256) - 0) (repeat (k mod 256) n) = []) by congruence.
    apply (f_equal (@length N)) in L. rewrite firstn_length, repeat_length in L.
    cbn [length] in L. lia.
Qed.
Print Assumptions C47_sound_exactly.

(** The sizes next to the bounds: 256 returns the padding as data, 0 panics. *)
Example C47_example :
  let T := mkTarget W64 false in
  round_trips T 255 [[1; 2; 3]] /\ ~ round_trips T 256 [] /\
  pad_stream T 256 [[1; 2; 3]] = Ret ([None], [1; 2; 3] ++ repeat 253 253) /\
  unpad_stream T 256 [[1; 2; 3] ++ repeat 253 253] = Ret ([None], Err InvalidPadding) /\
  unpad_stream T 256 [repeat 0 256] = Ret ([None], Ok (repeat 0 256)) /\
  pad_stream T 0 [[1]] = Panic /\ unpad_stream T 0 [] = Panic.
Proof.
  split; [apply C34_unpad_inverts_pad; lia|].
  split; [|split; [|split; [|split; [|split; [|apply unpad_zero_panics]]]]];
    [|vm_compute; reflexivity..].
  intros (outs & b & E & Hu). vm_compute in E.
  assert (outs = [] /\ b = repeat 0 256) as [-> ->] by (split; vm_compute; congruence).
  destruct (Hu [repeat 0 256] eq_refl) as (outs' & m & E' & Hm).
  vm_compute in E'. apply app_eq_nil in Hm. destruct Hm as [_ ->]. discriminate E'.
Qed.
