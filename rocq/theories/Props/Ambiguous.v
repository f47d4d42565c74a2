(** C98: ciphertexts that decrypt under several keys. *)
From Coq Require Import ZArith NArith List Arith Lia Bool ZifyBool ZifyNat ZifyN.
From Verif Require Import Rust Calls.
From Verif.Model Require Import Aes Pkcs7 AesCbc.
From Verif.Spec Require Octets Aes Cbc Stream Ambiguous.
From Verif.Proofs Require Base Stream AesCbc Messages Ambiguous.
From Verif.Props Require Import AesCbc.
From Verif.Props Require Chance Canonical.
Import Spec.Octets Spec.Cbc Spec.Ambiguous.
Import Spec.Stream (call, reply, Init, Write, Flush, Accepted, Data).
Import Props.Chance (decrypts).
Import ListNotations.
Local Open Scope N_scope.

(** Keys and blocks. *)
Definition wants_ok (W : list (list N * list N)) : Prop :=
  Forall (fun kw => good_key (fst kw) /\ good_block (snd kw)) W.

(** * Lemmas *)
Lemma block_of (P : list (list N)) : Forall Proofs.Stream.is_block P -> forall i w, nth_error P i = Some w ->
  firstn 16 (skipn (16 * i) (concat P)) = w.
Proof.
  induction 1 as [|p P [Op Lp] HP IH]; intros [|i] w E; cbn [nth_error] in E; try discriminate E.
  - injection E as ->. change (16 * 0)%nat with 0%nat. cbn [concat skipn]. rewrite firstn_app, Lp, Nat.sub_diag, firstn_O, app_nil_r. apply firstn_all2. lia.
  - cbn [concat]. replace (16 * S i)%nat with (16 + 16 * i)%nat by lia.
    rewrite skipn_app, Lp. replace (16 + 16 * i - 16)%nat with (16 * i)%nat by lia.
    rewrite skipn_all2 by (rewrite Lp; lia). apply IH, E.
Qed.
Lemma block_front (P : list (list N)) : Forall Proofs.Stream.is_block P -> forall i k w, nth_error P i = Some w -> (i < k)%nat ->
  firstn 16 (skipn (16 * i) (firstn (16 * k) (concat P))) = w.
Proof.
  intros H i k w E Hk. rewrite <- (block_of P H i w E). rewrite skipn_firstn_comm, firstn_firstn. f_equal. lia.
Qed.
Lemma raw_blocks key iv C : Forall Proofs.Stream.is_block C ->
  raw key iv (concat C) = concat (cbc_decrypt (Spec.Aes.InvCipher key) iv C).
Proof. intros H. unfold raw. rewrite Proofs.Stream.blocks_concat_blocks by exact H. reflexivity. Qed.
Lemma dec_blocks_of key iv C : good_key key -> good_block iv -> Forall Proofs.Stream.is_block C ->
  Forall Proofs.Stream.is_block (cbc_decrypt (Spec.Aes.InvCipher key) iv C) /\
  length (cbc_decrypt (Spec.Aes.InvCipher key) iv C) = length C.
Proof.
  intros Hk Hiv H. split.
  - rewrite <- (Proofs.Stream.blocks_concat_blocks C H). apply dec_blocks; [exact Hk|exact Hiv|].
    apply Proofs.Stream.is_blocks_octets, H.
  - clear. revert iv. induction C as [|c C IH]; intros iv; [reflexivity|]. cbn [cbc_decrypt length]. rewrite IH. reflexivity.
Qed.
Lemma settled_front (P : list (list N)) : Forall Proofs.Stream.is_block P -> (1 <= length P)%nat ->
  Stream.settled 16 (concat P) = firstn (16 * (length P - 1)) (concat P).
Proof.
  intros H L. unfold Stream.settled. rewrite Proofs.Stream.concat_blocks_length by exact H. f_equal. f_equal. lia.
Qed.
Lemma held_end (P : list (list N)) w : Forall Proofs.Stream.is_block P -> nth_error P (length P - 1) = Some w ->
  Stream.held 16 (concat P) = w.
Proof.
  intros H E. assert (L : (length P - 1 < length P)%nat) by (apply nth_error_Some; congruence).
  unfold Stream.held. rewrite Proofs.Stream.concat_blocks_length by exact H.
  replace ((16 * length P - 1) / 16)%nat with (length P - 1)%nat by lia.
  rewrite <- (block_of P H _ w E). symmetry. apply firstn_all2.
  rewrite skipn_length, Proofs.Stream.concat_blocks_length by exact H. lia.
Qed.
Lemma wants_same W : wants_ok W -> Proofs.Ambiguous.wants_ok W.
Proof. intros H. exact H. Qed.

(** * C98.  For each block of a ciphertext one may choose the key under which it is to be
    read, and what is then read: under each of the keys the decipher gives out the blocks
    chosen for it.  Only the first block needs the initialisation vector.  The last block is
    accepted or not like any padding. *)
Theorem C98_every_key_reads_its_blocks : forall T W z iv key chunks,
  wants_ok W -> W <> [] -> good_block z -> good_block iv -> good_key key ->
  concat chunks = concat (snd (steer W z)) ->
  exists outs final d,
    decipher_run T iv (session key chunks) = Ret (Accepted :: map Data outs ++ [final], d) /\
    (forall i w, nth_error W i = Some (key, w) -> (i + 1 < length W)%nat -> (i = 0%nat -> iv = fst (steer W z)) ->
       firstn 16 (skipn (16 * i) (concat outs)) = w) /\
    (forall w m, nth_error W (length W - 1) = Some (key, w) -> (length W = 1%nat -> iv = fst (steer W z)) ->
       (final = Data m <-> Stream.strip 16 w = Stream.Stripped m)).
Proof.
  intros T W z iv key chunks HW NW Hz Hiv Hk Ec.
  pose proof (Proofs.Ambiguous.steer_reads z Hz W HW) as R. destruct (steer W z) as [v C]. cbn [fst snd] in *.
  destruct R as (Hv & HC & L & _ & R).
  destruct (decrypt_session T key iv chunks Hk Hiv) as (outs & d & E & _ & _ & Ho).
  { apply chunks_octets. rewrite Ec. apply Proofs.Stream.is_blocks_octets, HC. }
  destruct (dec_blocks_of key iv C Hk Hiv HC) as [HP LP].
  rewrite Ec, (raw_blocks key iv C HC) in E, Ho.
  assert (L1 : (1 <= length W)%nat) by (destruct W; [contradiction|cbn [length]; lia]).
  exists outs. eexists. exists d. split; [exact E|]. split.
  - intros i w Ew Hi H0. rewrite Ho. rewrite (settled_front _ HP) by lia.
    apply block_front; [exact HP|exact (R iv i key w Ew H0)|lia].
  - intros w m Ew H0. rewrite (held_end _ w HP).
    + clear. destruct (Stream.strip 16 w) as [x| |]; cbn [Proofs.Messages.verdict_reply]; split; intros H; congruence.
    + rewrite LP, L. apply (R iv _ key w Ew). intros H. apply H0. lia.
Qed.
Print Assumptions C98_every_key_reads_its_blocks.

(** The vector and the ciphertext are the only ones, given the last block. *)
Theorem C98_no_other : forall W z iv C,
  wants_ok W -> good_block iv -> Forall good_block C -> length C = length W -> last C iv = z ->
  (forall i key w, nth_error W i = Some (key, w) -> firstn 16 (skipn (16 * i) (raw key iv (concat C))) = w) ->
  (iv, C) = steer W z.
Proof.
  intros W z iv C HW Hiv HC L La R. apply Proofs.Ambiguous.steer_unique; try assumption.
  intros i key w E. specialize (R i key w E). 
  assert (Hk : good_key key).
  { apply nth_error_In in E. exact (proj1 (proj1 (Forall_forall _ _) HW _ E)). }
  rewrite (raw_blocks key iv C HC) in R. destruct (dec_blocks_of key iv C Hk Hiv HC) as [HP LP].
  assert (Hi : (i < length W)%nat) by (apply nth_error_Some; congruence).
  destruct (nth_error (cbc_decrypt (Spec.Aes.InvCipher key) iv C) i) as [x|] eqn:X.
  - rewrite (block_of _ HP i x X) in R. congruence.
  - apply nth_error_None in X. lia.
Qed.
Print Assumptions C98_no_other.

Lemma decrypts_blocks T key iv C w : good_key key -> good_block iv -> Forall good_block C ->
  nth_error (cbc_decrypt (Spec.Aes.InvCipher key) iv C) (length C - 1) = Some w ->
  decrypts T key iv (concat C) <-> Proofs.Ambiguous.padded w.
Proof.
  intros Hk Hiv HC E. rewrite Props.Chance.decrypts_strip; [|exact Hk|exact Hiv|apply Proofs.Stream.is_blocks_octets, HC].
  destruct (dec_blocks_of key iv C Hk Hiv HC) as [HP LP].
  rewrite (raw_blocks key iv C HC), (held_end _ w HP); [reflexivity|]. rewrite LP. exact E.
Qed.
Lemma last_read D : forall C (c iv : list N), C <> [] -> nth_error (cbc_decrypt D iv (removelast C ++ [c])) (length C - 1) =
  Some (xor (D c) (last (removelast C) iv)).
Proof.
  intros C c iv H. assert (L : length (removelast C) = (length C - 1)%nat) by (rewrite removelast_firstn_len, firstn_length; lia).
  rewrite <- L. generalize (removelast C) as F. clear. intros F. revert iv.
  induction F as [|f F IH]; intros iv; [reflexivity|]. cbn [app cbc_decrypt length nth_error]. rewrite IH. f_equal. f_equal.
  destruct F as [|g F]; [reflexivity|]. change (last (f :: g :: F) iv) with (last (g :: F) iv).
  clear. revert g. induction F as [|y F IH]; intros g; [reflexivity|]. exact (IH y).
Qed.

(** Under which last blocks a ciphertext is accepted with two keys: it depends on the sum of
    the two decryptions of that block only. *)
Theorem C98_accepted_under_both : forall T key key' z,
  good_key key -> good_key key' -> good_block z ->
  let d := xor (Spec.Aes.InvCipher key z) (Spec.Aes.InvCipher key' z) in
  (exists iv C, good_block iv /\ Forall good_block C /\
     decrypts T key iv (concat (C ++ [z])) /\ decrypts T key' iv (concat (C ++ [z]))) <->
  compatible d.
Proof.
  intros T key key' z Hk Hk' Hz d.
  pose proof (Proofs.Ambiguous.inv_block key z Hk Hz) as Hi. pose proof (Proofs.Ambiguous.inv_block key' z Hk' Hz) as Hi'.
  assert (N1 : forall C : list (list N), C ++ [z] <> []) by (intros [|x C]; discriminate).
  split.
  - intros (iv & C & Hiv & HC & A & A').
    pose proof (last_read (Spec.Aes.InvCipher key) (C ++ [z]) z iv (N1 C)) as R.
    pose proof (last_read (Spec.Aes.InvCipher key') (C ++ [z]) z iv (N1 C)) as R'.
    rewrite removelast_last in R, R'.
    assert (HCz : Forall good_block (C ++ [z])) by (apply Forall_app; split; [exact HC|constructor; [exact Hz|constructor]]).
    apply (decrypts_blocks T key iv _ _ Hk Hiv HCz R) in A. apply (decrypts_blocks T key' iv _ _ Hk' Hiv HCz R') in A'.
    assert (Hl : good_block (last C iv)).
    { clear - HC Hiv. induction C as [|x [|y C] IH]; [exact Hiv|inversion HC; assumption|]. inversion HC; subst. apply IH; assumption. }
    pose proof (Proofs.Stream.is_block_xor _ _ Hi Hl) as X. pose proof (Proofs.Stream.is_block_xor _ _ Hi' Hl) as X'.
    pose proof (Proofs.Ambiguous.sum_compatible _ _ (proj2 X) (proj2 X') A A') as G.
    rewrite (Proofs.Ambiguous.cancel_tail _ _ _ Hi Hi' Hl) in G. exact G.
  - intros G. destruct (Proofs.Ambiguous.compatible_sum d) as (v & v' & Hv & Hv' & P & P' & E); [apply Proofs.Stream.is_block_xor; assumption|exact G|].
    exists (xor (Spec.Aes.InvCipher key z) v), []. split; [apply Proofs.Stream.is_block_xor; assumption|]. split; [constructor|].
    assert (HCz : Forall good_block [z]) by (constructor; [exact Hz|constructor]).
    pose proof (Proofs.Stream.is_block_xor _ _ Hi Hv) as Hiv.
    split.
    + apply (decrypts_blocks T key _ _ _ Hk Hiv HCz (last_read (Spec.Aes.InvCipher key) [z] z _ ltac:(discriminate))).
      cbn [removelast last]. rewrite Base.xor_cancel_l; [exact P|]. rewrite (proj2 Hi), (proj2 Hv). reflexivity.
    + apply (decrypts_blocks T key' _ _ _ Hk' Hiv HCz (last_read (Spec.Aes.InvCipher key') [z] z _ ltac:(discriminate))).
      cbn [removelast last].
      rewrite (Proofs.Ambiguous.other_side _ _ v v' _ Hi Hi' Hiv Hv' E); [exact P'|].
      apply Base.xor_cancel_l. rewrite (proj2 Hi), (proj2 Hv). reflexivity.
Qed.
Print Assumptions C98_accepted_under_both.
Theorem C98_small_sums_will_do : forall d, good_block d -> last d 256 <= 17 -> compatible d.
Proof. intros d H L. apply Proofs.Ambiguous.small_compatible; assumption. Qed.
Print Assumptions C98_small_sums_will_do.

(** Both at once: with such a last block, all blocks before it can be chosen for either key,
    and the ciphertext is accepted under both. *)
Theorem C98_two_messages : forall T key key' z W,
  good_key key -> good_key key' -> good_block z -> wants_ok W ->
  compatible (xor (Spec.Aes.InvCipher key z) (Spec.Aes.InvCipher key' z)) ->
  exists v, good_block v /\
    let (iv, C) := steer (W ++ [(key, v)]) z in
    good_block iv /\ decrypts T key iv (concat C) /\ decrypts T key' iv (concat C).
Proof.
  intros T key key' z W Hk Hk' Hz HW G.
  pose proof (Proofs.Ambiguous.inv_block key z Hk Hz) as Hi. pose proof (Proofs.Ambiguous.inv_block key' z Hk' Hz) as Hi'.
  destruct (Proofs.Ambiguous.compatible_sum _ (Proofs.Stream.is_block_xor _ _ Hi Hi') G) as (v & v' & Hv & Hv' & P & P' & E).
  exists v. split; [exact Hv|].
  assert (HW1 : wants_ok (W ++ [(key, v)])).
  { apply Forall_app. split; [exact HW|]. constructor; [split; assumption|constructor]. }
  pose proof (Proofs.Ambiguous.steer_reads z Hz _ HW1) as R. destruct (steer (W ++ [(key, v)]) z) as [iv C].
  destruct R as (Hiv & HC & L & La & R). split; [exact Hiv|].
  assert (Nn : C <> []) by (intros ->; rewrite app_length in L; cbn [length] in L; lia).
  assert (Ez : C = removelast C ++ [z]) by (rewrite <- La at 1; apply app_removelast_last, Nn).
  assert (Ew : nth_error (W ++ [(key, v)]) (length C - 1) = Some (key, v)).
  { rewrite L, app_length. cbn [length]. replace (length W + 1 - 1)%nat with (length W) by lia.
    rewrite nth_error_app2, Nat.sub_diag by lia. reflexivity. }
  specialize (R iv (length C - 1)%nat key v Ew (fun _ => eq_refl)).
  pose proof (last_read (Spec.Aes.InvCipher key) C z iv Nn) as Q. pose proof (last_read (Spec.Aes.InvCipher key') C z iv Nn) as Q'.
  rewrite <- Ez in Q, Q'. split.
  - apply (decrypts_blocks T key iv C v Hk Hiv HC R). exact P.
  - apply (decrypts_blocks T key' iv C _ Hk' Hiv HC Q').
    assert (Ev : xor (Spec.Aes.InvCipher key z) (last (removelast C) iv) = v) by congruence.
    assert (Hl : good_block (last (removelast C) iv)).
    { assert (HF : Forall good_block (removelast C)) by (rewrite Ez in HC; apply Forall_app in HC; apply HC).
      clear - HF Hiv. induction HF as [|x F Hx HF IH]; [exact Hiv|]. destruct F as [|y F]; [exact Hx|exact IH]. }
    rewrite (Proofs.Ambiguous.other_side _ _ v v' _ Hi Hi' Hl Hv' E Ev). exact P'.
Qed.
Print Assumptions C98_two_messages.

(** Two keys, one ciphertext of three blocks: "Pay Alice 1 coin" begins the message under the
    one, "Pay Bob 9 coins." is the second block of the message under the other. *)
Definition key1 : list N := repeat 0 16.
Definition key2 : list N := repeat 1 16.
Definition alice : list N := [80; 97; 121; 32; 65; 108; 105; 99; 101; 32; 49; 32; 99; 111; 105; 110].
Definition bob : list N := [80; 97; 121; 32; 66; 111; 98; 32; 57; 32; 99; 111; 105; 110; 115; 46].
Definition vector : list N := [172; 15; 155; 44; 247; 74; 68; 134; 15; 200; 152; 44; 104; 230; 82; 146].
Definition ciphertext : list N :=
  [41; 100; 234; 205; 250; 50; 191; 182; 94; 66; 101; 13; 151; 244; 253; 115] ++
  [190; 7; 30; 116; 128; 15; 170; 150; 145; 45; 138; 228; 148; 122; 203; 187] ++ repeat 3 16.
Definition reading (key : list N) : list N :=
  match decipher_run (mkTarget W64 true) vector (session key [ciphertext]) with
  | Ret ([Accepted; Data a; Data b], _) => a ++ b
  | _ => []
  end.
Example C98_example :
  firstn 16 (reading key1) = alice /\ firstn 16 (skipn 16 (reading key2)) = bob /\
  length (reading key1) = 47%nat /\ length (reading key2) = 33%nat.
Proof. vm_compute. repeat apply conj; reflexivity. Qed.

(** "A ciphertext is accepted under one key only" is false. *)
Theorem C98_one_key_refuted : ~ (forall T key key' iv c,
  good_key key -> good_key key' -> good_block iv -> octets c ->
  decrypts T key iv c -> decrypts T key' iv c -> key = key').
Proof.
  intros H. assert (O : forall l, forallb (fun b => b <? 256) l = true -> octets l).
  { intros l F. apply Forall_forall. intros x Hx. apply N.ltb_lt. exact (proj1 (forallb_forall _ _) F x Hx). }
  assert (R : forall key, match decipher_run (mkTarget W64 true) vector (session key [ciphertext]) with
    | Ret ([Accepted; Data a; Data b], _) => True | _ => False end -> decrypts (mkTarget W64 true) key vector ciphertext).
  { intros key. unfold decrypts. destruct (decipher_run _ _ _) as [[rs d]| |]; try contradiction.
    destruct rs as [|[|?| | | |] [|[|a| | | |] [|[|b| | | |] [|? ?]]]]; try contradiction. intros _. exists [a], b, d. reflexivity. }
  assert (E : key1 = key2); [|discriminate E].
  apply (H (mkTarget W64 true) key1 key2 vector ciphertext).
  - split; [apply O; vm_compute; reflexivity|left; reflexivity].
  - split; [apply O; vm_compute; reflexivity|left; reflexivity].
  - split; [apply O; vm_compute; reflexivity|reflexivity].
  - apply O. vm_compute. reflexivity.
  - apply R. vm_compute. exact I.
  - apply R. vm_compute. exact I.
Qed.
Print Assumptions C98_one_key_refuted.
