(** C55: what the round keys give away about the key. *)
From Coq Require Import NArith List Arith Lia.
From Verif Require Import Rust.
From Verif.Model Require Import Aes.
From Verif.Spec Require Octets Aes.
From Verif.Proofs Require Import Base Bits.
From Verif.Proofs Require Aes KeySchedule Oracle.
Import Spec.Octets.
Import ListNotations.
Local Open Scope N_scope.

Lemma be_num_inj l l' : octets l -> octets l' -> length l = length l' -> be_num l = be_num l' -> l = l'.
Proof.
  intros H H' Hl E. rewrite <- (be_octets_be_num l H), <- (be_octets_be_num l' H'), Hl, E. reflexivity.
Qed.

Lemma nth_firstn_lt {A} (l : list A) n i d : (i < n)%nat -> nth i (firstn n l) d = nth i l d.
Proof.
  revert n i. induction l as [|x l IH]; intros [|n] [|i] H; try lia; cbn; auto. apply IH. lia.
Qed.

Lemma init_keyed a key a' : octets key -> aes_init a key = Ret (Ok tt, a') ->
  Spec.Aes.valid_key_size key /\ a' = Proofs.Aes.keyed key.
Proof.
  intros Hk Hi. destruct (Proofs.Aes.valid_key_size_dec key) as [Hsz|Hsz];
    [rewrite Proofs.Aes.aes_init_ok in Hi by assumption|rewrite Proofs.Aes.aes_init_err in Hi by assumption; discriminate].
  split; [assumption|congruence].
Qed.

(** C55.  Wherever two expanded keys of one size agree on as many consecutive words
    as the key has, the keys are the same: for AES-128 any one round key, for the
    other sizes two consecutive ones, determine the key. *)
Theorem C55_round_keys_determine_key : forall a1 a2 key key' a1' a2' w w' j,
  octets key -> octets key' -> length key' = length key ->
  aes_init a1 key = Ret (Ok tt, a1') -> aes_init a2 key' = Ret (Ok tt, a2') ->
  round_keys a1' = Some w -> round_keys a2' = Some w' ->
  (j + length key / 4 <= length w)%nat ->
  firstn (length key / 4) (skipn j w) = firstn (length key / 4) (skipn j w') ->
  key = key'.
Proof.
  intros a1 a2 key key' a1' a2' w w' j Hk Hk' Hl Hi Hi' Hw Hw' Hj E.
  apply init_keyed in Hi as [Hs ->]; [|assumption]. apply init_keyed in Hi' as [Hs' ->]; [|assumption].
  cbn [round_keys Proofs.Aes.keyed] in Hw, Hw'. injection Hw as <-. injection Hw' as <-.
  destruct (Proofs.Aes.expand_key_ok key _ Hk Hs eq_refl) as (_ & HW & HL).
  destruct (Proofs.Aes.expand_key_ok key' _ Hk' Hs' eq_refl) as (_ & HW' & HL').
  assert (Enr : Spec.Aes.Nr key' = Spec.Aes.Nr key) by (unfold Spec.Aes.Nr, Spec.Aes.Nk; rewrite Hl; reflexivity).
  rewrite map_length in Hj.
  apply (Proofs.KeySchedule.key_window key key' j); [assumption|assumption|exact Hj|].
  change (Spec.Aes.Nk key) with (length key / 4)%nat. intros i Hi.
  assert (En : nth i (map be_num (Spec.Aes.KeyExpansion key)) 0 = nth i (map be_num (Spec.Aes.KeyExpansion key')) 0).
  { apply (f_equal (fun l => nth (i - j) l 0)) in E.
    rewrite !nth_firstn_lt, !Proofs.Oracle.nth_skipn in E by lia.
    replace (j + (i - j))%nat with i in E by lia. exact E. }
  change 0 with (be_num []) in En. rewrite !map_nth in En.
  rewrite Forall_forall in HW, HW'.
  destruct (HW (nth i (Spec.Aes.KeyExpansion key) [])) as [H1 H2]; [apply nth_In; lia|].
  destruct (HW' (nth i (Spec.Aes.KeyExpansion key') [])) as [H1' H2']; [apply nth_In; lia|].
  apply be_num_inj; congruence.
Qed.
Print Assumptions C55_round_keys_determine_key.

(** Different keys, of whatever sizes, never give the same object. *)
Theorem C55_init_injective : forall a1 a2 key key' a',
  octets key -> octets key' ->
  aes_init a1 key = Ret (Ok tt, a') -> aes_init a2 key' = Ret (Ok tt, a') -> key = key'.
Proof.
  intros a1 a2 key key' a' Hk Hk' Hi Hi'.
  pose proof (init_keyed _ _ _ Hk Hi) as [Hs E]. pose proof (init_keyed _ _ _ Hk' Hi') as [Hs' E'].
  assert (Hl : length key' = length key).
  { rewrite E in E'. apply (f_equal round_count) in E'. cbn [round_count Proofs.Aes.keyed] in E'.
    unfold Spec.Aes.Nr, Spec.Aes.Nk in E'. revert E'. clear - Hs Hs'.
    destruct Hs as [-> | [-> | ->]], Hs' as [-> | [-> | ->]]; intros E'; try reflexivity; exfalso; vm_compute in E'; discriminate. }
  destruct (Proofs.Aes.expand_key_ok key _ Hk Hs eq_refl) as (_ & _ & HL).
  eapply (C55_round_keys_determine_key a1 a2 key key' a' a' _ _ 0); try eassumption.
  - rewrite E. reflexivity.
  - rewrite E. reflexivity.
  - rewrite map_length, HL. unfold Spec.Aes.Nr, Spec.Aes.Nk. lia.
  - reflexivity.
Qed.
Print Assumptions C55_init_injective.

(** The last round key of an AES-128 schedule starts at word 40. *)
Example C55_example :
  exists a w, aes_init aes_new (repeat 7 16) = Ret (Ok tt, a) /\ round_keys a = Some w /\
    (40 + length (repeat 7 16) / 4 <= length w)%nat /\
    firstn 2 (skipn 40 w) = [2201548724; 4201163109].
Proof. eexists _, _. split; [vm_compute; reflexivity|]. split; [reflexivity|]. split; [cbn; lia|reflexivity]. Qed.
