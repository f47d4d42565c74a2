(** C79: how much arbitrary input [Unpad] and [Decipher] accept. *)
From Coq Require Import ZArith NArith List Arith Lia Bool ZifyBool ZifyNat ZifyN.
From Verif Require Import Rust Calls.
From Verif.Model Require Import Aes Pkcs7 AesCbc.
From Verif.Spec Require Octets Aes Cbc Stream Counting.
From Verif.Proofs Require Import Base.
From Verif.Proofs Require Stream AesCbc Messages Aes Pkcs7 Count.
From Verif.Props Require Import AesCbc.
From Verif.Props Require Oracle.
Import Spec.Octets Spec.Cbc Spec.Counting.
Import Spec.Stream (call, reply, Init, Write, Flush, Accepted, Data, held).
Import ListNotations.
Local Open Scope N_scope.

Lemma held_block k b : (1 <= k)%nat -> length b = k -> held k b = b.
Proof.
  intros Hk Hb. unfold held. rewrite Hb. rewrite Nat.div_small by lia. rewrite Nat.mul_0_r. reflexivity.
Qed.

(** Of the blocks of [k] octets the unpadder accepts those that carry valid padding,
    (256^k - 1)/255 of them, and 256^(k-1) more. *)
Theorem C79_unpad_accepts : forall T k, (1 <= k <= 255)%nat ->
  exists V, 255 * V + 1 = 256 ^ N.of_nat k /\
    counted k (fun b => exists m, pkcs7_valid k b m) V /\
    counted k (fun b => exists outs m, unpad_stream T (N.of_nat k) [b] = Ret (outs, Ok m))
      (V + 256 ^ N.of_nat (k - 1)).
Proof.
  intros T k Hk. eexists. split; [apply Proofs.Count.powers_sum|]. split; [apply Proofs.Count.valid_count; lia|].
  rewrite <- Proofs.Count.accepted_sum by lia.
  eapply Proofs.Count.counted_ext; [|apply Proofs.Count.stripped_count; lia].
  intros b Hb Ho. destruct (Proofs.Pkcs7.unpad_stream_ok T k [b]) as (outs & E & _); [lia|].
  cbn [concat] in E. rewrite app_nil_r, held_block in E by lia. rewrite E. split.
  - intros [m Hm]. rewrite Hm. eauto.
  - intros (outs' & m & E'). destruct (Stream.strip k b) as [m'| |]; [eauto|discriminate|discriminate].
Qed.
Print Assumptions C79_unpad_accepts.

(** One accepted of 128: with 16 octets. *)
Definition accepted16 : N := (256 ^ 16 - 1) / 255 + 256 ^ 15.
Lemma accepted16_ok : Proofs.Count.sum_over (fun n => 256 ^ N.of_nat (16 - Nat.max n 1)) (seq 0 (16 + 1)) = accepted16.
Proof. vm_compute. reflexivity. Qed.

Lemma reply_ok x : (exists m, Proofs.Messages.verdict_reply x = Data m) <-> exists m, x = Stream.Stripped m.
Proof. destruct x; cbn; split; intros [m' E]; try discriminate; eauto. Qed.

(** The decipher reports no error on the ciphertext [C]. *)
Definition decrypts (T : target) (key iv C : list N) : Prop :=
  exists outs m d, decipher_run T iv (session key [C]) = Ret (Accepted :: map Data outs ++ [Data m], d).

Lemma decrypts_strip T key iv C : good_key key -> good_block iv -> octets C ->
  decrypts T key iv C <-> exists m, Stream.strip 16 (held 16 (raw key iv C)) = Stream.Stripped m.
Proof.
  intros Hk Hiv HC. destruct (decrypt_session T key iv [C] Hk Hiv ltac:(repeat constructor; assumption)) as (outs & d & E & _).
  cbn [concat] in E. rewrite app_nil_r in E. rewrite <- reply_ok. unfold decrypts. rewrite E. split.
  - intros (outs' & m & d' & E'). injection E' as E' _. exists m.
    apply app_inj_tail in E'. apply E'.
  - intros [m Hm]. rewrite Hm. eauto.
Qed.

Lemma held_last k l b : (1 <= k)%nat -> length b = k -> (length l mod k = 0)%nat -> held k (l ++ b) = b.
Proof.
  intros Hk Hb Hl. unfold held. rewrite app_length, Hb.
  pose proof (Nat.div_mod (length l) k ltac:(lia)) as D. rewrite Hl, Nat.add_0_r in D.
  replace (length l + k - 1)%nat with (k - 1 + length l / k * k)%nat by lia.
  rewrite Nat.div_add by lia. rewrite (Nat.div_small (k - 1)) by lia. cbn [Nat.add]. rewrite <- D.
  rewrite skipn_app, skipn_all, Nat.sub_diag. reflexivity.
Qed.

(** Whatever the key, the initialisation vector and the ciphertext so far (any
    number of blocks): of all blocks that may come last, the same number is
    accepted, about one in 128. *)
Theorem C79_decipher_accepts : forall T key iv A,
  good_key key -> good_block iv -> octets A -> (length A mod 16 = 0)%nat ->
  counted 16 (fun X => decrypts T key iv (A ++ X)) accepted16.
Proof.
  intros T key iv A Hk Hiv HA Hm. set (prev := last (blocks 16 A) iv).
  assert (Hp : good_block prev) by (apply last_block_good; assumption).
  assert (H : counted 16 (fun X => exists m, Stream.strip 16 (xor (Spec.Aes.InvCipher key X) prev) = Stream.Stripped m)
    accepted16).
  { rewrite <- accepted16_ok.
    apply (Proofs.Count.counted_bij 16 (fun b => exists m, Stream.strip 16 b = Stream.Stripped m) _
      (fun X => xor (Spec.Aes.InvCipher key X) prev) (fun Y => Spec.Aes.Cipher key (xor Y prev))).
    - intros b Hl Ho. destruct Hk as [Hk1 Hk2].
      pose proof (Proofs.AesCbc.InvCipher_block key b Hk1 Hk2 (conj Ho Hl)) as HI.
      pose proof (xor_good _ _ HI Hp) as HX. split; [apply HX|]. split; [apply HX|].
      rewrite xor_cancel_r by (rewrite (proj2 HI), (proj2 Hp); reflexivity).
      apply Proofs.AesCbc.Cipher_InvCipher_block; [assumption|assumption|split; assumption].
    - intros b Hl Ho. destruct Hk as [Hk1 Hk2].
      assert (HX : good_block (xor b prev)) by (apply xor_good; [split; assumption|assumption]).
      pose proof (Proofs.AesCbc.Cipher_block key (xor b prev) Hk1 Hk2) as HC.
      split; [apply HC|]. split; [apply HC|].
      rewrite Proofs.AesCbc.InvCipher_Cipher_block by assumption.
      apply xor_cancel_r. rewrite (proj2 Hp). assumption.
    - apply Proofs.Count.stripped_count. lia. }
  revert H. apply Proofs.Count.counted_ext. intros X Hl Ho.
  rewrite decrypts_strip by (try assumption; apply octets_app; split; assumption).
  pose proof (raw_cut key iv A X [] Hk Hiv HA (conj Ho Hl) ltac:(constructor) Hm) as R. cbv zeta in R. fold prev in R.
  rewrite app_nil_r in R. change (raw key X []) with (@nil N) in R. rewrite app_nil_r in R. rewrite R.
  assert (HI : good_block (Spec.Aes.InvCipher key X)).
  { destruct Hk. apply Proofs.AesCbc.InvCipher_block; [assumption|assumption|split; assumption]. }
  rewrite held_last; [reflexivity|lia| |].
  - apply (proj2 (xor_good _ _ HI Hp)).
  - rewrite raw_multiple by assumption. assumption.
Qed.
Print Assumptions C79_decipher_accepts.

(** And of all initialisation vectors for a given block. *)
Theorem C79_vectors_accepted : forall T key X, good_key key -> good_block X ->
  counted 16 (fun iv => decrypts T key iv X) accepted16.
Proof.
  intros T key X Hk HX.
  assert (HI : good_block (Spec.Aes.InvCipher key X)).
  { destruct Hk. apply Proofs.AesCbc.InvCipher_block; assumption. }
  set (Y := Spec.Aes.InvCipher key X) in *.
  assert (H : counted 16 (fun iv => exists m, Stream.strip 16 (xor Y iv) = Stream.Stripped m) accepted16).
  { rewrite <- accepted16_ok.
    apply (Proofs.Count.counted_bij 16 (fun b => exists m, Stream.strip 16 b = Stream.Stripped m) _ (xor Y) (xor Y)).
    1, 2: intros b Hl Ho; pose proof (xor_good _ _ HI (conj Ho Hl)) as Hx; split; [apply Hx|]; split; [apply Hx|];
      apply xor_cancel_l; rewrite (proj2 HI); symmetry; assumption.
    apply Proofs.Count.stripped_count. lia. }
  revert H. apply Proofs.Count.counted_ext. intros iv Hl Ho. assert (Hiv : good_block iv) by (split; assumption).
  rewrite decrypts_strip by (try assumption; apply HX).
  pose proof (raw_cut key iv [] X [] Hk Hiv ltac:(constructor) HX ltac:(constructor) eq_refl) as R. cbv zeta in R.
  cbn [app] in R. rewrite app_nil_r in R. change (raw key iv []) with (@nil N) in R.
  change (raw key X []) with (@nil N) in R. rewrite app_nil_r in R. cbn [app] in R. change (last (blocks 16 []) iv) with iv in R.
  fold Y in R. rewrite R. rewrite held_block; [reflexivity|lia|]. apply (proj2 (xor_good _ _ HI Hiv)).
Qed.
Print Assumptions C79_vectors_accepted.

(** The number; more than two of 256 blocks, and the count is of something: the
    unpadder takes a block of 16 octets ending in 0 and one ending in 2, 2, and refuses one
    ending in 3, 2. *)
Example C79_example :
  accepted16 = 2663668650376831415897432971777474817 /\ 2 * 256 ^ 15 < accepted16 < 2 * 256 ^ 15 + 256 ^ 14 * 2 /\
  let T := mkTarget W64 true in
  let b x y := repeat 7 14 ++ [x; y] in
  unpad_stream T 16 [b 7 0] = Ret ([None], Ok (b 7 0)) /\
  unpad_stream T 16 [b 2 2] = Ret ([None], Ok (repeat 7 14)) /\
  unpad_stream T 16 [b 3 2] = Ret ([None], Err InvalidPadding) /\
  good_key (repeat 7 16) /\ good_block (repeat 9 16).
Proof.
  split; [reflexivity|]. split; [split; reflexivity|]. cbv zeta.
  split; [vm_compute; reflexivity|]. split; [vm_compute; reflexivity|]. split; [vm_compute; reflexivity|].
  split; [split; [repeat constructor|left; reflexivity]|]. split; [repeat constructor|reflexivity].
Qed.
