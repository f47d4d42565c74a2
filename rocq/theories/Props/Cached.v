(** C99: PBKDF2 with the two pads of the password computed once. *)
From Coq Require Import ZArith NArith List Arith Lia Bool ZifyBool ZifyNat ZifyN.
From Verif Require Import Rust.
From Verif.Leak Require Ops Steps Sha256 Pbkdf2.
From Verif.Model Require Sha256 Pbkdf2.
From Verif.Spec Require Octets Sha256 Pbkdf2 Cached.
From Verif.Proofs Require Import Base.
From Verif.Proofs Require Cost LeakErase Sha256Core Pbkdf2 Cached.
From Verif.Props Require Pbkdf2 Cost.
Import ListNotations.
Import Spec.Octets Leak.Steps.
Import Props.Cost.
Local Open Scope N_scope.

(** For the example. *)
Local Transparent Model.Sha256.K Model.Sha256.H.

(** Blocks that hashing a password takes, which happens to those of more than 64 octets. *)
Definition password_blocks (p : N) : N := if p <=? 64 then 0 else padded_blocks p.

(** The same key, by the algorithm that keeps the two chaining values ... *)
Theorem C99_same_key : forall T P Salt c out,
  octets P -> octets Salt -> Props.Pbkdf2.sizes_ok T P Salt out ->
  Model.Pbkdf2.pbkdf2_sha256 T P Salt c out = Ret (fst (Spec.Cached.derive P Salt c (length out))).
Proof.
  intros T P Salt c out HP HS (H1 & H2 & H3). rewrite Cached.derive_ok.
  apply Proofs.Pbkdf2.pbkdf2_ok; try assumption. split; assumption.
Qed.
Print Assumptions C99_same_key.

(** ... with this number of compressions: two for the pads, and two for each iteration
    after the first. *)
Theorem C99_compressions : forall P Salt c n,
  snd (Spec.Cached.derive P Salt c n) =
  password_blocks (N.of_nat (length P)) + 2 +
  (N.of_nat n + 31) / 32 * (padded_blocks (N.of_nat (length Salt) + 4) + 1 + 2 * (c - 1)).
Proof.
  intros P Salt c n. rewrite Cached.derive_ok. cbn [snd]. unfold Cached.block_count, password_blocks, padded_blocks.
  f_equal; [f_equal|f_equal].
  - destruct (Nat.ltb_spec 64 (length P)), (N.leb_spec (N.of_nat (length P)) 64); try lia.
  - rewrite Nat2N.inj_div. f_equal. lia.
  - replace (N.of_nat (length Salt) + 76) with (N.of_nat (length Salt) + 4 + 8 + 1 * 64) by lia.
    rewrite N.div_add by discriminate. reflexivity.
Qed.
Print Assumptions C99_compressions.

(** The program makes the pads (and the hash of a long password) anew in each
    iteration.  Its compression takes 524 steps, whatever it works on ... *)
Theorem C99_compression_steps : forall h b,
  length h = 8%nat -> length b = 16%nat ->
  Forall (fun w => w < 2 ^ 32) h -> Forall (fun w => w < 2 ^ 32) b ->
  steps (Leak.Sha256.process_block h b) = 524.
Proof.
  intros h b Hh Hb Wh Wb.
  refine (proj1 (Cost.sp_process h b Hh Hb (Spec.Sha256.compress h b) _)).
  rewrite LeakErase.process_block_er. apply Proofs.Sha256Core.process_block_ok; assumption.
Qed.
Print Assumptions C99_compression_steps.

(** ... and its steps are at least those of the compressions it makes:
    [l * c - 1] times the pads and the hash of the password more than needed. *)
Theorem C99_program_work : forall T P Salt c out,
  octets P -> octets Salt -> Props.Pbkdf2.sizes_ok T P Salt out -> 1 <= c -> out <> [] ->
  let l := (N.of_nat (length out) + 31) / 32 in
  524 * (snd (Spec.Cached.derive P Salt c (length out)) +
         (l * c - 1) * (password_blocks (N.of_nat (length P)) + 2)) <=
  steps (Leak.Pbkdf2.pbkdf2_sha256 T P Salt c out).
Proof.
  intros T P Salt c out HP HS HT Hc Ho. cbn zeta.
  rewrite C99_compressions, C72_pbkdf2_steps by assumption.
  assert (Hl : 1 <= (N.of_nat (length out) + 31) / 32).
  { destruct out as [|x out]; [contradiction|]. cbn [length]. apply N.div_le_lower_bound; lia. }
  unfold pbkdf2_work, salt_steps.
  assert (HK : 524 * (password_blocks (N.of_nat (length P)) + 2) <= key_steps (N.of_nat (length P))).
  { unfold password_blocks, key_steps, hash_steps. destruct (N.leb_spec (N.of_nat (length P)) 64); [lia|].
    unfold padded_blocks. lia. }
  revert HK Hl.
  generalize (password_blocks (N.of_nat (length P))), (key_steps (N.of_nat (length P))),
    (padded_blocks (N.of_nat (length Salt) + 4)), ((N.of_nat (length out) + 31) / 32).
  intros b K s l HK Hl.
  generalize (2 * (64 - (N.of_nat (length Salt) + 4) mod 64)). intros z.
  generalize (N.of_nat (length Salt)), (N.of_nat (length out)). intros t d.
  assert (E : 524 * (b + 2 + l * (s + 1 + 2 * (c - 1)) + (l * c - 1) * (b + 2)) =
              l * (c * (524 * (b + 2)) + 524 * s + 524 + (c - 1) * 1048)).
  { assert (L1 : 1 <= l * c) by nia.
    assert (M : (l * c - 1) * (b + 2) + (b + 2) = l * c * (b + 2)).
    { replace (l * c) with (l * c - 1 + 1) at 2 by lia. lia. }
    nia. }
  rewrite E.
  assert (F : c * (524 * (b + 2)) <= K + (c - 1) * K).
  { replace (K + (c - 1) * K) with (c * K) by nia. apply N.mul_le_mono_l, HK. }
  apply N.le_trans with (l * (4 + K + (922 + 3 * t + z + 621 * s) + (c - 1) * (K + 1820))); [|lia].
  apply N.mul_le_mono_l. nia.
Qed.
Print Assumptions C99_program_work.

(** So with a salt of up to 51 octets half of the program's work is enough, but for
    the pads: the claim that each guess of a password costs what the program spends is
    refuted. *)
Theorem C99_half_refuted : forall T P Salt c out,
  octets P -> octets Salt -> Props.Pbkdf2.sizes_ok T P Salt out -> 1 <= c -> out <> [] ->
  (length Salt <= 51)%nat ->
  let k := snd (Spec.Cached.derive P Salt c (length out)) in
  2 * (524 * k) <= steps (Leak.Pbkdf2.pbkdf2_sha256 T P Salt c out) +
                   1048 * (password_blocks (N.of_nat (length P)) + 2).
Proof.
  intros T P Salt c out HP HS HT Hc Ho HL. cbn zeta.
  pose proof (C99_program_work T P Salt c out HP HS HT Hc Ho) as W. cbn zeta in W.
  rewrite C99_compressions in *. revert W.
  generalize (steps (Leak.Pbkdf2.pbkdf2_sha256 T P Salt c out)). intros w W.
  assert (Hl : 1 <= (N.of_nat (length out) + 31) / 32).
  { destruct out as [|x out]; [contradiction|]. cbn [length]. apply N.div_le_lower_bound; lia. }
  replace (padded_blocks (N.of_nat (length Salt) + 4)) with 1 in *
    by (unfold padded_blocks; rewrite N.div_small by lia; reflexivity).
  revert W Hl. generalize (password_blocks (N.of_nat (length P))), ((N.of_nat (length out) + 31) / 32).
  intros b l W Hl.
  assert (M : l * (1 + 1 + 2 * (c - 1)) = 2 * (l * c)) by nia. rewrite M in *.
  assert (L1 : 1 <= l * c) by nia. revert W L1. generalize (l * c). intros x W L1.
  assert (2 * (x - 1) <= (x - 1) * (b + 2)) by nia. lia.
Qed.
Print Assumptions C99_half_refuted.

(** A password of 8 octets and one of 80, two iterations, one block: the keys and the
    compressions; and the numbers for a million iterations. *)
Example C99_example :
  let P := [112; 97; 115; 115; 119; 111; 114; 100] in
  let Salt := [115; 97; 108; 116] in
  let T := mkTarget W64 true in
  Spec.Cached.derive P Salt 2 32 =
    ([174; 77; 12; 149; 175; 107; 70; 211; 45; 10; 223; 249; 40; 240; 109; 208;
      42; 48; 63; 142; 243; 194; 81; 223; 214; 226; 216; 90; 149; 71; 76; 67], 6) /\
  snd (Spec.Cached.derive (repeat 97 80) Salt 2 32) = 8 /\
  snd (Spec.Cached.derive P Salt 1000000 32) = 2000002 /\
  steps (Leak.Pbkdf2.pbkdf2_sha256 T P Salt 1000000 (repeat 0 32)) = 3585999884.
Proof.
  cbn zeta.
  set (P := [112; 97; 115; 115; 119; 111; 114; 100]). set (Salt := [115; 97; 108; 116]).
  set (T := mkTarget W64 true).
  assert (HP : octets P) by repeat constructor.
  assert (HS : octets Salt) by repeat constructor.
  assert (HT : Props.Pbkdf2.sizes_ok T P Salt (repeat 0 32)) by (repeat split; vm_compute; congruence).
  split.
  - rewrite (surjective_pairing (Spec.Cached.derive _ _ _ _)), C99_compressions.
    pose proof (C99_same_key T P Salt 2 (repeat 0 32) HP HS HT) as E.
    apply (f_equal (fun r => match r with Ret x => x | _ => [] end)) in E. cbv beta iota in E.
    change (length (repeat 0 32)) with 32%nat in E. rewrite <- E. vm_compute. reflexivity.
  - rewrite !C99_compressions, C72_pbkdf2_steps by assumption. repeat apply conj; vm_compute; reflexivity.
Qed.
