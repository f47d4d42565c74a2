(** C78: one password and salt with several iteration counts. *)
From Coq Require Import ZArith NArith List Arith Lia Bool ZifyBool ZifyNat ZifyN.
From Verif Require Import Rust Calls.
From Verif.Model Require Sha256 Hmac Pbkdf2.
From Verif.Leak Require Ops Steps Pbkdf2 Calls.
From Verif.Spec Require Octets Hasher Hmac Pbkdf2.
From Verif.Proofs Require Import Base Leak LeakErase LeakCalls.
From Verif.Proofs Require Oracle Pbkdf2 Cost.
From Verif.Props Require Pbkdf2 Cost.
Import Spec.Octets.
Import Leak.Steps.
Import ListNotations.
Local Open Scope N_scope.
Ltac Zify.zify_post_hook ::= Z.div_mod_to_equations.

(** Block [k] (from 0) of a derived key. *)
Definition block (k : nat) (dk : list N) : list N := firstn 32 (skipn (32 * k) dk).

(** Authenticating [x] under the password with the crate's [HMac]. *)
Definition tag (T : target) (P x : list N) : res (list N) :=
  let* m := Model.Hmac.hmac_new T P in
  let* m := Model.Hmac.hmac_update T m x in
  let* (d, _) := Model.Hmac.hmac_digest T m in
  Ret d.

Lemma tag_ok T P x : octets P -> octets x -> 8 * N.of_nat (length P) < usize_mod T ->
  8 * N.of_nat (64 + length x) < usize_mod T -> tag T P x = Ret (Spec.Hmac.hmac P x).
Proof.
  intros HP Hx H1 H2. destruct (Proofs.Pbkdf2.prf_ok T P x HP Hx H1 H2) as (m & m' & m'' & E1 & E2 & E3).
  unfold tag. rewrite E1. cbn [bind]. rewrite E2. cbn [bind]. rewrite E3. reflexivity.
Qed.

Lemma nth_first {A} n (l : list A) i d : (i < n)%nat -> nth i (firstn n l) d = nth i l d.
Proof.
  revert l i. induction n as [|n IH]; intros l i Hi; [lia|]. destruct l as [|x l]; [reflexivity|].
  destruct i as [|i]; [reflexivity|]. cbn [firstn nth]. apply IH. lia.
Qed.
Lemma block_is_F P S c n k : (32 * (k + 1) <= n)%nat ->
  block k (Spec.Pbkdf2.pbkdf2 P S c n) = Spec.Pbkdf2.F P S c (N.of_nat (k + 1)).
Proof.
  intros Hk. unfold block. apply (nth_ext _ _ 0 0).
  - rewrite firstn_length, skipn_length, Proofs.Pbkdf2.pbkdf2_length, Proofs.Pbkdf2.F_length. lia.
  - intros i Hi. rewrite firstn_length, skipn_length, Proofs.Pbkdf2.pbkdf2_length in Hi.
    rewrite nth_first by lia. rewrite Proofs.Oracle.nth_skipn. rewrite Proofs.Pbkdf2.nth_pbkdf2 by lia.
    replace ((32 * k + i) mod 32)%nat with i by lia. replace ((32 * k + i) / 32)%nat with k by lia. reflexivity.
Qed.

Lemma next_block P S c i : 1 <= c ->
  Spec.Pbkdf2.F P S (c + 1) i = xor (Spec.Pbkdf2.F P S c i) (Spec.Pbkdf2.U P S i (N.to_nat c)).
Proof.
  intros Hc. unfold Spec.Pbkdf2.F. replace (N.to_nat (c + 1 - 1)) with (Datatypes.S (N.to_nat (c - 1))) by lia.
  cbn [Spec.Pbkdf2.F_upto]. replace (Datatypes.S (N.to_nat (c - 1))) with (N.to_nat c) by lia. reflexivity.
Qed.
Lemma step_block P S c i : 1 <= c ->
  xor (Spec.Pbkdf2.F P S c i) (Spec.Pbkdf2.F P S (c + 1) i) = Spec.Pbkdf2.U P S i (N.to_nat c).
Proof.
  intros Hc. rewrite next_block by assumption. apply xor_cancel_l.
  rewrite Proofs.Pbkdf2.F_length, Proofs.Pbkdf2.U_length. reflexivity.
Qed.

Lemma room T P S : Proofs.Pbkdf2.fits T P S -> 8 * N.of_nat (64 + 32) < usize_mod T.
Proof. intros _. pose proof (usize_mod_ge T) as H. change (2 ^ 32) with 4294967296 in H. lia. Qed.

(** The keys derived with [c], [c + 1] and [c + 2] iterations: in every block the
    difference of the last two is the HMAC, under the password, of the
    difference of the first two. *)
Theorem C78_three_counts : forall T P S c out,
  octets P -> octets S -> Props.Pbkdf2.sizes_ok T P S out -> 1 <= c ->
  exists k1 k2 k3,
    Model.Pbkdf2.pbkdf2_sha256 T P S c out = Ret k1 /\
    Model.Pbkdf2.pbkdf2_sha256 T P S (c + 1) out = Ret k2 /\
    Model.Pbkdf2.pbkdf2_sha256 T P S (c + 2) out = Ret k3 /\
    forall b, (32 * (b + 1) <= length out)%nat ->
      tag T P (xor (block b k1) (block b k2)) = Ret (xor (block b k2) (block b k3)).
Proof.
  intros T P S c out HP HS (H1 & H2 & H3) Hc.
  assert (Hf : Proofs.Pbkdf2.fits T P S) by (split; assumption).
  exists (Spec.Pbkdf2.pbkdf2 P S c (length out)), (Spec.Pbkdf2.pbkdf2 P S (c + 1) (length out)),
    (Spec.Pbkdf2.pbkdf2 P S (c + 2) (length out)).
  do 3 (split; [apply Proofs.Pbkdf2.pbkdf2_ok; assumption|]).
  intros b Hb. rewrite !block_is_F by assumption. rewrite step_block by assumption.
  replace (c + 2) with (c + 1 + 1) by lia. rewrite step_block by lia.
  rewrite tag_ok; [|assumption|apply Proofs.Pbkdf2.octets_U|assumption|].
  - replace (N.to_nat (c + 1)) with (Datatypes.S (N.to_nat c)) by lia. reflexivity.
  - rewrite Proofs.Pbkdf2.U_length. exact (room T P S Hf).
Qed.
Print Assumptions C78_three_counts.

(** The keys of one and of two iterations are enough. *)
Theorem C78_one_and_two : forall T P S out,
  octets P -> octets S -> Props.Pbkdf2.sizes_ok T P S out ->
  exists k1 k2,
    Model.Pbkdf2.pbkdf2_sha256 T P S 1 out = Ret k1 /\
    Model.Pbkdf2.pbkdf2_sha256 T P S 2 out = Ret k2 /\
    forall b, (32 * (b + 1) <= length out)%nat ->
      tag T P (block b k1) = Ret (xor (block b k1) (block b k2)).
Proof.
  intros T P S out HP HS (H1 & H2 & H3).
  assert (Hf : Proofs.Pbkdf2.fits T P S) by (split; assumption).
  exists (Spec.Pbkdf2.pbkdf2 P S 1 (length out)), (Spec.Pbkdf2.pbkdf2 P S 2 (length out)).
  do 2 (split; [apply Proofs.Pbkdf2.pbkdf2_ok; assumption|]).
  intros b Hb. rewrite !block_is_F by assumption. change 2 with (1 + 1). rewrite step_block by lia.
  rewrite tag_ok; [reflexivity|assumption|apply Proofs.Pbkdf2.octets_F|assumption|].
  rewrite Proofs.Pbkdf2.F_length. exact (room T P S Hf).
Qed.
Print Assumptions C78_one_and_two.

(** The test of a password on one block costs less than one iteration: whoever has
    the three keys tests passwords [c] times as fast as the iteration count says. *)
Theorem C78_test_steps : forall T P S c out x,
  octets P -> octets S -> Props.Pbkdf2.sizes_ok T P S out -> octets x -> length x = 32%nat ->
  (32 <= length out)%nat ->
  let test := steps (Leak.Calls.hmac_session T P [Hasher.Update x; Hasher.Digest]) in
  test = Props.Cost.key_steps (N.of_nat (length P)) + 1690 /\
  c * test <= steps (Leak.Pbkdf2.pbkdf2_sha256 T P S c out).
Proof.
  intros T P S c out x HP HS Hs Hx Lx Ho test.
  assert (Et : test = Props.Cost.key_steps (N.of_nat (length P)) + 1690).
  { destruct Hs as (H1 & H2 & H3). pose proof (room T P S (conj H1 H2)) as Hr.
    destruct (Proofs.Pbkdf2.prf_ok T P x HP Hx H1 ltac:(rewrite Lx; exact Hr)) as (m & m' & m'' & E1 & E2 & E3).
    assert (Lx' : len x = 32) by (unfold len; lia).
    assert (Sp : Cost.spends (fun _ => True) (Cost.new_steps (len P) + (Cost.update_steps 64 (len x) +
      (Cost.digest_steps (64 + len x) + 845 + 0 + 0 )))
      (Leak.Calls.hmac_session T P [Hasher.Update x; Hasher.Digest])).
    { unfold Leak.Calls.hmac_session. eapply Cost.sp_bind; [apply Cost.sp_hmac_new; unfold len; lia|]. intros m0 H0.
      cbn [Leak.Calls.hmac_calls].
      eapply Cost.sp_bind; [apply Cost.sp_hmac_update; [exact H0|lia]|]. intros m1 K1.
      eapply Cost.sp_eq; [|eapply Cost.sp_bind; [|intros rs _; apply Cost.sp_ret; exact I]].
      2: { eapply Cost.sp_bind; [apply Cost.sp_hmac_digest; [exact K1|rewrite Lx'; lia]|]. intros [d m2] _.
           eapply Cost.sp_bind; [apply (Cost.sp_ret (fun _ => True)); exact I|]. intros rs _.
           apply (Cost.sp_ret (fun _ => True)). exact I. }
      lia. }
    assert (R : exists r, Ops.outcome (Leak.Calls.hmac_session T P [Hasher.Update x; Hasher.Digest]) = Ret r).
    { unfold Leak.Calls.hmac_session. rewrite outcome_bind, hmac_new_er, E1. cbn [bind Leak.Calls.hmac_calls].
      rewrite outcome_bind, hmac_update_er, E2. cbn [bind].
      rewrite outcome_bind. rewrite outcome_bind, hmac_digest_er, E3. cbn [bind]. eexists. reflexivity. }
    destruct R as [r R]. destruct (Sp r R) as [E _]. unfold test. rewrite E, Props.Cost.key_steps_ok, Lx'.
    unfold len. change (Cost.update_steps 64 32) with 97. change (Cost.digest_steps (64 + 32)) with 748. lia. }
  split; [exact Et|]. rewrite Et, Props.Cost.C72_pbkdf2_steps by assumption.
  unfold Props.Cost.pbkdf2_work, Props.Cost.salt_steps, Props.Cost.padded_blocks.
  set (p := Props.Cost.key_steps _). set (s := N.of_nat (length S)). set (d := N.of_nat (length out)).
  assert (Hd : 32 <= d) by (subst d; lia). assert (Hb : 1 <= (d + 31) / 32) by lia.
  assert (Hsl : 1653 <= 922 + 3 * s + 2 * (64 - (s + 4) mod 64) + 621 * ((s + 4 + 8) / 64 + 1)) by lia.
  set (sl := 922 + 3 * s + _ + _) in *. set (bl := (d + 31) / 32) in *. clearbody sl bl p s d. clear -Hd Hb Hsl.
  destruct (N.eq_dec c 0) as [->|Hc]; [lia|]. replace c with (c - 1 + 1) at 1 by lia.
  set (c' := c - 1). clearbody c'. clear Hc.
  assert (4 + p + sl + c' * (p + 1820) <= bl * (4 + p + sl + c' * (p + 1820))) by nia. nia.
Qed.
Print Assumptions C78_test_steps.

(** The keys of one (the start of RFC 7914's first PBKDF2 vector), two and three iterations;
    another password fails the test. *)
Example C78_example :
  let T := mkTarget W32 true in
  let P := [112; 97; 115; 115; 119; 100] in
  let S := [115; 97; 108; 116] in
  let k1 := [0x55; 0xac; 0x04; 0x6e; 0x56; 0xe3; 0x08; 0x9f; 0xec; 0x16; 0x91; 0xc2; 0x25; 0x44; 0xb6; 0x05;
             0xf9; 0x41; 0x85; 0x21; 0x6d; 0xde; 0x04; 0x65; 0xe6; 0x8b; 0x9d; 0x57; 0xc2; 0x0d; 0xac; 0xbc] in
  let k2 := [0x2d; 0x41; 0x2f; 0x89; 0x6e; 0x76; 0x68; 0x5e; 0x30; 0xdf; 0x56; 0x9f; 0x0a; 0x74; 0x06; 0x34;
             0xe3; 0x1f; 0x03; 0x1f; 0x74; 0x9d; 0x60; 0x7d; 0x9e; 0x44; 0x21; 0x0b; 0xff; 0xb9; 0x1a; 0x6a] in
  let k3 := [0x92; 0xdf; 0x5c; 0x4c; 0xd7; 0xd9; 0x00; 0xab; 0x0b; 0x42; 0x33; 0x6e; 0xa6; 0x17; 0xca; 0xa1;
             0xd3; 0x44; 0x0c; 0xb9; 0x3b; 0x8e; 0x8f; 0xb0; 0x3f; 0xe3; 0xb3; 0x17; 0x81; 0xc7; 0x23; 0xcc] in
  octets P /\ octets S /\ Props.Pbkdf2.sizes_ok T P S (repeat 0 32) /\
  Model.Pbkdf2.pbkdf2_sha256 T P S 1 (repeat 0 32) = Ret k1 /\
  Model.Pbkdf2.pbkdf2_sha256 T P S 2 (repeat 0 32) = Ret k2 /\
  Model.Pbkdf2.pbkdf2_sha256 T P S 3 (repeat 0 32) = Ret k3 /\
  tag T P (xor (block 0 k1) (block 0 k2)) = Ret (xor (block 0 k2) (block 0 k3)) /\
  tag T [112] (xor (block 0 k1) (block 0 k2)) <> Ret (xor (block 0 k2) (block 0 k3)).
Proof.
  cbv zeta. split; [repeat constructor|]. split; [repeat constructor|].
  split; [split; [|split]; vm_compute; (reflexivity || discriminate)|].
  do 4 (split; [vm_compute; reflexivity|]). vm_compute. discriminate.
Qed.
