(** C71-C73: how many steps the functions take.  A step is an event of the
    records of Leak/Ops.v: an index, a slice, a branch, a loop test, an allocation;
    traversing [n] elements counts [n] (Leak/Steps.v). *)
From Coq Require Import ZArith NArith List Arith Lia Bool ZifyBool ZifyNat ZifyN.
From Verif Require Import Rust Calls.
From Verif.Model Require Sha256 Hmac Pbkdf2 Salsa20 Scrypt.
From Verif.Leak Require Ops Steps Sha256 Hmac Pbkdf2 Salsa20 Scrypt Calls.
From Verif.Spec Require Octets Hasher Sha256 Pbkdf2 Scrypt.
From Verif.Proofs Require Import Base Bits Leak LeakErase LeakCalls.
From Verif.Proofs Require Sha256Main Pbkdf2 Scrypt Cost.
From Verif.Props Require Sha256 Pbkdf2 Scrypt.
Import Spec.Octets.
Import Leak.Steps.
Import ListNotations.
Local Open Scope N_scope.
Ltac Zify.zify_post_hook ::= Z.div_mod_to_equations.

(** For the examples. *)
Local Transparent Model.Sha256.K Model.Sha256.H.

(** * C71: SHA-256 *)

(** The 512-bit blocks a message of [n] octets is padded to. *)
Definition padded_blocks (n : N) : N := (n + 8) / 64 + 1.

Theorem C71_blocks_of_the_standard : forall m : list N,
  N.of_nat (length (Spec.Sha256.pad (bits_of_octets m))) = 512 * padded_blocks (N.of_nat (length m)).
Proof.
  intros m. unfold Spec.Sha256.pad, Spec.Sha256.pad_zeros, padded_blocks, bits_of_num.
  rewrite !app_length, repeat_length, rev_length, map_length, seq_length, bits_of_octets_length. cbn [length].
  lia.
Qed.
Print Assumptions C71_blocks_of_the_standard.

Lemma fed_chunks chunks : Hasher.bytes_fed (map Hasher.Update chunks ++ [Hasher.Digest]) =
  N.of_nat (length (concat chunks)).
Proof.
  induction chunks as [|d ds IH]; [reflexivity|]. cbn [map app Hasher.bytes_fed concat].
  rewrite IH, app_length. lia.
Qed.
Lemma sha_returns T chunks : octets (concat chunks) -> 8 * N.of_nat (length (concat chunks)) < usize_mod T ->
  ~ In None (sha_run T (map Hasher.Update chunks ++ [Hasher.Digest]) Model.Sha256.sha256_new).
Proof.
  intros Ho Hn Hi.
  assert (F : Forall sha_call_ok (map Hasher.Update chunks ++ [Hasher.Digest])).
  { apply Forall_app. split; [|repeat constructor]. apply Forall_forall. intros c Hc.
    apply in_map_iff in Hc. destruct Hc as (d & <- & Hd). apply Forall_forall. intros b Hb.
    unfold octets in Ho. rewrite Forall_forall in Ho. apply Ho. apply in_concat. exists d. split; assumption. }
  pose proof (Props.Sha256.C03_total_and_32_bytes T _ F) as H. rewrite fed_chunks in H.
  specialize (H ltac:(lia) ltac:(right; left; exact Hn)). clear F.
  induction H as [|c o cs os Hco H IH]; [exact Hi|]. destruct Hi as [->|Hi]; [exact Hco|exact (IH Hi)].
Qed.

(** Hashing [n] octets given in any number of pieces. *)
Theorem C71_sha256_steps : forall T chunks,
  octets (concat chunks) -> 8 * N.of_nat (length (concat chunks)) < usize_mod T ->
  let n := N.of_nat (length (concat chunks)) in
  steps (Leak.Calls.sha_session T (map Hasher.Update chunks ++ [Hasher.Digest]) Model.Sha256.sha256_new) =
  N.of_nat (length chunks) + 3 * n + 2 * (64 - n mod 64) + 63 + 621 * padded_blocks n.
Proof.
  intros T chunks Ho Hn n.
  assert (R : exists r, Ops.outcome
    (Leak.Calls.sha_session T (map Hasher.Update chunks ++ [Hasher.Digest]) Model.Sha256.sha256_new) = Ret r).
  { pose proof (sha_session_er T (map Hasher.Update chunks ++ [Hasher.Digest]) Model.Sha256.sha256_new) as H.
    destruct (Ops.outcome _) as [r| |]; [exists r; reflexivity|exfalso..]; revert H;
      apply (sha_returns T chunks Ho Hn). }
  destruct R as [r R].
  assert (H0 : 8 * (0 + len (concat chunks)) < usize_mod T) by exact Hn.
  destruct (Cost.sp_session T chunks _ 0 Cost.at_new H0 _ R) as [E _].
  rewrite E. unfold len, padded_blocks, Cost.CB. fold n. change (0 / 64) with 0. rewrite N.add_0_l, N.sub_0_r. lia.
Qed.
Print Assumptions C71_sha256_steps.

(** At most 13 steps for each octet, one for each piece and 900 more. *)
Theorem C71_linear : forall T chunks,
  octets (concat chunks) -> 8 * N.of_nat (length (concat chunks)) < usize_mod T ->
  steps (Leak.Calls.sha_session T (map Hasher.Update chunks ++ [Hasher.Digest]) Model.Sha256.sha256_new) <=
  13 * N.of_nat (length (concat chunks)) + N.of_nat (length chunks) + 900.
Proof. intros T chunks Ho Hn. rewrite C71_sha256_steps by assumption. unfold padded_blocks. lia. Qed.
Print Assumptions C71_linear.

Example C71_example :
  let T := mkTarget W64 true in
  let work chunks := steps (Leak.Calls.sha_session T (map Hasher.Update chunks ++ [Hasher.Digest])
    Model.Sha256.sha256_new) in
  work [] = 812 /\ work [[97; 98; 99]] = 816 /\ work [[97]; []; [98; 99]] = 818 /\
  work [repeat 0 55] = 868 /\ work [repeat 0 56] = 1490.
Proof. repeat split; lazy; reflexivity. Qed.

(** * C72: PBKDF2 *)

(** Hashing [n] octets at once; making an HMAC state from a key of [n] octets; the
    rest of the MAC of a salt of [n] octets and a block number. *)
Definition hash_steps (n : N) : N := 1 + 3 * n + 2 * (64 - n mod 64) + 63 + 621 * padded_blocks n.
Definition key_steps (n : N) : N := if n <=? 64 then 1758 + n else 1791 + hash_steps n.
Definition salt_steps (n : N) : N := 922 + 3 * n + 2 * (64 - (n + 4) mod 64) + 621 * padded_blocks (n + 4).

Lemma key_steps_ok n : Cost.new_steps n = key_steps n.
Proof.
  unfold Cost.new_steps, key_steps, hash_steps, Cost.update_steps, Cost.digest_steps, Cost.last_blocks, Cost.CB,
    padded_blocks. destruct (n <=? 64); [reflexivity|]. lia.
Qed.
Lemma salt_steps_ok p s : Cost.first_steps p s = key_steps p + salt_steps s.
Proof.
  unfold Cost.first_steps. rewrite key_steps_ok.
  unfold salt_steps, Cost.update_steps, Cost.digest_steps, Cost.last_blocks, Cost.CB, padded_blocks. lia.
Qed.

(** The cost of [c] iterations for [d] octets of output, with a password of [p]
    octets and a salt of [s]: every iteration makes the HMAC state anew. *)
Definition pbkdf2_work (p s c d : N) : N :=
  1 + d + (d + 31) / 32 * (4 + key_steps p + salt_steps s + (c - 1) * (key_steps p + 1820)).

Theorem C72_pbkdf2_steps : forall T P S c out,
  octets P -> octets S -> Props.Pbkdf2.sizes_ok T P S out ->
  steps (Leak.Pbkdf2.pbkdf2_sha256 T P S c out) =
  pbkdf2_work (N.of_nat (length P)) (N.of_nat (length S)) c (N.of_nat (length out)).
Proof.
  intros T P S c out HP HS (H1 & H2 & H3).
  assert (R : Ops.outcome (Leak.Pbkdf2.pbkdf2_sha256 T P S c out) =
    Ret (Spec.Pbkdf2.pbkdf2 P S c (length out))).
  { rewrite pbkdf2_sha256_er. apply Proofs.Pbkdf2.pbkdf2_ok; try assumption. split; assumption. }
  assert (H1' : len P * 8 < usize_mod T) by (unfold len; lia).
  assert (H2' : (len S + 68) * 8 < usize_mod T) by (unfold len; lia).
  destruct (Cost.sp_pbkdf2 T P S c out H1' H2' H3 _ R) as [E _]. rewrite E.
  unfold Cost.pbkdf2_steps, pbkdf2_work, Cost.iteration_steps. rewrite key_steps_ok, salt_steps_ok.
  unfold len. rewrite !N.add_assoc. lia.
Qed.
Print Assumptions C72_pbkdf2_steps.

(** A password of more than 64 octets, which is replaced by its hash, costs one
    hash of the whole password in every iteration of every block; passing
    the hash gives the same key without that work. *)
Theorem C72_long_password : forall T P S c out,
  octets P -> octets S -> Props.Pbkdf2.sizes_ok T P S out -> (64 < length P)%nat -> 1 <= c ->
  let H := Spec.Sha256.sha256 P in
  Model.Pbkdf2.pbkdf2_sha256 T H S c out = Model.Pbkdf2.pbkdf2_sha256 T P S c out /\
  steps (Leak.Pbkdf2.pbkdf2_sha256 T P S c out) =
  steps (Leak.Pbkdf2.pbkdf2_sha256 T H S c out) +
  (N.of_nat (length out) + 31) / 32 * c *
  (1 + steps (Leak.Calls.sha_session T [Hasher.Update P; Hasher.Digest] Model.Sha256.sha256_new)).
Proof.
  intros T P S c out HP HS Hs HL Hc H.
  pose proof Hs as (H1 & H2 & H3).
  split; [symmetry; apply Props.Pbkdf2.C15_long_password; assumption|].
  assert (HH : octets H) by apply Proofs.Sha256Main.octets_spec_sha256.
  assert (LH : length H = 32%nat) by apply Proofs.Sha256Main.spec_sha256_length.
  assert (Hs' : Props.Pbkdf2.sizes_ok T H S out).
  { split; [|split; assumption]. rewrite LH. pose proof (usize_mod_ge T) as Hge. change (2 ^ 32) with 4294967296 in Hge. lia. }
  rewrite !C72_pbkdf2_steps by assumption.
  pose proof (C71_sha256_steps T [P]) as E. cbn [concat map app] in E. rewrite app_nil_r in E.
  rewrite (E HP H1). rewrite LH.
  unfold pbkdf2_work. change (key_steps (N.of_nat 32)) with 1790.
  set (n := N.of_nat (length P)). assert (Hn : 64 < n) by (subst n; lia).
  replace (key_steps n) with (1791 + hash_steps n)
    by (unfold key_steps; destruct (N.leb_spec n 64); [lia|reflexivity]).
  change (N.of_nat (length [P])) with 1. fold (hash_steps n).
  generalize (hash_steps n), (salt_steps (N.of_nat (length S))), ((N.of_nat (length out) + 31) / 32).
  intros h s b. assert (E' : exists k, c = 1 + k) by (exists (c - 1); lia). destruct E' as [k ->].
  replace (1 + k - 1) with k by lia. ring.
Qed.
Print Assumptions C72_long_password.

(** The work for one block of output, an HMAC key of the longest length that is
    not hashed, and of one octet more: 3642 steps for each iteration become 5238. *)
Example C72_example :
  let T := mkTarget W64 true in
  let work n c := steps (Leak.Pbkdf2.pbkdf2_sha256 T (repeat 97 n) [1; 2; 3; 4] c (repeat 0 32)) in
  work 64%nat 1 = 3526 /\ work 64%nat 2 = 7168 /\
  work 65%nat 2 = 10360.
Proof. repeat split; lazy; reflexivity. Qed.

(** * C73: scrypt *)
Theorem C73_scrypt_steps : forall T r n p P S out,
  Props.Scrypt.admissible r n p -> octets P -> octets S -> Props.Scrypt.sizes_ok T r n p P S out ->
  let V := p * 128 * r in
  steps (Leak.Scrypt.scrypt_derive T (Model.Scrypt.scrypt_new r n p) P S out) =
  pbkdf2_work (N.of_nat (length P)) (N.of_nat (length S)) 1 V +
  p * (n * (4972 * r + 26) + 5) + 3 * V + 7 +
  pbkdf2_work (N.of_nat (length P)) V 1 (N.of_nat (length out)).
Proof.
  intros T r n p P S out Ha HP HS Hs V.
  assert (R : Ops.outcome (Leak.Scrypt.scrypt_derive T (Model.Scrypt.scrypt_new r n p) P S out) =
    Ret (Ok tt, Spec.Scrypt.scrypt P S n (N.to_nat r) (N.to_nat p) (length out))).
  { rewrite scrypt_derive_er. apply Props.Scrypt.C20_scrypt_conforms; assumption. }
  destruct Hs as (H1 & H2 & H3 & H4 & H5).
  destruct (Props.Scrypt.admissible_accepted _ _ _ Ha) as (A1 & A2 & [k A3] & A4).
  set (s := Model.Scrypt.scrypt_new r n p) in *.
  assert (EV : Cost.volume s = V) by (unfold Cost.volume, V, s, Model.Scrypt.scrypt_new; cbn [Model.Scrypt.sr Model.Scrypt.sp]; ring).
  assert (D := Cost.sp_derive T s P S out A1 A2).
  rewrite EV in D.
  assert (Hz : N.land (Model.Scrypt.sn s - 1) (Model.Scrypt.sn s) = 0).
  { rewrite A3. apply Proofs.Scrypt.land_pred_pow2. }
  assert (H1' : len P * 8 < usize_mod T) by (unfold len; lia).
  assert (H2' : (len S + 68) * 8 < usize_mod T) by (unfold len; lia).
  assert (H3' : (V + 68) * 8 < usize_mod T) by (unfold V; lia).
  destruct (D Hz A4 H1' H2' H3' H5 _ R) as [E _]. rewrite E.
  unfold Cost.scrypt_steps. rewrite EV. change (Model.Scrypt.sp s) with p. change (Model.Scrypt.sn s) with n.
  change (Model.Scrypt.sr s) with r. unfold Cost.lane_steps.
  assert (W : forall a b c d, Cost.pbkdf2_steps a b c d = pbkdf2_work a b c d).
  { intros a b c d. unfold Cost.pbkdf2_steps, pbkdf2_work, Cost.iteration_steps. rewrite key_steps_ok, salt_steps_ok.
    rewrite !N.add_assoc. lia. }
  rewrite !W. unfold len. lia.
Qed.
Print Assumptions C73_scrypt_steps.

(** Doubling [n] adds [p n (4972 r + 26)] steps and nothing else. *)
Theorem C73_doubling_n : forall T r n p P S out,
  Props.Scrypt.admissible r n p -> octets P -> octets S -> Props.Scrypt.sizes_ok T r (2 * n) p P S out ->
  steps (Leak.Scrypt.scrypt_derive T (Model.Scrypt.scrypt_new r (2 * n) p) P S out) =
  steps (Leak.Scrypt.scrypt_derive T (Model.Scrypt.scrypt_new r n p) P S out) + p * n * (4972 * r + 26).
Proof.
  intros T r n p P S out Ha HP HS Hs.
  assert (Ha2 : Props.Scrypt.admissible r (2 * n) p).
  { destruct Ha as (A1 & [k ->] & A4). split; [exact A1|]. split; [|exact A4]. exists (N.succ k). now rewrite N.pow_succ_r'. }
  assert (Hs1 : Props.Scrypt.sizes_ok T r n p P S out).
  { destruct Hs as (H1 & H2 & H3 & H4 & H5). repeat split; try assumption. lia. }
  rewrite !C73_scrypt_steps by assumption. lia.
Qed.
Print Assumptions C73_doubling_n.

(** The parameters of a test in src/scrypt.rs:440 (n = 16384, r = 8, p = 1): of 652 million steps all but
    147424 mix blocks. *)
Example C73_example :
  let T := mkTarget W64 true in
  let P := repeat 97 8 in let S := repeat 98 16 in let out := repeat 0 64 in
  steps (Leak.Scrypt.scrypt_derive T (Model.Scrypt.scrypt_new 8 16384 1) P S out) = 652263392 /\
  652263392 = 16384 * (4972 * 8 + 26) + 147424.
Proof.
  split; [|reflexivity]. rewrite C73_scrypt_steps; [vm_compute; reflexivity|..].
  - split; [lia|]. split; [exists 14; reflexivity|lia].
  - repeat constructor.
  - repeat constructor.
  - repeat split; vm_compute; first [reflexivity|discriminate].
Qed.
