(** C20-C25: scrypt. *)
From Coq Require Import NArith List Arith Lia.
From Verif Require Import Rust.
From Verif.Model Require Import Pbkdf2 Scrypt.
From Verif.Spec Require Octets Pbkdf2 Salsa20 Scrypt.
From Verif.Proofs Require Import Base Bits.
From Verif.Proofs Require Pbkdf2 Scrypt.
Import Spec.Octets.
Import ListNotations.
Local Open Scope N_scope.

(** Parameters the checks of [derive] let pass. *)
Definition admissible (r n p : N) : Prop :=
  1 <= r /\ (exists k, n = 2 ^ k) /\ 1 <= p.

(** The sizes fit the address space: the hash's length limits for the
    passphrase, the salt and the p * 128 * r octets of the block vector, and
    Rust's limit on allocations for the table of [n] vectors and the output. *)
Definition sizes_ok (T : target) (r n p : N) (P S out : list N) : Prop :=
  8 * N.of_nat (length P) < usize_mod T /\
  8 * (N.of_nat (length S) + 68) < usize_mod T /\
  8 * (p * 128 * r + 68) < usize_mod T /\
  vec_size T * n <= isize_max T /\
  N.of_nat (length out) <= isize_max T.

Lemma admissible_accepted r n p : admissible r n p -> Proofs.Scrypt.accepted (scrypt_new r n p).
Proof.
  intros (Hr & [k Hk] & Hp). split; [exact Hr|]. split; [|split; [exists k; exact Hk|exact Hp]].
  cbn. rewrite Hk. pose proof (pow2_pos k). lia.
Qed.
Lemma vec_size_ge T : 1 <= vec_size T.
Proof. unfold vec_size, usize_bits. destruct (width T); vm_compute; discriminate. Qed.

(** C20. Conformance to draft-josefsson-scrypt-kdf-03. *)
Theorem C20_scrypt_conforms : forall T r n p P S out,
  admissible r n p -> octets P -> octets S -> sizes_ok T r n p P S out ->
  scrypt_derive T (scrypt_new r n p) P S out =
  Ret (Ok tt, Spec.Scrypt.scrypt P S n (N.to_nat r) (N.to_nat p) (length out)).
Proof.
  intros T r n p P S out Ha HP HS (H1 & H2 & H3 & H4 & H5).
  apply (Proofs.Scrypt.derive_ok T (scrypt_new r n p)); try assumption.
  - apply admissible_accepted; assumption.
  - cbn. pose proof (isize_usize T). pose proof (vec_size_ge T). nia.
  - split; assumption.
Qed.
Print Assumptions C20_scrypt_conforms.

(** The first test vector of the draft: scrypt ("", "", N = 16, r = 1, p = 1, 64). *)
Definition draft_vector_1 : N :=
  0x77d6576238657b203b19ca42c18a0497f16b4844e3074ae8dfdffa3fede21442fcd0069ded0948f8326a753a0fc81f17e8d3e0fb2e0d3628cf35e20c38d18906.
Example C20_example :
  let T := mkTarget W64 true in
  admissible 1 16 1 /\ sizes_ok T 1 16 1 [] [] (repeat 0 64) /\
  match scrypt_derive T (scrypt_new 1 16 1) [] [] (repeat 0 64) with
  | Ret (Ok tt, dk) => be_num dk | _ => 0 end = draft_vector_1 /\
  be_num (Spec.Scrypt.scrypt [] [] 16 1 1 64) = draft_vector_1.
Proof.
  split; [split; [lia|split; [exists 4; reflexivity|lia]]|].
  split; [split; [|split; [|split; [|split]]]; vm_compute; (reflexivity || discriminate)|].
  assert (E : match scrypt_derive (mkTarget W64 true) (scrypt_new 1 16 1) [] [] (repeat 0 64) with
              | Ret (Ok tt, dk) => be_num dk | _ => 0 end = draft_vector_1) by (vm_compute; reflexivity).
  split; [exact E|].
  rewrite C20_scrypt_conforms in E; [exact E| |constructor|constructor|].
  - split; [lia|split; [exists 4; reflexivity|lia]].
  - split; [|split; [|split; [|split]]]; vm_compute; (reflexivity || discriminate).
Qed.

(** A two-block, two-lane case (r = 2, p = 2) on a 32-bit target; the value was
    computed with OpenSSL. *)
Example C20_example_lanes :
  let T := mkTarget W32 false in
  let P := [112; 119] in let S := [115; 97; 108; 116] in
  admissible 2 2 2 /\ sizes_ok T 2 2 2 P S (repeat 0 20) /\
  scrypt_derive T (scrypt_new 2 2 2) P S (repeat 0 20) =
  Ret (Ok tt, be_octets 20 0x5d90736866c288cd5314c6768891045b6ef3a72c).
Proof.
  split; [split; [lia|split; [exists 1; reflexivity|lia]]|].
  split; [split; [|split; [|split; [|split]]]; vm_compute; (reflexivity || discriminate)|].
  vm_compute. reflexivity.
Qed.

(** C21. Exactly the documented rejections, in order of precedence, leaving the
    output alone; in particular no other triple is ever answered with an error. *)
Theorem C21_rejects_exactly : forall T r n p P S out e out',
  scrypt_derive T (scrypt_new r n p) P S out = Ret (Err e, out') <->
  out' = out /\
  match e with
  | RIsTooSmall => r = 0
  | NIsTooSmall => r <> 0 /\ n = 0
  | NIsNotAPowerOfTwo => r <> 0 /\ n <> 0 /\ (forall k, n <> 2 ^ k)
  | PIsTooSmall => r <> 0 /\ (exists k, n = 2 ^ k) /\ p = 0
  end.
Proof. exact Proofs.Scrypt.derive_rejects_match. Qed.
Print Assumptions C21_rejects_exactly.

Example C21_example :
  let T := mkTarget W64 true in
  scrypt_derive T (scrypt_new 0 0 0) [1] [2] [7; 7] = Ret (Err RIsTooSmall, [7; 7]) /\
  scrypt_derive T (scrypt_new 1 0 0) [1] [2] [7; 7] = Ret (Err NIsTooSmall, [7; 7]) /\
  scrypt_derive T (scrypt_new 1 12 0) [1] [2] [7; 7] = Ret (Err NIsNotAPowerOfTwo, [7; 7]) /\
  scrypt_derive T (scrypt_new 1 8 0) [1] [2] [7; 7] = Ret (Err PIsTooSmall, [7; 7]).
Proof. vm_compute. repeat split. Qed.

(** C22. The documented bounds are not enforced: n = 1; r = 1 with n = 2^16
    (not below 2^(16 r)); p above (2^32 - 1) / (4 r); also r = 1 and p = 1, which
    the documentation of [r] and the error text exclude. *)
Theorem C22_n_above_1_refuted : exists T r n p dk,
  ~ 1 < n /\ scrypt_derive T (scrypt_new r n p) [1] [2] [0; 0; 0; 0] = Ret (Ok tt, dk).
Proof.
  exists (mkTarget W64 true), 1, 1, 1. eexists. split; [lia|].
  apply C20_scrypt_conforms.
  - split; [lia|split; [exists 0; reflexivity|lia]].
  - repeat constructor.
  - repeat constructor.
  - split; [|split; [|split; [|split]]]; vm_compute; (reflexivity || discriminate).
Qed.
Print Assumptions C22_n_above_1_refuted.

Theorem C22_n_bound_refuted : forall T P S out,
  octets P -> octets S -> sizes_ok T 1 (2 ^ 16) 1 P S out ->
  ~ 2 ^ 16 < 2 ^ (16 * 1) /\
  exists dk, scrypt_derive T (scrypt_new 1 (2 ^ 16) 1) P S out = Ret (Ok tt, dk).
Proof.
  intros T P S out HP HS Hs. split; [apply N.lt_irrefl|]. eexists.
  apply C20_scrypt_conforms; try assumption.
  split; [lia|split; [exists 16; reflexivity|lia]].
Qed.
Print Assumptions C22_n_bound_refuted.

Theorem C22_p_bound_refuted : forall T P S out,
  octets P -> octets S -> sizes_ok T 1 2 (2 ^ 30) P S out ->
  ~ 2 ^ 30 <= (2 ^ 32 - 1) / (4 * 1) /\
  exists dk, scrypt_derive T (scrypt_new 1 2 (2 ^ 30)) P S out = Ret (Ok tt, dk).
Proof.
  intros T P S out HP HS Hs. split; [vm_compute; intros H; apply H; reflexivity|]. eexists.
  apply C20_scrypt_conforms; try assumption.
  split; [lia|split; [exists 1; reflexivity|vm_compute; discriminate]].
Qed.
Print Assumptions C22_p_bound_refuted.

Theorem C22_r_p_above_1_refuted : exists T r n p dk,
  ~ 1 < r /\ ~ 1 < p /\ scrypt_derive T (scrypt_new r n p) [1] [2] [0; 0; 0; 0] = Ret (Ok tt, dk).
Proof.
  exists (mkTarget W64 true), 1, 2, 1. eexists. split; [lia|]. split; [lia|].
  apply C20_scrypt_conforms.
  - split; [lia|split; [exists 1; reflexivity|lia]].
  - repeat constructor.
  - repeat constructor.
  - split; [|split; [|split; [|split]]]; vm_compute; (reflexivity || discriminate).
Qed.
Print Assumptions C22_r_p_above_1_refuted.

Example C22_example :
  sizes_ok (mkTarget W32 true) 1 (2 ^ 16) 1 [1] [2] [0; 0; 0; 0] /\
  sizes_ok (mkTarget W64 true) 1 2 (2 ^ 30) [1] [2] [0; 0; 0; 0].
Proof.
  split; (split; [|split; [|split; [|split]]]; vm_compute; (reflexivity || discriminate)).
Qed.

(** C23. The table index read from eight octets of the last block is the
    specification's index, computed from all 64 octets. *)
Theorem C23_index_is_exact : forall T r x k,
  (1 <= r)%nat -> length x = (2 * r)%nat ->
  Forall (fun b => length b = 64%nat /\ octets b) x ->
  2 ^ k < usize_mod T ->
  (let* i := integerify T x in urem (as_usize T i) (2 ^ k)) =
  Ret (Spec.Scrypt.Integerify r (concat x) mod 2 ^ k) /\
  Spec.Scrypt.Integerify r (concat x) mod 2 ^ k < 2 ^ k.
Proof.
  intros T r x k Hr Hl Hx Hk. split.
  - apply Proofs.Scrypt.index_ok; [assumption|split; assumption|assumption].
  - apply N.mod_lt. apply N.pow_nonzero. discriminate.
Qed.
Print Assumptions C23_index_is_exact.

(** It is the power of two that makes the truncation sound: with n = 3 the
    truncated index differs (2^64 mod 3 = 1). *)
Definition tall_block : list N := repeat 0 8 ++ 1 :: repeat 0 55.
Theorem C23_needs_power_of_two : exists x,
  length x = 2%nat /\ Forall (fun b => length b = 64%nat /\ octets b) x /\
  (let* i := integerify (mkTarget W64 true) x in urem (as_usize (mkTarget W64 true) i) 3) <>
  Ret (Spec.Scrypt.Integerify 1 (concat x) mod 3).
Proof.
  exists [tall_block; tall_block].
  split; [reflexivity|]. split; [repeat constructor|]. vm_compute. discriminate.
Qed.
Print Assumptions C23_needs_power_of_two.

Example C23_example :
  let b := map N.of_nat (seq 1 64) in
  length [b; b] = (2 * 1)%nat /\ Forall (fun b => length b = 64%nat /\ octets b) [b; b] /\
  2 ^ 10 < usize_mod (mkTarget W32 true) /\
  (let* i := integerify (mkTarget W32 true) [b; b] in urem (as_usize (mkTarget W32 true) i) (2 ^ 10))
  = Ret 513.
Proof. split; [reflexivity|]. split; [repeat constructor|]. split; vm_compute; reflexivity. Qed.

(** C24. Overflow of p * 128 * r: a panic with overflow checks... *)
Theorem C24_checked_build_panics : forall T r n p P S out,
  admissible r n p -> overflow_checks T = true -> usize_mod T <= p * 128 * r ->
  scrypt_derive T (scrypt_new r n p) P S out = Panic.
Proof.
  exact (fun T r n p P S out Ha HT H =>
    Proofs.Scrypt.derive_checked_panics T (scrypt_new r n p) P S out (admissible_accepted r n p Ha) HT H).
Qed.
Print Assumptions C24_checked_build_panics.

(** ... and without them the key derived from the block vector of
    m = p * 128 * r mod 2^w octets, of which only whole lanes of 128 * r octets
    are mixed. *)
Theorem C24_unchecked_build_truncates : forall T r n p P S out,
  admissible r n p -> overflow_checks T = false ->
  let m := (p * 128 * r) mod usize_mod T in
  128 * r <= isize_max T -> vec_size T * n <= isize_max T ->
  octets P -> octets S ->
  8 * N.of_nat (length P) < usize_mod T -> 8 * (N.of_nat (length S) + 68) < usize_mod T ->
  8 * (m + 68) < usize_mod T -> N.of_nat (length out) <= isize_max T ->
  scrypt_derive T (scrypt_new r n p) P S out =
  Ret (Ok tt,
    let B := blocks (128 * N.to_nat r) (Spec.Pbkdf2.pbkdf2 P S 1 (N.to_nat m)) in
    Spec.Pbkdf2.pbkdf2 P (concat (map (fun Bi => Spec.Scrypt.ROMix (N.to_nat r) Bi n) B)) 1
      (length out)).
Proof.
  intros T r n p P S out Ha HT m Hr Hn HP HS H1 H2 Hm Hout.
  apply (Proofs.Scrypt.derive_wrapped T (scrypt_new r n p)); try assumption.
  - apply admissible_accepted; assumption.
  - cbn. pose proof (isize_usize T). pose proof (vec_size_ge T). nia.
  - pose proof (isize_usize T). fold m. cbn [scrypt_new sp sr]. fold m. lia.
  - split; assumption.
Qed.
Print Assumptions C24_unchecked_build_truncates.

(** When the product wraps to 0 the key depends on the passphrase only. *)
Theorem C24_wrap_to_zero : forall T r n p P S out,
  admissible r n p -> overflow_checks T = false ->
  (p * 128 * r) mod usize_mod T = 0 -> (128 * r) mod usize_mod T <> 0 ->
  octets P -> 8 * N.of_nat (length P) < usize_mod T -> N.of_nat (length out) <= isize_max T ->
  scrypt_derive T (scrypt_new r n p) P S out =
  Ret (Ok tt, Spec.Pbkdf2.pbkdf2 P [] 1 (length out)).
Proof.
  exact (fun T r n p P S out Ha HT H H' =>
    Proofs.Scrypt.derive_wrapped_zero T (scrypt_new r n p) P S out (admissible_accepted r n p Ha) HT H H').
Qed.
Print Assumptions C24_wrap_to_zero.

(** When even the lane size 128 * r wraps to 0, splitting panics. *)
Theorem C24_lane_wraps_to_zero : forall T r n p P S out,
  admissible r n p -> overflow_checks T = false -> (128 * r) mod usize_mod T = 0 ->
  scrypt_derive T (scrypt_new r n p) P S out = Panic.
Proof.
  exact (fun T r n p P S out Ha HT H =>
    Proofs.Scrypt.derive_chunk_zero T (scrypt_new r n p) P S out (admissible_accepted r n p Ha) HT H).
Qed.
Print Assumptions C24_lane_wraps_to_zero.

(** A table of [n] vectors above Rust's allocation limit panics in every build. *)
Theorem C24_table_too_large : forall T r n p P S out,
  admissible r n p -> octets P -> octets S ->
  8 * N.of_nat (length P) < usize_mod T -> 8 * (N.of_nat (length S) + 68) < usize_mod T ->
  8 * (p * 128 * r + 68) < usize_mod T -> isize_max T < vec_size T * n ->
  scrypt_derive T (scrypt_new r n p) P S out = Panic.
Proof.
  intros T r n p P S out Ha HP HS H1 H2 H3 H4.
  apply Proofs.Scrypt.derive_table_panics; try assumption.
  - apply admissible_accepted; assumption.
  - split; assumption.
Qed.
Print Assumptions C24_table_too_large.

(** The expectation that the salt matters is refuted in such builds. *)
Theorem C24_salt_matters_refuted : exists T r n p S S' dk,
  admissible r n p /\ r < usize_mod T /\ n < usize_mod T /\ p < usize_mod T /\ S <> S' /\
  scrypt_derive T (scrypt_new r n p) [1; 2] S (repeat 0 32) = Ret (Ok tt, dk) /\
  scrypt_derive T (scrypt_new r n p) [1; 2] S' (repeat 0 32) = Ret (Ok tt, dk).
Proof.
  exists (mkTarget W64 false), 8, (2 ^ 14), (2 ^ 54), [3], [4], (Spec.Pbkdf2.pbkdf2 [1; 2] [] 1 32).
  assert (Ha : admissible 8 (2 ^ 14) (2 ^ 54)).
  { split; [lia|]. split; [exists 14; reflexivity|vm_compute; discriminate]. }
  split; [exact Ha|]. split; [vm_compute; reflexivity|]. split; [vm_compute; reflexivity|].
  split; [vm_compute; reflexivity|]. split; [discriminate|].
  split; (apply C24_wrap_to_zero; [exact Ha|reflexivity|vm_compute; reflexivity|vm_compute; discriminate
    |repeat constructor|vm_compute; reflexivity|vm_compute; discriminate]).
Qed.
Print Assumptions C24_salt_matters_refuted.

Example C24_example :
  let T := mkTarget W32 false in
  admissible 1 2 (2 ^ 25 + 1) /\ usize_mod T <= (2 ^ 25 + 1) * 128 * 1 /\
  ((2 ^ 25 + 1) * 128 * 1) mod usize_mod T = 128 /\
  scrypt_derive T (scrypt_new 1 2 (2 ^ 25 + 1)) [1] [2] (repeat 0 16) =
  scrypt_derive T (scrypt_new 1 2 1) [1] [2] (repeat 0 16).
Proof.
  split; [split; [lia|split; [exists 1; reflexivity|vm_compute; discriminate]]|].
  split; [vm_compute; discriminate|]. split; [vm_compute; reflexivity|]. vm_compute. reflexivity.
Qed.

(** C25. Previous contents of the output do not matter, its length stays, and
    shorter outputs are prefixes of longer ones. *)
Theorem C25_overwrites_exactly : forall T r n p P S out out',
  admissible r n p -> octets P -> octets S -> sizes_ok T r n p P S out ->
  length out = length out' ->
  exists dk, scrypt_derive T (scrypt_new r n p) P S out = Ret (Ok tt, dk) /\
    scrypt_derive T (scrypt_new r n p) P S out' = Ret (Ok tt, dk) /\
    length dk = length out /\ octets dk.
Proof.
  intros T r n p P S out out' Ha HP HS Hs Hl. eexists.
  split; [apply C20_scrypt_conforms; assumption|]. split.
  - rewrite Hl. apply C20_scrypt_conforms; try assumption. unfold sizes_ok in *. rewrite <- Hl. exact Hs.
  - split; [apply Proofs.Scrypt.scrypt_length|apply Proofs.Scrypt.octets_scrypt].
Qed.
Print Assumptions C25_overwrites_exactly.

Theorem C25_prefix : forall T r n p P S out out',
  admissible r n p -> octets P -> octets S -> sizes_ok T r n p P S out' ->
  (length out <= length out')%nat ->
  exists dk dk', scrypt_derive T (scrypt_new r n p) P S out = Ret (Ok tt, dk) /\
    scrypt_derive T (scrypt_new r n p) P S out' = Ret (Ok tt, dk') /\
    dk = firstn (length out) dk'.
Proof.
  intros T r n p P S out out' Ha HP HS Hs Hl. do 2 eexists.
  split; [apply C20_scrypt_conforms; try assumption|].
  - destruct Hs as (H1 & H2 & H3 & H4 & H5). repeat (split; [assumption|]). lia.
  - split; [apply C20_scrypt_conforms; assumption|]. apply Proofs.Scrypt.scrypt_prefix. assumption.
Qed.
Print Assumptions C25_prefix.

Example C25_example :
  let T := mkTarget W64 true in
  sizes_ok T 1 2 1 [1] [2] [9; 9; 9; 9] /\
  exists dk dk', scrypt_derive T (scrypt_new 1 2 1) [1] [2] [9; 9; 9; 9] = Ret (Ok tt, dk) /\
  scrypt_derive T (scrypt_new 1 2 1) [1] [2] [0; 0] = Ret (Ok tt, dk') /\ dk' = firstn 2 dk /\ dk <> [9; 9; 9; 9].
Proof.
  split; [split; [|split; [|split; [|split]]]; vm_compute; (reflexivity || discriminate)|].
  do 2 eexists. split; [vm_compute; reflexivity|]. split; [vm_compute; reflexivity|].
  split; [reflexivity|discriminate].
Qed.
