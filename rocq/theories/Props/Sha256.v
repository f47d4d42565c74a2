(** C01-C05: SHA-256. *)
From Coq Require Import NArith List Arith Lia.
From Verif Require Import Rust Calls.
From Verif.Model Require Import Sha256.
From Verif.Spec Require Octets Sha256 Hasher.
From Verif.Proofs Require Import Base Sha256Main.
Import Spec.Octets.
Import ListNotations.
Local Open Scope N_scope.

(** C01. New hasher, any updates, digest: the RFC 6234 hash of the
    concatenation, without a panic, on every target, as long as the length in
    bits fits [usize]. *)
Theorem C01_sha256_conforms : forall T chunks,
  octets (concat chunks) -> 8 * N.of_nat (length (concat chunks)) < usize_mod T ->
  exists s s', sha_updates T sha256_new chunks = Ret s /\
    sha256_digest T s = Ret (Spec.Sha256.sha256 (concat chunks), s').
Proof. exact sha256_conforms. Qed.
Print Assumptions C01_sha256_conforms.

(** The length condition in bytes, for the two pointer widths. *)
Theorem C01_limits : forall checks,
  (forall n, 8 * n < usize_mod (mkTarget W64 checks) <-> n < 2 ^ 61) /\
  (forall n, 8 * n < usize_mod (mkTarget W32 checks) <-> n < 2 ^ 29).
Proof. exact limits. Qed.
Print Assumptions C01_limits.

(** Sanity of the specification: the number of zero bits appended is the
    smallest K with (L + 1 + K) mod 512 = 448. *)
Theorem C01_spec_padding_least : forall L : nat,
  ((L + 1 + Spec.Sha256.pad_zeros L) mod 512 = 448)%nat /\
  forall K : nat, ((L + 1 + K) mod 512 = 448)%nat -> (Spec.Sha256.pad_zeros L <= K)%nat.
Proof. exact pad_zeros_least. Qed.
Print Assumptions C01_spec_padding_least.

(** A case meeting the hypotheses: "abc" in two pieces, and its digest. *)
Example C01_example :
  octets (concat [[97]; [98; 99]]) /\
  8 * N.of_nat (length (concat [[97]; [98; 99]])) < usize_mod (mkTarget W32 true) /\
  match sha_updates (mkTarget W32 true) sha256_new [[97]; [98; 99]] with
  | Ret s => match sha256_digest (mkTarget W32 true) s with
             | Ret (d, _) => be_num d
             | _ => 0 end
  | _ => 0 end
  = 0xba7816bf8f01cfea414140de5dae2223b00361a396177a9cb410ff61f20015ad.
Proof. split; [repeat constructor|split; vm_compute; reflexivity]. Qed.

(** C02. Two update sequences with the same concatenation lead to the same
    outcome: the same hasher value (so everything later is the same), from every
    hasher value whatsoever. *)
Theorem C02_chunking_irrelevant : forall T s chunks chunks',
  concat chunks = concat chunks' ->
  sha_updates T s chunks = sha_updates T s chunks'.
Proof. exact sha_chunking. Qed.
Print Assumptions C02_chunking_irrelevant.

Theorem C02_empty_update_noop : forall T s, sha256_update T s [] = Ret s.
Proof. exact sha_update_nil. Qed.
Print Assumptions C02_empty_update_noop.

Example C02_example :
  concat [[1; 2]; []; [3]] = concat [[1]; [2; 3]] /\ [[1; 2]; []; [3]] <> [[1]; [2; 3]].
Proof. split; [reflexivity|discriminate]. Qed.

(** C03. Within the limits no call of any history panics, an update has no
    result and a digest is 32 bytes. *)
Theorem C03_total_and_32_bytes : forall T calls,
  Forall sha_call_ok calls ->
  Hasher.bytes_fed calls < usize_mod T ->
  (overflow_checks T = false \/ 8 * Hasher.bytes_fed calls < usize_mod T
   \/ ~ In Hasher.Digest calls) ->
  Forall2 (fun c o => match o with
                      | None => False
                      | Some d => length d = match c with
                                             | Hasher.Update _ => 0%nat
                                             | Hasher.Digest => 32%nat end
                      end) calls (sha_run T calls sha256_new).
Proof. exact sha_run_shape. Qed.
Print Assumptions C03_total_and_32_bytes.

(** Without any limit: whatever a digest returns has 32 bytes. *)
Theorem C03_digest_is_32_bytes : forall T calls i d,
  Forall sha_call_ok calls ->
  nth_error calls i = Some Hasher.Digest ->
  nth_error (sha_run T calls sha256_new) i = Some (Some d) -> length d = 32%nat.
Proof. exact sha_run_digest_32. Qed.
Print Assumptions C03_digest_is_32_bytes.

Example C03_example :
  let calls := [Hasher.Update [1; 2; 3]; Hasher.Digest; Hasher.Update []; Hasher.Digest] in
  Forall sha_call_ok calls /\ Hasher.bytes_fed calls < usize_mod (mkTarget W32 true) /\
  8 * Hasher.bytes_fed calls < usize_mod (mkTarget W32 true) /\ In Hasher.Digest calls.
Proof. split; [repeat constructor|split; [|split]]; vm_compute; auto. Qed.

(** C04. The exact outcome for every total length the counter can hold:
    SHA-256 while the bit length fits [usize]; beyond it, a panic in digest with
    overflow checks, and without them the hash with the wrapped length field. *)
Theorem C04_length_limit_exact : forall T chunks,
  octets (concat chunks) -> N.of_nat (length (concat chunks)) < usize_mod T ->
  let bits := 8 * N.of_nat (length (concat chunks)) in
  exists s, sha_updates T sha256_new chunks = Ret s /\
  (bits < usize_mod T ->
     exists s', sha256_digest T s = Ret (Spec.Sha256.sha256 (concat chunks), s')) /\
  (usize_mod T <= bits -> overflow_checks T = true -> sha256_digest T s = Panic) /\
  (usize_mod T <= bits -> overflow_checks T = false ->
     exists s', sha256_digest T s =
       Ret (Hasher.sha256_with_length (concat chunks) (bits mod usize_mod T), s')).
Proof. exact sha256_exact. Qed.
Print Assumptions C04_length_limit_exact.

(** The reference for the wrapped case: with the true length in the length
    field it is SHA-256. *)
Theorem C04_with_length_is_sha256 : forall m,
  Hasher.sha256_with_length m (8 * N.of_nat (length m)) = Spec.Sha256.sha256 m.
Proof. exact sha256_with_true_length. Qed.
Print Assumptions C04_with_length_is_sha256.

(** Refuted: SHA-256 for every message below the 2^61-byte limit of the RFC.  On
    a 32-bit target with overflow checks every message of 2^29 bytes or more
    panics. *)
Theorem C04_rfc_limit_refuted :
  exists T m, octets m /\ N.of_nat (length m) < 2 ^ 61 /\
    exists s, sha256_update T sha256_new m = Ret s /\ sha256_digest T s = Panic.
Proof. exact rfc_limit_refuted. Qed.
Print Assumptions C04_rfc_limit_refuted.

(** The wrapped length field really differs from the true one: at 2^29 bytes on
    a 32-bit release build it is 0. *)
Theorem C04_wrapped_length_differs : forall m,
  N.of_nat (length m) = 2 ^ 29 -> octets m ->
  exists s s', sha256_update (mkTarget W32 false) sha256_new m = Ret s /\
    sha256_digest (mkTarget W32 false) s = Ret (Hasher.sha256_with_length m 0, s').
Proof. exact wrapped_length_zero. Qed.
Print Assumptions C04_wrapped_length_differs.

(** All three cases of C04 occur: on a 32-bit target 2^29 bytes fit the counter
    and their bit length does not; 5 bytes in two chunks fit both. *)
Example C04_example :
  let T := mkTarget W32 true in
  (exists chunks, octets (concat chunks) /\ N.of_nat (length (concat chunks)) < usize_mod T /\
     usize_mod T <= 8 * N.of_nat (length (concat chunks))) /\
  (let chunks := [[1; 2]; [3; 4; 5]] in
   octets (concat chunks) /\ N.of_nat (length (concat chunks)) < usize_mod T /\
   8 * N.of_nat (length (concat chunks)) < usize_mod T).
Proof.
  split; [|split; [repeat constructor|split; reflexivity]].
  exists [repeat 0 (N.to_nat (2 ^ 29))].
  cbn [concat]. rewrite app_nil_r, repeat_length, N2Nat.id.
  split; [|split; [reflexivity|discriminate]].
  apply Forall_forall. intros x Hx. apply repeat_spec in Hx. subst x. reflexivity.
Qed.

(** C05. Every history of updates and digests on one hasher, on every target,
    of any length, returns exactly what the machine of [Spec.Hasher] returns. *)
Theorem C05_history_exact : forall T calls,
  Forall sha_call_ok calls ->
  sha_run T calls sha256_new =
  Hasher.results (usize_mod T) (overflow_checks T) calls Hasher.fresh.
Proof. exact sha_run_exact. Qed.
Print Assumptions C05_history_exact.

(** What a second digest of a hasher fed with [m] returns: the compression of
    the padded message followed by a second padding of leftover octets. *)
Theorem C05_second_digest : forall T m,
  octets m -> 8 * N.of_nat (length m) < usize_mod T ->
  let bits := 8 * N.of_nat (length m) in
  let padded := m ++ [128] ++ repeat 0 ((119 - length m mod 64) mod 64) ++ be_octets 8 bits in
  let rest' := firstn (length m mod 64) (skipn (length padded - 64) padded) in
  sha_run T [Hasher.Update m; Hasher.Digest; Hasher.Digest] sha256_new =
  [Some []; Some (Spec.Sha256.sha256 m);
   Some (flat_map (be_octets 4)
     (Hasher.absorb Spec.Sha256.H0
        (padded ++ rest' ++ [128] ++ repeat 0 ((119 - length m mod 64) mod 64) ++ be_octets 8 bits)))].
Proof. exact second_digest. Qed.
Print Assumptions C05_second_digest.

(** Refuted: digest is idempotent. *)
Theorem C05_idempotent_refuted :
  exists s d s' d' s'',
    sha256_update (mkTarget W64 true) sha256_new [97; 98; 99] = Ret s /\
    sha256_digest (mkTarget W64 true) s = Ret (d, s') /\
    sha256_digest (mkTarget W64 true) s' = Ret (d', s'') /\
    d = Spec.Sha256.sha256 [97; 98; 99] /\ d' <> d.
Proof. exact sha256_not_idempotent. Qed.
Print Assumptions C05_idempotent_refuted.

(** A history with two digests and an update between them.  The first digest is
    SHA-256("abc"), the second is not SHA-256("abcd"). *)
Example C05_example :
  let calls := [Hasher.Update [97; 98; 99]; Hasher.Digest;
                Hasher.Update [100]; Hasher.Digest] in
  let T := mkTarget W64 false in
  Forall sha_call_ok calls /\
  match sha_run T calls sha256_new with
  | [Some []; Some d; Some []; Some d'] =>
      be_num d = 0xba7816bf8f01cfea414140de5dae2223b00361a396177a9cb410ff61f20015ad /\
      be_num d' <> 0x88d4266fd4e6338d13b845fcf289579d209c897823b9217da3e161936f031589
  | _ => False
  end.
Proof.
  split; [repeat constructor|]. vm_compute. split; [reflexivity|discriminate].
Qed.
