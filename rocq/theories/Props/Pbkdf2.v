(** C10-C15: PBKDF2-HMAC-SHA256. *)
From Coq Require Import NArith List Arith Lia.
From Verif Require Import Rust Calls.
From Verif.Model Require Import Sha256 Hmac Pbkdf2.
From Verif.Spec Require Octets Sha256 Hmac Pbkdf2.
From Verif.Proofs Require Import Base Bits Pbkdf2.
Import Spec.Octets.
Import ListNotations.
Local Open Scope N_scope.

(** The hypotheses on sizes: the hash's length limits for the password and the
    salt, and Rust's limit on slices ([isize::MAX] bytes) for the output. *)
Definition sizes_ok (T : target) (P S out : list N) : Prop :=
  8 * N.of_nat (length P) < usize_mod T /\
  8 * (N.of_nat (length S) + 68) < usize_mod T /\
  N.of_nat (length out) <= isize_max T.

(** C10. RFC 2898 conformance: positive iteration count, any output length the
    RFC allows. *)
Theorem C10_pbkdf2_conforms : forall T P S c out,
  octets P -> octets S -> sizes_ok T P S out ->
  1 <= c -> N.of_nat (length out) <= (2 ^ 32 - 1) * 32 ->
  pbkdf2_sha256 T P S c out = Ret (Spec.Pbkdf2.pbkdf2 P S c (length out)).
Proof. exact (fun T P S c out HP HS Hs _ _ => pbkdf2_ok T P S c out HP HS (conj (proj1 Hs) (proj1 (proj2 Hs))) (proj2 (proj2 Hs))). Qed.
Print Assumptions C10_pbkdf2_conforms.

(** A derived key of 40 bytes (two blocks, the second partial), c = 2; the first
    32 bytes are the published PBKDF2-HMAC-SHA256 vector for
    ("password", "salt", 2). *)
Example C10_example :
  let T := mkTarget W64 true in
  let P := [112; 97; 115; 115; 119; 111; 114; 100] in
  let S := [115; 97; 108; 116] in
  octets P /\ octets S /\ sizes_ok T P S (repeat 0 40) /\ 1 <= 2 /\
  N.of_nat (length (repeat 0 40)) <= (2 ^ 32 - 1) * 32 /\
  match pbkdf2_sha256 T P S 2 (repeat 0 40) with Ret dk => be_num (firstn 32 dk) | _ => 0 end
  = 0xae4d0c95af6b46d32d0adff928f06dd02a303f8ef3c251dfd6e2d85a95474c43.
Proof.
  split; [repeat constructor|]. split; [repeat constructor|].
  split; [split; [|split]; vm_compute; (reflexivity || discriminate)|].
  split; [discriminate|]. split; [vm_compute; discriminate|]. vm_compute. reflexivity.
Qed.

(** C11. The previous contents of the buffer do not matter; the length stays. *)
Theorem C11_overwrites_exactly : forall T P S c out out',
  octets P -> octets S -> sizes_ok T P S out -> length out = length out' ->
  exists dk, pbkdf2_sha256 T P S c out = Ret dk /\ pbkdf2_sha256 T P S c out' = Ret dk /\
    length dk = length out /\ octets dk.
Proof. exact (fun T P S c out out' HP HS Hs => pbkdf2_overwrites T P S c out out' HP HS (conj (proj1 Hs) (proj1 (proj2 Hs))) (proj2 (proj2 Hs))). Qed.
Print Assumptions C11_overwrites_exactly.

Theorem C11_empty_output : forall T P S c, pbkdf2_sha256 T P S c [] = Ret [].
Proof. exact pbkdf2_empty. Qed.
Print Assumptions C11_empty_output.

(** C12. Shorter outputs are prefixes of longer ones. *)
Theorem C12_prefix : forall T P S c out out',
  octets P -> octets S -> sizes_ok T P S out' -> (length out <= length out')%nat ->
  exists dk dk', pbkdf2_sha256 T P S c out = Ret dk /\ pbkdf2_sha256 T P S c out' = Ret dk' /\
    dk = firstn (length out) dk'.
Proof. exact (fun T P S c out out' HP HS Hs => pbkdf2_prefix_api T P S c out out' HP HS (conj (proj1 Hs) (proj1 (proj2 Hs))) (proj2 (proj2 Hs))). Qed.
Print Assumptions C12_prefix.

(** C13. An iteration count of 0 is accepted and means 1. *)
Theorem C13_zero_iterations : forall T P S out,
  pbkdf2_sha256 T P S 0 out = pbkdf2_sha256 T P S 1 out.
Proof. exact pbkdf2_c0. Qed.
Print Assumptions C13_zero_iterations.

(** Refuted: an iteration count of 0 is rejected, as RFC 2898 requires of c. *)
Theorem C13_zero_rejected_refuted :
  exists T P S out dk, pbkdf2_sha256 T P S 0 out = Ret dk /\ length dk = 1%nat /\
    dk = Spec.Pbkdf2.pbkdf2 P S 1 1.
Proof. exact pbkdf2_c0_witness. Qed.
Print Assumptions C13_zero_rejected_refuted.

(** Two different buffers of 5 bytes, and a longer one: the same 5 bytes come
    out, equal to the start of the longer output and of the output for c = 0;
    the reference is the published vector for ("password", "salt", 1). *)
Example C11_C12_C13_example :
  let T := mkTarget W32 true in
  let P := [112; 97; 115; 115; 119; 111; 114; 100] in
  let S := [115; 97; 108; 116] in
  octets P /\ octets S /\ sizes_ok T P S [9; 8; 7; 6; 5] /\
  pbkdf2_sha256 T P S 1 [9; 8; 7; 6; 5] = Ret [0x12; 0x0f; 0xb6; 0xcf; 0xfc] /\
  pbkdf2_sha256 T P S 0 [0; 0; 0; 0; 0] = Ret [0x12; 0x0f; 0xb6; 0xcf; 0xfc] /\
  pbkdf2_sha256 T P S 1 (repeat 1 8) = Ret [0x12; 0x0f; 0xb6; 0xcf; 0xfc; 0xf8; 0xb3; 0x2c].
Proof.
  split; [repeat constructor|]. split; [repeat constructor|].
  split; [split; [|split]; vm_compute; (reflexivity || discriminate)|].
  split; [vm_compute; reflexivity|]. split; vm_compute; reflexivity.
Qed.

(** C14. For every output length, also above (2^32-1)*32: a value is returned,
    byte i is byte i mod 32 of block i/32 + 1, ... *)
Theorem C14_every_length : forall T P S c out,
  octets P -> octets S -> sizes_ok T P S out ->
  exists dk, pbkdf2_sha256 T P S c out = Ret dk /\ length dk = length out /\
    forall i, (i < length out)%nat ->
      nth i dk 0 = nth (i mod 32) (Spec.Pbkdf2.F P S c (N.of_nat (i / 32 + 1))) 0.
Proof. exact (fun T P S c out HP HS Hs => pbkdf2_blocks_api T P S c out HP HS (conj (proj1 Hs) (proj1 (proj2 Hs))) (proj2 (proj2 Hs))). Qed.
Print Assumptions C14_every_length.

(** ... and the output repeats with period 2^32 blocks = 2^37 bytes: the key
    material beyond is not new. *)
Theorem C14_period : forall T P S c out,
  octets P -> octets S -> sizes_ok T P S out ->
  exists dk, pbkdf2_sha256 T P S c out = Ret dk /\ length dk = length out /\
    forall i, N.of_nat i + 2 ^ 37 < N.of_nat (length out) ->
      nth (i + N.to_nat (2 ^ 37)) dk 0 = nth i dk 0.
Proof. exact (fun T P S c out HP HS Hs => pbkdf2_period_api T P S c out HP HS (conj (proj1 Hs) (proj1 (proj2 Hs))) (proj2 (proj2 Hs))). Qed.
Print Assumptions C14_period.

(** Refuted: a derived key longer than (2^32-1)*32 is reported. *)
Theorem C14_too_long_reported_refuted :
  exists T P S c out, octets P /\ octets S /\ sizes_ok T P S out /\
    (2 ^ 32 - 1) * 32 < N.of_nat (length out) /\ 2 ^ 37 < N.of_nat (length out) /\
    exists dk, pbkdf2_sha256 T P S c out = Ret dk.
Proof. exact pbkdf2_too_long. Qed.
Print Assumptions C14_too_long_reported_refuted.

(** There are buffers with positions on both sides of the period, within the size
    hypotheses; on a 32-bit target there are none. *)
Example C14_example :
  let T := mkTarget W64 true in
  exists out i, octets out /\ sizes_ok T [1] [2] out /\
    N.of_nat i + 2 ^ 37 < N.of_nat (length out).
Proof.
  cbv zeta. exists (repeat 7 (N.to_nat (2 ^ 37 + 5))), 4%nat.
  unfold sizes_ok. rewrite repeat_length, N2Nat.id.
  split; [|split; [split; [|split]|]]; try reflexivity; try discriminate.
  apply Forall_forall. intros x Hx. apply repeat_spec in Hx. subst x. reflexivity.
Qed.

(** C15. Equivalent passwords. *)
Theorem C15_trailing_zeros : forall T P z S c out,
  (length P + z <= 64)%nat ->
  pbkdf2_sha256 T (P ++ repeat 0 z) S c out = pbkdf2_sha256 T P S c out.
Proof. exact pbkdf2_zero_pad. Qed.
Print Assumptions C15_trailing_zeros.

Theorem C15_long_password : forall T P S c out,
  octets P -> (64 < length P)%nat -> 8 * N.of_nat (length P) < usize_mod T ->
  pbkdf2_sha256 T P S c out = pbkdf2_sha256 T (Spec.Sha256.sha256 P) S c out.
Proof. exact pbkdf2_long_password. Qed.
Print Assumptions C15_long_password.

Example C15_example :
  (length [1; 2] + 62 <= 64)%nat /\ (64 < length (repeat 7 65))%nat /\ octets (repeat 7 65) /\
  8 * N.of_nat (length (repeat 7 65)) < usize_mod (mkTarget W32 true).
Proof. split; [cbn; lia|split; [cbn; lia|split; [repeat constructor|reflexivity]]]. Qed.
