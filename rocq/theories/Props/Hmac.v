(** C06-C09: HMAC-SHA256. *)
From Coq Require Import NArith List Arith Lia.
From Verif Require Import Rust Calls.
From Verif.Model Require Import Sha256 Hmac.
From Verif.Spec Require Octets Sha256 Hmac Hasher Mac.
From Verif.Proofs Require Import Base Hmac.
Import Spec.Octets.
Import ListNotations.
Local Open Scope N_scope.

(** C06. New HMAC, any updates, digest: RFC 2104 HMAC of the concatenation,
    without a panic, while the hashed lengths in bits fit [usize]. *)
Theorem C06_hmac_conforms : forall T key chunks,
  octets key -> octets (concat chunks) ->
  8 * N.of_nat (length key) < usize_mod T ->
  8 * N.of_nat (64 + length (concat chunks)) < usize_mod T ->
  exists m m' m'', hmac_new T key = Ret m /\ hmac_updates T m chunks = Ret m' /\
    hmac_digest T m' = Ret (Spec.Hmac.hmac key (concat chunks), m'').
Proof. exact hmac_conforms. Qed.
Print Assumptions C06_hmac_conforms.

(** RFC 4231 test case 2 ("Jefe"), in three pieces. *)
Example C06_example :
  let T := mkTarget W32 true in
  let key := [74; 101; 102; 101] in
  let chunks := [[119; 104; 97; 116; 32; 100; 111]; []; [32; 121; 97; 32; 119; 97; 110; 116;
     32; 102; 111; 114; 32; 110; 111; 116; 104; 105; 110; 103; 63]] in
  octets key /\ octets (concat chunks) /\
  8 * N.of_nat (length key) < usize_mod T /\
  8 * N.of_nat (64 + length (concat chunks)) < usize_mod T /\
  match hmac_new T key with
  | Ret m => match hmac_updates T m chunks with
             | Ret m => match hmac_digest T m with Ret (d, _) => be_num d | _ => 0 end
             | _ => 0 end
  | _ => 0 end
  = 0x5bdcc146bf60754e6a042426089575c75a003f089d2739839dec58b964ec3843.
Proof. split; [repeat constructor|split; [repeat constructor|]]. split; [|split]; vm_compute; reflexivity. Qed.

(** C07. Only the concatenation of the updates matters, from every HMAC state:
    the resulting objects are equal, so everything later is too. *)
Theorem C07_chunking_irrelevant : forall T m chunks chunks',
  concat chunks = concat chunks' ->
  hmac_updates T m chunks = hmac_updates T m chunks'.
Proof. exact hmac_chunking. Qed.
Print Assumptions C07_chunking_irrelevant.

Example C07_example :
  concat [[1; 2]; []; [3]] = concat [[1]; [2; 3]] /\ [[1; 2]; []; [3]] <> [[1]; [2; 3]].
Proof. split; [reflexivity|discriminate]. Qed.

(** C08. Keys with the same 64-byte block give the same HMAC object. *)
Theorem C08_trailing_zeros : forall T K z,
  (length K + z <= 64)%nat -> hmac_new T (K ++ repeat 0 z) = hmac_new T K.
Proof. exact hmac_new_zero_pad. Qed.
Print Assumptions C08_trailing_zeros.

Theorem C08_long_key : forall T K,
  octets K -> (64 < length K)%nat -> 8 * N.of_nat (length K) < usize_mod T ->
  hmac_new T K = hmac_new T (Spec.Sha256.sha256 K).
Proof. exact hmac_new_long. Qed.
Print Assumptions C08_long_key.

(** The boundary: a key of up to 64 bytes is used as it is, zero-extended, and a
    key of 65 bytes or more is hashed first. *)
Theorem C08_boundary : forall T K chunks,
  octets K -> octets (concat chunks) ->
  8 * N.of_nat (length K) < usize_mod T ->
  8 * N.of_nat (64 + length (concat chunks)) < usize_mod T ->
  let B := if (length K <=? 64)%nat then K ++ repeat 0 (64 - length K)
           else Spec.Sha256.sha256 K ++ repeat 0 32 in
  exists m m' m'', hmac_new T K = Ret m /\ hmac_updates T m chunks = Ret m' /\
    hmac_digest T m' = Ret (Spec.Sha256.sha256 (xor B (repeat 0x5c 64) ++
      Spec.Sha256.sha256 (xor B (repeat 0x36 64) ++ concat chunks)), m'').
Proof.
  intros T K chunks HK Ho H1 H2 B.
  destruct (hmac_conforms T K chunks HK Ho H1 H2) as (m & m' & m'' & E1 & E2 & E3).
  exists m, m', m''. split; [exact E1|split; [exact E2|]]. rewrite E3. do 3 f_equal.
  unfold Spec.Hmac.hmac. rewrite (block_key_cases K). reflexivity.
Qed.
Print Assumptions C08_boundary.

(** [HMac::new] calls itself at most once: two levels of fuel are enough for
    every key, and more change nothing. *)
Theorem C08_new_terminates : forall T key,
  octets key -> hmac_new T key <> Diverge /\
  forall fuel, (2 <= fuel)%nat -> hmac_new_fuel fuel T key = hmac_new T key.
Proof. exact (fun T key H => conj (hmac_new_terminates T key H) (fun fuel => hmac_new_fuel_enough fuel T key H)). Qed.
Print Assumptions C08_new_terminates.

Example C08_example :
  (length [1; 2] + 62 <= 64)%nat /\ (64 < length (repeat 7 65))%nat /\ octets (repeat 7 65) /\
  8 * N.of_nat (length (repeat 7 65)) < usize_mod (mkTarget W32 true).
Proof. split; [cbn; lia|split; [cbn; lia|split; [repeat constructor|reflexivity]]]. Qed.

(** C09. Every history on one HMAC object, on every target: exactly the results
    of the machine of [Spec.Mac]. *)
Theorem C09_history_exact : forall T key calls,
  octets key -> Forall sha_call_ok calls ->
  match hmac_new T key with
  | Ret m => exists a, Mac.new (usize_mod T) (overflow_checks T) key = Some a /\
               hmac_run T calls m = Mac.mac_results (usize_mod T) (overflow_checks T) calls a
  | Panic => Mac.new (usize_mod T) (overflow_checks T) key = None
  | Diverge => False
  end.
Proof. exact hmac_history_exact. Qed.
Print Assumptions C09_history_exact.

(** Refuted: digest is idempotent. *)
Theorem C09_idempotent_refuted :
  exists m m1 d m2 d' m3,
    hmac_new (mkTarget W64 true) [107] = Ret m /\
    hmac_update (mkTarget W64 true) m [97] = Ret m1 /\
    hmac_digest (mkTarget W64 true) m1 = Ret (d, m2) /\
    hmac_digest (mkTarget W64 true) m2 = Ret (d', m3) /\
    d = Spec.Hmac.hmac [107] [97] /\ d' <> d.
Proof. exact hmac_not_idempotent. Qed.
Print Assumptions C09_idempotent_refuted.

Example C09_example :
  Forall sha_call_ok [Hasher.Update [1]; Hasher.Digest; Hasher.Digest; Hasher.Update [2]] /\
  exists m, hmac_new (mkTarget W64 true) [107] = Ret m.
Proof. split; [repeat constructor|]. eexists. vm_compute. reflexivity. Qed.
