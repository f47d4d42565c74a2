(** C81. A hasher or MAC object whose owner catches a panic and goes on using it. *)
From Coq Require Import NArith List Arith Lia Bool.
From Verif Require Import Rust Calls.
From Verif.Model Require Import Sha256 Hmac.
From Verif.Spec Require Import Octets Sha256 Hasher Survive.
From Verif.Spec Require Mac.
From Verif.Unwind Require Import Mem Calls.
From Verif.Unwind Require Sha256 Hmac.
From Verif.Proofs Require Import Base Bits Sha256 Hmac Unwind.
From Verif.Proofs Require Panics.
Import ListNotations.
Local Open Scope N_scope.

(** The code written with its memory visible has the outcomes of the model. *)
Theorem C81_same_outcomes : forall T d (s : SHA256) (m : HMac),
  outcome (Unwind.Sha256.update T d) s = (let* s' := sha256_update T s d in Ret (tt, s')) /\
  outcome (Unwind.Sha256.digest T) s = sha256_digest T s /\
  outcome (Unwind.Hmac.update T d) m = (let* m' := hmac_update T m d in Ret (tt, m')) /\
  outcome (Unwind.Hmac.digest T) m = hmac_digest T m.
Proof.
  intros T d s m. split; [apply update_outcome|]. split; [apply digest_outcome|].
  split; [apply hmac_update_outcome|apply hmac_digest_outcome].
Qed.
Print Assumptions C81_same_outcomes.

(** Every reply of every history of calls, with the panics caught. *)
Theorem C81_hasher_replies : forall T calls, Forall sha_call_ok calls ->
  sha_survive T calls sha256_new = replies (usize_mod T) (overflow_checks T) calls Hasher.fresh.
Proof. intros T calls H. apply sha_replies; [apply abs_fresh|assumption]. Qed.
Print Assumptions C81_hasher_replies.

Theorem C81_mac_replies : forall T key m calls, octets key -> Forall sha_call_ok calls ->
  hmac_new T key = Ret m ->
  exists a, Mac.new (usize_mod T) (overflow_checks T) key = Some a /\
    hmac_survive T calls m = mac_replies (usize_mod T) (overflow_checks T) calls a.
Proof.
  intros T key m calls Hk Hc E. pose proof (hmac_new_agree T key Hk) as H. rewrite E in H.
  destruct (Mac.new _ _ key) as [a|]; [|contradiction]. exists a. split; [reflexivity|].
  apply hmac_replies; assumption.
Qed.
Print Assumptions C81_mac_replies.

(** Once a call has panicked, every later digest panics as well. *)
Lemma doomed_app limit calls more : forall n, exists n',
  doomed limit (calls ++ more) n = doomed limit calls n ++ doomed limit more n'.
Proof.
  induction calls as [|[d|] cs IH]; intros n; cbn [app doomed]; [exists n; reflexivity| |].
  - destruct (limit <=? n + N.of_nat (length d)).
    + destruct (IH (limit - 1)) as (n' & ->). exists n'. reflexivity.
    + destruct (IH (n + N.of_nat (length d))) as (n' & ->). exists n'. reflexivity.
  - destruct (IH n) as (n' & ->). exists n'. reflexivity.
Qed.
Lemma replies_app limit checks calls more : forall st, In None (replies limit checks calls st) ->
  exists n, replies limit checks (calls ++ more) st = replies limit checks calls st ++ doomed limit more n.
Proof.
  induction calls as [|[d|] cs IH]; intros st Hin; cbn [app replies] in *; [contradiction| |].
  - destruct (update limit checks st d) as [st'|].
    + destruct Hin as [|Hin]; [discriminate|]. destruct (IH st' Hin) as (n & ->). exists n. reflexivity.
    + destruct (doomed_app limit cs more (limit - 1)) as (n & ->). exists n. reflexivity.
  - destruct (digest limit checks st) as [[x st']|].
    + destruct Hin as [|Hin]; [discriminate|]. destruct (IH st' Hin) as (n & ->). exists n. reflexivity.
    + destruct (doomed_app limit cs more (total st)) as (n & ->). exists n. reflexivity.
Qed.
Lemma mac_replies_app limit checks calls more : forall m, In None (mac_replies limit checks calls m) ->
  exists n, mac_replies limit checks (calls ++ more) m = mac_replies limit checks calls m ++ doomed limit more n.
Proof.
  induction calls as [|[d|] cs IH]; intros st Hin; cbn [app mac_replies] in *; [contradiction| |].
  - destruct (Mac.mac_update limit checks st d) as [st'|].
    + destruct Hin as [|Hin]; [discriminate|]. destruct (IH st' Hin) as (n & ->). exists n. reflexivity.
    + destruct (doomed_app limit cs more (limit - 1)) as (n & ->). exists n. reflexivity.
  - destruct (Mac.mac_digest limit checks st) as [[x st']|].
    + destruct Hin as [|Hin]; [discriminate|]. destruct (IH st' Hin) as (n & ->). exists n. reflexivity.
    + destruct (doomed_app limit cs more (total (Mac.inner st))) as (n & ->). exists n. reflexivity.
Qed.

Theorem C81_no_digest_after_panic : forall T calls, Forall sha_call_ok calls ->
  In None (sha_survive T calls sha256_new) ->
  sha_survive T (calls ++ [Hasher.Digest]) sha256_new = sha_survive T calls sha256_new ++ [None].
Proof.
  intros T calls H Hin. rewrite !C81_hasher_replies in * by (rewrite ?Forall_app; repeat constructor; assumption).
  destruct (replies_app _ _ calls [Hasher.Digest] _ Hin) as (n & ->). reflexivity.
Qed.
Print Assumptions C81_no_digest_after_panic.

Theorem C81_no_mac_after_panic : forall T key m calls, octets key -> Forall sha_call_ok calls ->
  hmac_new T key = Ret m -> In None (hmac_survive T calls m) ->
  hmac_survive T (calls ++ [Hasher.Digest]) m = hmac_survive T calls m ++ [None].
Proof.
  intros T key m calls Hk H E Hin.
  destruct (C81_mac_replies T key m calls Hk H E) as (a & Ea & Er).
  destruct (C81_mac_replies T key m (calls ++ [Hasher.Digest]) Hk) as (a' & Ea' & Er');
    [rewrite Forall_app; repeat constructor; assumption|assumption|].
  rewrite Ea in Ea'. injection Ea' as <-. rewrite Er in Hin |- *. rewrite Er'.
  destruct (mac_replies_app _ _ calls [Hasher.Digest] _ Hin) as (n & ->). reflexivity.
Qed.
Print Assumptions C81_no_mac_after_panic.

(** Without overflow checks no call of any history panics. *)
Lemma replies_unchecked limit calls : forall st, ~ In None (replies limit false calls st).
Proof.
  induction calls as [|[d|] cs IH]; intros st; cbn [replies]; [intros []| |]; intros [X|X];
    try discriminate X; exact (IH _ X).
Qed.
Lemma mac_replies_unchecked limit calls : forall m, ~ In None (mac_replies limit false calls m).
Proof.
  induction calls as [|[d|] cs IH]; intros m; cbn [mac_replies]; [intros []| |]; intros [X|X];
    try discriminate X; exact (IH _ X).
Qed.
Theorem C81_unchecked_never_panics : forall T key calls, overflow_checks T = false ->
  octets key -> Forall sha_call_ok calls ->
  ~ In None (sha_survive T calls sha256_new) /\
  exists m, hmac_new T key = Ret m /\ ~ In None (hmac_survive T calls m).
Proof.
  intros T key calls Ht Hk Hc. split.
  - rewrite C81_hasher_replies, Ht by assumption. apply replies_unchecked.
  - destruct (Panics.wrapping_new T key Ht Hk) as (m & _ & E & _). exists m. split; [exact E|].
    destruct (C81_mac_replies T key m calls Hk Hc E) as (a & _ & ->). rewrite Ht.
    apply mac_replies_unchecked.
Qed.
Print Assumptions C81_unchecked_never_panics.

(** Until the first panic, and with it, the replies are those of the history that
    ends there (C05, C09). *)
Lemma replies_start limit checks calls : forall st,
  exists rest, replies limit checks calls st = results limit checks calls st ++ rest.
Proof.
  induction calls as [|[d|] cs IH]; intros st; cbn [replies results]; [exists []; reflexivity| |].
  - destruct (update limit checks st d) as [st'|]; [|eexists; reflexivity].
    destruct (IH st') as (r & ->). exists r. reflexivity.
  - destruct (digest limit checks st) as [[x st']|]; [|eexists; reflexivity].
    destruct (IH st') as (r & ->). exists r. reflexivity.
Qed.
Lemma mac_replies_start limit checks calls : forall m,
  exists rest, mac_replies limit checks calls m = Mac.mac_results limit checks calls m ++ rest.
Proof.
  induction calls as [|[d|] cs IH]; intros st; cbn [mac_replies Mac.mac_results]; [exists []; reflexivity| |].
  - destruct (Mac.mac_update limit checks st d) as [st'|]; [|eexists; reflexivity].
    destruct (IH st') as (r & ->). exists r. reflexivity.
  - destruct (Mac.mac_digest limit checks st) as [[x st']|]; [|eexists; reflexivity].
    destruct (IH st') as (r & ->). exists r. reflexivity.
Qed.
Theorem C81_until_panic : forall T calls key m, Forall sha_call_ok calls -> octets key ->
  hmac_new T key = Ret m ->
  (exists rest, sha_survive T calls sha256_new = sha_run T calls sha256_new ++ rest) /\
  (exists rest, hmac_survive T calls m = hmac_run T calls m ++ rest).
Proof.
  intros T calls key m H Hk E. split.
  - rewrite C81_hasher_replies by assumption.
    rewrite (run_agree T calls sha256_new Hasher.fresh (abs_fresh T) H). apply replies_start.
  - pose proof (hmac_new_agree T key Hk) as Ha. rewrite E in Ha.
    destruct (Mac.new _ _ key) as [a|]; [|contradiction].
    rewrite (hmac_replies T calls m a Ha H), (hmac_run_agree T calls m a Ha H).
    apply mac_replies_start.
Qed.
Print Assumptions C81_until_panic.

(** Half a gigabyte on a 32-bit machine with overflow checks: the digest panics, three
    more bytes are taken, and the next digest panics. *)
Example C81_example :
  let T := mkTarget W32 true in
  sha_survive T [Hasher.Update (repeat 7 (N.to_nat (2 ^ 29))); Hasher.Digest;
                 Hasher.Update [1; 2; 3]; Hasher.Digest] sha256_new =
  [Some []; None; Some []; None].
Proof.
  intros T. rewrite C81_hasher_replies.
  - remember (2 ^ 29) as k eqn:Ek. cbn [replies].
    change (usize_mod T) with (2 ^ 32). unfold update. cbn [T overflow_checks total Hasher.fresh].
    rewrite repeat_length, N2Nat.id.
    replace (andb true (2 ^ 32 <=? 0 + k)) with false by (subst k; reflexivity).
    cbn [pending app]. unfold digest. cbn [total].
    replace ((0 + k) mod 2 ^ 32) with k by (subst k; reflexivity).
    replace (andb true (2 ^ 32 <=? 8 * k)) with true by (subst k; reflexivity).
    cbn [doomed length]. replace (2 ^ 32 <=? k + N.of_nat 3) with false by (subst k; reflexivity).
    reflexivity.
  - constructor; [cbn; apply octets_repeat; lia|]. repeat constructor.
Qed.
(** The same with a hasher that has counted to its limit already: the bytes written
    before the panic are there. *)
Example C81_example_memory :
  let T := mkTarget W32 true in
  Unwind.Sha256.update T [1; 2; 3] (mkSHA256 Model.Sha256.H (repeat 0 64) 4294967294) =
  Unwound (mkSHA256 Model.Sha256.H (repeat 0 62 ++ [1; 2]) 4294967295).
Proof. vm_compute. reflexivity. Qed.

(** C82. The caller's buffer after a panic. *)
From Verif.Model Require Import Pbkdf2 Scrypt.
From Verif.Spec Require Salsa20.
From Verif.Unwind Require Kdf.
From Verif.Proofs Require Import UnwindKdf.
From Verif.Props Require Import Panics.

Theorem C82_same_outcomes : forall T P S c out s pass salt input rounds,
  outcome (Unwind.Kdf.pbkdf2_sha256 T P S c) out =
    (let* o := pbkdf2_sha256 T P S c out in Ret (tt, o)) /\
  outcome (Unwind.Kdf.scrypt_derive T s pass salt) out = scrypt_derive T s pass salt out /\
  outcome (Unwind.Kdf.salsa20 input rounds) out =
    (let* o := Model.Salsa20.salsa20 input rounds out in Ret (tt, o)).
Proof.
  intros. split; [apply pbkdf2_outcome|]. split; [apply scrypt_outcome|apply salsa20_outcome].
Qed.
Print Assumptions C82_same_outcomes.

(** A derivation that panics has written nothing. *)
Theorem C82_pbkdf2_keeps_buffer : forall T P S c out out', len out <= isize_max T ->
  Unwind.Kdf.pbkdf2_sha256 T P S c out = Unwound out' -> out' = out.
Proof. exact pbkdf2_unwound. Qed.
Print Assumptions C82_pbkdf2_keeps_buffer.

Theorem C82_scrypt_keeps_buffer : forall T s pass salt out out', len out <= isize_max T ->
  Unwind.Kdf.scrypt_derive T s pass salt out = Unwound out' -> out' = out.
Proof. exact scrypt_unwound. Qed.
Print Assumptions C82_scrypt_keeps_buffer.

(** Salsa20 on a short output buffer panics after writing the words that fit; on a
    short input it writes nothing. *)
Theorem C82_salsa20_writes_words : forall input k out, octets input ->
  (length out < 64)%nat -> (64 <= length input)%nat ->
  Unwind.Kdf.salsa20 input k out =
  Unwound (firstn (4 * (length out / 4)) (Spec.Salsa20.salsa20 k (firstn 64 input)) ++
           skipn (4 * (length out / 4)) out).
Proof. intros input k out Hi Ho Hl. apply salsa20_unwound_output; assumption. Qed.
Print Assumptions C82_salsa20_writes_words.
Theorem C82_salsa20_short_input : forall input k out, (length input < 64)%nat ->
  Unwind.Kdf.salsa20 input k out = Unwound out.
Proof. exact salsa20_unwound_input. Qed.
Print Assumptions C82_salsa20_short_input.

(** So "a call that panics leaves its buffer as it was" is false of salsa20. *)
Theorem C82_salsa20_keeps_buffer_refuted : exists input k out out',
  octets input /\ length input = 64%nat /\
  Unwind.Kdf.salsa20 input k out = Unwound out' /\ out' <> out.
Proof.
  exists (repeat 7 64), 1, (repeat 0 10). eexists.
  split; [apply octets_repeat; lia|]. split; [reflexivity|].
  split; [vm_compute; reflexivity|]. discriminate.
Qed.
Print Assumptions C82_salsa20_keeps_buffer_refuted.

Example C82_example :
  (* the first two words of a ten-byte buffer are written, its last two bytes stay *)
  Unwind.Kdf.salsa20 (repeat 7 64) 100 (repeat 9 10) =
    Unwound ([121; 110; 7; 195; 60; 132; 20; 193] ++ [9; 9]) /\
  (* scrypt with a block size parameter that overflows, with checks *)
  Unwind.Kdf.scrypt_derive (mkTarget W32 true) (mkScrypt 33554432 2 1) [1] [2] [5; 6] =
    Unwound [5; 6].
Proof. split; vm_compute; reflexivity. Qed.

(** A password of half a gigabyte, on a 32-bit machine with overflow checks. *)
Example C82_example_pbkdf2 :
  Unwind.Kdf.pbkdf2_sha256 (mkTarget W32 true) (repeat 7 (N.to_nat (2 ^ 29))) [1] 1 [5; 6] =
  Unwound [5; 6].
Proof.
  pose proof (pbkdf2_outcome (mkTarget W32 true) (repeat 7 (N.to_nat (2 ^ 29))) [1] 1 [5; 6]) as Ho.
  rewrite (proj1 C83_example_password) in Ho. destruct (outcome_unwound _ _ Ho) as (out' & Eo). rewrite Eo.
  f_equal. eapply C82_pbkdf2_keeps_buffer; [|exact Eo]. vm_compute. discriminate.
Qed.
