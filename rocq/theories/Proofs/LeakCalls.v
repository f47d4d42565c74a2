(** Erasure and agreement for the sessions of Leak/Calls.v. *)
From Coq Require Import NArith List Arith Lia Bool.
From Verif Require Import Rust Calls.
From Verif.Model Require Sha256 Hmac Pkcs7 AesCbc.
From Verif.Leak Require Ops Sha256 Hmac Pkcs7 AesCbc Calls.
From Verif.Spec Require Hasher Stream Leakage.
From Verif.Proofs Require Import Leak LeakErase LeakAgree.
Import ListNotations.
Import Spec.Leakage.
Local Open Scope N_scope.

(** The list of replies of a session that did not panic. *)
Definition replies_of (r : res (list (list N))) (l : list (option (list N))) : Prop :=
  match r with
  | Ret ds => l = map Some ds
  | _ => In None l
  end.

Lemma sha_session_er T calls : forall s,
  replies_of (Ops.outcome (Leak.Calls.sha_session T calls s)) (sha_run T calls s).
Proof.
  induction calls as [|[d|] cs IH]; intros s; cbn [Leak.Calls.sha_session sha_run].
  - reflexivity.
  - rewrite outcome_bind, sha256_update_er. destruct (Model.Sha256.sha256_update T s d) as [s'| |]; cbn [bind].
    + rewrite outcome_bind. specialize (IH s'). revert IH.
      destruct (Ops.outcome (Leak.Calls.sha_session T cs s')); cbn; intros IH; auto.
      rewrite IH. reflexivity.
    + left; reflexivity.
    + left; reflexivity.
  - rewrite outcome_bind, sha256_digest_er. destruct (Model.Sha256.sha256_digest T s) as [[d s']| |]; cbn [bind].
    + rewrite outcome_bind. specialize (IH s'). revert IH.
      destruct (Ops.outcome (Leak.Calls.sha_session T cs s')); cbn; intros IH; auto.
      rewrite IH. reflexivity.
    + left; reflexivity.
    + left; reflexivity.
Qed.

Lemma hmac_calls_er T calls : forall m,
  replies_of (Ops.outcome (Leak.Calls.hmac_calls T calls m)) (hmac_run T calls m).
Proof.
  induction calls as [|[d|] cs IH]; intros s; cbn [Leak.Calls.hmac_calls hmac_run].
  - reflexivity.
  - rewrite outcome_bind, hmac_update_er. destruct (Model.Hmac.hmac_update T s d) as [s'| |]; cbn [bind].
    + rewrite outcome_bind. specialize (IH s'). revert IH.
      destruct (Ops.outcome (Leak.Calls.hmac_calls T cs s')); cbn; intros IH; auto.
      rewrite IH. reflexivity.
    + left; reflexivity.
    + left; reflexivity.
  - rewrite outcome_bind, hmac_digest_er. destruct (Model.Hmac.hmac_digest T s) as [[d s']| |]; cbn [bind].
    + rewrite outcome_bind. specialize (IH s'). revert IH.
      destruct (Ops.outcome (Leak.Calls.hmac_calls T cs s')); cbn; intros IH; auto.
      rewrite IH. reflexivity.
    + left; reflexivity.
    + left; reflexivity.
Qed.

Lemma pad_writes_er T chunks : forall p,
  Ops.outcome (Leak.Calls.pad_writes T p chunks) = pad_writes T p chunks.
Proof.
  induction chunks as [|d ds IH]; intros p; cbn [Leak.Calls.pad_writes pad_writes]; [reflexivity|].
  rewrite outcome_bind, pad_write_er. destruct (Model.Pkcs7.pad_write T p d) as [[o p']| |]; cbn [bind]; auto.
  rewrite outcome_bind, IH. destruct (pad_writes T p' ds) as [[os p'']| |]; reflexivity.
Qed.
Lemma unpad_writes_er T chunks : forall p,
  Ops.outcome (Leak.Calls.unpad_writes T p chunks) = unpad_writes T p chunks.
Proof.
  induction chunks as [|d ds IH]; intros p; cbn [Leak.Calls.unpad_writes unpad_writes]; [reflexivity|].
  rewrite outcome_bind, unpad_write_er. destruct (Model.Pkcs7.unpad_write T p d) as [[o p']| |]; cbn [bind]; auto.
  rewrite outcome_bind, IH. destruct (unpad_writes T p' ds) as [[os p'']| |]; reflexivity.
Qed.
Lemma pad_stream_er T k chunks : Ops.outcome (Leak.Calls.pad_stream T k chunks) = pad_stream T k chunks.
Proof.
  unfold Leak.Calls.pad_stream, pad_stream.
  rewrite outcome_bind, pad_new_er. destruct (Model.Pkcs7.pad_new T k) as [p| |]; cbn [bind]; auto.
  rewrite outcome_bind, pad_writes_er. destruct (pad_writes T p chunks) as [[os p']| |]; cbn [bind]; auto.
  rewrite outcome_bind, pad_flush_er. destruct (Model.Pkcs7.pad_flush T p') as [[b p'']| |]; reflexivity.
Qed.
Lemma unpad_stream_er T k chunks :
  Ops.outcome (Leak.Calls.unpad_stream T k chunks) = unpad_stream T k chunks.
Proof.
  unfold Leak.Calls.unpad_stream, unpad_stream.
  rewrite outcome_bind, unpad_new_er. destruct (Model.Pkcs7.unpad_new T k) as [p| |]; cbn [bind]; auto.
  rewrite outcome_bind, unpad_writes_er. destruct (unpad_writes T p chunks) as [[os p']| |]; cbn [bind]; auto.
  rewrite outcome_bind, unpad_flush_er. destruct (Model.Pkcs7.unpad_flush T p') as [[b p'']| |]; reflexivity.
Qed.

Lemma cipher_call_er T c x : Ops.outcome (Leak.Calls.cipher_call T c x) = cipher_call T c x.
Proof.
  destruct x as [key|d|]; cbn [Leak.Calls.cipher_call cipher_call]; rewrite outcome_bind.
  - rewrite cipher_init_er. destruct (Model.AesCbc.cipher_init c key) as [[r c']| |]; reflexivity.
  - rewrite cipher_write_er. destruct (Model.AesCbc.cipher_write T c d) as [[r c']| |]; reflexivity.
  - rewrite cipher_flush_er. destruct (Model.AesCbc.cipher_flush T c) as [[r c']| |]; reflexivity.
Qed.
Lemma decipher_call_er T c x : Ops.outcome (Leak.Calls.decipher_call T c x) = decipher_call T c x.
Proof.
  destruct x as [key|d|]; cbn [Leak.Calls.decipher_call decipher_call]; rewrite outcome_bind.
  - rewrite decipher_init_er. destruct (Model.AesCbc.decipher_init c key) as [[r c']| |]; reflexivity.
  - rewrite decipher_write_er. destruct (Model.AesCbc.decipher_write T c d) as [[r c']| |]; reflexivity.
  - rewrite decipher_flush_er. destruct (Model.AesCbc.decipher_flush T c) as [[r c']| |]; reflexivity.
Qed.
Lemma run_calls_er {S} (f : S -> Stream.call -> Ops.res (Stream.reply * S)) g calls :
  (forall s x, Ops.outcome (f s x) = g s x) ->
  forall s, Ops.outcome (Leak.Calls.run_calls f s calls) = run_calls g s calls.
Proof.
  intros Hf. induction calls as [|x xs IH]; intros s; cbn [Leak.Calls.run_calls run_calls]; [reflexivity|].
  rewrite outcome_bind, Hf. destruct (g s x) as [[r s']| |]; cbn [bind]; auto.
  rewrite outcome_bind, IH. destruct (run_calls g s' xs) as [[rs s'']| |]; reflexivity.
Qed.
Lemma cipher_run_er T iv calls : Ops.outcome (Leak.Calls.cipher_run T iv calls) = cipher_run T iv calls.
Proof.
  unfold Leak.Calls.cipher_run, cipher_run. rewrite outcome_bind, cipher_new_er.
  destruct (Model.AesCbc.cipher_new T iv) as [c| |]; cbn [bind]; auto. apply run_calls_er. apply cipher_call_er.
Qed.
Lemma decipher_run_er T iv calls : Ops.outcome (Leak.Calls.decipher_run T iv calls) = decipher_run T iv calls.
Proof.
  unfold Leak.Calls.decipher_run, decipher_run. rewrite outcome_bind, decipher_new_er.
  destruct (Model.AesCbc.decipher_new T iv) as [c| |]; cbn [bind]; auto. apply run_calls_er. apply decipher_call_er.
Qed.

Lemma sha_session_ag T c1 c2 : same_shape c1 c2 -> forall s1 s2, sha_like s1 s2 ->
  agree anything (Leak.Calls.sha_session T c1 s1) (Leak.Calls.sha_session T c2 s2).
Proof.
  induction 1 as [|x y c1 c2 Hx Hc IH]; intros s1 s2 Hs; cbn [Leak.Calls.sha_session].
  - apply agree_ret. exact I.
  - destruct x as [d1|], y as [d2|]; try contradiction.
    + eapply agree_bind; [apply sha256_update_ag; [exact Hs|apply bytes_length, Hx]|]. intros t1 t2 Ht.
      eapply agree_bind; [apply IH, Ht|]. intros. apply agree_ret. exact I.
    + eapply agree_bind; [apply sha256_digest_ag; exact Hs|]. intros [d1 t1] [d2 t2] [_ Ht]; cbn in Ht.
      eapply agree_bind; [apply IH, Ht|]. intros. apply agree_ret. exact I.
Qed.
Lemma hmac_calls_ag T c1 c2 : same_shape c1 c2 -> forall s1 s2, hmac_like s1 s2 ->
  agree anything (Leak.Calls.hmac_calls T c1 s1) (Leak.Calls.hmac_calls T c2 s2).
Proof.
  induction 1 as [|x y c1 c2 Hx Hc IH]; intros s1 s2 Hs; cbn [Leak.Calls.hmac_calls].
  - apply agree_ret. exact I.
  - destruct x as [d1|], y as [d2|]; try contradiction.
    + eapply agree_bind; [apply hmac_update_ag; [exact Hs|apply bytes_length, Hx]|]. intros t1 t2 Ht.
      eapply agree_bind; [apply IH, Ht|]. intros. apply agree_ret. exact I.
    + eapply agree_bind; [apply hmac_digest_ag; exact Hs|]. intros [d1 t1] [d2 t2] [_ Ht]; cbn in Ht.
      eapply agree_bind; [apply IH, Ht|]. intros. apply agree_ret. exact I.
Qed.
Lemma hmac_session_ag T k1 k2 c1 c2 : length k1 = length k2 -> same_shape c1 c2 ->
  agree anything (Leak.Calls.hmac_session T k1 c1) (Leak.Calls.hmac_session T k2 c2).
Proof.
  intros Hk Hc. eapply agree_bind; [apply hmac_new_ag, bytes_length, Hk|]. intros m1 m2 Hm.
  apply hmac_calls_ag; assumption.
Qed.

Lemma pad_writes_ag T c1 c2 : same_lengths c1 c2 -> forall p1 p2, pad_like p1 p2 ->
  agree (both anything pad_like) (Leak.Calls.pad_writes T p1 c1) (Leak.Calls.pad_writes T p2 c2).
Proof.
  induction 1 as [|x y c1 c2 Hx Hc IH]; intros p1 p2 Hp; cbn [Leak.Calls.pad_writes].
  - apply agree_ret. split; [exact I|exact Hp].
  - eapply agree_bind; [apply pad_write_ag; [exact Hp|apply bytes_length, Hx]|].
    intros [o1 q1] [o2 q2] [_ Hq]; cbn in Hq.
    eapply agree_bind; [apply IH, Hq|]. intros [os1 r1] [os2 r2] [_ Hr]; cbn in Hr.
    apply agree_ret. split; [exact I|exact Hr].
Qed.
Lemma unpad_writes_ag T c1 c2 : same_lengths c1 c2 -> forall p1 p2, unpad_like p1 p2 ->
  agree (both anything unpad_like) (Leak.Calls.unpad_writes T p1 c1) (Leak.Calls.unpad_writes T p2 c2).
Proof.
  induction 1 as [|x y c1 c2 Hx Hc IH]; intros p1 p2 Hp; cbn [Leak.Calls.unpad_writes].
  - apply agree_ret. split; [exact I|exact Hp].
  - eapply agree_bind; [apply unpad_write_ag; [exact Hp|apply bytes_length, Hx]|].
    intros [o1 q1] [o2 q2] [_ Hq]; cbn in Hq.
    eapply agree_bind; [apply IH, Hq|]. intros [os1 r1] [os2 r2] [_ Hr]; cbn in Hr.
    apply agree_ret. split; [exact I|exact Hr].
Qed.
Lemma pad_stream_ag T k c1 c2 : same_lengths c1 c2 ->
  agree anything (Leak.Calls.pad_stream T k c1) (Leak.Calls.pad_stream T k c2).
Proof.
  intros Hc. eapply agree_bind; [apply pad_new_ag|]. intros p1 p2 Hp.
  eapply agree_bind; [apply pad_writes_ag; eassumption|]. intros [o1 q1] [o2 q2] [_ Hq]; cbn in Hq.
  eapply agree_bind; [apply pad_flush_ag, Hq|]. intros [b1 r1] [b2 r2] _. apply agree_ret. exact I.
Qed.
