(** Which runs look alike: the functions of Leak/ on arguments of the same shape. *)
From Coq Require Import NArith List Arith Lia Bool.
From Verif Require Import Rust.
From Verif.Model Require Sha256 Hmac Pbkdf2 Salsa20 Scrypt Aes Pkcs7 AesCbc.
From Verif.Leak Require Ops Sha256 Hmac Pbkdf2 Salsa20 Scrypt Aes Pkcs7 AesCbc.
From Verif.Proofs Require Import Leak.
Import ListNotations.
Local Open Scope N_scope.

(** * SHA-256 *)
Lemma fill_block_ag i1 i2 o1 o2 : bytes i1 i2 -> bytes o1 o2 ->
  agree bytes (Leak.Sha256.fill_block i1 o1) (Leak.Sha256.fill_block i2 o2).
Proof.
  intros Hi Ho; unfold Leak.Sha256.fill_block. rewrite (Forall2_len _ _ _ Ho).
  apply agree_for_range; [exact Ho|]. intros i s1 s2 Hs. ag.
Qed.
Lemma write_u64_be_ag d1 d2 v1 v2 : bytes d1 d2 ->
  agree bytes (Leak.Sha256.write_u64_be d1 v1) (Leak.Sha256.write_u64_be d2 v2).
Proof. intros Hd; unfold Leak.Sha256.write_u64_be. ag. Qed.
Lemma message_schedule_ag b1 b2 : bytes b1 b2 ->
  agree bytes (Leak.Sha256.message_schedule b1) (Leak.Sha256.message_schedule b2).
Proof.
  intros Hb; unfold Leak.Sha256.message_schedule.
  ag. apply agree_for_range; [rel|]. intros i s1 s2 Hs. ag.
Qed.
Definition anything {A} (a b : A) : Prop := True.
Lemma round_body_ag w1 w2 t v1 v2 : bytes w1 w2 ->
  agree anything (Leak.Sha256.round_body w1 t v1) (Leak.Sha256.round_body w2 t v2).
Proof.
  intros Hw; unfold Leak.Sha256.round_body.
  destruct v1 as [[[[[[[a1 b1] c1] d1] e1] f1] g1] h1], v2 as [[[[[[[a2 b2] c2] d2] e2] f2] g2] h2].
  eapply agree_bind; [eapply (agree_idx secret), bytes_refl|]; intros. ag.
Qed.
#[export] Hint Resolve fill_block_ag write_u64_be_ag message_schedule_ag : agree.
Lemma process_block_ag h1 h2 b1 b2 : bytes h1 h2 -> bytes b1 b2 ->
  agree bytes (Leak.Sha256.process_block h1 b1) (Leak.Sha256.process_block h2 b2).
Proof.
  intros Hh Hb; unfold Leak.Sha256.process_block.
  eapply agree_bind; [apply message_schedule_ag, Hb|]; intros w1 w2 Hw.
  do 8 ag1. eapply (agree_bind anything).
  - apply agree_for_range; [exact I|]. intros i s1 s2 _. apply round_body_ag, Hw.
  - intros [[[[[[[? ?] ?] ?] ?] ?] ?] ?] [[[[[[[? ?] ?] ?] ?] ?] ?] ?] _. ag.
Qed.
#[export] Hint Resolve process_block_ag : agree.

Definition sha_like (s1 s2 : Model.Sha256.SHA256) : Prop :=
  bytes (Model.Sha256.sha_h s1) (Model.Sha256.sha_h s2) /\
  bytes (Model.Sha256.sha_buffer s1) (Model.Sha256.sha_buffer s2) /\
  Model.Sha256.sha_length s1 = Model.Sha256.sha_length s2.
Lemma sha_like_new : sha_like Model.Sha256.sha256_new Model.Sha256.sha256_new.
Proof. repeat split; apply bytes_refl. Qed.
Lemma update_byte_ag T b1 b2 s1 s2 : sha_like s1 s2 ->
  agree sha_like (Leak.Sha256.update_byte T b1 s1) (Leak.Sha256.update_byte T b2 s2).
Proof.
  intros (Hh & Hb & Hl); unfold Leak.Sha256.update_byte. rewrite Hl.
  ag; repeat split; first [assumption | reflexivity].
Qed.
Lemma sha256_update_ag T s1 s2 d1 d2 : sha_like s1 s2 -> bytes d1 d2 ->
  agree sha_like (Leak.Sha256.sha256_update T s1 d1) (Leak.Sha256.sha256_update T s2 d2).
Proof.
  intros Hs Hd; unfold Leak.Sha256.sha256_update.
  eapply agree_for_each; [|exact Hd|exact Hs].
  intros; apply update_byte_ag; assumption.
Qed.
Lemma write_digest_ag h1 h2 : bytes h1 h2 ->
  agree bytes (Leak.Sha256.write_digest h1) (Leak.Sha256.write_digest h2).
Proof.
  intros Hh; unfold Leak.Sha256.write_digest. rewrite (Forall2_len _ _ _ Hh).
  apply agree_for_range; [apply bytes_refl|]. intros i s1 s2 Hs. ag.
Qed.
Lemma or_0x80_ag b1 b2 i : bytes b1 b2 ->
  agree bytes (Leak.Sha256.or_0x80 b1 i) (Leak.Sha256.or_0x80 b2 i).
Proof. intros Hb; unfold Leak.Sha256.or_0x80. ag. Qed.
#[export] Hint Resolve write_digest_ag or_0x80_ag : agree.
Lemma sha256_digest_ag T s1 s2 : sha_like s1 s2 ->
  agree (both bytes sha_like) (Leak.Sha256.sha256_digest T s1) (Leak.Sha256.sha256_digest T s2).
Proof.
  intros (Hh & Hb & Hl); unfold Leak.Sha256.sha256_digest. rewrite Hl.
  ag1. eapply (agree_bind bytes).
  - rewrite (Forall2_len _ _ _ Hb). apply agree_for_range; [exact Hb|]. intros; ag.
  - intros c1 c2 Hc. ag1.
    eapply (agree_bind (fun p q => bytes (fst (fst p)) (fst (fst q)) /\
                                   snd (fst p) = snd (fst q) /\ bytes (snd p) (snd q))).
    + ag; repeat split; cbn; try assumption; apply bytes_refl.
    + intros [[h1 o1] d1] [[h2 o2] d2] (Hh' & Ho & Hd); cbn in Hh', Ho, Hd; subst o2.
      rewrite (Forall2_len _ _ _ Hd). do 3 ag1.
      eapply (agree_bind bytes); [ag|]. intros e1 e2 He.
      ag. repeat split; first [assumption | reflexivity].
Qed.
#[export] Hint Resolve sha256_update_ag sha256_digest_ag sha_like_new : agree.

(** * HMAC *)
Definition hmac_like (m1 m2 : Model.Hmac.HMac) : Prop :=
  sha_like (Model.Hmac.inner m1) (Model.Hmac.inner m2) /\
  sha_like (Model.Hmac.outer m1) (Model.Hmac.outer m2).
Lemma hmac_new_fuel_ag n : forall T k1 k2, bytes k1 k2 ->
  agree hmac_like (Leak.Hmac.hmac_new_fuel n T k1) (Leak.Hmac.hmac_new_fuel n T k2).
Proof.
  induction n as [|n IH]; intros T k1 k2 Hk; cbn [Leak.Hmac.hmac_new_fuel].
  - apply agree_diverge.
  - rewrite (Forall2_len _ _ _ Hk). ag.
    + destruct Hr0 as [Hd _]; apply IH, Hd.
    + split; assumption.
Qed.
Lemma hmac_new_ag T k1 k2 : bytes k1 k2 ->
  agree hmac_like (Leak.Hmac.hmac_new T k1) (Leak.Hmac.hmac_new T k2).
Proof. apply hmac_new_fuel_ag. Qed.
Lemma hmac_update_ag T m1 m2 d1 d2 : hmac_like m1 m2 -> bytes d1 d2 ->
  agree hmac_like (Leak.Hmac.hmac_update T m1 d1) (Leak.Hmac.hmac_update T m2 d2).
Proof. intros [Hi Ho] Hd; unfold Leak.Hmac.hmac_update. ag. split; assumption. Qed.
Lemma hmac_digest_ag T m1 m2 : hmac_like m1 m2 ->
  agree (both bytes hmac_like) (Leak.Hmac.hmac_digest T m1) (Leak.Hmac.hmac_digest T m2).
Proof.
  intros [Hi Ho]; unfold Leak.Hmac.hmac_digest.
  eapply agree_bind; [apply sha256_digest_ag, Hi|]. intros [d1 i1] [d2 i2] [Hd Hi']; cbn in Hd, Hi'.
  eapply agree_bind; [apply sha256_update_ag; eassumption|]. intros o1 o2 Ho'.
  eapply agree_bind; [apply sha256_digest_ag, Ho'|].
  intros [e1 p1] [e2 p2] [He Hp]; cbn in He, Hp.
  ag. repeat split; cbn; first [assumption | apply Hi' | apply Hp].
Qed.

(** * PBKDF2 *)
Lemma xor_us_ag t1 t2 u1 u2 : bytes t1 t2 -> bytes u1 u2 ->
  agree bytes (Leak.Pbkdf2.xor_us t1 u1) (Leak.Pbkdf2.xor_us t2 u2).
Proof.
  intros Ht Hu; unfold Leak.Pbkdf2.xor_us. rewrite (Forall2_len _ _ _ Hu).
  apply agree_for_range; [exact Ht|]. intros i s1 s2 Hs. ag.
Qed.
Lemma pbkdf2_block_ag T p1 p2 s1 s2 c i : bytes p1 p2 -> bytes s1 s2 ->
  agree bytes (Leak.Pbkdf2.pbkdf2_block T p1 s1 c i) (Leak.Pbkdf2.pbkdf2_block T p2 s2 c i).
Proof.
  intros Hp Hs; unfold Leak.Pbkdf2.pbkdf2_block.
  eapply agree_bind; [apply hmac_new_ag, Hp|]. intros h1 h2 Hh.
  eapply agree_bind; [apply hmac_update_ag; eassumption|]. intros h3 h4 Hh'.
  eapply agree_bind; [apply hmac_update_ag; [eassumption|apply bytes_refl]|]. intros h5 h6 Hh''.
  eapply agree_bind; [apply hmac_digest_ag; eassumption|]. intros [u1 ?] [u2 ?] [Hu _]; cbn in Hu.
  eapply (agree_bind (both bytes bytes)).
  - apply agree_for_range_incl; [split; exact Hu|].
    intros j [v1 t1] [v2 t2] [Hv Ht]; cbn in Hv, Ht.
    eapply agree_bind; [apply hmac_new_ag, Hp|]. intros k1 k2 Hk.
    eapply agree_bind; [apply hmac_update_ag; eassumption|]. intros k3 k4 Hk'.
    eapply agree_bind; [apply hmac_digest_ag; eassumption|]. intros [w1 ?] [w2 ?] [Hw _]; cbn in Hw.
    eapply agree_bind; [apply xor_us_ag; eassumption|]. intros x1 x2 Hx.
    apply agree_ret; split; assumption.
  - intros [? t1] [? t2] [_ Ht]. apply agree_ret, Ht.
Qed.
Lemma pbkdf2_sha256_ag T p1 p2 s1 s2 c o1 o2 : bytes p1 p2 -> bytes s1 s2 -> bytes o1 o2 ->
  agree bytes (Leak.Pbkdf2.pbkdf2_sha256 T p1 s1 c o1) (Leak.Pbkdf2.pbkdf2_sha256 T p2 s2 c o2).
Proof.
  intros Hp Hs Ho; unfold Leak.Pbkdf2.pbkdf2_sha256. rewrite (Forall2_len _ _ _ Ho).
  do 3 ag1. apply agree_for_range_incl; [exact Ho|]. intros i q1 q2 Hq.
  eapply agree_bind; [apply pbkdf2_block_ag; eassumption|]. intros t1 t2 Ht.
  rewrite (Forall2_len _ _ _ Hq). ag.
Qed.

(** * Salsa20 *)
Lemma quarterround_ag y1 y2 z1 z2 : bytes y1 y2 -> bytes z1 z2 ->
  agree bytes (Leak.Salsa20.quarterround y1 z1) (Leak.Salsa20.quarterround y2 z2).
Proof. intros Hy Hz; unfold Leak.Salsa20.quarterround. ag. Qed.
Lemma gather_ag y1 y2 a b c d : bytes y1 y2 ->
  agree bytes (Leak.Salsa20.gather y1 a b c d) (Leak.Salsa20.gather y2 a b c d).
Proof. intros Hy; unfold Leak.Salsa20.gather. ag. apply bytes_length; reflexivity. Qed.
Lemma scatter_ag z1 z2 t1 t2 a b c d : bytes z1 z2 -> bytes t1 t2 ->
  agree bytes (Leak.Salsa20.scatter z1 t1 a b c d) (Leak.Salsa20.scatter z2 t2 a b c d).
Proof. intros Hz Ht; unfold Leak.Salsa20.scatter. ag. Qed.
#[export] Hint Resolve quarterround_ag gather_ag scatter_ag : agree.
Lemma rowround_ag y1 y2 z1 z2 : bytes y1 y2 -> bytes z1 z2 ->
  agree bytes (Leak.Salsa20.rowround y1 z1) (Leak.Salsa20.rowround y2 z2).
Proof. intros Hy Hz; unfold Leak.Salsa20.rowround. ag. Qed.
Lemma columnround_ag y1 y2 z1 z2 : bytes y1 y2 -> bytes z1 z2 ->
  agree bytes (Leak.Salsa20.columnround y1 z1) (Leak.Salsa20.columnround y2 z2).
Proof. intros Hy Hz; unfold Leak.Salsa20.columnround. ag. Qed.
#[export] Hint Resolve rowround_ag columnround_ag : agree.
Lemma doubleround_ag y1 y2 z1 z2 : bytes y1 y2 -> bytes z1 z2 ->
  agree bytes (Leak.Salsa20.doubleround y1 z1) (Leak.Salsa20.doubleround y2 z2).
Proof. intros Hy Hz; unfold Leak.Salsa20.doubleround. ag. Qed.
Lemma littleendian_ag b1 b2 : bytes b1 b2 ->
  agree secret (Leak.Salsa20.littleendian b1) (Leak.Salsa20.littleendian b2).
Proof. intros Hb; unfold Leak.Salsa20.littleendian. ag. Qed.
Lemma littleendian_inv_ag x1 x2 b1 b2 : bytes b1 b2 ->
  agree bytes (Leak.Salsa20.littleendian_inv x1 b1) (Leak.Salsa20.littleendian_inv x2 b2).
Proof. intros Hb; unfold Leak.Salsa20.littleendian_inv. ag. Qed.
#[export] Hint Resolve doubleround_ag littleendian_ag littleendian_inv_ag : agree.
Lemma salsa20_ag i1 i2 n o1 o2 : bytes i1 i2 -> bytes o1 o2 ->
  agree bytes (Leak.Salsa20.salsa20 i1 n o1) (Leak.Salsa20.salsa20 i2 n o2).
Proof.
  intros Hi Ho; unfold Leak.Salsa20.salsa20.
  eapply (agree_bind bytes).
  { unfold Leak.Salsa20.read_words. apply agree_for_range; [apply bytes_refl|]. intros; ag. }
  intros x1 x2 Hx. eapply (agree_bind bytes).
  { unfold Leak.Salsa20.mix. apply agree_for_range; [exact Hx|]. intros; ag. }
  intros z1 z2 Hz. unfold Leak.Salsa20.write_words.
  apply agree_for_range; [exact Ho|]. intros; ag.
Qed.

(** * PKCS#7 *)
Definition option_like (o1 o2 : option (list N)) : Prop :=
  match o1, o2 with
  | Some l1, Some l2 => bytes l1 l2
  | None, None => True
  | _, _ => False
  end.
Definition pad_like (p1 p2 : Model.Pkcs7.Pad) : Prop :=
  Model.Pkcs7.pad_block_size p1 = Model.Pkcs7.pad_block_size p2 /\
  bytes (Model.Pkcs7.pad_storage p1) (Model.Pkcs7.pad_storage p2).
Lemma pad_new_ag T k : agree pad_like (Leak.Pkcs7.pad_new T k) (Leak.Pkcs7.pad_new T k).
Proof. unfold Leak.Pkcs7.pad_new. ag. split; [reflexivity|apply bytes_refl]. Qed.
Lemma pad_write_ag T p1 p2 b1 b2 : pad_like p1 p2 -> bytes b1 b2 ->
  agree (both option_like pad_like) (Leak.Pkcs7.pad_write T p1 b1) (Leak.Pkcs7.pad_write T p2 b2).
Proof.
  intros [Hk Hs] Hb; unfold Leak.Pkcs7.pad_write. rewrite Hk, (Forall2_len _ _ _ Hb).
  eapply (agree_bind bytes); [apply agree_run, Forall2_app; assumption|]. intros t1 t2 Ht.
  rewrite (Forall2_len _ _ _ Ht). apply agree_branch; intros _.
  - apply agree_ret. split; [exact I|split; [reflexivity|exact Ht]].
  - do 2 ag1. eapply agree_bind; [apply agree_split_off, Ht|].
    intros [h1 l1] [h2 l2] [H1 H2]; cbn [fst snd] in H1, H2.
    rewrite (Forall2_len _ _ _ H2).
    eapply (agree_bind bytes); [apply agree_run; exact H2|]. intros u1 u2 Hu.
    apply agree_ret. split; [exact H1|split; [reflexivity|exact Hu]].
Qed.
Lemma pad_flush_ag T p1 p2 : pad_like p1 p2 ->
  agree (both bytes pad_like) (Leak.Pkcs7.pad_flush T p1) (Leak.Pkcs7.pad_flush T p2).
Proof.
  intros [Hk Hs]; unfold Leak.Pkcs7.pad_flush. rewrite Hk, (Forall2_len _ _ _ Hs).
  ag1. eapply (agree_bind bytes).
  - apply agree_while; [| |exact Hs].
    + intros s1 s2 H; rewrite (Forall2_len _ _ _ H); reflexivity.
    + intros s1 s2 H; apply agree_ret, Forall2_app; [exact H|apply bytes_refl].
  - intros r1 r2 Hr. apply agree_ret. split; [exact Hr|split; [reflexivity|apply bytes_refl]].
Qed.
Definition unpad_like (p1 p2 : Model.Pkcs7.Unpad) : Prop :=
  Model.Pkcs7.unpad_block_size p1 = Model.Pkcs7.unpad_block_size p2 /\
  bytes (Model.Pkcs7.unpad_storage p1) (Model.Pkcs7.unpad_storage p2).
Lemma unpad_new_ag T k : agree unpad_like (Leak.Pkcs7.unpad_new T k) (Leak.Pkcs7.unpad_new T k).
Proof. unfold Leak.Pkcs7.unpad_new. ag. split; [reflexivity|apply bytes_refl]. Qed.
Lemma unpad_write_ag T p1 p2 b1 b2 : unpad_like p1 p2 -> bytes b1 b2 ->
  agree (both option_like unpad_like)
    (Leak.Pkcs7.unpad_write T p1 b1) (Leak.Pkcs7.unpad_write T p2 b2).
Proof.
  intros [Hk Hs] Hb; unfold Leak.Pkcs7.unpad_write. rewrite Hk, (Forall2_len _ _ _ Hb).
  eapply (agree_bind bytes); [apply agree_run, Forall2_app; assumption|]. intros t1 t2 Ht.
  rewrite (Forall2_len _ _ _ Ht). apply agree_branch; intros _.
  - apply agree_ret. split; [exact I|split; [reflexivity|exact Ht]].
  - ag1. eapply (agree_bind eq); [apply agree_branch; intros; apply agree_ret; reflexivity|].
    intros ? ? ->. ag1. eapply agree_bind; [apply agree_split_off, Ht|].
    intros [h1 l1] [h2 l2] [H1 H2]; cbn [fst snd] in H1, H2.
    rewrite (Forall2_len _ _ _ H2).
    eapply (agree_bind bytes); [apply agree_run; exact H2|]. intros u1 u2 Hu.
    apply agree_ret. split; [exact H1|split; [reflexivity|exact Hu]].
Qed.
