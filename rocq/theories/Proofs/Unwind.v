(** Code with memory that outlives a panic (Unwind/): the outcomes are those of the
    model, and what the memory holds afterwards. *)
From Coq Require Import ZArith NArith List Arith Lia Bool ZifyBool ZifyNat ZifyN.
From Verif Require Import Rust Calls.
From Verif.Model Require Import Sha256 Hmac.
From Verif.Spec Require Import Octets Sha256 Hasher Survive.
From Verif.Spec Require Mac.
From Verif.Unwind Require Import Mem.
From Verif.Unwind Require Sha256 Hmac Calls.
From Verif.Proofs Require Import Base Bits Sha256Core Sha256 Hmac.
Import ListNotations.
Local Open Scope N_scope.

(** * Outcomes *)
Section Outcome.
  Context {S A B : Type}.
  Lemma outcome_seq (p : prog S A) (k : A -> prog S B) s :
    outcome (seq p k) s = let* (a, s') := outcome p s in outcome (k a) s'.
  Proof. unfold outcome, seq. destruct (p s); reflexivity. Qed.
  Lemma outcome_lift (m : res A) (s : S) : outcome (lift m) s = let* a := m in Ret (a, s).
  Proof. unfold outcome, lift. destruct m; reflexivity. Qed.
  Lemma outcome_lift_seq (m : res A) (k : A -> prog S B) s :
    outcome (seq (lift m) k) s = let* a := m in outcome (k a) s.
  Proof. unfold outcome, seq, lift. destruct m; reflexivity. Qed.
  Lemma outcome_ret (a : A) (s : S) : outcome (ret a) s = Ret (a, s).
  Proof. reflexivity. Qed.
  Lemma outcome_get_seq (k : S -> prog S B) s : outcome (seq get k) s = outcome (k s) s.
  Proof. reflexivity. Qed.
  Lemma outcome_put_seq (k : unit -> prog S B) s s' : outcome (seq (put s') k) s = outcome (k tt) s'.
  Proof. reflexivity. Qed.
  Lemma seq_assoc {C} (p : prog S A) (k : A -> prog S B) (j : B -> prog S C) s :
    seq (seq p k) j s = seq p (fun a => seq (k a) j) s.
  Proof. unfold seq. destruct (p s); reflexivity. Qed.
End Outcome.
Lemma outcome_put {S} (s s' : S) : outcome (put s') s = Ret (tt, s').
Proof. reflexivity. Qed.
Lemma outcome_get {S} (s : S) : outcome get s = Ret (s, s).
Proof. reflexivity. Qed.
Lemma outcome_for_n {S} (f : N -> S -> res S) (body : N -> prog S unit) :
  (forall i s, outcome (body i) s = let* s' := f i s in Ret (tt, s')) ->
  forall n i s, outcome (for_n n i body) s = let* s' := Rust.for_n n i f s in Ret (tt, s').
Proof.
  intros H n. induction n as [|n IH]; intros i s; [reflexivity|].
  cbn [for_n Rust.for_n]. rewrite outcome_seq, H. destruct (f i s) as [s'| |]; [|reflexivity..].
  cbn [bind]. apply IH.
Qed.
Lemma outcome_for_each {S X} (f : X -> S -> res S) (body : X -> prog S unit) :
  (forall x s, outcome (body x) s = let* s' := f x s in Ret (tt, s')) ->
  forall l s, outcome (for_each l body) s = let* s' := Rust.for_each l f s in Ret (tt, s').
Proof.
  intros H l. induction l as [|x l IH]; intros s; [reflexivity|].
  cbn [for_each Rust.for_each]. rewrite outcome_seq, H. destruct (f x s) as [s'| |]; [|reflexivity..].
  cbn [bind]. apply IH.
Qed.

Ltac oc := repeat first
  [ rewrite outcome_lift_seq | rewrite outcome_get_seq | rewrite outcome_put_seq | rewrite outcome_ret
  | rewrite outcome_put | rewrite outcome_get ].

(** * SHA-256 *)


Lemma add_h_outcome s i v :
  outcome (Unwind.Sha256.add_h i v) s =
  let* x := idx (sha_h s) i in
  let* h := upd (sha_h s) i (wrapping_add32 x v) in
  Ret (tt, mkSHA256 h (sha_buffer s) (sha_length s)).
Proof.
  unfold Unwind.Sha256.add_h, Unwind.Sha256.set_h. oc. destruct (idx _ _) as [x| |]; [|reflexivity..]. cbn [bind]. oc.
  destruct (upd _ _ _); reflexivity.
Qed.
Lemma process_block_outcome s block :
  outcome (Unwind.Sha256.process_block block) s =
  let* h := Model.Sha256.process_block (sha_h s) block in
  Ret (tt, mkSHA256 h (sha_buffer s) (sha_length s)).
Proof.
  unfold Unwind.Sha256.process_block, Model.Sha256.process_block. oc.
  destruct (message_schedule block) as [w| |]; [|reflexivity..]. cbn [bind]. oc.
  oc. destruct (idx (sha_h s) 0) as [x0| |] eqn:E0; [|reflexivity..]; cbn [bind].
  do 7 (oc; match goal with |- context [idx (sha_h s) ?i] =>
    destruct (idx (sha_h s) i) as [?x| |]; [|reflexivity..] end; cbn [bind]).
  oc. destruct (Rust.for_range 0 64 _ _) as [[[[[[[[a b] c] d] e] f] g] h]| |]; [|reflexivity..].
  cbn [bind].
  rewrite outcome_seq, add_h_outcome, E0. cbn [bind].
  destruct (upd _ _ _) as [?z| |]; [|reflexivity..]; cbn [bind sha_h sha_buffer sha_length].
  clear E0.
  do 6 (rewrite outcome_seq, add_h_outcome; cbn [sha_h sha_buffer sha_length];
    destruct (idx _ _) as [?y| |]; [|reflexivity..]; cbn [bind];
    destruct (upd _ _ _) as [?z| |]; [|reflexivity..]; cbn [bind sha_h sha_buffer sha_length]).
  rewrite add_h_outcome. cbn [sha_h sha_buffer sha_length].
  destruct (idx _ _) as [?y| |]; [|reflexivity..]. cbn [bind]. reflexivity.
Qed.
Lemma buffer_put_outcome s i v :
  outcome (Unwind.Sha256.buffer_put i v) s =
  let* b := upd (sha_buffer s) i v in Ret (tt, mkSHA256 (sha_h s) b (sha_length s)).
Proof. unfold Unwind.Sha256.buffer_put, Unwind.Sha256.set_buffer. oc. destruct (upd _ _ _); reflexivity. Qed.
Lemma buffer_or_outcome s i :
  outcome (Unwind.Sha256.buffer_or_0x80 i) s =
  let* b := or_0x80 (sha_buffer s) i in Ret (tt, mkSHA256 (sha_h s) b (sha_length s)).
Proof. unfold Unwind.Sha256.buffer_or_0x80, Unwind.Sha256.set_buffer. oc. destruct (or_0x80 _ _); reflexivity. Qed.

Lemma update_byte_outcome T b s :
  outcome (Unwind.Sha256.update_byte T b) s = let* s' := update_byte T b s in Ret (tt, s').
Proof.
  unfold Unwind.Sha256.update_byte, update_byte. oc.
  destruct (urem (sha_length s) _) as [off| |]; [|reflexivity..]. cbn [bind].
  rewrite outcome_seq, buffer_put_outcome.
  destruct (upd _ _ _) as [buf| |]; [|reflexivity..]. cbn [bind]. oc.
  destruct (uadd _ _ _) as [n| |]; [|reflexivity..]. cbn [bind].
  unfold Unwind.Sha256.set_length. rewrite outcome_seq. oc. cbn [bind]. oc. cbn [sha_h sha_buffer sha_length].
  destruct (urem n _) as [r| |]; [|reflexivity..]. cbn [bind].
  destruct (negb (r =? 0)); [reflexivity|]. oc.
  destruct (fill_block _ _) as [bl| |]; [|reflexivity..]. cbn [bind].
  rewrite process_block_outcome. cbn [sha_h sha_buffer sha_length].
  destruct (Model.Sha256.process_block _ _); reflexivity.
Qed.
Lemma update_outcome T data s :
  outcome (Unwind.Sha256.update T data) s = let* s' := sha256_update T s data in Ret (tt, s').
Proof. unfold Unwind.Sha256.update, sha256_update. apply outcome_for_each. apply update_byte_outcome. Qed.

Lemma zero_outcome s : forall n i,
  outcome (for_n n i (fun i => Unwind.Sha256.buffer_put i 0)) s =
  let* b := Rust.for_n n i (fun i buf => upd buf i 0) (sha_buffer s) in
  Ret (tt, mkSHA256 (sha_h s) b (sha_length s)).
Proof.
  intros n. revert s. induction n as [|n IH]; intros s i; [destruct s; reflexivity|].
  cbn [for_n Rust.for_n]. rewrite outcome_seq, buffer_put_outcome.
  destruct (upd _ _ _) as [b| |]; [|reflexivity..]. cbn [bind].
  rewrite IH. reflexivity.
Qed.
Lemma digest_outcome T s : outcome (Unwind.Sha256.digest T) s = sha256_digest T s.
Proof.
  unfold Unwind.Sha256.digest, sha256_digest. oc.
  destruct (urem (sha_length s) _) as [off| |]; [|reflexivity..]. cbn [bind].
  rewrite outcome_seq. unfold for_range, Rust.for_range. rewrite zero_outcome.
  destruct (Rust.for_n _ _ _ _) as [buf| |]; [|reflexivity..]. cbn [bind]. oc.
  destruct (uadd _ _ _) as [off9| |]; [|reflexivity..]. cbn [bind].
  rewrite outcome_seq.
  destruct (BLOCK_SIZE <? off9); cbn [negb].
  - rewrite outcome_seq, buffer_or_outcome. cbn [sha_h sha_buffer sha_length].
    destruct (or_0x80 _ _) as [b1| |]; [|reflexivity..]. cbn [bind]. oc. cbn [sha_h sha_buffer sha_length].
    destruct (fill_block _ _) as [b2| |]; [|reflexivity..]. cbn [bind].
    rewrite outcome_seq, process_block_outcome. cbn [sha_h sha_buffer sha_length].
    destruct (Model.Sha256.process_block _ _) as [h| |]; [|reflexivity..]. cbn [bind].
    rewrite outcome_seq. unfold Unwind.Sha256.set_buffer at 1. oc. cbn [bind sha_h sha_buffer sha_length]. oc. cbn [bind].
    oc. cbn [sha_h sha_buffer sha_length].
    destruct (usub _ _ _) as [lo| |]; [|reflexivity..]. cbn [bind]. oc.
    destruct (umul _ _ _) as [bits| |]; [|reflexivity..]. cbn [bind]. oc.
    destruct (with_slice _ _ _ _) as [b3| |]; [|reflexivity..]. cbn [bind].
    rewrite outcome_seq. unfold Unwind.Sha256.set_buffer at 1. oc. cbn [bind sha_h sha_buffer sha_length].
    rewrite outcome_seq. oc. cbn [bind]. oc. cbn [sha_h sha_buffer sha_length].
    destruct (fill_block _ _) as [b4| |]; [|reflexivity..]. cbn [bind].
    rewrite outcome_seq, process_block_outcome. cbn [sha_h sha_buffer sha_length].
    destruct (Model.Sha256.process_block _ _) as [h'| |]; [|reflexivity..]. cbn [bind]. oc.
    rewrite outcome_lift. reflexivity.
  - oc. cbn [bind]. oc. cbn [sha_h sha_buffer sha_length].
    destruct (usub _ _ _) as [lo| |]; [|reflexivity..]. cbn [bind]. oc.
    destruct (umul _ _ _) as [bits| |]; [|reflexivity..]. cbn [bind]. oc.
    destruct (with_slice _ _ _ _) as [b3| |]; [|reflexivity..]. cbn [bind].
    rewrite outcome_seq. unfold Unwind.Sha256.set_buffer at 1. oc. cbn [bind sha_h sha_buffer sha_length].
    rewrite outcome_seq, buffer_or_outcome. cbn [sha_h sha_buffer sha_length].
    destruct (or_0x80 _ _) as [b5| |]; [|reflexivity..]. cbn [bind]. oc. cbn [sha_h sha_buffer sha_length].
    destruct (fill_block _ _) as [b4| |]; [|reflexivity..]. cbn [bind].
    rewrite outcome_seq, process_block_outcome. cbn [sha_h sha_buffer sha_length].
    destruct (Model.Sha256.process_block _ _) as [h'| |]; [|reflexivity..]. cbn [bind]. oc.
    rewrite outcome_lift. reflexivity.
Qed.

(** * Memory after a panic *)
Lemma outcome_done {S A} (p : prog S A) s a s' : outcome p s = Ret (a, s') -> p s = Done a s'.
Proof. unfold outcome. destruct (p s); intros E; inversion E; reflexivity. Qed.
Lemma outcome_unwound {S A} (p : prog S A) s : outcome p s = Panic -> exists s', p s = Unwound s'.
Proof. unfold outcome. destruct (p s); intros E; inversion E. eexists; reflexivity. Qed.

Definition sound (T : target) (s : SHA256) : Prop :=
  state_ok (sha_h s) /\ length (sha_buffer s) = 64%nat /\ octets (sha_buffer s) /\
  sha_length s < usize_mod T.
Definition view (s : SHA256) : hasher :=
  mkHasher (sha_h s) (firstn (N.to_nat (sha_length s mod 64)) (sha_buffer s)) (sha_length s).
Lemma sound_abs T s : sound T s -> abs T s (view s).
Proof. intros (Hh & Hb & Ho & Hl). split; try assumption; reflexivity. Qed.
Lemma abs_sound T s st : abs T s st -> sound T s.
Proof. intros [Ah Aok Alen Alt Abuf Aoct Apend]. unfold sound. rewrite Ah, Alen. tauto. Qed.

Lemma update_byte_stop T s b : overflow_checks T = true -> sound T s -> b < 256 ->
  usize_mod T <= sha_length s + 1 ->
  exists s', Unwind.Sha256.update_byte T b s = Unwound s' /\ sound T s' /\
    sha_length s' = usize_mod T - 1.
Proof.
  intros Hc (Hh & Hb & Ho & Hl) Hlt Hge.
  unfold Unwind.Sha256.update_byte, Unwind.Sha256.buffer_put, Unwind.Sha256.set_buffer.
  cbv beta delta [seq get put lift]. unfold BLOCK_SIZE at 1.
  rewrite urem_ok by lia. rewrite upd_ok by (rewrite Hb; lia).
  unfold uadd, fit_usize. destruct (N.ltb_spec (sha_length s + 1) (usize_mod T)); [lia|]. rewrite Hc.
  eexists. split; [reflexivity|]. cbn [sha_length]. split; [|lia].
  split; [assumption|]. cbn [sha_h sha_buffer sha_length].
  rewrite set_nth_length. split; [assumption|]. split; [|assumption].
  rewrite set_nth_split by lia. apply octets_app. split; [apply octets_firstn; assumption|].
  constructor; [assumption|apply octets_skipn; assumption].
Qed.
Lemma update_byte_go T s b : sound T s -> b < 256 -> sha_length s + 1 < usize_mod T ->
  exists s', Unwind.Sha256.update_byte T b s = Done tt s' /\ sound T s' /\
    sha_length s' = sha_length s + 1.
Proof.
  intros Hs Hb Hlt. pose proof (update_byte_agree T s _ b (sound_abs T s Hs) Hb) as Ha.
  pose proof (update_byte_outcome T b s) as Ho.
  unfold Hasher.update in Ha. cbn [view total length] in Ha.
  destruct (N.leb_spec (usize_mod T) (sha_length s + N.of_nat 1)) as [Hx|_]; [lia|].
  rewrite andb_false_r in Ha. destruct (update_byte T b s) as [s'| |]; try contradiction.
  cbn [Sha256.agree] in Ha. cbn [bind] in Ho. exists s'.
  split; [apply outcome_done, Ho|]. split; [eapply abs_sound; eassumption|].
  rewrite (abs_len _ _ _ Ha). cbn [total]. apply N.mod_small. lia.
Qed.

Lemma update_go T d : octets d -> forall s, sound T s ->
  sha_length s + N.of_nat (length d) < usize_mod T ->
  exists s', Unwind.Sha256.update T d s = Done tt s' /\ sound T s' /\
    sha_length s' = sha_length s + N.of_nat (length d).
Proof.
  unfold Unwind.Sha256.update. intros Hd. induction Hd as [|b d Hb Hd IH]; intros s Hs Hlt.
  - exists s. cbn [for_each length]. unfold ret. split; [reflexivity|]. split; [assumption|lia].
  - cbn [for_each length] in *.
    destruct (update_byte_go T s b Hs Hb) as (s1 & E1 & Hs1 & Hl1); [lia|].
    destruct (IH s1 Hs1) as (s2 & E2 & Hs2 & Hl2); [lia|].
    exists s2. unfold seq. rewrite E1. split; [exact E2|]. split; [assumption|lia].
Qed.
Lemma update_stop T d : overflow_checks T = true -> octets d -> forall s, sound T s ->
  usize_mod T <= sha_length s + N.of_nat (length d) ->
  exists s', Unwind.Sha256.update T d s = Unwound s' /\ sound T s' /\
    sha_length s' = usize_mod T - 1.
Proof.
  unfold Unwind.Sha256.update. intros Hc Hd. induction Hd as [|b d Hb Hd IH]; intros s Hs Hge.
  - destruct Hs as (_ & _ & _ & Hl). cbn [length] in Hge. lia.
  - cbn [for_each length] in *. unfold seq.
    destruct (N.leb_spec (usize_mod T) (sha_length s + 1)) as [Hx|Hx].
    + destruct (update_byte_stop T s b Hc Hs Hb Hx) as (s1 & -> & Hs1 & Hl1).
      exists s1. split; [reflexivity|]. split; assumption.
    + destruct (update_byte_go T s b Hs Hb Hx) as (s1 & -> & Hs1 & Hl1). apply IH; [assumption|lia].
Qed.

Lemma process_block_done s b : state_ok (sha_h s) -> octets b -> length b = 64%nat ->
  exists blk s', fill_block b (repeat 0 16) = Ret blk /\
    Unwind.Sha256.process_block blk s = Done tt s' /\
    s' = mkSHA256 (absorb_block (sha_h s) b) (sha_buffer s) (sha_length s).
Proof.
  intros Hh Ho Hl. pose proof (block_step (sha_h s) b Hh Ho Hl) as E.
  rewrite fill_block_ok in E |- * by assumption. cbn [bind] in E.
  eexists. eexists. split; [reflexivity|]. split; [|reflexivity].
  apply outcome_done. rewrite process_block_outcome, E. reflexivity.
Qed.

Lemma zeroed s : length (sha_buffer s) = 64%nat -> forall off, off <= 64 ->
  for_range off (len (sha_buffer s)) (fun i => Unwind.Sha256.buffer_put i 0) s =
  Done tt (mkSHA256 (sha_h s) (firstn (N.to_nat off) (sha_buffer s) ++ repeat 0 (64 - N.to_nat off))
             (sha_length s)).
Proof.
  intros Hl off Hoff. apply outcome_done. unfold for_range. rewrite zero_outcome.
  pose proof (zero_tail (sha_buffer s) off) as E. unfold Rust.for_range in E. rewrite E by lia.
  rewrite Hl. reflexivity.
Qed.

Lemma digest_stop T s : overflow_checks T = true -> sound T s -> usize_mod T <= 8 * sha_length s ->
  exists s', Unwind.Sha256.digest T s = Unwound s' /\ sound T s' /\ sha_length s' = sha_length s.
Proof.
  intros Hc (Hh & Hb & Ho & Hl) Hge. pose proof (usize_mod_ge T) as HM.
  change (2 ^ 32) with 4294967296 in HM.
  unfold Unwind.Sha256.digest. cbv beta delta [seq get put lift].
  unfold BLOCK_SIZE at 1. rewrite urem_ok by lia.
  set (off := sha_length s mod 64). assert (Hoff : off < 64) by (unfold off; apply N.mod_lt; lia).
  rewrite zeroed by (assumption || lia). rewrite uadd_ok by lia.
  set (buf := firstn (N.to_nat off) (sha_buffer s) ++ repeat 0 (64 - N.to_nat off)).
  assert (Hbl : length buf = 64%nat).
  { unfold buf. rewrite app_length, firstn_length, repeat_length, Hb. lia. }
  assert (Hbo : octets buf).
  { unfold buf. apply octets_app. split; [apply octets_firstn; assumption|apply octets_repeat; lia]. }
  assert (Hmul : umul T (sha_length s) 8 = Panic).
  { unfold umul, fit_usize. destruct (N.ltb_spec (sha_length s * 8) (usize_mod T)); [lia|].
    rewrite Hc. reflexivity. }
  destruct (BLOCK_SIZE <? off + 9) eqn:Eov.
  - unfold Unwind.Sha256.buffer_or_0x80, Unwind.Sha256.set_buffer. cbv beta delta [seq get put lift].
    cbn [sha_h sha_buffer sha_length].
    assert (E80 : exists b1, or_0x80 buf off = Ret b1 /\ length b1 = 64%nat /\ octets b1).
    { unfold or_0x80. rewrite (idx_nth _ _ 0) by lia. cbn [bind]. rewrite upd_ok by lia.
      eexists. split; [reflexivity|]. rewrite set_nth_length. split; [assumption|].
      rewrite set_nth_split by lia. apply octets_app. split; [apply octets_firstn; assumption|].
      constructor; [|apply octets_skipn; assumption].
      apply lor_lt256; [|lia]. apply (proj1 (Forall_forall _ _) Hbo). apply nth_In. lia. }
    destruct E80 as (b1 & -> & Hl1 & Ho1). cbn [sha_h sha_buffer sha_length].
    destruct (process_block_done (mkSHA256 (sha_h s) b1 (sha_length s)) b1 Hh Ho1 Hl1)
      as (blk & s1 & -> & -> & ->).
    cbn [sha_h sha_buffer sha_length]. unfold ret. cbn [sha_h sha_buffer sha_length].
    rewrite len_repeat. rewrite usub_ok by lia. rewrite Hmul.
    eexists. split; [reflexivity|]. split; [|reflexivity]. unfold sound.
    cbn [sha_h sha_buffer sha_length]. split; [apply absorb_block_ok; assumption|].
    split; [apply repeat_length|]. split; [apply octets_repeat; lia|assumption].
  - unfold ret. cbn [sha_h sha_buffer sha_length]. unfold len. rewrite Hbl.
    rewrite usub_ok by lia. rewrite Hmul.
    eexists. split; [reflexivity|]. split; [|reflexivity]. unfold sound.
    cbn [sha_h sha_buffer sha_length]. tauto.
Qed.

(** * Histories with caught panics *)
Lemma sha_doomed T : overflow_checks T = true -> forall calls s, sound T s ->
  usize_mod T <= 8 * sha_length s -> Forall sha_call_ok calls ->
  Unwind.Calls.sha_survive T calls s = doomed (usize_mod T) calls (sha_length s).
Proof.
  intros Hc calls. pose proof (usize_mod_ge T) as HM. change (2 ^ 32) with 4294967296 in HM.
  induction calls as [|[d|] cs IH]; intros s Hs Hge Hcs; [reflexivity| |];
    inversion Hcs as [|? ? Hd Hcs']; subst; cbn [Unwind.Calls.sha_survive doomed].
  - cbn in Hd. destruct (N.leb_spec (usize_mod T) (sha_length s + N.of_nat (length d))) as [Hx|Hx].
    + destruct (update_stop T d Hc Hd s Hs Hx) as (s' & -> & Hs' & Hl'). cbn [Unwind.Calls.reply].
      f_equal. rewrite <- Hl'. apply IH; try assumption. lia.
    + destruct (update_go T d Hd s Hs Hx) as (s' & -> & Hs' & Hl'). cbn [Unwind.Calls.reply].
      f_equal. rewrite <- Hl'. apply IH; try assumption. lia.
  - destruct (digest_stop T s Hc Hs Hge) as (s' & -> & Hs' & Hl'). cbn [Unwind.Calls.reply].
    f_equal. rewrite <- Hl'. apply IH; try assumption. lia.
Qed.

Lemma sha_replies T : forall calls s st, abs T s st -> Forall sha_call_ok calls ->
  Unwind.Calls.sha_survive T calls s = replies (usize_mod T) (overflow_checks T) calls st.
Proof.
  pose proof (usize_mod_ge T) as HM. change (2 ^ 32) with 4294967296 in HM.
  induction calls as [|[d|] cs IH]; intros s st A Hcs; [reflexivity| |];
    inversion Hcs as [|? ? Hd Hcs']; subst; cbn [Unwind.Calls.sha_survive replies].
  - cbn in Hd. pose proof (update_agree T s st d A Hd) as Ha. pose proof (update_outcome T d s) as Ho.
    destruct (Hasher.update _ _ st d) as [st'|] eqn:Eu.
    + destruct (sha256_update T s d) as [s'| |]; try contradiction. cbn [bind] in Ho.
      rewrite (outcome_done _ _ _ _ Ho). cbn [Unwind.Calls.reply]. f_equal. apply IH; assumption.
    + unfold Hasher.update in Eu. rewrite <- (abs_len _ _ _ A) in Eu.
      destruct (overflow_checks T) eqn:Hc; cbn [andb] in Eu; [|discriminate].
      destruct (N.leb_spec (usize_mod T) (sha_length s + N.of_nat (length d))) as [Hx|]; [|discriminate].
      destruct (update_stop T d Hc Hd s (abs_sound _ _ _ A) Hx) as (s' & -> & Hs' & Hl').
      cbn [Unwind.Calls.reply]. f_equal. rewrite <- Hl'. apply sha_doomed; try assumption. lia.
  - pose proof (digest_agree T s st A) as Ha. pose proof (digest_outcome T s) as Ho.
    destruct (Hasher.digest _ _ st) as [[x st']|] eqn:Eu.
    + destruct (sha256_digest T s) as [[x' s']| |]; try contradiction.
      destruct Ha as [Hx Ha]. cbn [fst snd] in Hx, Ha. subst x'.
      rewrite (outcome_done _ _ _ _ Ho). cbn [Unwind.Calls.reply]. f_equal. apply IH; assumption.
    + unfold Hasher.digest in Eu. rewrite <- (abs_len _ _ _ A) in Eu |- *.
      destruct (overflow_checks T) eqn:Hc; cbn [andb] in Eu; [|discriminate].
      destruct (N.leb_spec (usize_mod T) (8 * sha_length s)) as [Hx|]; [|discriminate].
      destruct (digest_stop T s Hc (abs_sound _ _ _ A) Hx) as (s' & -> & Hs' & Hl').
      cbn [Unwind.Calls.reply]. f_equal. rewrite <- Hl'. apply sha_doomed; try assumption. lia.
Qed.

(** * HMAC *)
Lemma hmac_update_outcome T d m :
  outcome (Unwind.Hmac.update T d) m = let* m' := hmac_update T m d in Ret (tt, m').
Proof.
  pose proof (update_outcome T d (inner m)) as E.
  unfold outcome in *. unfold Unwind.Hmac.update, Unwind.Hmac.on_inner, hmac_update.
  destruct (Unwind.Sha256.update T d (inner m)), (sha256_update T (inner m) d); cbn [bind] in *;
    inversion E; reflexivity.
Qed.
Lemma hmac_digest_outcome T m : outcome (Unwind.Hmac.digest T) m = hmac_digest T m.
Proof.
  unfold Unwind.Hmac.digest, hmac_digest. rewrite outcome_seq.
  pose proof (digest_outcome T (inner m)) as E1.
  unfold outcome in E1 |- * at 1. unfold Unwind.Hmac.on_inner.
  destruct (Unwind.Sha256.digest T (inner m)) as [d i| |], (sha256_digest T (inner m)) as [[d' i']| |];
    try discriminate; try reflexivity.
  inversion E1; subst d' i'. cbn [bind]. rewrite outcome_seq.
  pose proof (update_outcome T d (outer m)) as E2.
  unfold outcome in E2 |- * at 1. unfold Unwind.Hmac.on_outer at 1. cbn [inner outer].
  destruct (Unwind.Sha256.update T d (outer m)) as [[] o| |], (sha256_update T (outer m) d) as [o'| |];
    try discriminate; try reflexivity.
  inversion E2; subst o'. cbn [bind].
  pose proof (digest_outcome T o) as E3. unfold outcome in E3 |- *.
  unfold Unwind.Hmac.on_outer. cbn [inner outer].
  destruct (Unwind.Sha256.digest T o), (sha256_digest T o) as [[? ?]| |]; inversion E3; reflexivity.
Qed.

Lemma digest_go T s : sound T s -> 8 * sha_length s < usize_mod T ->
  exists d s', Unwind.Sha256.digest T s = Done d s' /\ length d = 32%nat /\ octets d /\
    sound T s' /\ sha_length s' = sha_length s.
Proof.
  intros Hs Hlt. pose proof (digest_agree T s _ (sound_abs T s Hs)) as Ha.
  pose proof (digest_outcome T s) as Ho.
  destruct (Hasher.digest _ _ (view s)) as [[x st']|] eqn:Eu.
  - destruct (sha256_digest T s) as [[x' s']| |]; try contradiction.
    destruct Ha as [Hx Ha]. cbn [fst snd] in Hx, Ha. subst x'. exists x, s'.
    split; [apply outcome_done, Ho|].
    destruct (hdigest_fst _ _ _ _ _ Eu) as [Hl1 Ho1]; [apply Hs|].
    split; [assumption|]. split; [assumption|]. split; [eapply abs_sound; eassumption|].
    rewrite (abs_len _ _ _ Ha). unfold Hasher.digest in Eu.
    destruct (_ && _)%bool; [discriminate|]. injection Eu as _ <-. reflexivity.
  - unfold Hasher.digest in Eu. cbn [view total] in Eu.
    destruct (N.leb_spec (usize_mod T) (8 * sha_length s)); [lia|].
    rewrite andb_false_r in Eu. discriminate.
Qed.

Definition hopeless (T : target) (m : HMac) : Prop :=
  sound T (inner m) /\ sound T (outer m) /\
  (usize_mod T <= 8 * sha_length (inner m) \/ usize_mod T <= 8 * sha_length (outer m)).

(** A digest in reach of the limit, by where it stops. *)
Lemma hmac_digest_stop T m : overflow_checks T = true -> sound T (inner m) -> sound T (outer m) ->
  usize_mod T <= 8 * sha_length (inner m) \/ usize_mod T <= 8 * (sha_length (outer m) + 32) ->
  exists m', Unwind.Hmac.digest T m = Unwound m' /\ hopeless T m' /\
    sha_length (inner m') = sha_length (inner m).
Proof.
  intros Hc Hi Ho Hge. pose proof (usize_mod_ge T) as HM. change (2 ^ 32) with 4294967296 in HM.
  unfold Unwind.Hmac.digest, seq, Unwind.Hmac.on_inner.
  destruct (N.leb_spec (usize_mod T) (8 * sha_length (inner m))) as [Hx|Hx].
  - destruct (digest_stop T (inner m) Hc Hi Hx) as (i & -> & Hsi & Hli).
    eexists. split; [reflexivity|]. split; [|exact Hli]. split; [exact Hsi|]. split; [exact Ho|].
    left. cbn [inner]. lia.
  - destruct (digest_go T (inner m) Hi Hx) as (d & i & -> & Hdl & Hdo & Hsi & Hli).
    unfold Unwind.Hmac.on_outer. cbn [inner outer].
    destruct (N.leb_spec (usize_mod T) (sha_length (outer m) + N.of_nat (length d))) as [Hy|Hy].
    + destruct (update_stop T d Hc Hdo (outer m) Ho Hy) as (o & -> & Hso & Hlo).
      eexists. split; [reflexivity|]. split; [|exact Hli]. split; [exact Hsi|]. split; [exact Hso|].
      right. cbn [outer]. lia.
    + destruct (update_go T d Hdo (outer m) Ho Hy) as (o & -> & Hso & Hlo). cbn [inner outer].
      rewrite Hdl in Hlo. destruct (digest_stop T o Hc Hso) as (o' & -> & Hso' & Hlo'); [lia|].
      eexists. split; [reflexivity|]. split; [|exact Hli]. split; [exact Hsi|]. split; [exact Hso'|].
      right. cbn [outer]. lia.
Qed.

Lemma hmac_doomed T : overflow_checks T = true -> forall calls m, hopeless T m -> Forall sha_call_ok calls ->
  Unwind.Calls.hmac_survive T calls m = doomed (usize_mod T) calls (sha_length (inner m)).
Proof.
  intros Hc calls. pose proof (usize_mod_ge T) as HM. change (2 ^ 32) with 4294967296 in HM.
  induction calls as [|[d|] cs IH]; intros m (Hi & Ho & Hge) Hcs; [reflexivity| |];
    inversion Hcs as [|? ? Hd Hcs']; subst; cbn [Unwind.Calls.hmac_survive doomed].
  - cbn in Hd. unfold Unwind.Hmac.update, Unwind.Hmac.on_inner.
    destruct (N.leb_spec (usize_mod T) (sha_length (inner m) + N.of_nat (length d))) as [Hx|Hx].
    + destruct (update_stop T d Hc Hd (inner m) Hi Hx) as (s' & -> & Hs' & Hl'). cbn [Unwind.Calls.reply].
      f_equal. rewrite IH; [cbn [inner]; rewrite Hl'; reflexivity| |assumption].
      split; [exact Hs'|]. split; [exact Ho|]. left. cbn [inner]. lia.
    + destruct (update_go T d Hd (inner m) Hi Hx) as (s' & -> & Hs' & Hl'). cbn [Unwind.Calls.reply].
      f_equal. rewrite IH; [cbn [inner]; rewrite Hl'; reflexivity| |assumption].
      split; [exact Hs'|]. split; [exact Ho|]. cbn [inner outer]. lia.
  - destruct (hmac_digest_stop T m Hc Hi Ho) as (m' & -> & Hm' & Hl'); [lia|]. cbn [Unwind.Calls.reply].
    f_equal. rewrite <- Hl'. apply IH; assumption.
Qed.

Lemma hmac_replies T : forall calls m a, mabs T m a -> Forall sha_call_ok calls ->
  Unwind.Calls.hmac_survive T calls m = mac_replies (usize_mod T) (overflow_checks T) calls a.
Proof.
  pose proof (usize_mod_ge T) as HM. change (2 ^ 32) with 4294967296 in HM.
  induction calls as [|[d|] cs IH]; intros m a A Hcs; [reflexivity| |];
    inversion Hcs as [|? ? Hd Hcs']; subst; cbn [Unwind.Calls.hmac_survive mac_replies].
  - cbn in Hd. pose proof (hmac_update_agree T m a d A Hd) as Ha.
    pose proof (hmac_update_outcome T d m) as Ho.
    destruct (Mac.mac_update _ _ a d) as [a'|] eqn:Eu.
    + destruct (hmac_update T m d) as [m'| |]; try contradiction. cbn [bind] in Ho.
      rewrite (outcome_done _ _ _ _ Ho). cbn [Unwind.Calls.reply]. f_equal. apply IH; assumption.
    + destruct A as [Ai Ao]. unfold Mac.mac_update in Eu.
      destruct (Hasher.update _ _ (Mac.inner a) d) as [i'|] eqn:Ei; [discriminate|]. clear Eu.
      unfold Hasher.update in Ei. rewrite <- (abs_len _ _ _ Ai) in Ei.
      destruct (overflow_checks T) eqn:Hc; cbn [andb] in Ei; [|discriminate].
      destruct (N.leb_spec (usize_mod T) (sha_length (inner m) + N.of_nat (length d))) as [Hx|]; [|discriminate].
      unfold Unwind.Hmac.update, Unwind.Hmac.on_inner.
      destruct (update_stop T d Hc Hd (inner m) (abs_sound _ _ _ Ai) Hx) as (s' & -> & Hs' & Hl').
      cbn [Unwind.Calls.reply]. f_equal.
      rewrite (hmac_doomed T Hc cs); [cbn [inner]; rewrite Hl'; reflexivity| |assumption].
      split; [exact Hs'|]. split; [exact (abs_sound _ _ _ Ao)|]. left. cbn [inner]. lia.
  - pose proof (hmac_digest_agree T m a A) as Ha. pose proof (hmac_digest_outcome T m) as Ho.
    destruct (Mac.mac_digest _ _ a) as [[x a']|] eqn:Eu.
    + destruct (hmac_digest T m) as [[x' m']| |]; try contradiction.
      destruct Ha as [Hx Ha]. cbn [fst snd] in Hx, Ha. subst x'.
      rewrite (outcome_done _ _ _ _ Ho). cbn [Unwind.Calls.reply]. f_equal. apply IH; assumption.
    + destruct A as [Ai Ao]. rewrite <- (abs_len _ _ _ Ai). unfold Mac.mac_digest in Eu.
      assert (Hstop : overflow_checks T = true /\ (usize_mod T <= 8 * sha_length (inner m) \/
                      usize_mod T <= 8 * (sha_length (outer m) + 32))).
      { destruct (Hasher.digest _ _ (Mac.inner a)) as [[d i']|] eqn:Ei; cbn [Mac.obind fst snd] in Eu.
        - destruct (hdigest_fst _ _ _ _ _ Ei) as [Hl1 _]; [apply Ai|].
          destruct (Hasher.update _ _ (Mac.outer a) d) as [o'|] eqn:Eo; cbn [Mac.obind] in Eu.
          + destruct (Hasher.digest _ _ o') as [[? ?]|] eqn:Ed; [discriminate|].
            unfold Hasher.update in Eo. unfold Hasher.digest in Ed.
            destruct (overflow_checks T); cbn [andb] in Eo, Ed; [|discriminate]. split; [reflexivity|].
            destruct (N.leb_spec (usize_mod T) (total (Mac.outer a) + N.of_nat (length d))) as [|Hx]; [discriminate|].
            injection Eo as <-. cbn [total] in Ed. rewrite N.mod_small in Ed by assumption.
            destruct (N.leb_spec (usize_mod T) (8 * (total (Mac.outer a) + N.of_nat (length d)))) as [Hy|]; [|discriminate].
            right. rewrite (abs_len _ _ _ Ao), Hl1 in *. lia.
          + unfold Hasher.update in Eo.
            destruct (overflow_checks T); cbn [andb] in Eo; [|discriminate]. split; [reflexivity|].
            destruct (N.leb_spec (usize_mod T) (total (Mac.outer a) + N.of_nat (length d))) as [Hx|]; [|discriminate].
            right. rewrite (abs_len _ _ _ Ao). rewrite Hl1 in Hx. lia.
        - unfold Hasher.digest in Ei.
          destruct (overflow_checks T); cbn [andb] in Ei; [|discriminate]. split; [reflexivity|].
          destruct (N.leb_spec (usize_mod T) (8 * total (Mac.inner a))) as [Hx|]; [|discriminate].
          left. rewrite (abs_len _ _ _ Ai). assumption. }
      destruct Hstop as [Hc Hge].
      destruct (hmac_digest_stop T m Hc (abs_sound _ _ _ Ai) (abs_sound _ _ _ Ao) Hge) as (m' & -> & Hm' & Hl').
      cbn [Unwind.Calls.reply]. f_equal. rewrite <- Hl'. apply hmac_doomed; assumption.
Qed.
