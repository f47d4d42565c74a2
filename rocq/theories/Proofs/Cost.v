(** The number of steps of runs that return. *)
From Coq Require Import ZArith NArith List Arith Lia Bool ZifyBool ZifyNat ZifyN.
From Verif Require Import Rust.
From Verif.Model Require Sha256 Hmac Pbkdf2 Salsa20 Scrypt.
From Verif.Leak Require Ops Steps Sha256 Hmac Pbkdf2 Salsa20 Scrypt Calls.
From Verif.Spec Require Hasher.
From Verif.Proofs Require Import Base Leak LeakErase LeakAgree.
Import ListNotations.
Import Leak.Steps.
Local Open Scope N_scope.
Ltac Zify.zify_post_hook ::= Z.div_mod_to_equations.

(** If [m] returns, it takes [k] steps and the value satisfies [R]. *)
Definition spends {A} (R : A -> Prop) (k : N) (m : Ops.res A) : Prop :=
  forall a, Ops.outcome m = Ret a -> steps m = k /\ R a.

Lemma total_app a b : total (a ++ b) = total a + total b.
Proof. induction a as [|e a IH]; [reflexivity|]. cbn [app]. unfold total in *. cbn [fold_right]. rewrite IH. lia. Qed.

Lemma sp_eq {A} (R : A -> Prop) k k' m : k = k' -> spends R k m -> spends R k' m.
Proof. intros ->. auto. Qed.
Lemma sp_weaken {A} (R S : A -> Prop) k m : (forall a, R a -> S a) -> spends R k m -> spends S k m.
Proof. intros H Hm a Ha. destruct (Hm a Ha). auto. Qed.
Lemma sp_ret {A} (R : A -> Prop) a : R a -> spends R 0 (Ops.Ret a).
Proof. intros H b E. injection E as <-. split; [reflexivity|assumption]. Qed.
Lemma sp_panic {A} (R : A -> Prop) k : spends R k Ops.Panic.
Proof. intros b E. discriminate E. Qed.
Lemma sp_lift {A} (R : A -> Prop) m : (forall a, m = Ret a -> R a) -> spends R 0 (Ops.lift m).
Proof. intros H b E. split; [reflexivity|apply H; exact E]. Qed.
Lemma sp_bind {A B} (R : A -> Prop) (S : B -> Prop) k1 k2 m f :
  spends R k1 m -> (forall a, R a -> spends S k2 (f a)) -> spends S (k1 + k2) (Ops.bind m f).
Proof.
  destruct m as [t o]. intros Hm Hf b E. destruct o as [a| |]; try discriminate E.
  destruct (Hm a eq_refl) as [Ht Ra]. specialize (Hf a Ra).
  unfold spends, steps, Ops.bind, Ops.trace, Ops.outcome in *. destruct (f a) as [t' o'].
  cbn [fst snd] in *. destruct (Hf b E) as [Ht' Sb]. split; [|exact Sb].
  rewrite total_app. lia.
Qed.
Lemma sp_emit {B} (S : B -> Prop) k e f : spends S k (f tt) -> spends S (weight e + k) (Ops.bind (Ops.emit e) f).
Proof.
  intros H. eapply sp_bind; [|intros [] _; exact H].
  intros a _. split; [unfold steps; cbn; lia|exact I].
Qed.
Lemma sp_branch {A} (R : A -> Prop) k c x y :
  (c = true -> spends R k x) -> (c = false -> spends R k y) -> spends R (1 + k) (Ops.branch c x y).
Proof. intros Hx Hy. apply (sp_emit R k (Ops.Branch c)). destruct c; auto. Qed.
Lemma sp_run {A} (R : A -> Prop) n a : R a -> spends R n (Ops.run n a).
Proof. intros H. unfold Ops.run. apply (sp_eq _ (n + 0)); [lia|]. apply (sp_emit R 0 (Ops.Run n)), sp_ret, H. Qed.
Lemma sp_emit_lift {A} (R : A -> Prop) e m :
  (forall a, m = Ret a -> R a) -> spends R (weight e) (Ops.bind (Ops.emit e) (fun _ => Ops.lift m)).
Proof. intros H. apply (sp_eq _ (weight e + 0)); [lia|]. apply sp_emit, sp_lift, H. Qed.

Definition anyv {A} (_ : A) : Prop := True.
Lemma sp_idx {A} (l : list A) i : spends (fun x => In x l) 1 (Ops.idx l i).
Proof.
  apply (sp_emit_lift _ (Ops.Read i)). intros a H. unfold idx in H.
  destruct (nth_error l (N.to_nat i)) eqn:E; [|discriminate]. injection H as <-.
  eapply nth_error_In, E.
Qed.
Lemma sp_upd {A} (l : list A) i v : spends (fun x => length x = length l) 1 (Ops.upd l i v).
Proof.
  apply (sp_emit_lift _ (Ops.Write i)). intros a H. unfold upd in H.
  destruct (i <? len l); [|discriminate]. injection H as <-. apply set_nth_length.
Qed.
Lemma sp_slice {A} (l : list A) a b : spends (fun x => len x = b - a) 1 (Ops.slice l a b).
Proof.
  apply (sp_emit_lift _ (Ops.Range a b)). intros x H. unfold slice in H.
  destruct ((a <=? b) && (b <=? len l))%bool eqn:E; [|discriminate]. injection H as <-.
  unfold len in *. rewrite firstn_length, skipn_length. lia.
Qed.
Lemma sp_copy {A} (d s : list A) : spends (fun x => length x = length d) (len s) (Ops.copy_from_slice d s).
Proof.
  apply (sp_emit_lift _ (Ops.Run (len s))). intros x H. unfold copy_from_slice in H.
  destruct (N.eqb_spec (len d) (len s)) as [E|E]; [|discriminate]. injection H as <-. unfold len in E. lia.
Qed.
Lemma sp_alloc T s n : spends anyv 1 (Ops.alloc T s n).
Proof. apply (sp_emit_lift _ (Ops.Alloc (s * n))). intros; exact I. Qed.
Lemma sp_with_slice {A} (l : list A) a b f k : 
  (forall x : list A, len x = b - a -> spends (fun y => length y = length x) k (f x)) ->
  spends (fun x => length x = length l) (1 + k) (Ops.with_slice l a b f).
Proof.
  intros Hf r E. unfold Ops.with_slice in *.
  assert (Hab : a <= b /\ b <= len l).
  { unfold Ops.slice, Ops.emit, Ops.lift, Ops.bind, slice in E.
    destruct ((a <=? b) && (b <=? len l))%bool eqn:X; [lia|discriminate E]. }
  revert r E. change (spends (fun x => length x = length l) (1 + k)
    (Ops.bind (Ops.slice l a b) (fun s => Ops.bind (f s) (fun s' =>
      Ops.Ret (firstn (N.to_nat a) l ++ s' ++ skipn (N.to_nat b) l))))).
  eapply sp_bind; [apply sp_slice|]. intros x Hx. cbn beta in Hx.
  apply (sp_eq _ (k + 0)); [lia|]. eapply sp_bind; [apply Hf, Hx|]. intros y Hy. cbn beta in Hy.
  apply sp_ret. rewrite !app_length, firstn_length, skipn_length. unfold len in *. lia.
Qed.

(** * Loops *)
Lemma sp_for_n {St} (R : St -> Prop) k n b :
  (forall i s, R s -> spends R k (b i s)) ->
  forall i s, R s -> spends R (1 + N.of_nat n * (1 + k)) (Ops.for_n n i b s).
Proof.
  intros Hb. induction n as [|n IH]; intros i s Hs; cbn [Ops.for_n].
  - apply (sp_eq _ (1 + 0)); [lia|]. apply (sp_emit _ 0 (Ops.Branch false)). apply sp_ret, Hs.
  - apply (sp_eq _ (1 + (k + (1 + N.of_nat n * (1 + k))))); [lia|]. apply (sp_emit _ _ (Ops.Branch true)).
    eapply sp_bind; [apply Hb, Hs|]. intros s' Hs'. apply IH, Hs'.
Qed.
Lemma sp_for_range {St} (R : St -> Prop) k lo hi b s :
  R s -> (forall i s, R s -> spends R k (b i s)) ->
  spends R (1 + (hi - lo) * (1 + k)) (Ops.for_range lo hi b s).
Proof.
  intros Hs Hb. unfold Ops.for_range. eapply sp_eq; [|apply sp_for_n; [exact Hb|exact Hs]]. lia.
Qed.
Lemma sp_for_each {A St} (P : A -> Prop) (R : St -> Prop) k b l :
  (forall x s, P x -> R s -> spends R k (b x s)) -> Forall P l ->
  forall s, R s -> spends R (1 + len l * (1 + k)) (Ops.for_each l b s).
Proof.
  intros Hb Hl. induction Hl as [|x l Hx Hl IH]; intros s Hs; cbn [Ops.for_each].
  - apply (sp_eq _ (1 + 0)); [unfold len; cbn; lia|]. apply (sp_emit _ 0 (Ops.Branch false)). apply sp_ret, Hs.
  - apply (sp_eq _ (1 + (k + (1 + len l * (1 + k))))); [unfold len; cbn [length]; lia|].
    apply (sp_emit _ _ (Ops.Branch true)).
    eapply sp_bind; [apply Hb; assumption|]. intros s' Hs'. apply IH, Hs'.
Qed.
Lemma sp_map_res {A B} (P : A -> Prop) (R : B -> Prop) k (f : A -> Ops.res B) l :
  (forall x, P x -> spends R k (f x)) -> Forall P l ->
  spends (fun ys => Forall R ys /\ length ys = length l) (1 + len l * (1 + k)) (Ops.map_res f l).
Proof.
  intros Hf Hl. induction Hl as [|x l Hx Hl IH]; cbn [Ops.map_res].
  - apply (sp_eq _ (1 + 0)); [unfold len; cbn; lia|]. apply (sp_emit _ 0 (Ops.Branch false)). apply sp_ret.
    split; [constructor|reflexivity].
  - apply (sp_eq _ (1 + (k + ((1 + len l * (1 + k)) + 0)))); [unfold len; cbn [length]; lia|].
    apply (sp_emit _ _ (Ops.Branch true)).
    eapply sp_bind; [apply Hf, Hx|]. intros y Hy. eapply sp_bind; [exact IH|]. intros ys [Hys Hlen].
    apply sp_ret. split; [constructor; assumption|cbn; congruence].
Qed.

(** * By comparison with a run on zeroes *)
Lemma sp_agree m m0 v0 k : agree bytes m m0 -> Ops.outcome m0 = Ret v0 -> steps m0 = k ->
  spends (fun l : list N => length l = length v0) k m.
Proof.
  Transparent agree. intros [Ht Ho] E0 Ek a E. rewrite E, E0 in Ho. unfold steps in *. rewrite Ht.
  split; [exact Ek|]. eapply Forall2_length, Ho. Opaque agree.
Qed.
Lemma bytes_zeroes l n : length l = n -> bytes l (repeat 0 n).
Proof. intros H. apply bytes_length. rewrite repeat_length. exact H. Qed.

(** * SHA-256 *)
Lemma sp_fill i : length i = 64%nat -> spends (fun l => length l = 16%nat) 97 (Leak.Sha256.fill_block i (repeat 0 16)).
Proof.
  intros H. eapply sp_weaken; [|eapply sp_agree;
    [apply fill_block_ag; [apply (bytes_zeroes i 64 H)|apply bytes_refl]|vm_compute; reflexivity|vm_compute; reflexivity]].
  intros a Ha. exact Ha.
Qed.
Lemma sp_process h b : length h = 8%nat -> length b = 16%nat ->
  spends (fun l => length l = 8%nat) 524 (Leak.Sha256.process_block h b).
Proof.
  intros Hh Hb. eapply sp_weaken; [|eapply sp_agree;
    [apply process_block_ag; [apply (bytes_zeroes h 8 Hh)|apply (bytes_zeroes b 16 Hb)]|vm_compute; reflexivity|vm_compute; reflexivity]].
  intros a Ha. exact Ha.
Qed.
Lemma sp_write_digest h : length h = 8%nat ->
  spends (fun l => length l = 32%nat) 49 (Leak.Sha256.write_digest h).
Proof.
  intros Hh. eapply sp_weaken; [|eapply sp_agree;
    [apply write_digest_ag; apply (bytes_zeroes h 8 Hh)|vm_compute; reflexivity|vm_compute; reflexivity]].
  intros a Ha. exact Ha.
Qed.
Lemma sp_u64 d v : length d = 8%nat ->
  spends (fun l => length l = length d) 8 (Leak.Sha256.write_u64_be d v).
Proof.
  intros Hh. rewrite Hh. eapply sp_weaken; [|eapply sp_agree;
    [apply (write_u64_be_ag d (repeat 0 8) v 0), bytes_zeroes, Hh|vm_compute; reflexivity|vm_compute; reflexivity]].
  intros a Ha. exact Ha.
Qed.

(** A hasher that has been given [n] bytes. *)
Definition at_ (n : N) (s : Model.Sha256.SHA256) : Prop :=
  length (Model.Sha256.sha_h s) = 8%nat /\ length (Model.Sha256.sha_buffer s) = 64%nat /\
  Model.Sha256.sha_length s = n.
Lemma at_new : at_ 0 Model.Sha256.sha256_new.
Proof. repeat split. Qed.

Lemma sp_urem a b : spends (fun x => x = a mod b) 0 (Ops.urem a b).
Proof. apply sp_lift. intros x H. unfold urem in H. destruct (b =? 0); [discriminate|]. congruence. Qed.
Lemma sp_udiv a b : spends (fun x => x = a / b) 0 (Ops.udiv a b).
Proof. apply sp_lift. intros x H. unfold udiv in H. destruct (b =? 0); [discriminate|]. congruence. Qed.
Lemma sp_uadd T a b : a + b < usize_mod T -> spends (fun x => x = a + b) 0 (Ops.uadd T a b).
Proof. intros Hb. apply sp_lift. intros x H. rewrite uadd_ok in H by assumption. congruence. Qed.
Lemma sp_umul T a b : a * b < usize_mod T -> spends (fun x => x = a * b) 0 (Ops.umul T a b).
Proof. intros Hb. apply sp_lift. intros x H. rewrite umul_ok in H by assumption. congruence. Qed.
Lemma sp_usub T a b : b <= a -> spends (fun x => x = a - b) 0 (Ops.usub T a b).
Proof. intros Hb. apply sp_lift. intros x H. rewrite usub_ok in H by assumption. congruence. Qed.

(** Steps for one block: filling it and compressing. *)
Definition CB : N := 621.

Lemma sp_update_byte T b n s : at_ n s -> n + 1 < usize_mod T ->
  spends (at_ (n + 1)) (2 + CB * ((n + 1) / 64 - n / 64)) (Leak.Sha256.update_byte T b s).
Proof.
  intros (Hh & Hb & Hn) Hm. unfold Leak.Sha256.update_byte. rewrite Hn.
  apply (sp_eq _ (0 + (1 + (0 + (0 + (1 + CB * ((n + 1) / 64 - n / 64))))))); [lia|].
  eapply sp_bind; [apply sp_urem|]. intros off Hoff. cbn beta in Hoff.
  eapply sp_bind; [apply sp_upd|]. intros buf Hbuf. cbn beta in Hbuf.
  eapply sp_bind; [apply sp_uadd, Hm|]. intros l ->.
  eapply sp_bind; [apply sp_urem|]. intros r Hr. cbn beta in Hr.
  change Model.Sha256.BLOCK_SIZE with 64 in *. unfold CB. apply sp_branch; intros Hc.
  - apply (sp_eq _ 0); [lia|]. apply sp_ret. repeat split; cbn; congruence.
  - apply (sp_eq _ (97 + (524 + 0))); [lia|].
    eapply sp_bind; [apply sp_fill; congruence|]. intros blk Hblk. cbn beta in Hblk.
    eapply sp_bind; [apply sp_process; assumption|]. intros h Hh'. cbn beta in Hh'.
    apply sp_ret. repeat split; cbn; congruence.
Qed.

Lemma sp_update T s n d : at_ n s -> n + len d < usize_mod T ->
  spends (at_ (n + len d)) (1 + 3 * len d + CB * ((n + len d) / 64 - n / 64)) (Leak.Sha256.sha256_update T s d).
Proof.
  unfold Leak.Sha256.sha256_update. revert s n. induction d as [|b d IH]; intros s n Hs Hm; cbn [Ops.for_each].
  - apply (sp_eq _ (1 + 0)); [unfold len, CB; cbn [length]; lia|].
    apply (sp_emit _ 0 (Ops.Branch false)). apply sp_ret. unfold len. cbn [length].
    replace (n + N.of_nat 0) with n by lia. exact Hs.
  - replace (len (b :: d)) with (1 + len d) in * by (unfold len; cbn [length]; lia).
    apply (sp_eq _ (1 + ((2 + CB * ((n + 1) / 64 - n / 64)) +
      (1 + 3 * len d + CB * ((n + 1 + len d) / 64 - (n + 1) / 64))))).
    { unfold CB. replace (n + (1 + len d)) with (n + 1 + len d) by lia. lia. }
    apply (sp_emit _ _ (Ops.Branch true)).
    eapply sp_bind; [apply sp_update_byte; [exact Hs|lia]|]. intros s' Hs'.
    replace (n + (1 + len d)) with (n + 1 + len d) by lia. apply IH; [exact Hs'|lia].
Qed.

(** Blocks processed by digest after [n] bytes. *)
Definition last_blocks (n : N) : N := (n mod 64 + 8) / 64 + 1.
Lemma sp_digest T s n : at_ n s -> n * 8 < usize_mod T ->
  spends (fun ds => length (fst ds) = 32%nat) (2 * (64 - n mod 64) + 63 + CB * last_blocks n)
    (Leak.Sha256.sha256_digest T s).
Proof.
  intros (Hh & Hb & Hn) Hm. unfold Leak.Sha256.sha256_digest. rewrite Hn.
  pose proof (usize_mod_ge T) as Hge. change (2 ^ 32) with 4294967296 in Hge.
  unfold last_blocks, CB. set (off := n mod 64) in *. assert (Hoff : off < 64) by (subst off; lia).
  set (f := (off + 8) / 64).
  apply (sp_eq _ (0 + ((1 + (64 - off) * (1 + 1)) + (0 + ((1 + (if 55 <? off then 623 else 0)) + (0 + (0 + ((1 + 8) +
    ((1 + (if 55 <? off then 0 else 2)) + (97 + (524 + (49 + 0)))))))))))).
  { subst f. destruct (N.ltb_spec 55 off); lia. }
  eapply sp_bind; [apply sp_urem|]. intros o ->. change Model.Sha256.BLOCK_SIZE with 64. fold off.
  replace (len (Model.Sha256.sha_buffer s)) with 64 by (unfold len; rewrite Hb; reflexivity).
  eapply sp_bind.
  { apply (sp_for_range (fun l : list N => length l = 64%nat)); [exact Hb|].
    intros i l Hl. eapply sp_weaken; [|apply sp_upd]. cbn beta. intros; congruence. }
  intros buf Hbuf. cbn beta in Hbuf.
  eapply sp_bind; [apply sp_uadd; lia|]. intros o9 ->.
  assert (Hov : (64 <? off + 9) = (55 <? off)).
  { destruct (N.ltb_spec 64 (off + 9)), (N.ltb_spec 55 off); lia. }
  rewrite Hov.
  eapply (sp_bind (fun hob : list N * N * list N =>
    length (fst (fst hob)) = 8%nat /\ length (snd hob) = 64%nat)).
  { apply sp_branch; intros Hc; rewrite ?Hc.
    - apply (sp_eq _ ((1 + 1) + (97 + (524 + 0)))); [lia|].
      eapply (sp_bind (fun l : list N => length l = 64%nat)).
      { unfold Leak.Sha256.or_0x80. eapply sp_bind; [apply sp_idx|]. intros x _.
        eapply sp_weaken; [|apply sp_upd]. cbn beta. intros; congruence. }
      intros b2 Hb2. cbn beta in Hb2.
      eapply sp_bind; [apply sp_fill; exact Hb2|]. intros blk Hblk. cbn beta in Hblk.
      eapply sp_bind; [apply sp_process; assumption|]. intros h Hh'. cbn beta in Hh'.
      apply sp_ret. split; [exact Hh'|reflexivity].
    - apply sp_ret. split; [exact Hh|exact Hbuf]. }
  intros [[h o] b2] [Hh2 Hb2]. cbn [fst snd] in Hh2, Hb2.
  eapply sp_bind; [apply sp_usub; unfold len; rewrite Hb2; lia|]. intros lo Hlo. cbn beta in Hlo.
  eapply sp_bind; [apply sp_umul; lia|]. intros bits Hbits.
  assert (Hlen : len b2 = 64) by (unfold len; rewrite Hb2; reflexivity).
  eapply sp_bind.
  { apply sp_with_slice. intros x Hx. apply sp_u64. rewrite Hlo, Hlen in Hx. unfold len in Hx. lia. }
  intros b3 Hb3. cbn beta in Hb3.
  eapply (sp_bind (fun l : list N => length l = 64%nat)).
  { apply sp_branch; intros Hc.
    - destruct (55 <? off); [discriminate Hc|]. unfold Leak.Sha256.or_0x80.
      eapply (sp_bind _ _ 1 1); [apply sp_idx|]. intros x _.
      eapply sp_weaken; [|apply sp_upd]. cbn beta. intros; congruence.
    - destruct (55 <? off); [|discriminate Hc]. apply sp_ret. congruence. }
  intros b4 Hb4. cbn beta in Hb4.
  eapply sp_bind; [apply sp_fill; exact Hb4|]. intros blk Hblk. cbn beta in Hblk.
  eapply sp_bind; [apply sp_process; assumption|]. intros h' Hh'. cbn beta in Hh'.
  eapply sp_bind; [apply sp_write_digest; exact Hh'|]. intros out Hout. cbn beta in Hout.
  apply sp_ret. exact Hout.
Qed.

Lemma sp_session T chunks : forall s n, at_ n s -> 8 * (n + len (concat chunks)) < usize_mod T ->
  let m := n + len (concat chunks) in
  spends anyv (len chunks + 3 * len (concat chunks) + 2 * (64 - m mod 64) + 63 + CB * ((m + 8) / 64 + 1 - n / 64))
    (Leak.Calls.sha_session T (map Hasher.Update chunks ++ [Hasher.Digest]) s).
Proof.
  induction chunks as [|d ds IH]; intros s n Hs Hn m; cbn [map app Leak.Calls.sha_session].
  - cbn [concat] in *. assert (Em : m = n) by (subst m; unfold len; cbn [length]; lia).
    assert (Hn' : n * 8 < usize_mod T) by (rewrite N.mul_comm, <- Em; exact Hn).
    apply (sp_eq _ ((2 * (64 - n mod 64) + 63 + CB * last_blocks n) + (0 + 0))).
    { rewrite Em. unfold last_blocks, CB, len. cbn [length]. lia. }
    eapply sp_bind; [apply sp_digest; eassumption|]. intros [x s'] _.
    eapply (sp_bind anyv); [apply sp_ret; exact I|]. intros rs _. apply sp_ret. exact I.
  - subst m. cbn [concat] in *. rewrite len_app in *. set (m := n + (len d + len (concat ds))).
    set (m' := n + len d + len (concat ds)).
    apply (sp_eq _ ((1 + 3 * len d + CB * ((n + len d) / 64 - n / 64)) +
      ((len ds + 3 * len (concat ds) + 2 * (64 - m' mod 64) + 63 + CB * ((m' + 8) / 64 + 1 - (n + len d) / 64)) + 0))).
    { replace m with m' by (subst m m'; lia). unfold CB.
      assert (n / 64 <= (n + len d) / 64) by (apply N.div_le_mono; lia).
      assert ((n + len d) / 64 <= (m' + 8) / 64) by (apply N.div_le_mono; subst m'; lia).
      replace (len (d :: ds)) with (1 + len ds) by (unfold len; cbn [length]; lia).
      lia. }
    eapply sp_bind; [apply sp_update; [exact Hs|lia]|]. intros s' Hs'.
    eapply sp_bind; [apply (IH s' (n + len d)); [exact Hs'|lia]|]. intros rs _. apply sp_ret. exact I.
Qed.

(** * HMAC *)
Definition digest_steps (n : N) : N := 2 * (64 - n mod 64) + 63 + CB * last_blocks n.
Definition update_steps (n d : N) : N := 1 + 3 * d + CB * ((n + d) / 64 - n / 64).
Definition new_steps (n : N) : N :=
  if n <=? 64 then 1758 + n else 1 + update_steps 0 n + digest_steps n + 1790.

Definition keyed_at (n : N) (m : Model.Hmac.HMac) : Prop :=
  at_ n (Model.Hmac.inner m) /\ at_ 64 (Model.Hmac.outer m).

Lemma sp_map f l : spends (fun x => length x = length l) (len l) (Ops.map f l).
Proof. apply sp_run. apply map_length. Qed.

Lemma sp_hmac_short T key fuel : len key <= 64 ->
  spends (keyed_at 64) (1758 + len key) (Leak.Hmac.hmac_new_fuel (S fuel) T key).
Proof.
  intros Hk. cbn [Leak.Hmac.hmac_new_fuel].
  pose proof (usize_mod_ge T) as Hge. change (2 ^ 32) with 4294967296 in Hge.
  change Model.Sha256.BLOCK_SIZE with 64.
  apply (sp_eq _ (1 + (1757 + len key))); [lia|]. apply sp_branch; intros Hc; [lia|].
  apply (sp_eq _ ((1 + len key) + (64 + (814 + (64 + (814 + 0)))))); [lia|].
  eapply sp_bind; [apply sp_with_slice; intros x Hx; apply sp_copy|]. intros b1 H1. rewrite repeat_length in H1.
  eapply sp_bind; [eapply sp_eq; [|apply sp_map]; unfold len; rewrite H1; reflexivity|].
  intros b2 H2. cbn beta in H2.
  assert (E2 : len b2 = 64) by (unfold len; lia).
  eapply sp_bind; [eapply sp_eq; [|apply (sp_update T _ 0); [apply at_new|lia]]; rewrite E2; reflexivity|].
  intros i Hi. rewrite E2 in Hi.
  eapply sp_bind; [eapply sp_eq; [|apply sp_map]; exact E2|]. intros b3 H3. cbn beta in H3.
  assert (E3 : len b3 = 64) by (unfold len; lia).
  eapply sp_bind; [eapply sp_eq; [|apply (sp_update T _ 0); [apply at_new|lia]]; rewrite E3; reflexivity|].
  intros o Ho. rewrite E3 in Ho. apply sp_ret. split; assumption.
Qed.

Lemma sp_hmac_new T key : len key * 8 < usize_mod T ->
  spends (keyed_at 64) (new_steps (len key)) (Leak.Hmac.hmac_new T key).
Proof.
  intros Hm. unfold Leak.Hmac.hmac_new, new_steps. destruct (N.leb_spec (len key) 64) as [Hk|Hk].
  - apply sp_hmac_short. exact Hk.
  - cbn [Leak.Hmac.hmac_new_fuel]. change Model.Sha256.BLOCK_SIZE with 64.
    apply (sp_eq _ (1 + (update_steps 0 (len key) + (digest_steps (len key) + 1790)))); [lia|].
    apply sp_branch; intros Hc; [|lia].
    eapply sp_bind; [apply (sp_update T _ 0); [apply at_new|lia]|]. intros s Hs.
    change (0 + len key) with (len key) in Hs.
    eapply sp_bind; [apply sp_digest; [exact Hs|exact Hm]|]. intros [d s'] Hd. cbn [fst] in Hd.
    assert (Ed : len d = 32) by (unfold len; rewrite Hd; reflexivity).
    eapply sp_eq; [|apply (sp_hmac_short T d 0)]; rewrite Ed; [reflexivity|discriminate].
Qed.

Lemma sp_hmac_update T m n d : keyed_at n m -> n + len d < usize_mod T ->
  spends (keyed_at (n + len d)) (update_steps n (len d)) (Leak.Hmac.hmac_update T m d).
Proof.
  intros [Hi Ho] Hm. unfold Leak.Hmac.hmac_update. apply (sp_eq _ (update_steps n (len d) + 0)); [lia|].
  eapply sp_bind; [apply sp_update; eassumption|]. intros s Hs. apply sp_ret. split; assumption.
Qed.

Lemma sp_hmac_digest T m n : keyed_at n m -> n * 8 < usize_mod T ->
  spends (fun dm => length (fst dm) = 32%nat) (digest_steps n + 845) (Leak.Hmac.hmac_digest T m).
Proof.
  intros [Hi Ho] Hm. unfold Leak.Hmac.hmac_digest.
  pose proof (usize_mod_ge T) as Hge. change (2 ^ 32) with 4294967296 in Hge.
  apply (sp_eq _ (digest_steps n + (97 + (748 + 0)))); [lia|].
  eapply sp_bind; [apply sp_digest; eassumption|]. intros [d s] Hd. cbn [fst] in Hd.
  assert (Ed : len d = 32) by (unfold len; rewrite Hd; reflexivity).
  eapply sp_bind; [eapply sp_eq; [|apply sp_update; [exact Ho|lia]]; rewrite Ed; reflexivity|].
  intros o Ho'. rewrite Ed in Ho'.
  eapply sp_bind; [eapply sp_eq; [|apply sp_digest; [exact Ho'|lia]]; reflexivity|].
  intros [d' s'] Hd'. apply sp_ret. exact Hd'.
Qed.

(** * PBKDF2 *)
Lemma sp_for_pot {St} (R : St -> Prop) (phi k : N -> N) b : forall n i s,
  (forall j s, i <= j < i + N.of_nat n -> R s -> spends R (k j) (b j s)) ->
  (forall j, i <= j < i + N.of_nat n -> phi (j + 1) = phi j + k j) ->
  R s -> spends (fun s' => R s') (1 + N.of_nat n + (phi (i + N.of_nat n) - phi i)) (Ops.for_n n i b s).
Proof.
  induction n as [|n IH]; intros i s Hb Hp Hs; cbn [Ops.for_n].
  - apply (sp_eq _ (1 + 0)); [replace (i + N.of_nat 0) with i by lia; lia|].
    apply (sp_emit _ 0 (Ops.Branch false)). apply sp_ret, Hs.
  - assert (Hmono : phi (i + 1) <= phi (N.succ i + N.of_nat n)).
    { clear - Hp. replace (i + 1) with (N.succ i + N.of_nat 0) by lia.
      assert (G : forall m, (m <= n)%nat -> phi (N.succ i + N.of_nat 0) <= phi (N.succ i + N.of_nat m)).
      { induction m as [|m IH]; intros Hm; [lia|]. specialize (IH ltac:(lia)).
        replace (N.succ i + N.of_nat (S m)) with (N.succ i + N.of_nat m + 1) by lia.
        rewrite Hp by lia. lia. }
      apply G. lia. }
    pose proof (Hp i ltac:(lia)) as H0.
    apply (sp_eq _ (1 + (k i + (1 + N.of_nat n + (phi (N.succ i + N.of_nat n) - phi (N.succ i)))))).
    { replace (i + N.of_nat (S n)) with (N.succ i + N.of_nat n) by lia.
      replace (N.succ i) with (i + 1) in * by lia. lia. }
    apply (sp_emit _ _ (Ops.Branch true)).
    eapply sp_bind; [apply Hb; [lia|exact Hs]|]. intros s' Hs'. apply IH; [| |exact Hs'].
    + intros j t Hj. apply Hb. lia.
    + intros j Hj. apply Hp. lia.
Qed.

Lemma sp_xor_us t u : length t = 32%nat -> length u = 32%nat ->
  spends (fun x => length x = 32%nat) 129 (Leak.Pbkdf2.xor_us t u).
Proof.
  intros Ht Hu. eapply sp_weaken; [|eapply sp_agree;
    [apply xor_us_ag; [apply (bytes_zeroes t 32 Ht)|apply (bytes_zeroes u 32 Hu)]|vm_compute; reflexivity|vm_compute; reflexivity]].
  intros a Ha. exact Ha.
Qed.

(** The first of [c] iterations, and each further one. *)
Definition first_steps (p s : N) : N :=
  new_steps p + update_steps 64 s + update_steps (64 + s) 4 + digest_steps (68 + s) + 845.
Definition iteration_steps (p : N) : N := new_steps p + 1820.

Lemma sp_block T P S c i : len P * 8 < usize_mod T -> (len S + 68) * 8 < usize_mod T ->
  spends (fun t => length t = 32%nat) (first_steps (len P) (len S) + 1 + (c - 1) * iteration_steps (len P))
    (Leak.Pbkdf2.pbkdf2_block T P S c i).
Proof.
  intros HP HS. unfold Leak.Pbkdf2.pbkdf2_block, first_steps, iteration_steps.
  pose proof (usize_mod_ge T) as Hge. change (2 ^ 32) with 4294967296 in Hge.
  apply (sp_eq _ (new_steps (len P) + (update_steps 64 (len S) + (update_steps (64 + len S) 4 +
    ((digest_steps (68 + len S) + 845) + ((1 + (c + 1 - 2) * (1 + (new_steps (len P) + 1819))) + 0)))))).
  { replace (c + 1 - 2) with (c - 1) by lia.
    replace (1 + (new_steps (len P) + 1819)) with (new_steps (len P) + 1820) by lia. lia. }
  eapply sp_bind; [apply sp_hmac_new, HP|]. intros m0 H0.
  eapply sp_bind; [apply sp_hmac_update; [exact H0|lia]|]. intros m1 H1.
  assert (Ec : len (Model.Pbkdf2.ctr_bytes i) = 4) by reflexivity.
  eapply sp_bind; [eapply sp_eq; [|apply sp_hmac_update; [exact H1|lia]]; rewrite Ec; reflexivity|].
  intros m2 H2. rewrite Ec in H2. replace (64 + len S + 4) with (68 + len S) in H2 by lia.
  eapply sp_bind; [apply sp_hmac_digest; [exact H2|lia]|]. intros [u m3] Hu. cbn [fst] in Hu.
  eapply (sp_bind (fun ut : list N * list N => length (fst ut) = 32%nat /\ length (snd ut) = 32%nat)).
  { unfold Ops.for_range_incl. apply sp_for_range; [split; exact Hu|].
    intros j [u1 t1] [Hu1 Ht1]. cbn [fst snd] in Hu1, Ht1.
    apply (sp_eq _ (new_steps (len P) + (97 + ((748 + 845) + (129 + 0))))); [lia|].
    eapply sp_bind; [apply sp_hmac_new, HP|]. intros n0 G0.
    assert (Eu : len u1 = 32) by (unfold len; rewrite Hu1; reflexivity).
    eapply sp_bind; [eapply sp_eq; [|apply sp_hmac_update; [exact G0|lia]]; rewrite Eu; reflexivity|].
    intros n1 G1. rewrite Eu in G1.
    eapply sp_bind; [eapply sp_eq; [|apply sp_hmac_digest; [exact G1|lia]]; reflexivity|].
    intros [u2 n2] Hu2. cbn [fst] in Hu2.
    eapply sp_bind; [apply sp_xor_us; assumption|]. intros t2 Ht2. apply sp_ret. split; assumption. }
  intros [u1 t1] [_ Ht1]. apply sp_ret. exact Ht1.
Qed.

Definition pbkdf2_steps (p s c d : N) : N :=
  1 + (d + 31) / 32 * (4 + first_steps p s + (c - 1) * iteration_steps p) + d.

Lemma sp_pbkdf2 T P S c out : len P * 8 < usize_mod T -> (len S + 68) * 8 < usize_mod T ->
  len out <= isize_max T ->
  spends (fun x => length x = length out) (pbkdf2_steps (len P) (len S) c (len out))
    (Leak.Pbkdf2.pbkdf2_sha256 T P S c out).
Proof.
  intros HP HS Ho. unfold Leak.Pbkdf2.pbkdf2_sha256, pbkdf2_steps.
  pose proof (usize_mod_ge T) as Hge. change (2 ^ 32) with 4294967296 in Hge.
  pose proof (isize_usize T) as Hi.
  set (B := first_steps (len P) (len S) + 1 + (c - 1) * iteration_steps (len P)).
  set (l := (len out + 31) / 32). assert (Hl : 32 * l <= len out + 31 < 32 * l + 32) by (subst l; lia).
  set (phi := fun j => (j - 1) * (B + 2) + N.min (32 * (j - 1)) (len out)).
  apply (sp_eq _ (0 + (0 + (0 + (1 + N.of_nat (N.to_nat l) + (phi (1 + N.of_nat (N.to_nat l)) - phi 1)))))).
  { subst phi. cbv beta. rewrite !N2Nat.id. replace (1 + l - 1) with l by lia.
    change (1 - 1) with 0. replace (4 + first_steps (len P) (len S) + (c - 1) * iteration_steps (len P)) with (B + 3)
      by (subst B; lia).
    replace (N.min (32 * l) (len out)) with (len out) by lia. lia. }
  eapply sp_bind; [apply sp_uadd; unfold Model.Sha256.DIGEST_SIZE; lia|]. intros a ->.
  eapply sp_bind; [apply sp_usub; unfold Model.Sha256.DIGEST_SIZE; lia|]. intros a ->.
  eapply sp_bind; [apply sp_udiv|]. intros l' ->.
  replace ((len out + Model.Sha256.DIGEST_SIZE - 1) / Model.Sha256.DIGEST_SIZE) with l
    by (subst l; unfold Model.Sha256.DIGEST_SIZE; f_equal; lia).
  unfold Ops.for_range_incl, Ops.for_range. replace (l + 1 - 1) with l by lia.
  apply (sp_for_pot (fun x : list N => length x = length out) phi
    (fun j => B + 2 + (N.min (32 * j) (len out) - 32 * (j - 1)))); [| |reflexivity].
  - intros j o Hj Hlo. unfold Model.Sha256.DIGEST_SIZE in *.
    assert (Elo : len o = len out) by (unfold len; rewrite Hlo; reflexivity). rewrite Elo.
    apply (sp_eq _ (B + (0 + (0 + (0 + (0 + (1 + (1 + (N.min (32 * j) (len out) - 32 * (j - 1)))))))))); [lia|].
    eapply sp_bind; [apply sp_block; assumption|]. intros t Ht. cbn beta in Ht.
    eapply sp_bind; [apply sp_usub; lia|]. intros i1 ->.
    eapply sp_bind; [apply sp_umul; lia|]. intros st ->.
    eapply sp_bind; [apply sp_umul; lia|]. intros e ->.
    eapply sp_bind; [apply sp_usub; lia|]. intros n ->.
    eapply sp_bind; [apply sp_slice|]. intros src Hsrc. cbn beta in Hsrc.
    eapply sp_weaken; [|apply sp_with_slice; intros x Hx; eapply sp_eq; [|apply sp_copy]].
    + cbn beta. intros; congruence.
    + rewrite Hsrc. lia.
  - intros j Hj. subst phi. cbv beta. replace (j + 1 - 1) with (j - 1 + 1) by lia.
    rewrite N.mul_add_distr_r. lia.
Qed.

(** * Salsa20 and scrypt *)
Definition block64 (b : list N) : Prop := length b = 64%nat.
Definition blocks_of (n : nat) (b : list (list N)) : Prop := length b = n /\ Forall block64 b.

Lemma sp_salsa i o : block64 i -> block64 o ->
  spends block64 1143 (Leak.Salsa20.salsa20 i Model.Scrypt.SALSA_ROUNDS o).
Proof.
  intros Hi Ho. eapply sp_weaken; [|eapply sp_agree;
    [apply salsa20_ag; [apply (bytes_zeroes i 64 Hi)|apply (bytes_zeroes o 64 Ho)]|vm_compute; reflexivity|vm_compute; reflexivity]].
  intros a Ha. exact Ha.
Qed.

Lemma sp_zip_xor a b : block64 a -> block64 b -> spends block64 64 (Ops.zip_xor a b).
Proof.
  unfold block64. intros Ha Hb. unfold Ops.zip_xor.
  eapply sp_eq; [|apply sp_run]; [unfold len; rewrite Ha, Hb; reflexivity|].
  rewrite zip_xor_length, Ha, Hb. reflexivity.
Qed.

Definition mix_steps (r : N) : N := 6 + 2421 * r.

Lemma sp_split y : forall i, Forall block64 y ->
  spends (fun ht => Forall block64 (fst ht) /\ Forall block64 (snd ht) /\
    length (fst ht) + length (snd ht) = length y /\ 2 * length (snd ht) + 1 >= length y + N.to_nat (i mod 2) /\
    2 * length (snd ht) <= length y + N.to_nat (i mod 2))%nat
    (1 + 2 * len y) (Leak.Scrypt.split_parity i y).
Proof.
  induction y as [|b y IH]; intros i Hy; cbn [Leak.Scrypt.split_parity].
  - apply (sp_eq _ (1 + 0)); [unfold len; cbn; lia|]. apply (sp_emit _ 0 (Ops.Branch false)). apply sp_ret.
    cbn [fst snd length]. split; [constructor|]. split; [constructor|]. lia.
  - inversion Hy as [|? ? Hb Hy']; subst.
    apply (sp_eq _ (1 + (1 + ((1 + 2 * len y) + 0)))); [unfold len; cbn [length]; lia|].
    apply (sp_emit _ _ (Ops.Branch true)). apply sp_branch; intros Hc.
    + eapply sp_bind; [apply IH, Hy'|]. intros [hd tl] (H1 & H2 & H3 & H4 & H5). cbn [fst snd] in *.
      apply sp_ret. cbn [fst snd length]. split; [constructor; assumption|]. split; [assumption|]. lia.
    + eapply sp_bind; [apply IH, Hy'|]. intros [hd tl] (H1 & H2 & H3 & H4 & H5). cbn [fst snd] in *.
      apply sp_ret. cbn [fst snd length]. split; [assumption|]. split; [constructor; assumption|]. lia.
Qed.

Lemma sp_block_mix T s b : 1 <= Model.Scrypt.sr s -> 2 * Model.Scrypt.sr s < usize_mod T ->
  blocks_of (N.to_nat (2 * Model.Scrypt.sr s)) b ->
  spends (blocks_of (N.to_nat (2 * Model.Scrypt.sr s))) (mix_steps (Model.Scrypt.sr s)) (Leak.Scrypt.block_mix T s b).
Proof.
  intros Hr Hm [Hl Hb]. unfold Leak.Scrypt.block_mix, mix_steps. set (r := Model.Scrypt.sr s) in *.
  assert (El : len b = 2 * r) by (unfold len; lia).
  apply (sp_eq _ (0 + (0 + (1 + (1 + ((1 + 2 * r * (1 + 1207)) + (1 + (1 + ((1 + 2 * (2 * r)) + r))))))))); [lia|].
  eapply sp_bind; [apply sp_umul; exact Hm|]. intros r2 ->.
  eapply sp_bind; [apply sp_usub; lia|]. intros j ->.
  eapply sp_bind; [apply sp_idx|]. intros x Hx. cbn beta in Hx.
  rewrite Forall_forall in Hb. apply Hb in Hx. rewrite <- Forall_forall in Hb.
  eapply sp_bind; [apply sp_alloc|]. intros _ _.
  eapply (sp_bind (fun xy : list N * list (list N) => length (snd xy) = N.to_nat (2 * r) /\ Forall block64 (snd xy))).
  { (* the number of blocks grows with each element *)
    clear Hl. subst r.
    assert (G : forall l x y, Forall block64 l -> block64 x -> Forall block64 y ->
      spends (fun xy : list N * list (list N) => length (snd xy) = (length y + length l)%nat /\ Forall block64 (snd xy))
        (1 + len l * (1 + 1207)) (Ops.for_each l (fun b_elem xy =>
          let '(x, y) := xy in
          Ops.bind (Leak.Scrypt.block_xor x b_elem) (fun t =>
          Ops.bind (Leak.Salsa20.salsa20 t Model.Scrypt.SALSA_ROUNDS x) (fun x =>
          Ops.Ret (x, y ++ [x])))) (x, y))).
    { induction l as [|e l IH]; intros x0 y0 He Hx0 Hy0; cbn [Ops.for_each].
      - apply (sp_eq _ (1 + 0)); [unfold len; cbn; lia|]. apply (sp_emit _ 0 (Ops.Branch false)). apply sp_ret.
        cbn. split; [lia|exact Hy0].
      - inversion He as [|? ? He1 He2]; subst.
        apply (sp_eq _ (1 + ((64 + (1143 + 0)) + (1 + len l * (1 + 1207))))); [unfold len; cbn [length]; lia|].
        apply (sp_emit _ _ (Ops.Branch true)).
        eapply (sp_bind (fun xy : list N * list (list N) => block64 (fst xy) /\
          length (snd xy) = S (length y0) /\ Forall block64 (snd xy))).
        + eapply sp_bind; [apply sp_zip_xor; assumption|]. intros t Ht.
          eapply sp_bind; [apply sp_salsa; assumption|]. intros x1 Hx1. apply sp_ret. cbn [fst snd].
          split; [exact Hx1|]. split; [rewrite app_length; cbn; lia|].
          apply Forall_app. split; [exact Hy0|constructor; [exact Hx1|constructor]].
        + intros [x1 y1] (Hx1 & Hly & Hy1). cbn [fst snd] in *.
          eapply sp_weaken; [|apply IH; assumption]. intros xy [E F]. split; [|exact F].
          cbn [length]. rewrite E, Hly. lia. }
    eapply sp_eq; [|eapply sp_weaken; [|apply (G b x []); [exact Hb|exact Hx|constructor]]].
    - rewrite El. lia.
    - intros xy [E F]. split; [|exact F]. rewrite E. unfold len in El. cbn [length]. lia. }
  intros [x' y] [Hly Hy]. cbn [fst snd] in *.
  eapply sp_bind; [apply sp_alloc|]. intros _ _.
  eapply sp_bind; [apply sp_alloc|]. intros _ _.
  assert (Ely : len y = 2 * r) by (unfold len; lia).
  eapply sp_bind; [eapply sp_eq; [|apply sp_split, Hy]; rewrite Ely; reflexivity|].
  intros [hd tl] (H1 & H2 & H3 & H4 & H5). cbn [fst snd] in *. replace (N.to_nat (0 mod 2)) with 0%nat in H4, H5 by reflexivity.
  eapply sp_eq; [|apply sp_run].
  - unfold len. change Model.Scrypt.Block with (list N) in *. lia.
  - split; [rewrite app_length; change Model.Scrypt.Block with (list N) in *; lia|apply Forall_app; split; assumption].
Qed.

Lemma sp_xor_blocks x v n : blocks_of n x -> blocks_of n v ->
  spends (blocks_of n) (1 + 65 * N.of_nat n) (Leak.Scrypt.xor_blocks x v).
Proof.
  revert v n. induction x as [|a x IH]; intros [|b v] n [Hx Fx] [Hv Fv]; cbn [length] in Hx, Hv; subst n;
    try discriminate Hv; cbn [Leak.Scrypt.xor_blocks].
  - apply (sp_eq _ (1 + 0)); [lia|]. apply (sp_emit _ 0 (Ops.Branch false)). apply sp_ret. split; [reflexivity|constructor].
  - inversion Fx as [|? ? Ha Fx']; inversion Fv as [|? ? Hb Fv']; subst.
    apply (sp_eq _ (1 + (64 + ((1 + 65 * N.of_nat (length x)) + 0)))); [lia|].
    apply (sp_emit _ _ (Ops.Branch true)).
    eapply sp_bind; [apply sp_zip_xor; assumption|]. intros c Hc.
    eapply sp_bind; [apply (IH v (length x)); split; try assumption; congruence|]. intros cs [Hcs Fcs].
    apply sp_ret. split; [cbn; congruence|constructor; assumption].
Qed.

Lemma sp_integerify T x : x <> [] -> Forall block64 x -> spends anyv 10 (Leak.Scrypt.integerify T x).
Proof.
  intros Hne Hx. unfold Leak.Scrypt.integerify.
  apply (sp_eq _ (0 + (1 + (0 + (1 + (1 + (1 + (1 + (1 + (1 + (1 + (1 + (1 + 0)))))))))))));  [lia|].
  eapply sp_bind; [apply sp_usub; destruct x; [contradiction|unfold len; cbn [length]; lia]|]. intros i _.
  eapply sp_bind; [apply sp_idx|]. intros l Hl. cbn beta in Hl. rewrite Forall_forall in Hx. apply Hx in Hl.
  assert (El : len l = 64) by (unfold len; rewrite Hl; reflexivity).
  eapply sp_bind; [apply sp_usub; rewrite El; discriminate|]. intros o _.
  eapply sp_bind; [apply sp_slice|]. intros t _.
  do 8 (eapply sp_bind; [apply sp_idx|]; intros ? _).
  apply sp_ret. exact I.
Qed.

Definition lane_steps (n r : N) : N := 3 + n * (26 + 4972 * r).

Lemma sp_ro_mix T s b : 1 <= Model.Scrypt.sr s -> 2 * Model.Scrypt.sr s < usize_mod T ->
  blocks_of (N.to_nat (2 * Model.Scrypt.sr s)) b ->
  spends (blocks_of (N.to_nat (2 * Model.Scrypt.sr s))) (lane_steps (Model.Scrypt.sn s) (Model.Scrypt.sr s))
    (Leak.Scrypt.ro_mix T s b).
Proof.
  intros Hr Hm Hb. unfold Leak.Scrypt.ro_mix, lane_steps. set (r := Model.Scrypt.sr s) in *. set (n := Model.Scrypt.sn s).
  apply (sp_eq _ (1 + ((1 + (n - 0) * (1 + (mix_steps r + 0))) +
    (1 + (n - 0) * (1 + (10 + (0 + (1 + ((1 + 65 * N.of_nat (N.to_nat (2 * r))) + mix_steps r)))))))));
    [unfold mix_steps; rewrite N.sub_0_r, N2Nat.id; lia|].
  eapply sp_bind; [apply sp_alloc|]. intros _ _.
  eapply (sp_bind (fun xv : list (list N) * list (list (list N)) =>
    blocks_of (N.to_nat (2 * r)) (fst xv) /\ Forall (blocks_of (N.to_nat (2 * r))) (snd xv))).
  { apply sp_for_range; [split; [exact Hb|constructor]|]. intros i [x v] [Hx Hv]. cbn [fst snd] in *.
    eapply sp_bind; [apply sp_block_mix; assumption|]. intros t Ht. apply sp_ret. cbn [fst snd].
    split; [exact Ht|]. apply Forall_app. split; [exact Hv|constructor; [exact Hx|constructor]]. }
  intros [x v] [Hx Hv]. cbn [fst snd] in *.
  apply sp_for_range; [exact Hx|]. intros i x1 Hx1.
  eapply sp_bind; [apply sp_integerify; [intros ->; destruct Hx1 as [E _]; cbn [length] in E; lia|apply Hx1]|]. intros k _.
  eapply sp_bind; [apply sp_urem|]. intros j _.
  eapply sp_bind; [apply sp_idx|]. intros vj Hvj. cbn beta in Hvj. rewrite Forall_forall in Hv. apply Hv in Hvj.
  eapply sp_bind; [apply sp_xor_blocks; eassumption|]. intros t Ht. apply sp_block_mix; assumption.
Qed.

Lemma sp_chunks {A} (l : list A) n k : n <> 0 -> len l = k * n ->
  spends (fun x => len x = k /\ Forall (fun c => len c = n) x) (len l) (Ops.chunks_exact l n).
Proof.
  intros Hn Hl. unfold Ops.chunks_exact. unfold Ops.chunks_exact.
  apply (sp_eq _ (len l + 0)); [lia|]. apply (sp_emit _ 0 (Ops.Run (len l))). apply sp_lift.
  assert (El : length l = (N.to_nat k * N.to_nat n)%nat) by (unfold len in Hl; lia).
  rewrite chunks_exact_blocks; [|exact Hn|rewrite El; apply Nat.mod_mul; lia].
  intros a E. injection E as <-. split.
  - unfold len. rewrite blocks_length, El, Nat.div_mul by lia. lia.
  - apply Forall_forall. intros c Hc. apply blocks_all_length in Hc. unfold len. lia.
Qed.

(** The size of the derived blocks, and the cost of a derivation with
    accepted parameters. *)
Definition volume (s : Model.Scrypt.Scrypt) : N := 128 * Model.Scrypt.sr s * Model.Scrypt.sp s.

Definition scrypt_steps (s : Model.Scrypt.Scrypt) (p t o : N) : N :=
  7 + 3 * volume s + Model.Scrypt.sp s * (2 + lane_steps (Model.Scrypt.sn s) (Model.Scrypt.sr s)) +
  pbkdf2_steps p t 1 (volume s) + pbkdf2_steps p (volume s) 1 o.

Lemma sp_split_blocks T s raw : 1 <= Model.Scrypt.sr s -> 128 * Model.Scrypt.sr s < usize_mod T ->
  len raw = volume s ->
  spends (fun b => Forall (blocks_of (N.to_nat (2 * Model.Scrypt.sr s))) b /\ len b = Model.Scrypt.sp s)
    (2 * volume s + 1 + Model.Scrypt.sp s) (Leak.Scrypt.split_blocks T s raw).
Proof.
  intros Hr Hm Hl. unfold Leak.Scrypt.split_blocks, volume in *.
  set (r := Model.Scrypt.sr s) in *. set (p := Model.Scrypt.sp s) in *.
  apply (sp_eq _ (0 + (len raw + (1 + p * (1 + 128 * r))))); [rewrite Hl; lia|].
  change (2 * Model.Scrypt.BLOCK_SIZE) with 128.
  eapply sp_bind; [apply sp_umul; exact Hm|]. intros n ->.
  eapply sp_bind; [apply (sp_chunks _ _ p); [lia|rewrite Hl; lia]|]. intros cs [Hc Fc].
  eapply sp_eq; [|eapply sp_weaken; [|apply (sp_map_res (fun c : list N => len c = 128 * r)
    (blocks_of (N.to_nat (2 * r))) (128 * r)); [|exact Fc]]].
  - rewrite Hc. lia.
  - cbn beta. intros b [Fb Eb]. split; [exact Fb|]. unfold len in *. lia.
  - intros c Ec. rewrite <- Ec.
    eapply sp_weaken; [|apply (sp_chunks _ _ (2 * r)); [discriminate|]].
    + cbn beta. intros x [Ex Fx]. split; [unfold len in Ex; lia|].
      eapply Forall_impl; [|exact Fx]. intros y Ey. cbv beta in Ey. unfold block64. unfold len in Ey.
      change Model.Scrypt.BLOCK_SIZE with 64 in Ey. lia.
    + rewrite Ec. change Model.Scrypt.BLOCK_SIZE with 64. lia.
Qed.

Lemma concat_blocks_len k L : Forall (blocks_of k) L -> len (concat (concat L)) = 64 * N.of_nat k * len L.
Proof.
  intros H. unfold len.
  assert (H1 : length (concat L) = (length L * k)%nat).
  { apply concat_same_length. eapply Forall_impl; [|exact H]. intros x [E _]. exact E. }
  rewrite (concat_same_length _ 64), H1; [lia|].
  apply Forall_forall. intros x Hx. apply in_concat in Hx. destruct Hx as (b & Hb & Hx).
  rewrite Forall_forall in H. destruct (H _ Hb) as [_ F]. rewrite Forall_forall in F. exact (F _ Hx).
Qed.

Lemma sp_derive T s P S out :
  1 <= Model.Scrypt.sr s -> 1 <= Model.Scrypt.sn s ->
  N.land (Model.Scrypt.sn s - 1) (Model.Scrypt.sn s) = 0 -> 1 <= Model.Scrypt.sp s ->
  len P * 8 < usize_mod T -> (len S + 68) * 8 < usize_mod T -> (volume s + 68) * 8 < usize_mod T ->
  len out <= isize_max T ->
  spends anyv (scrypt_steps s (len P) (len S) (len out)) (Leak.Scrypt.scrypt_derive T s P S out).
Proof.
  intros Hr Hn Hpow Hp HP HS Hv Ho. pose proof (isize_usize T) as Hi.
  unfold Leak.Scrypt.scrypt_derive, scrypt_steps.
  set (r := Model.Scrypt.sr s) in *. set (n := Model.Scrypt.sn s) in *. set (p := Model.Scrypt.sp s) in *.
  set (V := volume s) in *.
  assert (HV : V = 128 * r * p) by reflexivity.
  assert (Hr128 : 128 * r <= V) by (rewrite HV; nia).
  assert (Hp128 : p * 2 * 64 <= V) by (rewrite HV; nia).
  apply (sp_eq _ (1 + (1 + (0 + (1 + (1 + (0 + (0 + (0 + (1 + (pbkdf2_steps (len P) (len S) 1 V +
    ((2 * V + 1 + p) + ((1 + p * (1 + lane_steps n r)) + (V + (pbkdf2_steps (len P) V 1 (len out) + 0)))))))))))))));
    [lia|].
  apply sp_branch; intros C1; [exfalso; lia|].
  apply sp_branch; intros C2; [exfalso; lia|].
  eapply sp_bind; [apply sp_usub; lia|]. intros n1 ->.
  apply sp_branch; intros C3; [exfalso; rewrite Hpow in C3; discriminate C3|].
  apply sp_branch; intros C4; [exfalso; lia|].
  change Model.Scrypt.BLOCK_SIZE with 64.
  eapply sp_bind; [apply sp_umul; lia|]. intros m ->.
  eapply sp_bind; [apply sp_umul; lia|]. intros m ->.
  assert (Em : p * 2 * 64 * r = V) by (rewrite HV; ring).
  eapply sp_bind; [apply sp_umul; rewrite Em; lia|]. intros m ->. rewrite Em.
  eapply sp_bind; [apply sp_alloc|]. intros _ _.
  assert (Er : len (repeat 0 (N.to_nat V)) = V) by (unfold len; rewrite repeat_length; lia).
  eapply sp_bind; [eapply sp_eq; [|apply sp_pbkdf2; [exact HP|exact HS|]]; rewrite Er; [reflexivity|lia]|].
  intros raw Hraw. cbn beta in Hraw.
  eapply sp_bind; [apply sp_split_blocks; [exact Hr|fold r; lia|unfold len in *; fold V; lia]|].
  intros b [Fb Eb].
  eapply sp_bind; [eapply sp_eq; [|apply (sp_map_res (blocks_of (N.to_nat (2 * r)))
    (blocks_of (N.to_nat (2 * r))) (lane_steps n r)); [|exact Fb]]|].
  { rewrite Eb. reflexivity. }
  { intros x Hx. apply sp_ro_mix; [exact Hr|fold r; lia|exact Hx]. }
  cbn beta. intros b' [Fb' Eb'].
  assert (EL : len (concat (concat b')) = V).
  { transitivity (64 * N.of_nat (N.to_nat (2 * r)) * p); [|rewrite HV; lia].
    etransitivity; [exact (concat_blocks_len _ _ Fb')|]. f_equal.
    etransitivity; [|exact Eb]. unfold len. f_equal. exact Eb'. }
  eapply (sp_bind (fun x => x = concat (concat b')));
    [eapply sp_eq; [|apply sp_run; reflexivity]; exact EL|].
  intros bs ->.
  eapply sp_bind; [eapply sp_eq; [|apply sp_pbkdf2; [exact HP|rewrite EL; exact Hv|exact Ho]]; rewrite EL; reflexivity|].
  intros o _. apply sp_ret. exact I.
Qed.
