(** C84: messages whose beginning somebody else chooses, through one cipher. *)
From Coq Require Import NArith List Arith Lia Bool.
From Verif Require Import Rust Calls.
From Verif.Model Require Import Aes Pkcs7 AesCbc.
From Verif.Spec Require Octets Aes Cbc Stream BlockCipher Chosen.
From Verif.Proofs Require Import Base Bits.
From Verif.Proofs Require Stream AesCbc Messages Aes.
From Verif.Props Require Import AesCbc.
From Verif.Props Require Repeats.
Import Spec.Octets Spec.Cbc Spec.Chosen.
Import Spec.Stream (call, reply, Init, Write, Flush, Accepted, Data).
Import ListNotations.
Local Open Scope N_scope.

(** * Statements *)

(** One message of the service: a beginning from outside, then the secret, through
    the cipher the service keeps; the ciphertext is seen outside. *)
Definition service (T : target) (secret : list N) (c : Cipher) (m : list N)
  : option (list N * Cipher) :=
  match run_calls (cipher_call T) c [Write m; Write secret; Flush] with
  | Ret ([Data x; Data y; Data z], c') => Some (x ++ y ++ z, c')
  | _ => None
  end.

(** * Lemmas *)

Lemma block_app_l (a b : list N) i : (16 * i + 16 <= length a)%nat -> block (a ++ b) i = block a i.
Proof.
  intros H. unfold block. rewrite skipn_app, firstn_app, skipn_length.
  replace (16 - (length a - 16 * i))%nat with 0%nat by lia.
  rewrite firstn_O, app_nil_r. reflexivity.
Qed.
Lemma block_pad m i : (16 * i + 16 <= length m)%nat -> block (pkcs7_pad 16 m) i = block m i.
Proof. intros H. unfold pkcs7_pad. cbv zeta. apply block_app_l. assumption. Qed.
Lemma block_0 (a b : list N) : length a = 16%nat -> block (a ++ b) 0 = a.
Proof.
  intros H. rewrite block_app_l by lia. unfold block. rewrite Nat.mul_0_r. cbn [skipn].
  apply firstn_all2. lia.
Qed.

Lemma final_last C d : Forall Proofs.Stream.is_block C -> C <> [] -> final (concat C) = last C d.
Proof.
  intros H Hn. destruct (exists_last Hn) as (C' & x & ->). apply Forall_app in H. destruct H as [_ Hx].
  inversion Hx as [|? ? [_ Lx] _]; subst. rewrite last_last. unfold final.
  rewrite concat_app, app_length. cbn [concat]. rewrite app_nil_r, Lx.
  replace (length (concat C') + 16 - 16)%nat with (length (concat C') + 0)%nat by lia.
  rewrite skipn_app, skipn_all2 by lia. cbn [app].
  replace (length (concat C') + 0 - length (concat C'))%nat with 0%nat by lia. reflexivity.
Qed.

Definition ready (key : list N) (c : Cipher) (iv : list N) : Prop :=
  Proofs.AesCbc.c_rel c (Stream.mkCipher (Some key) iv []).

Lemma padded_blocks m : (1 <= length (blocks 16 (pkcs7_pad 16 m)))%nat.
Proof.
  rewrite blocks_length, Proofs.Stream.pkcs7_pad_length by discriminate.
  rewrite (Nat.mul_comm _ (_ + 1)), Nat.div_mul by discriminate. lia.
Qed.

Lemma service_ok T key secret c iv m : good_key key -> octets secret -> octets m -> ready key c iv ->
  exists c', service T secret c m = Some (aes_cbc_encrypt key iv (m ++ secret), c') /\
    ready key c' (final (aes_cbc_encrypt key iv (m ++ secret))) /\
    good_block (final (aes_cbc_encrypt key iv (m ++ secret))).
Proof.
  intros Hk Hs Hm R.
  assert (Hiv : good_block iv) by (destruct R; assumption).
  destruct (Proofs.AesCbc.run_ok (cipher_call T) Stream.cipher_step Proofs.AesCbc.c_rel
    (fun c s x Hx Hr => Proofs.AesCbc.cipher_step_ok T c s x Hx Hr)
    [Write m; Write secret; Flush] c (Stream.mkCipher (Some key) iv [])) as (c' & E & R').
  { repeat constructor; assumption. }
  { exact R. }
  destruct (Proofs.Messages.encrypt_message key iv [m; secret]) as (outs & b & Er & Hl & _ & Hb).
  cbn [map app concat] in Er, Hl, Hb. rewrite app_nil_r in *. rewrite Er in E, R'. cbn [fst snd] in E, R'.
  destruct outs as [|x [|y [|]]]; try discriminate. cbn [map app concat] in *. rewrite app_nil_r in Hb.
  exists c'. unfold service. rewrite E. rewrite <- app_assoc in Hb. rewrite Hb.
  split; [reflexivity|].
  assert (Ef : final (aes_cbc_encrypt key iv (m ++ secret)) =
    last (cbc_encrypt (Spec.Aes.Cipher key) iv (blocks 16 (pkcs7_pad 16 (m ++ secret)))) iv).
  { unfold aes_cbc_encrypt. apply final_last.
    - apply enc_blocks; [assumption..|]. apply Proofs.Stream.octets_pkcs7_pad; [lia|].
      apply octets_app. split; assumption.
    - intros Z. apply (f_equal (@length (list N))) in Z. rewrite Proofs.Stream.cbc_encrypt_length in Z.
      pose proof (padded_blocks (m ++ secret)). cbn [length] in Z. lia. }
  rewrite Ef. split; [exact R'|]. destruct R'. assumption.
Qed.

(** The first block of the answer to a chosen block. *)
Lemma first_block key iv q secret : good_key key -> good_block iv -> octets secret -> good_block q ->
  block (aes_cbc_encrypt key iv (q ++ secret)) 0 = Spec.Aes.Cipher key (xor q iv).
Proof.
  intros Hk Hiv Hs [Hq Lq].
  assert (Ho : octets (q ++ secret)) by (apply octets_app; split; assumption).
  assert (L : (16 * 0 + 16 <= length (aes_cbc_encrypt key iv (q ++ secret)))%nat).
  { unfold aes_cbc_encrypt.
    rewrite (enc_length key iv _ Hk Hiv) by (apply Proofs.Stream.octets_pkcs7_pad; [lia|exact Ho]).
    pose proof (padded_blocks (q ++ secret)) as P. rewrite blocks_length in P. lia. }
  destruct (Repeats.cipher_block key iv (q ++ secret) 0 Hk Hiv Ho L) as (_ & _ & E).
  cbv zeta in E. change (Repeats.block (aes_cbc_encrypt key iv (q ++ secret)) 0)
      with (block (aes_cbc_encrypt key iv (q ++ secret)) 0) in E. rewrite E.
  change (Repeats.block (pkcs7_pad 16 (q ++ secret)) 0) with (block (pkcs7_pad 16 (q ++ secret)) 0).
  rewrite block_pad by (rewrite app_length; lia). rewrite block_0 by assumption. reflexivity.
Qed.

Lemma guess_ok T key secret front prev s found :
  good_key key -> octets secret -> octets front -> length front = 15%nat -> s < 256 -> good_block prev ->
  forall cands c iv, Forall (fun w => w < 256) cands -> In s cands -> ready key c iv -> good_block iv ->
  exists c' iv' q, (q <= length cands)%nat /\ ready key c' iv' /\ good_block iv' /\
    play (service T secret) c
      (guess front prev (Spec.Aes.Cipher key (xor (front ++ [s]) prev)) cands iv found) =
    match play (service T secret) c' (found s iv') with
    | Some (a, n) => Some (a, (q + n)%nat)
    | None => None
    end.
Proof.
  intros Hk Hsec Hf Lf Hs [Hp Lp]. induction cands as [|w ws IH]; intros c iv Hc Hin R Hiv; [contradiction|].
  inversion Hc as [|? ? Hw Hws]; subst. cbn [guess play].
  assert (Bq : forall w, w < 256 -> good_block (xor (front ++ [w]) prev)).
  { intros v Hv. apply Proofs.Stream.is_block_xor; split; try assumption.
    - apply octets_app. split; [assumption|]. repeat constructor. assumption.
    - rewrite app_length, Lf. reflexivity. }
  assert (Bm : good_block (xor (xor (front ++ [w]) prev) iv))
    by (apply Proofs.Stream.is_block_xor; [apply Bq; assumption|exact Hiv]).
  destruct (service_ok T key secret c iv (xor (xor (front ++ [w]) prev) iv) Hk Hsec (proj1 Bm) R)
    as (c' & E & R' & Hiv'). rewrite E.
  rewrite first_block by assumption.
  rewrite (xor_cancel_r (xor (front ++ [w]) prev) iv) by (rewrite (proj2 (Bq w Hw)), (proj2 Hiv); reflexivity).
  destruct (N.eq_dec w s) as [->|Hne].
  - destruct (list_eq_dec N.eq_dec _ _) as [_|Z]; [|contradiction].
    exists c'. eexists. exists 1%nat. split; [cbn [length]; lia|]. split; [exact R'|]. split; [exact Hiv'|].
    destruct (play _ _ (found s _)) as [[a n]|]; reflexivity.
  - destruct (list_eq_dec N.eq_dec _ _) as [Z|_].
    + exfalso. apply Repeats.Cipher_inj in Z; [|assumption|apply Bq; assumption..].
      assert (Z' : front ++ [w] = front ++ [s]).
      { rewrite <- (xor_cancel_r (front ++ [w]) prev), <- (xor_cancel_r (front ++ [s]) prev)
          by (rewrite app_length, Lf, Lp; reflexivity). congruence. }
      apply app_inj_tail in Z'. apply Hne, Z'.
    + destruct Hin as [|Hin]; [congruence|].
      destruct (IH c' (final (aes_cbc_encrypt key iv (xor (xor (front ++ [w]) prev) iv ++ secret))) Hws Hin R' Hiv')
        as (c2 & iv2 & q & Hq & R2 & Hiv2 & E2).
      rewrite E2. exists c2, iv2, (S q). split; [cbn [length]; lia|]. split; [assumption|].
      split; [assumption|]. destruct (play _ _ (found s _)) as [[a n]|]; reflexivity.
Qed.

Lemma all_octets_ok : Forall (fun w => w < 256) Spec.Aes.all_octets.
Proof.
  unfold Spec.Aes.all_octets. apply Forall_forall. intros w Hw. apply in_map_iff in Hw.
  destruct Hw as (n & <- & Hn). apply in_seq in Hn. lia.
Qed.
Lemma in_all_octets w : w < 256 -> In w Spec.Aes.all_octets.
Proof.
  intros Hw. unfold Spec.Aes.all_octets. apply in_map_iff. exists (N.to_nat w).
  split; [apply N2Nat.id|]. apply in_seq. lia.
Qed.

Lemma filler_length known : (length (filler known ++ known) mod 16 = 15)%nat.
Proof.
  unfold filler. rewrite app_length, repeat_length.
  pose proof (Nat.div_mod (length known) 16 ltac:(discriminate)).
  pose proof (Nat.mod_upper_bound (length known) 16 ltac:(discriminate)).
  replace (15 - length known mod 16 + length known)%nat with (15 + (length known / 16) * 16)%nat by lia.
  apply Nat.mod_add. discriminate.
Qed.

Lemma recover_ok T key secret : good_key key -> octets secret ->
  forall rest known c iv, secret = known ++ rest -> ready key c iv -> good_block iv ->
  exists q, (q <= 257 * length rest)%nat /\
    play (service T secret) c (recover (length rest) known iv) = Some (secret, q).
Proof.
  intros Hk Hsec. induction rest as [|s rest IH]; intros known c iv Es R Hiv.
  - exists 0%nat. split; [lia|]. rewrite app_nil_r in Es. subst. reflexivity.
  - cbn [length recover play]. set (f := filler known).
    assert (Hf : octets f) by (apply octets_repeat; lia).
    assert (Ho : octets known /\ octets (s :: rest)) by (apply octets_app; rewrite <- Es; assumption).
    destruct Ho as [Hkn Hrest]. inversion Hrest as [|? ? Hs Hr]; subst x l.
    destruct (service_ok T key secret c iv f Hk Hsec Hf R) as (c' & E & R' & Hiv'). rewrite E. cbv zeta.
    pose proof (filler_length known) as Lm. fold f in Lm.
    set (l := f ++ known) in *. set (j := (length l / 16)%nat).
    assert (Ll : length l = (16 * j + 15)%nat).
    { pose proof (Nat.div_mod (length l) 16 ltac:(discriminate)). unfold j. lia. }
    assert (Em : f ++ secret = (l ++ [s]) ++ rest) by (unfold l; rewrite Es, <- !app_assoc; reflexivity).
    assert (Hm : octets (f ++ secret)) by (apply octets_app; split; assumption).
    assert (Hl : octets l) by (apply octets_app; split; assumption).
    assert (Lms : (16 * j + 16 <= length (f ++ secret))%nat).
    { rewrite Em, !app_length, Ll. cbn [length]. lia. }
    assert (Lc : (16 * j + 16 <= length (aes_cbc_encrypt key iv (f ++ secret)))%nat).
    { unfold aes_cbc_encrypt.
      rewrite (enc_length key iv _ Hk Hiv) by (apply Proofs.Stream.octets_pkcs7_pad; [lia|exact Hm]).
      rewrite Proofs.Stream.pkcs7_pad_length by discriminate.
      rewrite (Nat.mul_comm _ (_ + 1)), Nat.div_mul by discriminate.
      pose proof (Nat.div_mod (length (f ++ secret)) 16 ltac:(discriminate)).
      pose proof (Nat.mod_upper_bound (length (f ++ secret)) 16 ltac:(discriminate)). lia. }
    destruct (Repeats.cipher_block key iv (f ++ secret) j Hk Hiv Hm Lc) as (_ & Hprev & Eb).
    set (ct := aes_cbc_encrypt key iv (f ++ secret)) in *.
    change (Repeats.block ct j) with (block ct j) in Eb. change (Repeats.before iv ct j) with (before iv ct j) in *.
    change (Repeats.block (pkcs7_pad 16 (f ++ secret)) j) with (block (pkcs7_pad 16 (f ++ secret)) j) in Eb.
    rewrite block_pad in Eb by assumption.
    assert (Efr : block (f ++ secret) j = skipn (16 * j) l ++ [s]).
    { rewrite Em, block_app_l by (rewrite app_length, Ll; cbn [length]; lia). unfold block.
      rewrite skipn_app. replace (16 * j - length l)%nat with 0%nat by lia. cbn [skipn].
      apply firstn_all2. rewrite app_length, skipn_length, Ll. cbn [length]. lia. }
    rewrite Efr in Eb. rewrite Eb.
    destruct (guess_ok T key secret (skipn (16 * j) l) (before iv ct j) s
      (fun w iv0 => recover (length rest) (known ++ [w]) iv0) Hk Hsec) with (cands := Spec.Aes.all_octets)
      (c := c') (iv := final ct) as (c2 & iv2 & q & Hq & R2 & Hiv2 & E2); try assumption.
    + apply octets_skipn. assumption.
    + rewrite skipn_length. lia.
    + apply all_octets_ok.
    + apply in_all_octets. assumption.
    + rewrite E2. destruct (IH (known ++ [s]) c2 iv2) as (q' & Hq' & E'); try assumption.
      * rewrite Es, <- app_assoc. reflexivity.
      * rewrite E'. exists (S (q + q')). split; [|reflexivity].
        change (length Spec.Aes.all_octets) with 256%nat in Hq. lia.
Qed.

(** Everything that went through the cipher as one sequence of blocks. *)
Definition padded (msgs : list (list (list N))) : list N :=
  concat (map (fun m => pkcs7_pad 16 (concat m)) msgs).

Lemma last_app_default {A} (x y : list A) d : last (x ++ y) d = last y (last x d).
Proof.
  destruct y as [|b y] using rev_ind; [rewrite app_nil_r; reflexivity|].
  rewrite app_assoc, !last_last. reflexivity.
Qed.

Lemma padded_ok msgs : Forall (Forall octets) msgs -> octets (padded msgs).
Proof.
  intros H. unfold padded. apply octets_concat'. rewrite Forall_map. revert H. apply Forall_impl.
  intros m Hm. apply Proofs.Stream.octets_pkcs7_pad; [lia|apply octets_concat'; exact Hm].
Qed.
Lemma padded_mod msgs : (length (padded msgs) mod 16 = 0)%nat.
Proof.
  unfold padded. induction msgs as [|m ms IH]; [reflexivity|]. cbn [map concat]. rewrite app_length.
  rewrite Nat.add_mod, IH, Proofs.Stream.pkcs7_pad_mod by discriminate. reflexivity.
Qed.

Lemma ready_after T key iv history : good_key key -> good_block iv -> Forall (Forall octets) history ->
  exists rs c, cipher_run T iv (Init key :: messages history) = Ret (Accepted :: rs, c) /\
    ready key c (last (cbc_encrypt (Spec.Aes.Cipher key) iv (blocks 16 (padded history))) iv).
Proof.
  intros Hk Hiv Hh.
  destruct (Proofs.AesCbc.cipher_run_ok T iv (Init key :: messages history) Hiv) as (c & E & R).
  { constructor; [apply Hk|apply messages_ok; assumption]. }
  rewrite init_keyed in E, R by assumption.
  assert (G : forall iv, snd (Stream.run Stream.cipher_step (Stream.mkCipher (Some key) iv []) (messages history)) =
    Stream.mkCipher (Some key) (last (cbc_encrypt (Spec.Aes.Cipher key) iv (blocks 16 (padded history))) iv) []).
  { clear. induction history as [|m ms IH]; intros iv; [reflexivity|].
    destruct (Proofs.Messages.encrypt_message key iv m) as (outs & b & Er & _).
    unfold messages, message in *. cbn [flat_map]. rewrite Proofs.Messages.run_app, Er. cbn [fst snd].
    unfold padded in *. cbn [map concat].
    rewrite blocks_app by (try apply Proofs.Stream.pkcs7_pad_mod; discriminate).
    rewrite Proofs.Stream.cbc_encrypt_app, last_app_default, <- IH.
    destruct (Stream.run _ _ _) as [rs s]. reflexivity. }
  specialize (G iv).
  destruct (Stream.run Stream.cipher_step (Stream.mkCipher (Some key) iv []) (messages history)) as [rs s].
  cbn [fst snd] in *. exists rs, c. split; [exact E|]. unfold ready. rewrite <- G. exact R.
Qed.

Lemma ciphertext_length key iv m : good_key key -> good_block iv -> octets m ->
  length (aes_cbc_encrypt key iv m) = (16 * (length m / 16 + 1))%nat.
Proof.
  intros Hk Hiv Hm. unfold aes_cbc_encrypt.
  rewrite (enc_length key iv _ Hk Hiv) by (apply Proofs.Stream.octets_pkcs7_pad; [lia|exact Hm]).
  rewrite Proofs.Stream.pkcs7_pad_length by discriminate.
  rewrite (Nat.mul_comm _ (_ + 1)), Nat.div_mul by discriminate. lia.
Qed.

(** The first beginning that makes the ciphertext longer completes the last block. *)
Lemma grow_ok T key secret found : good_key key -> octets secret ->
  let n := length secret in
  let d := (16 - n mod 16)%nat in
  forall tries k c iv, (k <= d < k + tries)%nat -> ready key c iv -> good_block iv ->
  exists c' iv' q, (q <= tries)%nat /\ ready key c' iv' /\ good_block iv' /\
    play (service T secret) c (grow tries k (16 * (n / 16 + 1)) found) =
    match play (service T secret) c' (found n iv') with
    | Some (a, x) => Some (a, (q + x)%nat)
    | None => None
    end.
Proof.
  intros Hk Hs n d.
  pose proof (Nat.div_mod n 16 ltac:(discriminate)) as Dn.
  pose proof (Nat.mod_upper_bound n 16 ltac:(discriminate)) as Bn.
  induction tries as [|t IH]; intros k c iv Hd R Hiv; [lia|]. cbn [grow play].
  assert (Hf : octets (repeat 0 k)) by (apply octets_repeat; lia).
  destruct (service_ok T key secret c iv (repeat 0 k) Hk Hs Hf R) as (c' & E & R' & Hiv'). rewrite E.
  assert (Hm : octets (repeat 0 k ++ secret)) by (apply octets_app; split; assumption).
  rewrite (ciphertext_length key iv _ Hk Hiv Hm), app_length, repeat_length. fold n.
  destruct (Nat.eq_dec k d) as [Ek|Ek].
  - replace ((k + n) / 16)%nat with (n / 16 + 1)%nat
      by (replace (k + n)%nat with ((n / 16 + 1) * 16)%nat by lia; symmetry; apply Nat.div_mul; discriminate).
    rewrite (proj2 (Nat.ltb_lt _ _)) by lia.
    replace (16 * (n / 16 + 1) - k)%nat with n by lia.
    exists c'. eexists. exists 1%nat. split; [lia|]. split; [exact R'|]. split; [exact Hiv'|].
    destruct (play _ _ (found n _)) as [[a x]|]; reflexivity.
  - replace ((k + n) / 16)%nat with (n / 16)%nat
      by (apply (Nat.div_unique _ _ _ (k + n mod 16)); lia).
    rewrite (proj2 (Nat.ltb_ge _ _)) by lia.
    destruct (IH (S k) c' _ ltac:(lia) R' Hiv') as (c2 & iv2 & q & Hq & R2 & Hiv2 & E2). rewrite E2.
    exists c2, iv2, (S q). split; [lia|]. split; [exact R2|]. split; [exact Hiv2|].
    destruct (play _ _ (found n _)) as [[a x]|]; reflexivity.
Qed.

(** * C84.  "Without the key, ciphertexts show nothing of a secret but about how long
    it is" is false where one [Cipher] encrypts message after message, as its interface
    invites: for every key, iv and history before, whoever chooses the beginnings and
    sees the ciphertexts has the secret after 257 messages for each of its bytes, and
    seventeen. *)
Theorem C84_secret_is_safe_refuted : forall T key iv history secret,
  good_key key -> good_block iv -> Forall (Forall octets) history -> octets secret ->
  exists rs c q,
    cipher_run T iv (Init key :: messages history) = Ret (Accepted :: rs, c) /\
    (q <= 257 * length secret + 17)%nat /\
    play (service T secret) c recover_secret = Some (secret, q).
Proof.
  intros T key iv history secret Hk Hiv Hh Hs.
  destruct (ready_after T key iv history Hk Hiv Hh) as (rs & c & E & R).
  exists rs, c. unfold recover_secret. cbn [play].
  destruct (service_ok T key secret c _ [] Hk Hs ltac:(constructor) R) as (c' & Es & R' & Hiv').
  rewrite Es. cbn [app].
  rewrite (ciphertext_length key _ secret Hk) by (assumption || (destruct R; assumption)).
  destruct (grow_ok T key secret (fun n iv => recover n [] iv) Hk Hs 16 1 c' _
    ltac:(pose proof (Nat.mod_upper_bound (length secret) 16 ltac:(discriminate)); lia) R' Hiv')
    as (c2 & iv2 & q1 & Hq1 & R2 & Hiv2 & E2).
  cbn [app] in E2. rewrite E2.
  destruct (recover_ok T key secret Hk Hs secret [] c2 iv2 eq_refl R2 Hiv2) as (q & Hq & Ep).
  rewrite Ep. exists (S (q1 + q)). split; [exact E|]. split; [lia|reflexivity].
Qed.
Print Assumptions C84_secret_is_safe_refuted.

Lemma replies_bytes cts :
  concat (map (fun r => match r with Data d => d | _ => [] end) (flat_map message_replies cts)) =
  concat (map reply_bytes cts).
Proof.
  induction cts as [|[os b] cts IH]; [reflexivity|]. cbn [flat_map map concat].
  rewrite map_app, concat_app, IH. f_equal. unfold message_replies, reply_bytes. cbn [fst snd].
  rewrite map_app, concat_app, map_map, map_id. cbn [map concat]. rewrite app_nil_r. reflexivity.
Qed.

(** The step that matters: after any messages, one block computed from a guess and
    from what was seen comes out as block [i] of what was seen if and only if the
    guess is block [i] of what was encrypted. *)
Theorem C84_guess_is_confirmed : forall T key iv msgs cts c g i,
  good_key key -> good_block iv -> Forall (Forall octets) msgs -> good_block g ->
  cipher_run T iv (Init key :: messages msgs) = Ret (Accepted :: flat_map message_replies cts, c) ->
  let ct := concat (map reply_bytes cts) in
  (16 * i + 16 <= length ct)%nat ->
  exists o c', cipher_call T c (Write (xor (xor g (before iv ct i)) (final ct))) = Ret (Data o, c') /\
    (o = block ct i <-> block (padded msgs) i = g).
Proof.
  intros T key iv msgs cts c g i Hk Hiv Hm Hg E ct Hi.
  destruct (C43_messages_are_chained T key iv msgs Hk Hiv Hm) as (cts' & c1 & E1 & Ec).
  destruct (ready_after T key iv msgs Hk Hiv Hm) as (rs & c2 & E2 & R).
  assert (c2 = c) by congruence. subst c2.
  assert (Ect : ct = concat (map reply_bytes cts')).
  { assert (X : flat_map message_replies cts = flat_map message_replies cts') by congruence.
    subst ct. rewrite <- !replies_bytes. rewrite X. reflexivity. }
  set (pt := padded msgs) in *.
  assert (Hpt : octets pt) by (apply padded_ok; assumption).
  set (C := cbc_encrypt (Spec.Aes.Cipher key) iv (blocks 16 pt)) in *.
  assert (HC : Forall Proofs.Stream.is_block C) by (apply enc_blocks; assumption).
  assert (EC : ct = concat C) by (rewrite Ect; exact Ec).
  assert (Hne : C <> []).
  { intros Z. rewrite EC, Z in Hi. cbn in Hi. lia. }
  assert (Ef : final ct = last C iv) by (rewrite EC; apply final_last; assumption).
  rewrite <- Ef in R.
  assert (Hiv' : good_block (final ct)) by (destruct R; assumption).
  assert (Lc : (i < length C)%nat).
  { rewrite EC in Hi. rewrite (Proofs.Stream.concat_blocks_length C HC) in Hi. lia. }
  assert (Lp : (i < length (blocks 16 pt))%nat).
  { unfold C in Lc. rewrite Proofs.Stream.cbc_encrypt_length in Lc. exact Lc. }
  assert (Hb : before iv ct i = match i with O => iv | S j => nth j C [] end).
  { destruct i as [|j]; [reflexivity|]. cbn [before]. rewrite EC. apply Repeats.block_concat; [exact HC|lia]. }
  assert (Bb : good_block (before iv ct i)).
  { rewrite Hb. destruct i as [|j]; [exact Hiv|]. apply Repeats.nth_is_block; [exact HC|lia]. }
  assert (Ei : block ct i = Spec.Aes.Cipher key (xor (block pt i) (before iv ct i))).
  { rewrite Hb. change (block pt i) with (Repeats.block pt i).
    rewrite (Repeats.block_blocks pt i Hpt).
    - rewrite EC. change (block (concat C) i) with (Repeats.block (concat C) i).
      rewrite Repeats.block_concat by assumption. apply Repeats.nth_cbc_encrypt. exact Lp.
    - rewrite blocks_length in Lp.
      pose proof (Nat.div_mod (length pt) 16 ltac:(discriminate)).
      pose proof (padded_mod msgs) as Hmod. fold pt in Hmod. lia. }
  assert (Bp : good_block (block pt i)).
  { change (block pt i) with (Repeats.block pt i). rewrite (Repeats.block_blocks pt i Hpt).
    - apply Repeats.nth_is_block; [apply Proofs.Stream.blocks_are_blocks; exact Hpt|exact Lp].
    - rewrite blocks_length in Lp. pose proof (Nat.div_mod (length pt) 16 ltac:(discriminate)). lia. }
  assert (Bg : good_block (xor g (before iv ct i))) by (apply Proofs.Stream.is_block_xor; assumption).
  assert (Bq : good_block (xor (xor g (before iv ct i)) (final ct)))
    by (apply Proofs.Stream.is_block_xor; assumption).
  destruct (Proofs.AesCbc.cipher_step_ok T c _ (Write (xor (xor g (before iv ct i)) (final ct))) (proj1 Bq) R)
    as (c' & Ew & _).
  set (q := xor (xor g (before iv ct i)) (final ct)) in *.
  cbn [Stream.cipher_step Stream.c_pending Stream.c_key Stream.c_chain app] in Ew.
  rewrite (proj2 Bq) in Ew. change (Nat.ltb 16 16) with false in Ew. cbv iota in Ew.
  assert (Hbl : blocks 16 q = [q]).
  { unfold blocks. rewrite (proj2 Bq). change (16 / 16)%nat with 1%nat. cbn [groups].
    rewrite firstn_all2 by (rewrite (proj2 Bq); lia). reflexivity. }
  rewrite Hbl in Ew. cbn [cbc_encrypt concat fst] in Ew. rewrite app_nil_r in Ew.
  unfold q in Ew at 2.
  rewrite (xor_cancel_r (xor g (before iv ct i)) (final ct)) in Ew
    by (rewrite (proj2 Bg), (proj2 Hiv'); reflexivity).
  eexists. exists c'. split; [exact Ew|]. rewrite Ei. split.
  - intros Z. apply Repeats.Cipher_inj in Z; [|exact Hk|exact Bg|apply Proofs.Stream.is_block_xor; assumption].
    rewrite <- (xor_cancel_r (block pt i) (before iv ct i)), <- (xor_cancel_r g (before iv ct i))
      by (rewrite ?(proj2 Bp), ?(proj2 Hg), (proj2 Bb); reflexivity).
    rewrite Z. reflexivity.
  - intros ->. reflexivity.
Qed.
Print Assumptions C84_guess_is_confirmed.

(** A secret of two bytes, after an earlier message: twenty-three messages. *)
Example C84_example :
  let T := mkTarget W64 true in
  match cipher_run T rfc3602_iv (Init rfc3602_key :: messages [[[1; 2]]]) with
  | Ret (_, c) => play (service T [3; 1]) c recover_secret = Some ([3; 1], 23%nat)
  | _ => False
  end.
Proof. vm_compute. reflexivity. Qed.
