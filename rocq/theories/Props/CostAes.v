(** C76-C77: how many steps AES and AES-CBC take; steps as in Props/Cost.v. *)
From Coq Require Import ZArith NArith List Arith Lia Bool ZifyBool ZifyNat ZifyN.
From Verif Require Import Rust Calls.
From Verif.Model Require Aes Pkcs7 AesCbc.
From Verif.Leak Require Ops Steps Aes AesCbc Calls.
From Verif.Spec Require Octets Aes Stream Leakage.
From Verif.Proofs Require Import Base Leak LeakErase LeakCalls LeakUnpad.
From Verif.Proofs Require Aes AesCbc Pkcs7 Cost CostAes.
From Verif.Props Require Aes AesCbc Leak.
Import Spec.Octets.
Import Leak.Steps.
Import ListNotations.
Local Open Scope N_scope.
Ltac Zify.zify_post_hook ::= Z.div_mod_to_equations.

(** * C76: AES *)

(** Key setup, by the length of the key. *)
Definition setup_steps (n : nat) : N :=
  match n with 16%nat => 263 | 24%nat => 295 | 32%nat => 355 | _ => 1 end.
Lemma setup_steps_ok n : CostAes.init_steps (N.of_nat n) = setup_steps n.
Proof.
  destruct (Nat.eq_dec n 16) as [->|H1]; [reflexivity|]. destruct (Nat.eq_dec n 24) as [->|H2]; [reflexivity|].
  destruct (Nat.eq_dec n 32) as [->|H3]; [reflexivity|].
  unfold CostAes.init_steps.
  destruct (N.eqb_spec (N.of_nat n) 16); [lia|]. destruct (N.eqb_spec (N.of_nat n) 24); [lia|].
  destruct (N.eqb_spec (N.of_nat n) 32); [lia|].
  unfold setup_steps. do 33 (destruct n as [|n]; try reflexivity; try contradiction).
Qed.

Theorem C76_init_steps : forall a key, octets key ->
  steps (Leak.Aes.aes_init a key) = setup_steps (length key).
Proof.
  intros a key Hk. rewrite <- setup_steps_ok.
  assert (R : exists r, Ops.outcome (Leak.Aes.aes_init a key) = Ret r).
  { rewrite aes_init_er. destruct (Proofs.Aes.valid_key_size_dec key) as [H|H];
      [rewrite Proofs.Aes.aes_init_ok by assumption|rewrite Proofs.Aes.aes_init_err by assumption]; eauto. }
  destruct R as [r R]. apply (CostAes.sp_init a key r R).
Qed.
Print Assumptions C76_init_steps.

(** One block, by the number of rounds: [forward] to encrypt it, [backward] to
    decrypt it. *)
Definition forward (nr : nat) : N := 277 * N.of_nat nr - 222.
Definition backward (nr : nat) : N := 885 * N.of_nat nr - 830.

Lemma valid_len key : Spec.Aes.valid_key_size key -> CostAes.key_size (len key).
Proof. unfold Spec.Aes.valid_key_size, CostAes.key_size, len. lia. Qed.
Lemma rounds_ok key : Spec.Aes.valid_key_size key -> CostAes.rounds (len key) = N.of_nat (Spec.Aes.Nr key).
Proof.
  unfold Spec.Aes.valid_key_size, CostAes.rounds, len, Spec.Aes.Nr, Spec.Aes.Nk. intros [-> | [-> | ->]]; reflexivity.
Qed.
Lemma keyed_schedule key : octets key -> Spec.Aes.valid_key_size key ->
  CostAes.has_schedule (N.of_nat (Spec.Aes.Nr key)) (Proofs.Aes.keyed key).
Proof.
  intros Hk Hs. split; [reflexivity|].
  destruct (Props.Aes.C28_key_expansion_conforms Model.Aes.aes_new key Hk Hs) as (a & _ & _ & _ & Hl).
  eexists. split; [reflexivity|]. unfold len. rewrite map_length, Hl. lia.
Qed.
Lemma forward_ok key : Spec.Aes.valid_key_size key ->
  CostAes.enc_steps (N.of_nat (Spec.Aes.Nr key)) = forward (Spec.Aes.Nr key).
Proof. unfold CostAes.enc_steps, forward, Spec.Aes.Nr. lia. Qed.
Lemma backward_ok key : Spec.Aes.valid_key_size key ->
  CostAes.dec_steps (N.of_nat (Spec.Aes.Nr key)) = backward (Spec.Aes.Nr key).
Proof. unfold CostAes.dec_steps, backward, Spec.Aes.Nr. lia. Qed.
Lemma init_keyed a key a' : octets key -> Model.Aes.aes_init a key = Ret (Ok tt, a') ->
  Spec.Aes.valid_key_size key /\ a' = Proofs.Aes.keyed key.
Proof.
  intros Hk Hi. destruct (Proofs.Aes.valid_key_size_dec key) as [H|H].
  - rewrite Proofs.Aes.aes_init_ok in Hi by assumption. injection Hi as <-. auto.
  - rewrite Proofs.Aes.aes_init_err in Hi by assumption. discriminate Hi.
Qed.

Theorem C76_block_steps : forall a key a' b,
  octets key -> Model.Aes.aes_init a key = Ret (Ok tt, a') -> octets b -> length b = 16%nat ->
  steps (Leak.Aes.aes_encrypt a' b) = forward (Spec.Aes.Nr key) /\
  steps (Leak.Aes.aes_decrypt a' b) = backward (Spec.Aes.Nr key).
Proof.
  intros a key a' b Hk Hi Hb Hl. destruct (init_keyed a key a' Hk Hi) as [Hs ->].
  rewrite <- forward_ok, <- backward_ok by assumption.
  pose proof (keyed_schedule key Hk Hs) as K. split.
  - eapply (CostAes.sp_encrypt _ _ b K). rewrite aes_encrypt_er, Proofs.Aes.aes_encrypt_ok by assumption. reflexivity.
  - eapply (CostAes.sp_decrypt _ _ b K). rewrite aes_decrypt_er, Proofs.Aes.aes_decrypt_ok by assumption. reflexivity.
Qed.
Print Assumptions C76_block_steps.

(** The number of steps, unlike the record (C62, C63), does not tell two keys of
    one size or two blocks apart. *)
Theorem C76_count_gives_nothing_away : forall a key a1 key' a1' b b',
  octets key -> octets key' -> length key = length key' ->
  Model.Aes.aes_init a key = Ret (Ok tt, a1) -> Model.Aes.aes_init a key' = Ret (Ok tt, a1') ->
  octets b -> length b = 16%nat -> octets b' -> length b' = 16%nat ->
  steps (Leak.Aes.aes_init a key) = steps (Leak.Aes.aes_init a key') /\
  steps (Leak.Aes.aes_encrypt a1 b) = steps (Leak.Aes.aes_encrypt a1' b') /\
  steps (Leak.Aes.aes_decrypt a1 b) = steps (Leak.Aes.aes_decrypt a1' b').
Proof.
  intros a key a1 key' a1' b b' Hk Hk' Hl Hi Hi' Hb Lb Hb' Lb'.
  rewrite !C76_init_steps by assumption.
  destruct (C76_block_steps a key a1 b Hk Hi Hb Lb) as [-> ->].
  destruct (C76_block_steps a key' a1' b' Hk' Hi' Hb' Lb') as [-> ->].
  unfold Spec.Aes.Nr, Spec.Aes.Nk. rewrite Hl. auto.
Qed.
Print Assumptions C76_count_gives_nothing_away.

Example C76_example :
  map forward [10%nat; 12%nat; 14%nat] = [2548; 3102; 3656] /\
  map backward [10%nat; 12%nat; 14%nat] = [8020; 9790; 11560] /\
  steps (Leak.Aes.aes_init Model.Aes.aes_new (repeat 7 16)) = 263 /\
  steps (Leak.Aes.aes_init Model.Aes.aes_new (repeat 7 17)) = 1.
Proof. repeat split; lazy; reflexivity. Qed.

(** * C77: AES-CBC *)

(** Writing [b] octets while [s] are pending, [e] being the steps for one block:
    only whole blocks are encrypted, the rest is stored. *)
Definition write_steps (e s b : N) : N :=
  b + (if s + b <? 16 then 2 else 4 + (s + b) mod 16 + (s + b) / 16 * (e + 68)).
Fixpoint writes_steps (e s : N) (chunks : list (list N)) : N :=
  match chunks with
  | [] => 0
  | d :: ds =>
      let b := N.of_nat (length d) in
      write_steps e s b + writes_steps e ((s + b) mod 16) ds
  end.

Definition session (key : list N) (chunks : list (list N)) : list Stream.call :=
  Stream.Init key :: map Stream.Write chunks.

Lemma session_ok key chunks : octets key -> octets (concat chunks) -> Forall stream_call_ok (session key chunks).
Proof.
  intros Hk Ho. constructor; [exact Hk|]. apply Forall_forall. intros c Hc.
  apply in_map_iff in Hc. destruct Hc as (d & <- & Hd). apply Forall_forall. intros b Hb.
  unfold octets in Ho. rewrite Forall_forall in Ho. apply Ho. apply in_concat. exists d. split; assumption.
Qed.
Lemma writes_steps_ok e chunks : forall s, CostAes.cwrites_steps e s (map len chunks) = writes_steps e s chunks.
Proof.
  induction chunks as [|d ds IH]; intros s; [reflexivity|].
  cbn [map CostAes.cwrites_steps writes_steps]. rewrite IH. reflexivity.
Qed.
Lemma pending_ok (chunks : list (list N)) : forall s, s < 16 ->
  CostAes.pending s (map len chunks) = (s + N.of_nat (length (concat chunks))) mod 16.
Proof.
  induction chunks as [|d ds IH]; intros s Hs; cbn [map CostAes.pending concat].
  - cbn [length]. lia.
  - rewrite IH by lia. rewrite app_length. unfold len. lia.
Qed.

(** A whole message, in pieces: new, init, the writes and the flush. *)
Theorem C77_encrypt_steps : forall T iv key chunks,
  Props.AesCbc.good_block iv -> octets key -> Spec.Aes.valid_key_size key -> octets (concat chunks) ->
  let e := forward (Spec.Aes.Nr key) in
  steps (Leak.Calls.cipher_run T iv (session key chunks ++ [Stream.Flush])) =
  1 + setup_steps (length key) + writes_steps e 0 chunks +
  (50 - N.of_nat (length (concat chunks)) mod 16 + e).
Proof.
  intros T iv key chunks Hiv Hk Hs Ho e.
  assert (R : exists r, Ops.outcome (Leak.Calls.cipher_run T iv (session key chunks ++ [Stream.Flush])) = Ret r).
  { rewrite cipher_run_er.
    destruct (Proofs.AesCbc.cipher_run_ok T iv (session key chunks ++ [Stream.Flush]) Hiv) as (c & -> & _); [|eauto].
    apply Forall_app. split; [apply session_ok; assumption|repeat constructor]. }
  destruct R as [r R]. revert r R.
  assert (G : Cost.spends Cost.anyv (1 + setup_steps (length key) + writes_steps e 0 chunks +
    (50 - N.of_nat (length (concat chunks)) mod 16 + e))
    (Leak.Calls.cipher_run T iv (session key chunks ++ [Stream.Flush]))).
  { unfold Leak.Calls.cipher_run, session. cbn [app Leak.Calls.run_calls Leak.Calls.cipher_call].
    assert (Liv : len iv = 16) by (destruct Hiv as [_ L]; unfold len; rewrite L; reflexivity).
    subst e. rewrite <- forward_ok, <- rounds_ok, <- writes_steps_ok, <- setup_steps_ok by assumption.
    change (N.of_nat (length key)) with (len key).
    replace (N.of_nat (length (concat chunks)) mod 16) with (CostAes.pending 0 (map len chunks))
      by (rewrite pending_ok by reflexivity; reflexivity).
    set (e := CostAes.enc_steps (CostAes.rounds (len key))).
    set (W := CostAes.cwrites_steps _ _ _). set (P := CostAes.pending _ _).
    apply (Cost.sp_eq _ (1 + ((CostAes.init_steps (len key) + 0) + ((W + (50 - P + e)) + 0)))); [lia|].
    eapply Cost.sp_bind; [apply CostAes.sp_cipher_new; exact Liv|]. intros c [Hp Hi].
    eapply (Cost.sp_bind (fun rc => CostAes.cipher_at (CostAes.rounds (len key)) 0 (snd rc))).
    - eapply Cost.sp_bind; [apply CostAes.sp_cipher_init; [apply valid_len; exact Hs|exact Hp|exact Hi]|].
      intros [r c'] Hc'. apply Cost.sp_ret. exact Hc'.
    - intros [r c'] Hc'. cbn [snd] in Hc'.
      eapply Cost.sp_bind; [apply CostAes.sp_cipher_stream; [reflexivity|exact Hc']|].
      intros [rs c''] _. apply Cost.sp_ret. exact I. }
  intros r R. apply (G r R).
Qed.
Print Assumptions C77_encrypt_steps.

Lemma writes_linear e chunks : forall s, s < 16 ->
  writes_steps e s chunks <=
  N.of_nat (length (concat chunks)) + 19 * N.of_nat (length chunks) +
  (s + N.of_nat (length (concat chunks))) / 16 * (e + 68).
Proof.
  induction chunks as [|d ds IH]; intros s Hs; cbn [writes_steps concat length]; [lia|].
  rewrite app_length. set (b := N.of_nat (length d)). set (n := N.of_nat (length (concat ds))) in *.
  specialize (IH ((s + b) mod 16) ltac:(lia)). fold n in IH.
  replace (N.of_nat (length d + length (concat ds))) with (b + n) by (subst b n; lia).
  set (q := ((s + b) mod 16 + n) / 16) in *.
  assert (Q : (s + (b + n)) / 16 = (s + b) / 16 + q) by (subst q; lia).
  rewrite Q, N.mul_add_distr_r. unfold write_steps.
  destruct (N.ltb_spec (s + b) 16) as [H|H].
  - rewrite (N.div_small (s + b) 16) by exact H. lia.
  - assert ((s + b) mod 16 < 16) by lia. lia.
Qed.

(** At most 234 steps for each octet, 19 for each piece, and 4062 more. *)
Theorem C77_encrypt_linear : forall T iv key chunks,
  Props.AesCbc.good_block iv -> octets key -> Spec.Aes.valid_key_size key -> octets (concat chunks) ->
  steps (Leak.Calls.cipher_run T iv (session key chunks ++ [Stream.Flush])) <=
  234 * N.of_nat (length (concat chunks)) + 19 * N.of_nat (length chunks) + 4062.
Proof.
  intros T iv key chunks Hiv Hk Hs Ho. rewrite C77_encrypt_steps by assumption.
  pose proof (writes_linear (forward (Spec.Aes.Nr key)) chunks 0 ltac:(lia)) as W.
  set (n := N.of_nat (length (concat chunks))) in *. rewrite N.add_0_l in W.
  assert (E : forward (Spec.Aes.Nr key) <= 3656 /\ setup_steps (length key) <= 355).
  { destruct Hs as [Hs|[Hs|Hs]]; unfold Spec.Aes.Nr, Spec.Aes.Nk; rewrite Hs; split; vm_compute; discriminate. }
  destruct E as [E1 E2].
  assert (n / 16 * (forward (Spec.Aes.Nr key) + 68) <= n / 16 * 3724) by (apply N.mul_le_mono_l; lia).
  lia.
Qed.
Print Assumptions C77_encrypt_linear.

(** Decryption: writing [b] octets while [s] are pending, [u] being the octets of
    plaintext held back: none or a block, which is returned when another follows. *)
Definition dec_write_steps (e s u b : N) : N :=
  b + (if s + b <? 16 then 2
       else 6 + (s + b) mod 16 + (s + b) / 16 * (e + 83) +
            (if u + 16 * ((s + b) / 16) <=? 16 then 0 else 18)).
Fixpoint dec_writes_steps (e s u : N) (chunks : list (list N)) : N :=
  match chunks with
  | [] => 0
  | d :: ds =>
      let b := N.of_nat (length d) in
      dec_write_steps e s u b + dec_writes_steps e ((s + b) mod 16) (if s + b <? 16 then u else 16) ds
  end.
Lemma dec_writes_steps_ok e chunks : forall s u,
  CostAes.dwrites_steps e s u (map len chunks) = dec_writes_steps e s u chunks.
Proof.
  induction chunks as [|d ds IH]; intros s u; [reflexivity|].
  cbn [map CostAes.dwrites_steps dec_writes_steps]. rewrite IH. reflexivity.
Qed.

Theorem C77_decrypt_steps : forall T iv key chunks,
  Props.AesCbc.good_block iv -> octets key -> Spec.Aes.valid_key_size key -> octets (concat chunks) ->
  steps (Leak.Calls.decipher_run T iv (session key chunks)) =
  2 + setup_steps (length key) + dec_writes_steps (backward (Spec.Aes.Nr key)) 0 0 chunks.
Proof.
  intros T iv key chunks Hiv Hk Hs Ho.
  assert (R : exists r, Ops.outcome (Leak.Calls.decipher_run T iv (session key chunks)) = Ret r).
  { rewrite decipher_run_er.
    destruct (Proofs.AesCbc.decipher_run_ok T iv (session key chunks) Hiv (session_ok key chunks Hk Ho)) as (c & -> & _). eauto. }
  destruct R as [r R]. revert r R.
  assert (G : Cost.spends Cost.anyv
    (2 + setup_steps (length key) + dec_writes_steps (backward (Spec.Aes.Nr key)) 0 0 chunks)
    (Leak.Calls.decipher_run T iv (session key chunks))).
  { unfold Leak.Calls.decipher_run, session. cbn [app Leak.Calls.run_calls Leak.Calls.decipher_call].
    assert (Liv : len iv = 16) by (destruct Hiv as [_ L]; unfold len; rewrite L; reflexivity).
    rewrite <- backward_ok, <- rounds_ok, <- dec_writes_steps_ok, <- setup_steps_ok by assumption.
    change (N.of_nat (length key)) with (len key).
    set (W := CostAes.dwrites_steps _ _ _ _).
    apply (Cost.sp_eq _ (2 + ((CostAes.init_steps (len key) + 0) + (W + 0)))); [lia|].
    eapply Cost.sp_bind; [apply CostAes.sp_decipher_new; exact Liv|]. intros c (Hp & Hu & Hi).
    eapply (Cost.sp_bind (fun rc => CostAes.decipher_at (CostAes.rounds (len key)) 0 0 (snd rc))).
    - eapply Cost.sp_bind; [apply CostAes.sp_decipher_init; [apply valid_len; exact Hs|exact Hp|exact Hu|exact Hi]|].
      intros [r c'] Hc'. apply Cost.sp_ret. exact Hc'.
    - intros [r c'] Hc'. cbn [snd] in Hc'.
      eapply Cost.sp_bind; [apply CostAes.sp_decipher_stream; [reflexivity|left; reflexivity|exact Hc']|].
      intros [rs c''] _. apply Cost.sp_ret. exact I. }
  intros r R. apply (G r R).
Qed.
Print Assumptions C77_decrypt_steps.

(** At most 729 steps for each octet, 39 for each piece, and 357 more. *)
Theorem C77_decrypt_linear : forall T iv key chunks,
  Props.AesCbc.good_block iv -> octets key -> Spec.Aes.valid_key_size key -> octets (concat chunks) ->
  steps (Leak.Calls.decipher_run T iv (session key chunks)) <=
  729 * N.of_nat (length (concat chunks)) + 39 * N.of_nat (length chunks) + 357.
Proof.
  intros T iv key chunks Hiv Hk Hs Ho. rewrite C77_decrypt_steps by assumption.
  set (e := backward (Spec.Aes.Nr key)).
  assert (W : forall cs s u, s < 16 ->
    dec_writes_steps e s u cs <=
    N.of_nat (length (concat cs)) + 39 * N.of_nat (length cs) +
    (s + N.of_nat (length (concat cs))) / 16 * (e + 83)).
  { clearbody e. clear. induction cs as [|d ds IH]; intros s u Hs; cbn [dec_writes_steps concat length]; [lia|].
    rewrite app_length. set (b := N.of_nat (length d)). set (n := N.of_nat (length (concat ds))) in *.
    specialize (IH ((s + b) mod 16) (if s + b <? 16 then u else 16) ltac:(lia)). fold n in IH.
    replace (N.of_nat (length d + length (concat ds))) with (b + n) by (subst b n; lia).
    set (q := ((s + b) mod 16 + n) / 16) in *.
    assert (Q : (s + (b + n)) / 16 = (s + b) / 16 + q) by (subst q; lia).
    rewrite Q, N.mul_add_distr_r. unfold dec_write_steps.
    destruct (N.ltb_spec (s + b) 16) as [H|H].
    - rewrite (N.div_small (s + b) 16) by exact H. lia.
    - assert ((s + b) mod 16 < 16) by lia. destruct (u + 16 * ((s + b) / 16) <=? 16); lia. }
  specialize (W chunks 0 0 ltac:(lia)).
  set (n := N.of_nat (length (concat chunks))) in *. rewrite N.add_0_l in W.
  assert (E : e <= 11560 /\ setup_steps (length key) <= 355).
  { subst e. destruct Hs as [Hs|[Hs|Hs]]; unfold Spec.Aes.Nr, Spec.Aes.Nk; rewrite Hs; split; vm_compute; discriminate. }
  destruct E as [E1 E2].
  assert (n / 16 * (e + 83) <= n / 16 * 11643) by (apply N.mul_le_mono_l; lia).
  lia.
Qed.
Print Assumptions C77_decrypt_linear.

(** The flush of a decipher after any history: 23 steps if the padding is removed,
    however long it is; fewer otherwise. *)
Definition verdict_steps (v : Leakage.flush_view) : N :=
  match v with
  | Leakage.Short => 2
  | Leakage.TooLarge => 4
  | Leakage.Mismatch n => 6 + n
  | Leakage.Removed _ => 23
  end.
Lemma view_bounded l n : Leakage.view_of 16 l = Leakage.Removed n \/ Leakage.view_of 16 l = Leakage.Mismatch n -> n <= 16.
Proof.
  unfold Leakage.view_of, Stream.strip. destruct (negb _); [intros [H|H]; discriminate H|].
  destruct (Nat.leb_spec (N.to_nat (last l 256)) 16) as [H|H]; cbn [andb].
  - destruct (forallb _ _); intros [E|E]; try discriminate E; injection E as <-; lia.
  - intros [E|E]; discriminate E.
Qed.
Theorem C77_flush_steps : forall T iv calls d rs,
  Props.AesCbc.good_block iv -> Forall stream_call_ok calls -> decipher_run T iv calls = Ret (rs, d) ->
  steps (Leak.AesCbc.decipher_flush T d) =
  verdict_steps (Leakage.view_of 16 (Props.Leak.held_back iv calls)).
Proof.
  intros T iv calls d rs Hiv Hc Hd.
  destruct (Proofs.AesCbc.decipher_run_ok T iv calls Hiv Hc) as (d' & E & R).
  rewrite Hd in E. injection E as _ <-. destruct R as [_ _ Hu _ _ _ _ _ _].
  fold (Props.Leak.held_back iv calls) in Hu. set (h := Props.Leak.held_back iv calls) in *.
  pose proof (flush_trace T 16 h ltac:(lia)) as F. unfold Ops.visible in F. injection F as F _.
  pose proof (Proofs.Pkcs7.unpad_flush_ok T 16 h ltac:(lia)) as E.
  pose proof (eq_trans (unpad_flush_er T _) E) as E'. change (N.of_nat 16) with 16 in *. rewrite <- Hu in E', F.
  unfold Leak.AesCbc.decipher_flush, steps. rewrite (trace_bind _ _ _ E'), F, Cost.total_app.
  pose proof (CostAes.final_record (Leakage.view_of 16 h) 16) as K. 

  replace (verdict_steps (Leakage.view_of 16 h)) with (CostAes.final_steps (Leakage.view_of 16 h))
    by (destruct (Leakage.view_of 16 h); reflexivity).
  rewrite <- K; [|intros n H; apply (view_bounded h n); left; exact H|reflexivity].
  f_equal. unfold Leakage.view_of. destruct (Stream.strip 16 h); reflexivity.
Qed.
Print Assumptions C77_flush_steps.

Theorem C77_failure_is_faster : forall T iv calls d rs m,
  Props.AesCbc.good_block iv -> Forall stream_call_ok calls -> decipher_run T iv calls = Ret (rs, d) ->
  (exists d', Model.AesCbc.decipher_flush T d = Ret (Ok m, d')) ->
  forall iv' calls' d' rs' e,
  Props.AesCbc.good_block iv' -> Forall stream_call_ok calls' -> decipher_run T iv' calls' = Ret (rs', d') ->
  (exists d'', Model.AesCbc.decipher_flush T d' = Ret (Err e, d'')) ->
  steps (Leak.AesCbc.decipher_flush T d) = 23 /\ steps (Leak.AesCbc.decipher_flush T d') < 23.
Proof.
  assert (V : forall T iv calls d rs r d', Props.AesCbc.good_block iv -> Forall stream_call_ok calls ->
    decipher_run T iv calls = Ret (rs, d) -> Model.AesCbc.decipher_flush T d = Ret (r, d') ->
    match Leakage.view_of 16 (Props.Leak.held_back iv calls) with
    | Leakage.Removed _ => exists m, r = Ok m
    | _ => exists e, r = Err e
    end).
  { intros T iv calls d rs r d' Hiv Hc Hd Hf.
    destruct (Proofs.AesCbc.decipher_run_ok T iv calls Hiv Hc) as (d0 & E & R).
    rewrite Hd in E. injection E as _ <-. destruct R as [_ _ Hu _ _ _ _ _ _].
    fold (Props.Leak.held_back iv calls) in Hu. set (h := Props.Leak.held_back iv calls) in *.
    unfold Model.AesCbc.decipher_flush in Hf. rewrite Hu in Hf.
    pose proof (Proofs.Pkcs7.unpad_flush_ok T 16 h ltac:(lia)) as E. change (N.of_nat 16) with 16 in E.
    rewrite E in Hf. unfold Leakage.view_of.
    destruct (Stream.strip 16 h); cbn [bind] in Hf; try (injection Hf as <- _; eauto).
    destruct (Nat.leb _ _); eauto. }
  intros T iv calls d rs m Hiv Hc Hd [d1 Hf] iv' calls' d' rs' e Hiv' Hc' Hd' [d1' Hf'].
  rewrite (C77_flush_steps T iv calls d rs Hiv Hc Hd), (C77_flush_steps T iv' calls' d' rs' Hiv' Hc' Hd').
  apply (V _ _ _ _ _ _ _ Hiv Hc Hd) in Hf. apply (V _ _ _ _ _ _ _ Hiv' Hc' Hd') in Hf'.
  split.
  - destruct (Leakage.view_of 16 (Props.Leak.held_back iv calls)); try reflexivity; destruct Hf as [x Hx]; discriminate Hx.
  - pose proof (view_bounded (Props.Leak.held_back iv' calls')) as B.
    destruct (Leakage.view_of 16 (Props.Leak.held_back iv' calls')) as [| |n|n]; cbn [verdict_steps]; try lia.
    + specialize (B n (or_intror eq_refl)). lia.
    + destruct Hf' as [x Hx]; discriminate Hx.
Qed.
Print Assumptions C77_failure_is_faster.

(** A message of 5 octets in two pieces, its pieces of 16 and 2 octets in either
    order, and four last blocks. *)
Example C77_example :
  let T := mkTarget W64 true in
  let e := forward 10 in
  steps (Leak.Calls.cipher_run T (repeat 1 16) (session (repeat 7 16) [[1; 2]; [3; 4; 5]] ++ [Stream.Flush])) = 2866 /\
  writes_steps e 0 [repeat 0 16; repeat 0 2] = 2640 /\ writes_steps e 0 [repeat 0 2; repeat 0 16] = 2642 /\
  let flush b := steps (Leak.AesCbc.decipher_flush T (Model.AesCbc.mkDecipher Model.Aes.aes_new
    (Model.Pkcs7.mkUnpad 16 b) (repeat 0 16) (Model.Pkcs7.mkPad 16 []))) in
  map flush [[]; repeat 9 15 ++ [17]; repeat 9 15 ++ [2]; repeat 9 15 ++ [1]; repeat 16 16] = [2; 4; 8; 23; 23].
Proof. repeat split; lazy; reflexivity. Qed.
