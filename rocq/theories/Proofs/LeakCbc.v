(** What the records of calls on an AES-CBC cipher or decipher give away, exactly. *)
From Coq Require Import ZArith NArith List Arith Lia Bool ZifyBool ZifyNat ZifyN.
From Verif Require Import Rust Calls.
From Verif.Model Require Aes Pkcs7 AesCbc.
From Verif.Leak Require Ops Aes Pkcs7 AesCbc Calls.
From Verif.Spec Require Octets Aes Cbc BlockCipher Stream Observed Leakage.
From Verif.Proofs Require Import Base Stream Leak LeakErase LeakAgree LeakAes LeakCalls.
From Verif.Proofs Require Aes Pkcs7 AesCbc Collision LeakUnpad.
Import ListNotations.
Import Spec.Octets Spec.Observed.
Local Open Scope N_scope.

(** * Records that are equal exactly if a proposition holds *)

Definition exact {A} (R : Prop) (m1 m2 : Ops.res A) : Prop :=
  learn R m1 m2 /\ (R -> Ops.trace m1 = Ops.trace m2).

Lemma exact_iff {A} (R S : Prop) (m1 m2 : Ops.res A) : (R <-> S) -> exact R m1 m2 -> exact S m1 m2.
Proof. intros H [L E]. split; [apply (learn_weaken R); [apply H|exact L]|intros HS; apply E, H, HS]. Qed.
Lemma exact_bind {A B} R P (m1 m2 : Ops.res A) (f1 f2 : A -> Ops.res B) a b :
  Ops.outcome m1 = Ret a -> Ops.outcome m2 = Ret b -> exact R m1 m2 ->
  (R -> exact P (f1 a) (f2 b)) -> exact (R /\ P) (Ops.bind m1 f1) (Ops.bind m2 f2).
Proof.
  intros E1 E2 [L E] K. split.
  - eapply learn_bind; [exact E1|exact E2|exact L|]. intros HR. apply (learn_weaken P); [auto|]. apply K, HR.
  - intros [HR HP]. rewrite (trace_bind _ _ _ E1), (trace_bind _ _ _ E2), (E HR). f_equal. apply (K HR), HP.
Qed.
(** A first part that gives nothing away. *)
Lemma exact_quiet {A B} P (m1 m2 : Ops.res A) (f1 f2 : A -> Ops.res B) a b :
  Ops.outcome m1 = Ret a -> Ops.outcome m2 = Ret b -> Ops.trace m1 = Ops.trace m2 ->
  exact P (f1 a) (f2 b) -> exact P (Ops.bind m1 f1) (Ops.bind m2 f2).
Proof.
  intros E1 E2 E K. apply (exact_iff (True /\ P)); [tauto|].
  eapply exact_bind; [exact E1|exact E2| |intros _; exact K].
  split; [apply learn_len; rewrite E; reflexivity|intros _; exact E].
Qed.
Lemma exact_emit {B} P e (f1 f2 : unit -> Ops.res B) :
  exact P (f1 tt) (f2 tt) -> exact P (Ops.bind (Ops.emit e) f1) (Ops.bind (Ops.emit e) f2).
Proof. apply exact_quiet; reflexivity. Qed.
Lemma exact_same {A} (m1 m2 : Ops.res A) : Ops.trace m1 = Ops.trace m2 -> exact True m1 m2.
Proof. intros E. split; [apply learn_len; rewrite E; reflexivity|intros _; exact E]. Qed.
(** A last part that gives nothing away. *)
Lemma exact_last {A B} P (m1 m2 : Ops.res A) (f1 f2 : A -> Ops.res B) a b :
  Ops.outcome m1 = Ret a -> Ops.outcome m2 = Ret b -> exact P m1 m2 ->
  (P -> Ops.trace (f1 a) = Ops.trace (f2 b)) -> exact P (Ops.bind m1 f1) (Ops.bind m2 f2).
Proof.
  intros E1 E2 K E. apply (exact_iff (P /\ True)); [tauto|].
  eapply exact_bind; [exact E1|exact E2|exact K|]. intros HP. apply exact_same, E, HP.
Qed.
(** What is learned decides the record. *)
Lemma exact_tells {A} P (m1 m2 : Ops.res A) : tells P m1 m2 -> (P -> Ops.trace m1 = Ops.trace m2) -> exact P m1 m2.
Proof.
  intros H E. split; [|exact E]. intros r1 r2 Er. pose proof (H r1 r2 Er) as HP. split; [exact HP|].
  rewrite (E HP) in Er. apply app_inv_head in Er. exact Er.
Qed.
Lemma exact_visible {A} P (m1 m2 : Ops.res A) a b :
  Ops.outcome m1 = Ret a -> Ops.outcome m2 = Ret b -> exact P m1 m2 ->
  (Ops.visible m1 = Ops.visible m2 <-> P).
Proof.
  intros E1 E2 [L E]. unfold Ops.visible. rewrite E1, E2. split.
  - intros H. injection H as H. apply (L [] []). rewrite H. reflexivity.
  - intros HP. rewrite (E HP). reflexivity.
Qed.
Lemma agree_trace {A} R (m1 m2 : Ops.res A) : agree R m1 m2 -> Ops.trace m1 = Ops.trace m2.
Proof. intros [H _]. exact H. Qed.

(** * AES *)

Lemma aes_encrypt_exact key b b' : octets key -> Spec.Aes.valid_key_size key -> is_block b -> is_block b' ->
  exact (b = b') (Leak.Aes.aes_encrypt (Aes.keyed key) b) (Leak.Aes.aes_encrypt (Aes.keyed key) b').
Proof.
  intros Hk Hs [Hb Lb] [Hb' Lb']. apply exact_tells; [|intros ->; reflexivity].
  intros r1 r2 E. destruct (encrypt_tells key key b b' Hk Hk Hs eq_refl Hb Hb' Lb Lb' r1 r2 E) as [E0 _].
  apply AddRoundKey_state in E0; [|apply Aes.state_of_input_wf; assumption..].
  rewrite <- (Aes.output_of_input b Lb), <- (Aes.output_of_input b' Lb'), E0. reflexivity.
Qed.
Lemma aes_decrypt_exact key b b' : octets key -> Spec.Aes.valid_key_size key -> is_block b -> is_block b' ->
  exact (b = b') (Leak.Aes.aes_decrypt (Aes.keyed key) b) (Leak.Aes.aes_decrypt (Aes.keyed key) b').
Proof.
  intros Hk Hs [Hb Lb] [Hb' Lb']. apply exact_tells; [|intros ->; reflexivity].
  intros r1 r2 E. destruct (decrypt_tells key key b b' Hk Hk Hs eq_refl Hb Hb' Lb Lb' r1 r2 E) as [E0 _].
  apply AddRoundKey_state in E0; [|apply Aes.state_of_input_wf; assumption..].
  rewrite <- (Aes.output_of_input b Lb), <- (Aes.output_of_input b' Lb'), E0. reflexivity.
Qed.
Lemma aes_encrypt_none_trace a b : Aes.holds a None -> is_block b ->
  Ops.trace (Leak.Aes.aes_encrypt a b) = [Ops.Branch false].
Proof.
  intros Ha [_ Lb]. unfold Leak.Aes.aes_encrypt. cbn [Aes.holds] in Ha. rewrite Ha.
  do 16 (destruct b as [|? b]; [discriminate|]). destruct b; [|discriminate]. reflexivity.
Qed.
Lemma aes_decrypt_none_trace a b : Aes.holds a None -> is_block b ->
  Ops.trace (Leak.Aes.aes_decrypt a b) = [Ops.Branch false].
Proof.
  intros Ha [_ Lb]. unfold Leak.Aes.aes_decrypt. cbn [Aes.holds] in Ha. rewrite Ha.
  do 16 (destruct b as [|? b]; [discriminate|]). destruct b; [|discriminate]. reflexivity.
Qed.
Lemma aes_init_any a a' key : Ops.trace (Leak.Aes.aes_init a key) = Ops.trace (Leak.Aes.aes_init a' key).
Proof.
  unfold Leak.Aes.aes_init. destruct (match len key with 16 => Some 10 | 24 => Some 12 | 32 => Some 14 | _ => None end) as [n|]; [|reflexivity].
  reflexivity.
Qed.
Lemma aes_init_exact a a' key key' : octets key -> octets key' -> length key = length key' ->
  exact ((if BlockCipher.key_size_ok key then key else []) = (if BlockCipher.key_size_ok key' then key' else []))
    (Leak.Aes.aes_init a key) (Leak.Aes.aes_init a' key').
Proof.
  intros Hk Hk' L.
  assert (K : BlockCipher.key_size_ok key' = BlockCipher.key_size_ok key).
  { apply Bool.eq_iff_eq_true. rewrite !Aes.key_size_ok_spec. unfold Spec.Aes.valid_key_size. rewrite L. reflexivity. }
  rewrite K. destruct (BlockCipher.key_size_ok key) eqn:E.
  - apply Aes.key_size_ok_spec in E. apply exact_tells; [apply init_tells; (assumption || congruence)|].
    intros <-. apply aes_init_any.
  - apply (exact_iff True); [tauto|]. apply exact_same.
    assert (V : ~ Spec.Aes.valid_key_size key) by (rewrite <- Aes.key_size_ok_spec; congruence).
    assert (Hn : forall k : list N, length k = length key ->
      match len k with 16 => Some 10 | 24 => Some 12 | 32 => Some 14 | _ => None end = None).
    { intros k Hl. unfold Spec.Aes.valid_key_size in V. unfold len. rewrite Hl.
      destruct (N.of_nat (length key)) as [|p] eqn:En; [reflexivity|].
      repeat (destruct p as [p|p|]; try reflexivity); exfalso; lia. }
    unfold Leak.Aes.aes_init. rewrite !Hn by congruence. reflexivity.
Qed.

(** * The cipher *)

Lemma encrypt_block_exact c c' key b b' :
  Aes.holds (AesCbc.c_aes c) (Some key) -> Aes.holds (AesCbc.c_aes c') (Some key) ->
  is_block (AesCbc.c_iv c) -> is_block (AesCbc.c_iv c') -> is_block b -> is_block b' ->
  exact (Spec.Aes.Cipher key (xor b (AesCbc.c_iv c)) = Spec.Aes.Cipher key (xor b' (AesCbc.c_iv c')))
    (Leak.AesCbc.encrypt_block c b) (Leak.AesCbc.encrypt_block c' b').
Proof.
  intros (Ha & Hk & Hs) (Ha' & _ & _) Hiv Hiv' Hb Hb'. unfold Leak.AesCbc.encrypt_block. cbv zeta.
  assert (C : forall x, is_block x -> Ops.outcome (Ops.copy_from_slice (repeat 0 16) x) = Ret x).
  { intros x [Ox Lx]. rewrite er_copy. apply copy_from_slice_ok. rewrite repeat_length. auto. }
  eapply exact_quiet; [apply C, Hb|apply C, Hb'|destruct Hb as [_ L], Hb' as [_ L']; cbn; unfold len; rewrite L, L'; reflexivity|].
  assert (X : forall x y, is_block x -> is_block y -> Ops.outcome (Ops.xor_into x y) = Ret (xor x y)).
  { intros x y [Ox Lx] [Oy Ly]. cbn. rewrite xor_into_xor by congruence. reflexivity. }
  eapply exact_quiet; [apply X; assumption|apply X; assumption| |].
  { destruct Hb as [_ L], Hb' as [_ L'], Hiv as [_ M], Hiv' as [_ M']. cbn. unfold len. rewrite L, L', M, M'. reflexivity. }
  pose proof (is_block_xor _ _ Hb Hiv) as Hx. pose proof (is_block_xor _ _ Hb' Hiv') as Hx'.
  assert (O : forall x, is_block x -> Ops.outcome (Leak.Aes.aes_encrypt (Aes.keyed key) x) = Ret (Ok (Spec.Aes.Cipher key x))).
  { intros x [Ox Lx]. exact (eq_trans (aes_encrypt_er _ _) (Aes.aes_encrypt_ok key x Hk Hs Ox Lx)). }
  rewrite Ha, Ha'. clear Ha Ha'.
  apply (exact_iff (xor b (AesCbc.c_iv c) = xor b' (AesCbc.c_iv c'))).
  { split; [intros ->; reflexivity|]. intros E. apply (f_equal (Spec.Aes.InvCipher key)) in E.
    rewrite !AesCbc.InvCipher_Cipher_block in E by assumption. exact E. }
  specialize (O _ Hx) as O1. specialize (O _ Hx') as O2. clear O.
  revert O1 O2. generalize (Spec.Aes.Cipher key (xor b (AesCbc.c_iv c))), (Spec.Aes.Cipher key (xor b' (AesCbc.c_iv c'))).
  intros e e' O1 O2. eapply exact_last; [exact O1|exact O2|apply aes_encrypt_exact; assumption|]. intros _. reflexivity.
Qed.
Lemma encrypt_block_none_trace c b : Aes.holds (AesCbc.c_aes c) None -> is_block (AesCbc.c_iv c) -> is_block b ->
  Ops.trace (Leak.AesCbc.encrypt_block c b) = [Ops.Run 16; Ops.Run 16; Ops.Branch false; Ops.Branch false].
Proof.
  intros Ha [Oi Li] Hb. unfold Leak.AesCbc.encrypt_block. cbv zeta.
  assert (C : Ops.outcome (Ops.copy_from_slice (repeat 0 16) b) = Ret b).
  { destruct Hb as [Ox Lx]. rewrite er_copy. apply copy_from_slice_ok. rewrite repeat_length. auto. }
  rewrite (trace_bind _ _ _ C).
  assert (X : Ops.outcome (Ops.xor_into b (AesCbc.c_iv c)) = Ret (xor b (AesCbc.c_iv c))).
  { destruct Hb as [Ox Lx]. cbn. rewrite xor_into_xor by congruence. reflexivity. }
  rewrite (trace_bind _ _ _ X).
  pose proof (is_block_xor _ _ Hb (conj Oi Li)) as Hx.
  assert (O : Ops.outcome (Leak.Aes.aes_encrypt (AesCbc.c_aes c) (xor b (AesCbc.c_iv c))) = Ret (Err Aes.NotInitialized)).
  { destruct Hx as [Ox Lx]. exact (eq_trans (aes_encrypt_er _ _) (Aes.aes_encrypt_none _ _ Lx Ha)). }
  rewrite (trace_bind _ _ _ O), aes_encrypt_none_trace by assumption.
  destruct Hb as [Ob Lb]. cbn. unfold len. rewrite Lb, Li. reflexivity.
Qed.

Definition enc_body (block : list N) (st : list N * AesCbc.Cipher)
  : Ops.res (result unit Aes.AESError * (list N * AesCbc.Cipher)) :=
  let '(out, c) := st in
  Ops.bind (Leak.AesCbc.encrypt_block c block) (fun '(r, c) =>
  match r with
  | Ok ciphertext =>
      Ops.bind (Ops.emit (Ops.Branch true)) (fun _ =>
      Ops.bind (Ops.run (len ciphertext) (out ++ ciphertext)) (fun out =>
      Ops.Ret (Ok tt, (out, c))))
  | Err e => Ops.bind (Ops.emit (Ops.Branch false)) (fun _ => Ops.Ret (Err e, (out, c)))
  end).
Lemma enc_body_out key c out b : Aes.holds (AesCbc.c_aes c) (Some key) -> is_block (AesCbc.c_iv c) -> is_block b ->
  let e := Spec.Aes.Cipher key (xor b (AesCbc.c_iv c)) in
  Ops.outcome (enc_body b (out, c)) = Ret (Ok tt, (out ++ e, AesCbc.mkCipher (AesCbc.c_aes c) (AesCbc.c_pad c) e)).
Proof.
  intros Ha Hi Hb. cbv zeta. unfold enc_body. rewrite outcome_bind, encrypt_block_er.
  rewrite (AesCbc.encrypt_block_some c key b Ha Hi Hb). reflexivity.
Qed.

Lemma cons_iff {A} (x y : A) l m : x = y /\ l = m <-> x :: l = y :: m.
Proof. split; [intros [-> ->]; reflexivity|intros H; injection H; auto]. Qed.
Lemma enc_body_exact key c c' out out' b b' :
  Aes.holds (AesCbc.c_aes c) (Some key) -> Aes.holds (AesCbc.c_aes c') (Some key) ->
  is_block (AesCbc.c_iv c) -> is_block (AesCbc.c_iv c') -> is_block b -> is_block b' ->
  exact (Spec.Aes.Cipher key (xor b (AesCbc.c_iv c)) = Spec.Aes.Cipher key (xor b' (AesCbc.c_iv c')))
    (enc_body b (out, c)) (enc_body b' (out', c')).
Proof.
  intros Ha Ha' Hi Hi' Hb Hb'. unfold enc_body.
  pose proof (eq_trans (encrypt_block_er c b) (AesCbc.encrypt_block_some c key b Ha Hi Hb)) as E1.
  pose proof (eq_trans (encrypt_block_er c' b') (AesCbc.encrypt_block_some c' key b' Ha' Hi' Hb')) as E2.
  pose proof (encrypt_block_exact c c' key b b' Ha Ha' Hi Hi' Hb Hb') as X.
  assert (He : forall x, length (Spec.Aes.Cipher key x) = 16%nat) by (intros x; apply Aes.Cipher_length).
  pose proof (He (xor b (AesCbc.c_iv c))) as L1. pose proof (He (xor b' (AesCbc.c_iv c'))) as L2. clear He Ha Ha'.
  cbv zeta in E1, E2. revert E1 E2 X L1 L2.
  generalize (Spec.Aes.Cipher key (xor b (AesCbc.c_iv c))), (Spec.Aes.Cipher key (xor b' (AesCbc.c_iv c'))).
  intros e e' E1 E2 X L1 L2. eapply exact_last; [exact E1|exact E2|exact X|]. intros _. cbn. unfold len. rewrite L1, L2. reflexivity.
Qed.
Lemma enc_loop_exact key bs : forall bs' c c' out out',
  Aes.holds (AesCbc.c_aes c) (Some key) -> Aes.holds (AesCbc.c_aes c') (Some key) ->
  is_block (AesCbc.c_iv c) -> is_block (AesCbc.c_iv c') -> Forall is_block bs -> Forall is_block bs' ->
  length bs = length bs' ->
  exact (Cbc.cbc_encrypt (Spec.Aes.Cipher key) (AesCbc.c_iv c) bs = Cbc.cbc_encrypt (Spec.Aes.Cipher key) (AesCbc.c_iv c') bs')
    (Ops.for_each_try bs enc_body (out, c)) (Ops.for_each_try bs' enc_body (out', c')).
Proof.
  induction bs as [|b bs IH]; intros [|b' bs'] c c' out out' Ha Ha' Hi Hi' Hbs Hbs' L; try discriminate L.
  - apply (exact_iff True); [tauto|]. apply exact_same. reflexivity.
  - cbn [Ops.for_each_try Cbc.cbc_encrypt]. apply exact_emit. inversion Hbs as [|? ? Hb HB]; subst. inversion Hbs' as [|? ? Hb' HB']; subst.
    set (e := Spec.Aes.Cipher key (xor b (AesCbc.c_iv c))). set (e' := Spec.Aes.Cipher key (xor b' (AesCbc.c_iv c'))).
    assert (He : forall x, is_block (Spec.Aes.Cipher key x)) by (intros x; apply AesCbc.Cipher_block; apply Ha).
    match goal with |- exact (e :: ?x = e' :: ?y) _ _ => apply (exact_iff (e = e' /\ x = y) _ _ _ (cons_iff e e' x y)) end.
    eapply exact_bind; [apply (enc_body_out key); assumption|apply (enc_body_out key); assumption| |].
    + apply enc_body_exact; assumption.
    + intros _. apply exact_emit. cbv beta. cbn [AesCbc.c_iv].
      apply (IH bs' (AesCbc.mkCipher (AesCbc.c_aes c) (AesCbc.c_pad c) e) (AesCbc.mkCipher (AesCbc.c_aes c') (AesCbc.c_pad c') e'));
        (assumption || apply He || congruence || idtac). cbn [length] in L. congruence.
Qed.
Lemma enc_loop_none bs bs' c c' out out' :
  Aes.holds (AesCbc.c_aes c) None -> Aes.holds (AesCbc.c_aes c') None ->
  is_block (AesCbc.c_iv c) -> is_block (AesCbc.c_iv c') -> Forall is_block bs -> Forall is_block bs' ->
  length bs = length bs' ->
  Ops.trace (Ops.for_each_try bs enc_body (out, c)) = Ops.trace (Ops.for_each_try bs' enc_body (out', c')).
Proof.
  intros Ha Ha' Hi Hi' Hbs Hbs' L. destruct bs as [|b bs], bs' as [|b' bs']; try discriminate L; [reflexivity|].
  inversion Hbs as [|? ? Hb HB]; subst. inversion Hbs' as [|? ? Hb' HB']; subst.
  assert (O : forall c b out, Aes.holds (AesCbc.c_aes c) None -> is_block (AesCbc.c_iv c) -> is_block b ->
    Ops.outcome (enc_body b (out, c)) = Ret (Err Aes.NotInitialized, (out, c)) /\
    Ops.trace (enc_body b (out, c)) = [Ops.Run 16; Ops.Run 16; Ops.Branch false; Ops.Branch false; Ops.Branch false]).
  { clear. intros c b out Ha Hi Hb. unfold enc_body.
    pose proof (eq_trans (encrypt_block_er c b) (AesCbc.encrypt_block_none c b Ha Hi Hb)) as E.
    rewrite outcome_bind, E, (trace_bind _ _ _ E), encrypt_block_none_trace by assumption. split; reflexivity. }
  destruct (O c b out Ha Hi Hb) as [E1 T1], (O c' b' out' Ha' Hi' Hb') as [E2 T2].
  cbn [Ops.for_each_try]. rewrite !(trace_bind (Ops.emit _) _ tt) by reflexivity. f_equal.
  rewrite (trace_bind _ _ _ E1), (trace_bind _ _ _ E2), T1, T2. reflexivity.
Qed.

Lemma enc_loop_out key bs c out :
  Aes.holds (AesCbc.c_aes c) (Some key) -> is_block (AesCbc.c_iv c) -> Forall is_block bs ->
  let E := Cbc.cbc_encrypt (Spec.Aes.Cipher key) (AesCbc.c_iv c) bs in
  Ops.outcome (Ops.for_each_try bs enc_body (out, c)) =
  Ret (Ok tt, (out ++ concat E, AesCbc.mkCipher (AesCbc.c_aes c) (AesCbc.c_pad c) (last E (AesCbc.c_iv c)))).
Proof.
  intros Ha Hi Hbs. refine (eq_trans _ (AesCbc.encrypt_loop key bs c out Ha Hi Hbs)).
  apply er_for_each_try. intros b [o k]. unfold enc_body. er.
Qed.
Lemma enc_loop_out_none bs c out : bs <> [] ->
  Aes.holds (AesCbc.c_aes c) None -> is_block (AesCbc.c_iv c) -> Forall is_block bs ->
  Ops.outcome (Ops.for_each_try bs enc_body (out, c)) = Ret (Err Aes.NotInitialized, (out, c)).
Proof.
  intros Hn Ha Hi Hbs. refine (eq_trans _ (AesCbc.encrypt_loop_none bs c out Hn Ha Hi Hbs)).
  apply er_for_each_try. intros b [o k]. unfold enc_body. er.
Qed.
Lemma blocks_concat_inj (e : list (list N)) : forall e', Forall is_block e -> Forall is_block e' -> concat e = concat e' -> e = e'.
Proof.
  induction e as [|x e IH]; intros [|y e'] H H' E; [reflexivity|..].
  - inversion H' as [|? ? [_ L] _]; subst. destruct y; discriminate.
  - inversion H as [|? ? [_ L] _]; subst. destruct x; discriminate.
  - inversion H as [|? ? [_ L] He]; subst. inversion H' as [|? ? [_ L'] He']; subst. cbn [concat] in E.
    assert (x = y) as -> by (apply (f_equal (firstn 16)) in E; rewrite !firstn_app, L, L', !Nat.sub_diag, !firstn_O, !app_nil_r, <- L, firstn_all, L, <- L', firstn_all in E; exact E).
    apply app_inv_head in E. rewrite (IH e') by assumption. reflexivity.
Qed.
Lemma blocks_same (l l' : list N) : length l = length l' -> length (blocks 16 l) = length (blocks 16 l').
Proof. intros H. rewrite !blocks_length, H. reflexivity. Qed.

Lemma cipher_call_exact T c c' s s' x x' : stream_call_ok x -> stream_call_ok x' -> same_call x x' ->
  AesCbc.c_rel c s -> AesCbc.c_rel c' s' -> Stream.c_key s = Stream.c_key s' ->
  length (Stream.c_pending s) = length (Stream.c_pending s') ->
  exact (cipher_sight s x = cipher_sight s' x') (Leak.Calls.cipher_call T c x) (Leak.Calls.cipher_call T c' x').
Proof.
  intros Hx Hx' Hsame R R' Ekey Epend. destruct R as [Hkey Hpad Hiv Hch Hpe Hsh], R' as [Hkey' Hpad' Hiv' Hch' Hpe' Hsh'].
  destruct x as [key|d|], x' as [key'|d'|]; try contradiction Hsame; cbn [same_call stream_call_ok] in *.
  - (* init *)
    cbn [Leak.Calls.cipher_call cipher_sight].
    assert (O : forall c k, octets k -> exists r k', Ops.outcome (Leak.AesCbc.cipher_init c k) = Ret (r, k')).
    { clear. intros c k Hk. destruct (BlockCipher.key_size_ok k) eqn:E.
      - apply Aes.key_size_ok_spec in E. do 2 eexists. unfold Leak.AesCbc.cipher_init. rewrite outcome_bind, aes_init_er, Aes.aes_init_ok by assumption. reflexivity.
      - assert (H : ~ Spec.Aes.valid_key_size k) by (rewrite <- Aes.key_size_ok_spec; congruence).
        do 2 eexists. unfold Leak.AesCbc.cipher_init. rewrite outcome_bind, aes_init_er, Aes.aes_init_err by assumption. reflexivity. }
    assert (O' : forall a k, octets k -> exists r k', Ops.outcome (Leak.Aes.aes_init a k) = Ret (r, k')).
    { clear. intros a k Hk. destruct (BlockCipher.key_size_ok k) eqn:E.
      - apply Aes.key_size_ok_spec in E. do 2 eexists. rewrite aes_init_er, Aes.aes_init_ok by assumption. reflexivity.
      - assert (H : ~ Spec.Aes.valid_key_size k) by (rewrite <- Aes.key_size_ok_spec; congruence).
        do 2 eexists. rewrite aes_init_er, Aes.aes_init_err by assumption. reflexivity. }
    destruct (O c key Hx) as (r1 & c1 & E1), (O c' key' Hx') as (r2 & c2 & E2).
    eapply exact_last; [exact E1|exact E2| |intros _; reflexivity].
    unfold Leak.AesCbc.cipher_init.
    destruct (O' (AesCbc.c_aes c) key Hx) as (r3 & c3 & E3), (O' (AesCbc.c_aes c') key' Hx') as (r4 & c4 & E4).
    eapply exact_last; [exact E3|exact E4|apply aes_init_exact; assumption|intros _; reflexivity].
  - (* write *)
    cbn [Leak.Calls.cipher_call]. unfold cipher_sight. cbn [Stream.cipher_step].
    set (l := Stream.c_pending s ++ d). set (l' := Stream.c_pending s' ++ d').
    assert (El : length l = length l') by (unfold l, l'; rewrite !app_length; lia).
    assert (Hl : octets l) by (apply octets_app; auto). assert (Hl' : octets l') by (apply octets_app; auto).
    destruct (AesCbc.cipher_step_ok T c s (Stream.Write d) Hx) as (c1 & E1 & _); [constructor; assumption|].
    destruct (AesCbc.cipher_step_ok T c' s' (Stream.Write d') Hx') as (c2 & E2 & _); [constructor; assumption|].
    cbn [cipher_call] in E1, E2.
    destruct (Model.AesCbc.cipher_write T c d) as [[w1 k1]| |] eqn:W1; try discriminate E1.
    destruct (Model.AesCbc.cipher_write T c' d') as [[w2 k2]| |] eqn:W2; try discriminate E2.
    eapply exact_last; [exact (eq_trans (cipher_write_er T c d) W1)|exact (eq_trans (cipher_write_er T c' d') W2)| |intros _; reflexivity].
    clear E1 E2 W1 W2 c1 c2 w1 w2 k1 k2. unfold Leak.AesCbc.cipher_write. rewrite Hpad, Hpad'.
    eapply exact_quiet.
    { exact (eq_trans (pad_write_er T _ d) (AesCbc.pad_write_16 T _ d)). }
    { exact (eq_trans (pad_write_er T _ d') (AesCbc.pad_write_16 T _ d')). }
    { eapply agree_trace, pad_write_ag; [split; [reflexivity|cbn; apply bytes_length; assumption]|apply bytes_length; assumption]. }
    cbv zeta beta. fold l l'. rewrite <- El. destruct (Nat.ltb_spec (length l) 16) as [H|H].
    { apply (exact_iff True); [tauto|]. apply exact_same. reflexivity. }
    apply exact_emit.
    eapply exact_quiet; [exact (AesCbc.chunks_whole l)|exact (AesCbc.chunks_whole l')| |].
    { cbn. unfold len, Stream.whole. rewrite !firstn_length, El. reflexivity. }
    change (fun (block : list N) '(out, c0) => _) with enc_body.
    rewrite <- Ekey in Hkey'.
    assert (WB : Forall is_block (blocks 16 l)) by (apply AesCbc.whole_blocks, Hl).
    assert (WB' : Forall is_block (blocks 16 l')) by (apply AesCbc.whole_blocks, Hl').
    destruct (Stream.c_key s) as [key|] eqn:Ek; rewrite <- Ekey.
    + cbn [fst snd]. rewrite <- Hiv, <- Hiv'.
      set (pd := Pkcs7.mkPad 16 (Stream.rest 16 l)). set (pd' := Pkcs7.mkPad 16 (Stream.rest 16 l')).
      set (k := AesCbc.mkCipher (AesCbc.c_aes c) pd (AesCbc.c_iv c)). set (k' := AesCbc.mkCipher (AesCbc.c_aes c') pd' (AesCbc.c_iv c')).
      assert (Hk : is_block (AesCbc.c_iv k)) by (cbn; rewrite Hiv; exact Hch).
      assert (Hk' : is_block (AesCbc.c_iv k')) by (cbn; rewrite Hiv'; exact Hch').
      pose proof (enc_loop_exact key (blocks 16 l) (blocks 16 l') k k' [] [] Hkey Hkey' Hk Hk' WB WB' (blocks_same l l' El)) as X.
      pose proof (enc_loop_out key (blocks 16 l) k [] Hkey Hk WB) as O1.
      pose proof (enc_loop_out key (blocks 16 l') k' [] Hkey' Hk' WB') as O2.
      assert (B1 : Forall is_block (Cbc.cbc_encrypt (Spec.Aes.Cipher key) (AesCbc.c_iv c) (blocks 16 l))).
      { apply cbc_encrypt_blocks; [intros b _; apply AesCbc.Cipher_block; apply Hkey|exact Hk|exact WB]. }
      assert (B2 : Forall is_block (Cbc.cbc_encrypt (Spec.Aes.Cipher key) (AesCbc.c_iv c') (blocks 16 l'))).
      { apply cbc_encrypt_blocks; [intros b _; apply AesCbc.Cipher_block; apply Hkey|exact Hk'|exact WB']. }
      cbv zeta in O1, O2. cbn [AesCbc.c_iv k k' AesCbc.c_aes AesCbc.c_pad] in O1, O2, X.
      revert X O1 O2 B1 B2.
      generalize (Cbc.cbc_encrypt (Spec.Aes.Cipher key) (AesCbc.c_iv c) (blocks 16 l)),
        (Cbc.cbc_encrypt (Spec.Aes.Cipher key) (AesCbc.c_iv c') (blocks 16 l')). intros e e' X O1 O2 B1 B2.
      apply (exact_iff (e = e')); [split; [intros ->; reflexivity|apply blocks_concat_inj; assumption]|].
      eapply exact_last; [exact O1|exact O2|exact X|intros _; reflexivity].
    + apply (exact_iff True); [cbn; tauto|].
      assert (Hk : is_block (AesCbc.c_iv c)) by (rewrite Hiv; exact Hch).
      assert (Hk' : is_block (AesCbc.c_iv c')) by (rewrite Hiv'; exact Hch').
      assert (N1 : blocks 16 l <> []) by (apply AesCbc.blocks_nonempty, H).
      assert (N2 : blocks 16 l' <> []) by (apply AesCbc.blocks_nonempty; lia).
      eapply exact_last.
      * apply (enc_loop_out_none (blocks 16 l)); assumption.
      * apply (enc_loop_out_none (blocks 16 l')); assumption.
      * apply exact_same. apply enc_loop_none; (assumption || apply blocks_same, El).
      * intros _. reflexivity.
  - (* flush *)
    cbn [Leak.Calls.cipher_call]. unfold cipher_sight. cbn [Stream.cipher_step].
    destruct (AesCbc.cipher_step_ok T c s Stream.Flush Hx) as (c1 & E1 & _); [constructor; assumption|].
    destruct (AesCbc.cipher_step_ok T c' s' Stream.Flush Hx') as (c2 & E2 & _); [constructor; assumption|].
    cbn [cipher_call] in E1, E2.
    destruct (Model.AesCbc.cipher_flush T c) as [[w1 k1]| |] eqn:W1; try discriminate E1.
    destruct (Model.AesCbc.cipher_flush T c') as [[w2 k2]| |] eqn:W2; try discriminate E2.
    eapply exact_last; [exact (eq_trans (cipher_flush_er T c) W1)|exact (eq_trans (cipher_flush_er T c') W2)| |intros _; reflexivity].
    clear E1 E2 W1 W2 c1 c2 w1 w2 k1 k2. unfold Leak.AesCbc.cipher_flush. rewrite Hpad, Hpad'.
    eapply exact_quiet.
    { refine (eq_trans (pad_flush_er T _) _). apply (Pkcs7.pad_flush_ok T 16); (assumption || lia). }
    { refine (eq_trans (pad_flush_er T _) _). apply (Pkcs7.pad_flush_ok T 16); (assumption || lia). }
    { eapply agree_trace, pad_flush_ag. split; [reflexivity|cbn; apply bytes_length; assumption]. }
    cbv beta.
    assert (PB : forall p, octets p -> (length p < 16)%nat -> is_block (Cbc.pkcs7_pad 16 p)).
    { intros p Op Lp. split; [apply octets_pkcs7_pad; [lia|assumption]|apply pkcs7_pad_short_length; assumption]. }
    pose proof (PB _ Hpe Hsh) as P1. pose proof (PB _ Hpe' Hsh') as P2. clear PB.
    rewrite <- Ekey in Hkey'. destruct (Stream.c_key s) as [key|] eqn:Ek; rewrite <- Ekey; cbn [fst].
    + rewrite <- Hiv, <- Hiv'. rewrite <- Hiv in Hch. rewrite <- Hiv' in Hch'.
      exact (encrypt_block_exact (AesCbc.mkCipher (AesCbc.c_aes c) (Pkcs7.mkPad 16 []) (AesCbc.c_iv c))
        (AesCbc.mkCipher (AesCbc.c_aes c') (Pkcs7.mkPad 16 []) (AesCbc.c_iv c')) key _ _ Hkey Hkey' Hch Hch' P1 P2).
    + apply (exact_iff True); [tauto|]. apply exact_same. rewrite <- Hiv in Hch. rewrite <- Hiv' in Hch'.
      rewrite !encrypt_block_none_trace by assumption. reflexivity.
Qed.

(** What the sights have in common determines what the next ones depend on. *)
Lemma rest_same (l l' : list N) : length l = length l' -> length (Stream.rest 16 l) = length (Stream.rest 16 l').
Proof. intros H. unfold Stream.rest. rewrite !skipn_length, H. reflexivity. Qed.
Lemma key_size_same (k k' : list N) : length k = length k' -> BlockCipher.key_size_ok k = BlockCipher.key_size_ok k'.
Proof.
  intros L. apply Bool.eq_iff_eq_true. rewrite !Aes.key_size_ok_spec. unfold Spec.Aes.valid_key_size. rewrite L. reflexivity.
Qed.
Lemma cipher_next s s' x x' : same_call x x' -> Stream.c_key s = Stream.c_key s' ->
  length (Stream.c_pending s) = length (Stream.c_pending s') -> cipher_sight s x = cipher_sight s' x' ->
  Stream.c_key (snd (Stream.cipher_step s x)) = Stream.c_key (snd (Stream.cipher_step s' x')) /\
  length (Stream.c_pending (snd (Stream.cipher_step s x))) = length (Stream.c_pending (snd (Stream.cipher_step s' x'))).
Proof.
  intros Hx Ek Ep E. destruct x as [k|d|], x' as [k'|d'|]; try contradiction Hx; cbn [same_call] in Hx.
  - cbn [cipher_sight Stream.cipher_step] in *. rewrite <- (key_size_same k k' Hx) in *.
    destruct (BlockCipher.key_size_ok k); cbn [snd Stream.c_key Stream.c_pending]; [split; congruence|auto].
  - clear E. cbn [Stream.cipher_step]. set (l := Stream.c_pending s ++ d). set (l' := Stream.c_pending s' ++ d').
    assert (El : length l = length l') by (unfold l, l'; rewrite !app_length; lia). rewrite <- El, <- Ek.
    destruct (Nat.ltb (length l) 16); [split; [reflexivity|exact El]|].
    destruct (Stream.c_key s); (split; [reflexivity|apply rest_same, El]).
  - clear E. cbn [Stream.cipher_step]. rewrite <- Ek. destruct (Stream.c_key s); cbv zeta; cbn [snd Stream.c_key Stream.c_pending]; split; reflexivity.
Qed.
Lemma run_ok {S M} (call : S -> Stream.call -> res (Stream.reply * S)) (step : M -> Stream.call -> Stream.reply * M) (rel : S -> M -> Prop) :
  (forall c s x, stream_call_ok x -> rel c s -> exists c', call c x = Ret (fst (step s x), c') /\ rel c' (snd (step s x))) ->
  forall calls c s, Forall stream_call_ok calls -> rel c s -> exists r c', run_calls call c calls = Ret (r, c').
Proof.
  intros H. induction calls as [|x calls IH]; intros c s Hc R; [do 2 eexists; reflexivity|].
  inversion Hc as [|? ? Hx Hcs]; subst. destruct (H c s x Hx R) as (c1 & E1 & R1).
  destruct (IH c1 _ Hcs R1) as (r & c2 & E2). cbn [run_calls]. rewrite E1. cbn [bind]. rewrite E2. do 2 eexists. reflexivity.
Qed.
Lemma run_calls_er' {S} T (lcall : S -> Stream.call -> Ops.res (Stream.reply * S)) (call : target -> S -> Stream.call -> res (Stream.reply * S)) :
  (forall c x, Ops.outcome (lcall c x) = call T c x) ->
  forall calls c, Ops.outcome (Leak.Calls.run_calls lcall c calls) = run_calls (call T) c calls.
Proof.
  intros H. induction calls as [|x calls IH]; intros c; [reflexivity|]. cbn [Leak.Calls.run_calls run_calls].
  rewrite outcome_bind, H. destruct (call T c x) as [[r c1]| |]; [|reflexivity..]. cbn [bind].
  rewrite outcome_bind, IH. destruct (run_calls (call T) c1 calls) as [[rs c2]| |]; reflexivity.
Qed.

Lemma cipher_calls_exact T calls : forall calls' c c' s s',
  Forall stream_call_ok calls -> Forall stream_call_ok calls' -> Forall2 same_call calls calls' ->
  AesCbc.c_rel c s -> AesCbc.c_rel c' s' -> Stream.c_key s = Stream.c_key s' ->
  length (Stream.c_pending s) = length (Stream.c_pending s') ->
  exact (sights Stream.cipher_step cipher_sight s calls = sights Stream.cipher_step cipher_sight s' calls')
    (Leak.Calls.run_calls (Leak.Calls.cipher_call T) c calls) (Leak.Calls.run_calls (Leak.Calls.cipher_call T) c' calls').
Proof.
  induction calls as [|x calls IH]; intros calls' c c' s s' Hc Hc' Hs R R' Ek Ep; inversion Hs as [|? x' ? calls1 Sx Ss]; subst.
  - apply (exact_iff True); [tauto|]. apply exact_same. reflexivity.
  - cbn [Leak.Calls.run_calls sights]. inversion Hc as [|? ? Hx Hcs]; subst. inversion Hc' as [|? ? Hx' Hcs']; subst.
    destruct (AesCbc.cipher_step_ok T c s x Hx R) as (c1 & E1 & R1).
    destruct (AesCbc.cipher_step_ok T c' s' x' Hx' R') as (c2 & E2 & R2).
    apply (exact_iff _ _ _ _ (cons_iff _ _ _ _)).
    eapply exact_bind; [exact (eq_trans (cipher_call_er T c x) E1)|exact (eq_trans (cipher_call_er T c' x') E2)
      |apply cipher_call_exact; assumption|]. intros E.
    destruct (cipher_next s s' x x' Sx Ek Ep E) as [Ek' Ep'].
    destruct (run_ok (cipher_call T) Stream.cipher_step AesCbc.c_rel (fun c s x => AesCbc.cipher_step_ok T c s x) calls c1 _ Hcs R1) as (r3 & c3 & E3).
    destruct (run_ok (cipher_call T) Stream.cipher_step AesCbc.c_rel (fun c s x => AesCbc.cipher_step_ok T c s x) calls1 c2 _ Hcs' R2) as (r4 & c4 & E4).
    eapply exact_last; [exact (eq_trans (run_calls_er' T _ cipher_call (cipher_call_er T) calls c1) E3)
      |exact (eq_trans (run_calls_er' T _ cipher_call (cipher_call_er T) calls1 c2) E4)|apply IH; assumption|intros _; reflexivity].
Qed.
Lemma cipher_run_exact T iv iv' calls calls' : is_block iv -> is_block iv' ->
  Forall stream_call_ok calls -> Forall stream_call_ok calls' -> Forall2 same_call calls calls' ->
  exact (sights Stream.cipher_step cipher_sight (Stream.new_cipher iv) calls =
         sights Stream.cipher_step cipher_sight (Stream.new_cipher iv') calls')
    (Leak.Calls.cipher_run T iv calls) (Leak.Calls.cipher_run T iv' calls').
Proof.
  intros Hi Hi' Hc Hc' Hs. unfold Leak.Calls.cipher_run.
  destruct (AesCbc.cipher_new_ok T iv Hi) as (c & E & R), (AesCbc.cipher_new_ok T iv' Hi') as (c' & E' & R').
  eapply exact_quiet; [exact (eq_trans (cipher_new_er T iv) E)|exact (eq_trans (cipher_new_er T iv') E')| |].
  { apply (agree_trace (fun _ _ => True)). unfold Leak.AesCbc.cipher_new.
    eapply agree_bind; [apply pad_new_ag|]. intros. apply agree_ret. exact I. }
  apply cipher_calls_exact; (assumption || reflexivity).
Qed.

(** * The decipher *)

Definition dec_body (a : Aes.AES) (ciphertext : list N) (st : list N * list N)
  : Ops.res (result unit AesCbc.DecipherError * (list N * list N)) :=
  let '(padded_result, iv) := st in
  let block := repeat 0 16 in
  Ops.bind (Ops.copy_from_slice block ciphertext) (fun block =>
  Ops.bind (Leak.Aes.aes_decrypt a block) (fun r =>
  match r with
  | Err err =>
      Ops.bind (Ops.emit (Ops.Branch false)) (fun _ =>
      Ops.Ret (Err (AesCbc.EAES err), (padded_result, iv)))
  | Ok cleartext =>
      Ops.bind (Ops.emit (Ops.Branch true)) (fun _ =>
      Ops.bind (Ops.xor_into cleartext iv) (fun cleartext =>
      let iv := block in
      Ops.bind (Ops.run (len cleartext) (padded_result ++ cleartext)) (fun padded_result =>
      Ops.Ret (Ok tt, (padded_result, iv)))))
  end)).
Lemma dec_body_er a b st : erases (dec_body a b st) (AesCbc.decrypt_body a b st).
Proof. destruct st as [p iv]. unfold dec_body, AesCbc.decrypt_body, Ops.xor_into. er. Qed.

Lemma dec_body_exact key iv iv' out out' b b' : octets key -> Spec.Aes.valid_key_size key ->
  is_block iv -> is_block iv' -> is_block b -> is_block b' ->
  exact (b = b') (dec_body (Aes.keyed key) b (out, iv)) (dec_body (Aes.keyed key) b' (out', iv')).
Proof.
  intros Hk Hs [Oi Li] [Oi' Li'] Hb Hb'. unfold dec_body. cbv zeta.
  assert (C : forall x, is_block x -> Ops.outcome (Ops.copy_from_slice (repeat 0 16) x) = Ret x).
  { intros x [Ox Lx]. rewrite er_copy. apply copy_from_slice_ok. rewrite repeat_length. auto. }
  eapply exact_quiet; [apply C, Hb|apply C, Hb'|destruct Hb as [_ L], Hb' as [_ L']; cbn; unfold len; rewrite L, L'; reflexivity|].
  assert (O : forall x, is_block x -> Ops.outcome (Leak.Aes.aes_decrypt (Aes.keyed key) x) = Ret (Ok (Spec.Aes.InvCipher key x))).
  { intros x [Ox Lx]. exact (eq_trans (aes_decrypt_er _ _) (Aes.aes_decrypt_ok key x Hk Hs Ox Lx)). }
  pose proof (O b Hb) as O1. pose proof (O b' Hb') as O2. clear O C.
  pose proof (Aes.InvCipher_length key b) as L1. pose proof (Aes.InvCipher_length key b') as L2.
  revert O1 O2 L1 L2. generalize (Spec.Aes.InvCipher key b), (Spec.Aes.InvCipher key b'). intros p p' O1 O2 L1 L2.
  eapply exact_last; [exact O1|exact O2|apply aes_decrypt_exact; assumption|]. intros _. cbn. unfold len.
  rewrite !xor_into_length, L1, L2, Li, Li'. reflexivity.
Qed.

Lemma dec_loop_out key bs iv out : octets key -> Spec.Aes.valid_key_size key -> is_block iv -> Forall is_block bs ->
  Ops.outcome (Ops.for_each_try bs (dec_body (Aes.keyed key)) (out, iv)) =
  Ret (Ok tt, (out ++ concat (Cbc.cbc_decrypt (Spec.Aes.InvCipher key) iv bs), last bs iv)).
Proof.
  intros Hk Hs Hi Hbs. refine (eq_trans _ (AesCbc.decrypt_loop (Aes.keyed key) key bs iv out (conj eq_refl (conj Hk Hs)) Hi Hbs)).
  apply er_for_each_try. intros b st. apply dec_body_er.
Qed.
Lemma dec_loop_exact key bs : forall bs' iv iv' out out', octets key -> Spec.Aes.valid_key_size key ->
  is_block iv -> is_block iv' -> Forall is_block bs -> Forall is_block bs' -> length bs = length bs' ->
  exact (bs = bs') (Ops.for_each_try bs (dec_body (Aes.keyed key)) (out, iv))
    (Ops.for_each_try bs' (dec_body (Aes.keyed key)) (out', iv')).
Proof.
  induction bs as [|b bs IH]; intros [|b' bs'] iv iv' out out' Hk Hs Hi Hi' Hbs Hbs' L; try discriminate L.
  - apply (exact_iff True); [tauto|]. apply exact_same. reflexivity.
  - cbn [Ops.for_each_try]. apply exact_emit. inversion Hbs as [|? ? Hb HB]; subst. inversion Hbs' as [|? ? Hb' HB']; subst.
    apply (exact_iff _ _ _ _ (cons_iff b b' bs bs')).
    assert (O : forall b iv out, is_block iv -> is_block b ->
      Ops.outcome (dec_body (Aes.keyed key) b (out, iv)) = Ret (Ok tt, (out ++ xor (Spec.Aes.InvCipher key b) iv, b))).
    { intros x i o [Oi Li] [Ox Lx]. refine (eq_trans (dec_body_er _ _ _) _). unfold AesCbc.decrypt_body.
      rewrite copy_from_slice_ok by (rewrite repeat_length; auto). cbn [bind].
      rewrite Aes.aes_decrypt_ok by assumption. cbn [bind].
      rewrite xor_into_xor by (rewrite Aes.InvCipher_length; congruence). reflexivity. }
    pose proof (O b iv out Hi Hb) as O1. pose proof (O b' iv' out' Hi' Hb') as O2. clear O.
    pose proof (dec_body_exact key iv iv' out out' b b' Hk Hs Hi Hi' Hb Hb') as X. revert O1 O2.
    generalize (out ++ xor (Spec.Aes.InvCipher key b) iv), (out' ++ xor (Spec.Aes.InvCipher key b') iv'). intros o o' O1 O2.
    eapply exact_bind; [exact O1|exact O2|exact X|]. intros _. apply exact_emit. cbv beta.
    apply IH; (assumption || idtac). cbn [length] in L. congruence.
Qed.
Lemma dec_loop_none a a' bs bs' iv iv' out out' :
  Aes.holds a None -> Aes.holds a' None -> Forall is_block bs -> Forall is_block bs' -> length bs = length bs' ->
  Ops.trace (Ops.for_each_try bs (dec_body a) (out, iv)) = Ops.trace (Ops.for_each_try bs' (dec_body a') (out', iv')).
Proof.
  intros Ha Ha' Hbs Hbs' L. destruct bs as [|b bs], bs' as [|b' bs']; try discriminate L; [reflexivity|].
  inversion Hbs as [|? ? Hb HB]; subst. inversion Hbs' as [|? ? Hb' HB']; subst.
  assert (O : forall a b iv out, Aes.holds a None -> is_block b ->
    Ops.outcome (dec_body a b (out, iv)) = Ret (Err (AesCbc.EAES Aes.NotInitialized), (out, iv)) /\
    Ops.trace (dec_body a b (out, iv)) = [Ops.Run 16; Ops.Branch false; Ops.Branch false]).
  { clear. intros a b iv out Ha Hb. unfold dec_body. cbv zeta.
    assert (C : Ops.outcome (Ops.copy_from_slice (repeat 0 16) b) = Ret b).
    { destruct Hb as [Ox Lx]. rewrite er_copy. apply copy_from_slice_ok. rewrite repeat_length. auto. }
    assert (E : Ops.outcome (Leak.Aes.aes_decrypt a b) = Ret (Err Aes.NotInitialized)).
    { destruct Hb as [Ox Lx]. exact (eq_trans (aes_decrypt_er _ _) (Aes.aes_decrypt_none _ _ Lx Ha)). }
    rewrite outcome_bind, C, (trace_bind _ _ _ C). cbn [bind]. rewrite outcome_bind, E, (trace_bind _ _ _ E).
    rewrite aes_decrypt_none_trace by assumption. destruct Hb as [_ Lb]. split; [reflexivity|]. cbn. unfold len. rewrite Lb. reflexivity. }
  destruct (O a b iv out Ha Hb) as [E1 T1], (O a' b' iv' out' Ha' Hb') as [E2 T2].
  cbn [Ops.for_each_try]. rewrite !(trace_bind (Ops.emit _) _ tt) by reflexivity. f_equal.
  rewrite (trace_bind _ _ _ E1), (trace_bind _ _ _ E2), T1, T2. reflexivity.
Qed.
Lemma dec_loop_out_none a bs iv out : bs <> [] -> Aes.holds a None -> Forall is_block bs ->
  Ops.outcome (Ops.for_each_try bs (dec_body a) (out, iv)) = Ret (Err (AesCbc.EAES Aes.NotInitialized), (out, iv)).
Proof.
  intros Hn Ha Hbs. refine (eq_trans _ (AesCbc.decrypt_loop_none a bs iv out Hn Ha Hbs)).
  apply er_for_each_try. intros b st. apply dec_body_er.
Qed.

(** The two halves of a write: the blocks are decrypted; the result is held back. *)
Definition write_rest (T : target) (d : AesCbc.Decipher) (x : result unit AesCbc.DecipherError * (list N * list N))
  : Ops.res (result (list N) AesCbc.DecipherError * AesCbc.Decipher) :=
  let '(r, (padded_result, iv)) := x in
  let d := AesCbc.mkDecipher (AesCbc.d_aes d) (AesCbc.d_unpad d) iv (AesCbc.d_buffer d) in
  match r with
  | Err e => Ops.Ret (Err e, d)
  | Ok _ =>
      Ops.bind (Leak.Pkcs7.unpad_write T (AesCbc.d_unpad d) padded_result) (fun '(o, unpad) =>
      let d := AesCbc.mkDecipher (AesCbc.d_aes d) unpad (AesCbc.d_iv d) (AesCbc.d_buffer d) in
      match o with
      | Some x => Ops.bind (Ops.emit (Ops.Branch true)) (fun _ => Ops.Ret (Ok x, d))
      | None => Ops.bind (Ops.emit (Ops.Branch false)) (fun _ => Ops.Ret (Ok [], d))
      end)
  end.
Lemma decipher_write_eq T d b : Leak.AesCbc.decipher_write T d b =
  Ops.bind (Leak.Pkcs7.pad_write T (AesCbc.d_buffer d) b) (fun '(w, buffer) =>
  let d := AesCbc.mkDecipher (AesCbc.d_aes d) (AesCbc.d_unpad d) (AesCbc.d_iv d) buffer in
  match w with
  | None => Ops.bind (Ops.emit (Ops.Branch false)) (fun _ => Ops.Ret (Ok [], d))
  | Some blocks =>
      Ops.bind (Ops.emit (Ops.Branch true)) (fun _ =>
      Ops.bind (Ops.chunks blocks 16) (fun cs =>
      Ops.bind (Ops.for_each_try cs (dec_body (AesCbc.d_aes d)) ([], AesCbc.d_iv d)) (write_rest T d)))
  end).
Proof. reflexivity. Qed.
Lemma write_rest_trace T d d' out out' iv iv' h h' : AesCbc.d_unpad d = Pkcs7.mkUnpad 16 h -> AesCbc.d_unpad d' = Pkcs7.mkUnpad 16 h' ->
  length h = length h' -> length out = length out' ->
  Ops.trace (write_rest T d (Ok tt, (out, iv))) = Ops.trace (write_rest T d' (Ok tt, (out', iv'))).
Proof.
  intros E E' L Lo. cbn [write_rest AesCbc.d_unpad AesCbc.d_aes AesCbc.d_iv AesCbc.d_buffer]. rewrite E, E'.
  pose proof (eq_trans (unpad_write_er T _ out) (AesCbc.unpad_write_16 T h out)) as O1.
  pose proof (eq_trans (unpad_write_er T _ out') (AesCbc.unpad_write_16 T h' out')) as O2.
  rewrite (trace_bind _ _ _ O1), (trace_bind _ _ _ O2). f_equal.
  - eapply agree_trace, unpad_write_ag; [split; [reflexivity|cbn; apply bytes_length, L]|apply bytes_length, Lo].
  - assert (El : length (h ++ out) = length (h' ++ out')) by (rewrite !app_length; lia). rewrite <- El.
    destruct (Nat.leb (length (h ++ out)) 16); reflexivity.
Qed.

Lemma whole_blocks_iff (l l' : list N) : length l = length l' ->
  blocks 16 l = blocks 16 l' <-> Stream.whole 16 l = Stream.whole 16 l'.
Proof.
  intros L. assert (W : forall x : list N, concat (blocks 16 x) = Stream.whole 16 x).
  { intros x. apply concat_blocks_whole. discriminate. }
  split; intros E.
  - rewrite <- !W, E. reflexivity.
  - rewrite <- (blocks_whole 16 l), <- (blocks_whole 16 l'), E by discriminate. reflexivity.
Qed.

Lemma octets_iff (l l' : list N) : l = l' <-> Octets l = Octets l'.
Proof. split; [intros ->; reflexivity|intros H; injection H as ->; reflexivity]. Qed.
Lemma verdict_iff v v' : v = v' <-> Verdict v = Verdict v'.
Proof. split; [intros ->; reflexivity|intros H; injection H as ->; reflexivity]. Qed.
Lemma dec_length key (bs : list (list N)) : forall bs' iv iv', is_block iv -> is_block iv' -> Forall is_block bs -> Forall is_block bs' ->
  length bs = length bs' ->
  length (concat (Cbc.cbc_decrypt (Spec.Aes.InvCipher key) iv bs)) = length (concat (Cbc.cbc_decrypt (Spec.Aes.InvCipher key) iv' bs')).
Proof.
  induction bs as [|b bs IH]; intros [|b' bs'] iv iv' Hi Hi' Hb Hb' L; try discriminate L; [reflexivity|].
  inversion Hb; inversion Hb'; subst. cbn [Cbc.cbc_decrypt concat]. rewrite !app_length, !xor_length, !Aes.InvCipher_length.
  rewrite (proj2 Hi), (proj2 Hi'). f_equal. apply IH; try assumption. cbn [length] in L. congruence.
Qed.
Lemma flush_record_prefix k v v' r r' : LeakUnpad.flush_record k v ++ r = LeakUnpad.flush_record k v' ++ r' -> v = v' /\ r = r'.
Proof.
  destruct v, v'; cbn [LeakUnpad.flush_record app]; intros H; try discriminate H; injection H; intros; subst; split; reflexivity.
Qed.
Lemma unpad_flush_exact T h h' :
  exact (Leakage.view_of 16 h = Leakage.view_of 16 h') (Leak.Pkcs7.unpad_flush T (Pkcs7.mkUnpad 16 h)) (Leak.Pkcs7.unpad_flush T (Pkcs7.mkUnpad 16 h')).
Proof.
  pose proof (LeakUnpad.flush_trace T 16 h ltac:(lia)) as F. pose proof (LeakUnpad.flush_trace T 16 h' ltac:(lia)) as F'.
  unfold Ops.visible in F, F'. change (N.of_nat 16) with 16 in *. injection F as F _. injection F' as F' _.
  split; [intros r r'; rewrite F, F'; apply flush_record_prefix|intros E; rewrite F, F', E; reflexivity].
Qed.

Lemma decipher_call_exact T c c' s s' x x' : stream_call_ok x -> stream_call_ok x' -> same_call x x' ->
  AesCbc.d_rel c s -> AesCbc.d_rel c' s' -> Stream.d_key s = Stream.d_key s' ->
  length (Stream.d_held s) = length (Stream.d_held s') -> length (Stream.d_fragment s) = length (Stream.d_fragment s') ->
  exact (decipher_sight s x = decipher_sight s' x') (Leak.Calls.decipher_call T c x) (Leak.Calls.decipher_call T c' x').
Proof.
  intros Hx Hx' Hsame R R' Ekey Eheld Efr.
  destruct R as [Hkey Hbuf Hun Hiv Hch Hfr Hsh Hhe Hhs], R' as [Hkey' Hbuf' Hun' Hiv' Hch' Hfr' Hsh' Hhe' Hhs'].
  destruct x as [key|d|], x' as [key'|d'|]; try contradiction Hsame; cbn [same_call stream_call_ok] in *.
  - (* init *)
    cbn [Leak.Calls.decipher_call decipher_sight]. apply (exact_iff _ _ _ _ (octets_iff _ _)).
    assert (O' : forall a k, octets k -> exists r k', Ops.outcome (Leak.Aes.aes_init a k) = Ret (r, k')).
    { clear. intros a k Hk. destruct (BlockCipher.key_size_ok k) eqn:E.
      - apply Aes.key_size_ok_spec in E. do 2 eexists. rewrite aes_init_er, Aes.aes_init_ok by assumption. reflexivity.
      - assert (H : ~ Spec.Aes.valid_key_size k) by (rewrite <- Aes.key_size_ok_spec; congruence).
        do 2 eexists. rewrite aes_init_er, Aes.aes_init_err by assumption. reflexivity. }
    destruct (O' (AesCbc.d_aes c) key Hx) as (r3 & c3 & E3), (O' (AesCbc.d_aes c') key' Hx') as (r4 & c4 & E4).
    assert (E1 : exists k', Ops.outcome (Leak.AesCbc.decipher_init c key) = Ret (r3, k')).
    { eexists. unfold Leak.AesCbc.decipher_init. rewrite outcome_bind, E3. reflexivity. }
    assert (E2 : exists k', Ops.outcome (Leak.AesCbc.decipher_init c' key') = Ret (r4, k')).
    { eexists. unfold Leak.AesCbc.decipher_init. rewrite outcome_bind, E4. reflexivity. }
    destruct E1 as [k1 E1], E2 as [k2 E2].
    eapply exact_last; [exact E1|exact E2| |intros _; reflexivity].
    unfold Leak.AesCbc.decipher_init.
    eapply exact_last; [exact E3|exact E4|apply aes_init_exact; assumption|intros _; reflexivity].
  - (* write *)
    cbn [Leak.Calls.decipher_call]. unfold decipher_sight. apply (exact_iff _ _ _ _ (octets_iff _ _)).
    set (l := Stream.d_fragment s ++ d). set (l' := Stream.d_fragment s' ++ d').
    assert (El : length l = length l') by (unfold l, l'; rewrite !app_length; lia).
    assert (Hl : octets l) by (apply octets_app; auto). assert (Hl' : octets l') by (apply octets_app; auto).
    destruct (AesCbc.decipher_step_ok T c s (Stream.Write d) Hx) as (c1 & E1 & _); [constructor; assumption|].
    destruct (AesCbc.decipher_step_ok T c' s' (Stream.Write d') Hx') as (c2 & E2 & _); [constructor; assumption|].
    cbn [decipher_call] in E1, E2.
    destruct (Model.AesCbc.decipher_write T c d) as [[w1 k1]| |] eqn:W1; try discriminate E1.
    destruct (Model.AesCbc.decipher_write T c' d') as [[w2 k2]| |] eqn:W2; try discriminate E2.
    eapply exact_last; [exact (eq_trans (decipher_write_er T c d) W1)|exact (eq_trans (decipher_write_er T c' d') W2)| |intros _; reflexivity].
    clear E1 E2 W1 W2 c1 c2 w1 w2 k1 k2. rewrite !decipher_write_eq. rewrite Hbuf, Hbuf'.
    eapply exact_quiet.
    { exact (eq_trans (pad_write_er T _ d) (AesCbc.pad_write_16 T _ d)). }
    { exact (eq_trans (pad_write_er T _ d') (AesCbc.pad_write_16 T _ d')). }
    { eapply agree_trace, pad_write_ag; [split; [reflexivity|cbn; apply bytes_length; assumption]|apply bytes_length; assumption]. }
    cbv zeta beta. fold l l'. rewrite <- El. destruct (Nat.ltb_spec (length l) 16) as [H|H].
    { apply (exact_iff True); [|apply exact_same; reflexivity]. split; [intros _|tauto].
      rewrite <- Ekey. destruct (Stream.d_key s); [|reflexivity].
      rewrite (proj1 (whole_short 16 l H)), (proj1 (whole_short 16 l' ltac:(lia))). reflexivity. }
    apply exact_emit.
    eapply exact_quiet; [exact (AesCbc.chunks_whole l)|exact (AesCbc.chunks_whole l')| |].
    { cbn. unfold len, Stream.whole. rewrite !firstn_length, El. reflexivity. }
    cbn [AesCbc.d_aes AesCbc.d_iv]. rewrite <- Ekey in Hkey'. rewrite <- Ekey.
    assert (WB : Forall is_block (blocks 16 l)) by (apply AesCbc.whole_blocks, Hl).
    assert (WB' : Forall is_block (blocks 16 l')) by (apply AesCbc.whole_blocks, Hl').
    destruct (Stream.d_key s) as [key|] eqn:Ek.
    + destruct Hkey as (Ha & Hk & Hs), Hkey' as (Ha' & _ & _). rewrite Ha, Ha', Hiv, Hiv'.
      pose proof (dec_loop_exact key (blocks 16 l) (blocks 16 l') (Stream.d_chain s) (Stream.d_chain s') [] [] Hk Hs Hch Hch' WB WB' (blocks_same l l' El)) as X.
      pose proof (dec_loop_out key (blocks 16 l) (Stream.d_chain s) [] Hk Hs Hch WB) as O1.
      pose proof (dec_loop_out key (blocks 16 l') (Stream.d_chain s') [] Hk Hs Hch' WB') as O2.
      apply (exact_iff _ _ _ _ (whole_blocks_iff l l' El)).
      eapply exact_last; [exact O1|exact O2|exact X|]. intros _.
      apply (write_rest_trace T _ _ _ _ _ _ (Stream.d_held s) (Stream.d_held s')); [exact Hun|exact Hun'|exact Eheld|].
      cbn [app]. apply (dec_length key); (assumption || apply blocks_same, El).
    + apply (exact_iff True); [tauto|].
      assert (N1 : blocks 16 l <> []) by (apply AesCbc.blocks_nonempty, H).
      assert (N2 : blocks 16 l' <> []) by (apply AesCbc.blocks_nonempty; lia).
      eapply exact_last.
      * apply (dec_loop_out_none _ (blocks 16 l)); assumption.
      * apply (dec_loop_out_none _ (blocks 16 l')); assumption.
      * apply exact_same. apply dec_loop_none; (assumption || apply blocks_same, El).
      * intros _. reflexivity.
  - (* flush *)
    cbn [Leak.Calls.decipher_call decipher_sight]. apply (exact_iff _ _ _ _ (verdict_iff _ _)).
    destruct (AesCbc.decipher_step_ok T c s Stream.Flush Hx) as (c1 & E1 & _); [constructor; assumption|].
    destruct (AesCbc.decipher_step_ok T c' s' Stream.Flush Hx') as (c2 & E2 & _); [constructor; assumption|].
    cbn [decipher_call] in E1, E2.
    destruct (Model.AesCbc.decipher_flush T c) as [[w1 k1]| |] eqn:W1; try discriminate E1.
    destruct (Model.AesCbc.decipher_flush T c') as [[w2 k2]| |] eqn:W2; try discriminate E2.
    eapply exact_last; [exact (eq_trans (decipher_flush_er T c) W1)|exact (eq_trans (decipher_flush_er T c') W2)| |intros _; reflexivity].
    clear E1 E2 W1 W2 c1 c2 w1 w2 k1 k2. unfold Leak.AesCbc.decipher_flush. rewrite Hun, Hun'.
    pose proof (unpad_flush_exact T (Stream.d_held s) (Stream.d_held s')) as X.
    pose proof (eq_trans (unpad_flush_er T _) (Pkcs7.unpad_flush_ok T 16 (Stream.d_held s) ltac:(lia))) as O1.
    pose proof (eq_trans (unpad_flush_er T _) (Pkcs7.unpad_flush_ok T 16 (Stream.d_held s') ltac:(lia))) as O2.
    change (N.of_nat 16) with 16 in *. eapply exact_last; [exact O1|exact O2|exact X|].
    unfold Leakage.view_of. clear. destruct (Stream.strip 16 (Stream.d_held s)) as [m| |], (Stream.strip 16 (Stream.d_held s')) as [m'| |];
      intros E; repeat match type of E with context [Nat.leb ?a ?b] => destruct (Nat.leb a b) end; try discriminate E; reflexivity.
Qed.

Lemma decipher_next_same s s' x x' : same_call x x' -> Stream.d_key s = Stream.d_key s' -> Stream.d_chain s = Stream.d_chain s' ->
  Stream.d_held s = Stream.d_held s' -> length (Stream.d_fragment s) = length (Stream.d_fragment s') ->
  decipher_sight s x = decipher_sight s' x' ->
  let t := Stream.decipher_step s x in let t' := Stream.decipher_step s' x' in
  fst t = fst t' /\ Stream.d_key (snd t) = Stream.d_key (snd t') /\ Stream.d_chain (snd t) = Stream.d_chain (snd t') /\
  Stream.d_held (snd t) = Stream.d_held (snd t') /\
  length (Stream.d_fragment (snd t)) = length (Stream.d_fragment (snd t')).
Proof.
  intros Hx Ek Ec Eh Ef E. destruct x as [k|d|], x' as [k'|d'|]; try contradiction Hx; cbn [same_call] in Hx.
  - cbn [decipher_sight Stream.decipher_step] in *. rewrite <- (key_size_same k k' Hx) in *.
    injection E as E. destruct (BlockCipher.key_size_ok k); cbn [fst snd Stream.d_key Stream.d_chain Stream.d_held Stream.d_fragment];
      repeat (apply conj); (assumption || congruence).
  - unfold decipher_sight in E. cbn [Stream.decipher_step]. set (l := Stream.d_fragment s ++ d) in *. set (l' := Stream.d_fragment s' ++ d') in *.
    assert (El : length l = length l') by (unfold l, l'; rewrite !app_length; lia). rewrite <- El, <- Ek in *.
    destruct (Nat.ltb (length l) 16); [repeat (apply conj); (assumption || reflexivity)|].
    destruct (Stream.d_key s) as [key|]; cbn [fst snd Stream.d_key Stream.d_chain Stream.d_held Stream.d_fragment].
    + injection E as E. apply (whole_blocks_iff l l' El) in E. rewrite <- E, <- Ec, <- Eh. repeat (apply conj); (reflexivity || apply rest_same, El).
    + repeat (apply conj); (assumption || reflexivity || apply rest_same, El).
  - clear E. cbn [Stream.decipher_step]. rewrite <- Eh. destruct (Stream.strip 16 (Stream.d_held s)); cbn [fst snd Stream.d_key Stream.d_chain Stream.d_held Stream.d_fragment];
    repeat (apply conj); (assumption || reflexivity).
Qed.
Lemma decipher_next s s' x x' : same_call x x' -> stream_call_ok x -> stream_call_ok x' ->
  is_block (Stream.d_chain s) -> is_block (Stream.d_chain s') -> octets (Stream.d_fragment s) -> octets (Stream.d_fragment s') ->
  Stream.d_key s = Stream.d_key s' ->
  length (Stream.d_held s) = length (Stream.d_held s') -> length (Stream.d_fragment s) = length (Stream.d_fragment s') ->
  decipher_sight s x = decipher_sight s' x' ->
  let t := Stream.decipher_step s x in let t' := Stream.decipher_step s' x' in
  Stream.d_key (snd t) = Stream.d_key (snd t') /\
  length (Stream.d_held (snd t)) = length (Stream.d_held (snd t')) /\
  length (Stream.d_fragment (snd t)) = length (Stream.d_fragment (snd t')).
Proof.
  intros Hx Ox Ox' Hc Hc' Of Of' Ek Eh Ef E. destruct x as [k|d|], x' as [k'|d'|]; try contradiction Hx; cbn [same_call stream_call_ok] in *.
  - cbn [decipher_sight Stream.decipher_step] in *. rewrite <- (key_size_same k k' Hx) in *. injection E as E.
    destruct (BlockCipher.key_size_ok k); cbn [fst snd Stream.d_key Stream.d_chain Stream.d_held Stream.d_fragment];
      repeat (apply conj); (assumption || congruence).
  - clear E. cbn [Stream.decipher_step].
    assert (Hl : octets (Stream.d_fragment s ++ d)) by (apply octets_app; auto).
    assert (Hl' : octets (Stream.d_fragment s' ++ d')) by (apply octets_app; auto).
    set (l := Stream.d_fragment s ++ d) in *. set (l' := Stream.d_fragment s' ++ d') in *.
    assert (El : length l = length l') by (unfold l, l'; rewrite !app_length; lia). rewrite <- El, <- Ek in *.
    destruct (Nat.ltb (length l) 16); [repeat (apply conj); (assumption || reflexivity)|].
    destruct (Stream.d_key s) as [key|]; cbn [fst snd Stream.d_key Stream.d_chain Stream.d_held Stream.d_fragment].
    + repeat (apply conj); [reflexivity| |apply rest_same, El].
      pose proof (dec_length key (blocks 16 l) (blocks 16 l') _ _ Hc Hc' (AesCbc.whole_blocks _ Hl) (AesCbc.whole_blocks _ Hl') (blocks_same l l' El)) as D.
      revert D. generalize (concat (Cbc.cbc_decrypt (Spec.Aes.InvCipher key) (Stream.d_chain s) (blocks 16 l))),
        (concat (Cbc.cbc_decrypt (Spec.Aes.InvCipher key) (Stream.d_chain s') (blocks 16 l'))). intros q q' D.
      unfold Stream.held. rewrite !skipn_length, !app_length, Eh, D. reflexivity.
    + repeat (apply conj); (assumption || reflexivity || apply rest_same, El).
  - cbn [Stream.decipher_step decipher_sight] in *. apply verdict_iff in E. unfold Leakage.view_of in E.
    destruct (Stream.strip 16 (Stream.d_held s)), (Stream.strip 16 (Stream.d_held s'));
      repeat match type of E with context [Nat.leb ?a ?b] => destruct (Nat.leb a b) end; try discriminate E;
      cbn [fst snd Stream.d_key Stream.d_chain Stream.d_held Stream.d_fragment]; repeat (apply conj); (assumption || reflexivity).
Qed.
Lemma decipher_calls_exact T calls : forall calls' c c' s s',
  Forall stream_call_ok calls -> Forall stream_call_ok calls' -> Forall2 same_call calls calls' ->
  AesCbc.d_rel c s -> AesCbc.d_rel c' s' -> Stream.d_key s = Stream.d_key s' ->
  length (Stream.d_held s) = length (Stream.d_held s') -> length (Stream.d_fragment s) = length (Stream.d_fragment s') ->
  exact (sights Stream.decipher_step decipher_sight s calls = sights Stream.decipher_step decipher_sight s' calls')
    (Leak.Calls.run_calls (Leak.Calls.decipher_call T) c calls) (Leak.Calls.run_calls (Leak.Calls.decipher_call T) c' calls').
Proof.
  induction calls as [|x calls IH]; intros calls' c c' s s' Hc Hc' Hs R R' Ek Eh Ef; inversion Hs as [|? x' ? calls1 Sx Ss]; subst.
  - apply (exact_iff True); [tauto|]. apply exact_same. reflexivity.
  - cbn [Leak.Calls.run_calls sights]. inversion Hc as [|? ? Hx Hcs]; subst. inversion Hc' as [|? ? Hx' Hcs']; subst.
    destruct (AesCbc.decipher_step_ok T c s x Hx R) as (c1 & E1 & R1).
    destruct (AesCbc.decipher_step_ok T c' s' x' Hx' R') as (c2 & E2 & R2).
    apply (exact_iff _ _ _ _ (cons_iff _ _ _ _)).
    eapply exact_bind; [exact (eq_trans (decipher_call_er T c x) E1)|exact (eq_trans (decipher_call_er T c' x') E2)
      |apply decipher_call_exact; assumption|]. intros E.
    destruct (decipher_next s s' x x' Sx Hx Hx' (AesCbc.dr_chain _ _ R) (AesCbc.dr_chain _ _ R') (AesCbc.dr_fragment _ _ R) (AesCbc.dr_fragment _ _ R') Ek Eh Ef E) as (Ek' & Eh' & Ef').
    destruct (run_ok (decipher_call T) Stream.decipher_step AesCbc.d_rel (fun c s x => AesCbc.decipher_step_ok T c s x) calls c1 _ Hcs R1) as (r3 & c3 & E3).
    destruct (run_ok (decipher_call T) Stream.decipher_step AesCbc.d_rel (fun c s x => AesCbc.decipher_step_ok T c s x) calls1 c2 _ Hcs' R2) as (r4 & c4 & E4).
    eapply exact_last; [exact (eq_trans (run_calls_er' T _ decipher_call (decipher_call_er T) calls c1) E3)
      |exact (eq_trans (run_calls_er' T _ decipher_call (decipher_call_er T) calls1 c2) E4)|apply IH; assumption|intros _; reflexivity].
Qed.
Lemma decipher_run_exact T iv iv' calls calls' : is_block iv -> is_block iv' ->
  Forall stream_call_ok calls -> Forall stream_call_ok calls' -> Forall2 same_call calls calls' ->
  exact (sights Stream.decipher_step decipher_sight (Stream.new_decipher iv) calls =
         sights Stream.decipher_step decipher_sight (Stream.new_decipher iv') calls')
    (Leak.Calls.decipher_run T iv calls) (Leak.Calls.decipher_run T iv' calls').
Proof.
  intros Hi Hi' Hc Hc' Hs. unfold Leak.Calls.decipher_run.
  destruct (AesCbc.decipher_new_ok T iv Hi) as (c & E & R), (AesCbc.decipher_new_ok T iv' Hi') as (c' & E' & R').
  eapply exact_quiet; [exact (eq_trans (decipher_new_er T iv) E)|exact (eq_trans (decipher_new_er T iv') E')| |].
  { apply (agree_trace (fun _ _ => True)). unfold Leak.AesCbc.decipher_new.
    eapply agree_bind; [apply unpad_new_ag|]. intros. eapply agree_bind; [apply pad_new_ag|]. intros. apply agree_ret. exact I. }
  apply decipher_calls_exact; (assumption || reflexivity).
Qed.
Lemma decipher_replies_seen calls : forall calls' s s', Forall2 same_call calls calls' ->
  Stream.d_key s = Stream.d_key s' -> Stream.d_chain s = Stream.d_chain s' ->
  Stream.d_held s = Stream.d_held s' -> length (Stream.d_fragment s) = length (Stream.d_fragment s') ->
  sights Stream.decipher_step decipher_sight s calls = sights Stream.decipher_step decipher_sight s' calls' ->
  fst (Stream.run Stream.decipher_step s calls) = fst (Stream.run Stream.decipher_step s' calls').
Proof.
  induction calls as [|x calls IH]; intros calls' s s' Hs Ek Ec Eh Ef E; inversion Hs as [|? x' ? calls1 Sx Ss]; subst; [reflexivity|].
  cbn [sights] in E. apply cons_iff in E. destruct E as [E1 E2].
  destruct (decipher_next_same s s' x x' Sx Ek Ec Eh Ef E1) as (Er & Ek' & Ec' & Eh' & Ef').
  specialize (IH calls1 _ _ Ss Ek' Ec' Eh' Ef' E2). revert Er IH. cbn [Stream.run]. clear.
  destruct (Stream.decipher_step s x) as [r t], (Stream.decipher_step s' x') as [r' t']. cbn [fst snd]. intros -> IH.
  destruct (Stream.run Stream.decipher_step t calls), (Stream.run Stream.decipher_step t' calls1). cbn [fst] in *. congruence.
Qed.

(** * Everything that is written is seen once it is encrypted *)

Definition takes_key (c : Stream.call) : Prop :=
  match c with Stream.Init key => BlockCipher.key_size_ok key = true | _ => True end.

Lemma pad_inj p p' : length p = length p' -> Cbc.pkcs7_pad 16 p = Cbc.pkcs7_pad 16 p' -> p = p'.
Proof. intros L E. unfold Cbc.pkcs7_pad in E. apply (Collision.app_inj_length _ _ _ _ L) in E. apply E. Qed.
Lemma encrypt_inj key iv P P' : octets key -> Spec.Aes.valid_key_size key -> is_block iv -> Forall is_block P -> Forall is_block P' ->
  Cbc.cbc_encrypt (Spec.Aes.Cipher key) iv P = Cbc.cbc_encrypt (Spec.Aes.Cipher key) iv P' -> P = P'.
Proof.
  intros Hk Hs Hi HP HP' E.
  rewrite <- (cbc_decrypt_encrypt (Spec.Aes.Cipher key) (Spec.Aes.InvCipher key) iv P), E;
    [apply cbc_decrypt_encrypt; try assumption| | |assumption..]; intros b Hb;
    first [apply AesCbc.Cipher_block; assumption|apply AesCbc.InvCipher_Cipher_block; assumption].
Qed.
Lemma padded_inj key iv p p' : octets key -> Spec.Aes.valid_key_size key -> is_block iv -> octets p -> octets p' ->
  (length p < 16)%nat -> length p = length p' ->
  Spec.Aes.Cipher key (xor (Cbc.pkcs7_pad 16 p) iv) = Spec.Aes.Cipher key (xor (Cbc.pkcs7_pad 16 p') iv) -> p = p'.
Proof.
  intros Hk Hs Hi Hp Hp' Lp L.
  assert (B : forall p, octets p -> (length p < 16)%nat -> is_block (Cbc.pkcs7_pad 16 p)).
  { intros q Oq Lq. split; [apply octets_pkcs7_pad; [lia|assumption]|apply pkcs7_pad_short_length; assumption]. }
  pose proof (B p Hp Lp) as B1. pose proof (B p' Hp' ltac:(lia)) as B2. pose proof (pad_inj p p' L) as I.
  revert B1 B2 I. generalize (Cbc.pkcs7_pad 16 p), (Cbc.pkcs7_pad 16 p'). intros b b' B1 B2 I E. apply I.
  pose proof (AesCbc.InvCipher_Cipher_block key (xor b iv) Hk Hs (is_block_xor _ _ B1 Hi)) as X1.
  pose proof (AesCbc.InvCipher_Cipher_block key (xor b' iv) Hk Hs (is_block_xor _ _ B2 Hi)) as X2.
  rewrite E, X2 in X1. rewrite <- (xor_cancel_r b iv), <- X1, xor_cancel_r; [reflexivity| |]; destruct B1, B2, Hi; congruence.
Qed.
Lemma cipher_all_seen cs : forall cs' key iv p p', octets key -> Spec.Aes.valid_key_size key -> is_block iv ->
  octets p -> octets p' -> (length p < 16)%nat -> length p = length p' ->
  Forall stream_call_ok cs -> Forall stream_call_ok cs' -> Forall2 same_call cs cs' -> Forall takes_key cs ->
  sights Stream.cipher_step cipher_sight (Stream.mkCipher (Some key) iv p) (cs ++ [Stream.Flush]) =
  sights Stream.cipher_step cipher_sight (Stream.mkCipher (Some key) iv p') (cs' ++ [Stream.Flush]) ->
  p = p' /\ cs = cs'.
Proof.
  induction cs as [|x cs IH]; intros cs' key iv p p' Hk Hs Hi Hp Hp' Lp L Hc Hc' HS HT E; inversion HS as [|? x' ? cs1 Sx Ss]; subst.
  - cbn [app sights cipher_sight Stream.cipher_step fst snd Stream.c_pending Stream.c_key Stream.c_chain] in E.
    apply cons_iff in E. destruct E as [E _]. split; [|reflexivity].
    exact (padded_inj key iv p p' Hk Hs Hi Hp Hp' Lp L E).
  - inversion Hc as [|? ? Hx Hcs]; subst. inversion Hc' as [|? ? Hx' Hcs']; subst. inversion HT as [|? ? Tx Ts]; subst.
    cbn [app sights] in E. apply cons_iff in E. destruct E as [E1 E2].
    destruct x as [k|d|], x' as [k'|d'|]; try contradiction Sx; cbn [same_call stream_call_ok takes_key] in *.
    + cbn [cipher_sight Stream.cipher_step] in E1, E2. rewrite <- (key_size_same k k' Sx) in E1, E2. rewrite Tx in E1, E2. subst k'.
      cbn [snd Stream.c_chain Stream.c_pending] in E2. apply Aes.key_size_ok_spec in Tx.
      destruct (IH cs1 k iv p p' Hx Tx Hi Hp Hp' Lp L Hcs Hcs' Ss Ts E2) as [-> ->]. split; reflexivity.
    + unfold cipher_sight in E1. cbn [Stream.cipher_step Stream.c_pending Stream.c_key Stream.c_chain] in E1, E2.
      assert (El : length (p ++ d) = length (p' ++ d')) by (rewrite !app_length; lia).
      assert (Hl : octets (p ++ d)) by (apply octets_app; auto). assert (Hl' : octets (p' ++ d')) by (apply octets_app; auto).
      rewrite <- El in E1, E2.
      assert (F : p ++ d = p' ++ d' -> cs = cs1 -> p = p' /\ Stream.Write d :: cs = Stream.Write d' :: cs1).
      { clear - L. intros E ->. apply (Collision.app_inj_length _ _ _ _ L) in E. destruct E as [-> ->]. split; reflexivity. }
      destruct (Nat.ltb_spec (length (p ++ d)) 16) as [H|H].
      * cbn [fst snd] in E1, E2. destruct (IH cs1 key iv (p ++ d) (p' ++ d') Hk Hs Hi Hl Hl' H El Hcs Hcs' Ss Ts E2) as [Ep Ec].
        exact (F Ep Ec).
      * cbn [fst snd] in E1, E2.
        pose proof (AesCbc.whole_blocks _ Hl) as WB. pose proof (AesCbc.whole_blocks _ Hl') as WB'.
        assert (CB : forall b, is_block b -> is_block (Spec.Aes.Cipher key b)) by (intros b _; apply AesCbc.Cipher_block; assumption).
        pose proof (cbc_encrypt_blocks _ iv _ CB Hi WB) as B1. pose proof (cbc_encrypt_blocks _ iv _ CB Hi WB') as B2.
        apply (blocks_concat_inj _ _ B1 B2) in E1. pose proof (encrypt_inj key iv _ _ Hk Hs Hi WB WB' E1) as EB.
        rewrite <- E1 in E2.
        assert (Hi2 : is_block (Stream.last_block (Cbc.cbc_encrypt (Spec.Aes.Cipher key) iv (blocks 16 (p ++ d))) iv)).
        { unfold Stream.last_block. apply last_Forall; assumption. }
        destruct (IH cs1 key _ (Stream.rest 16 (p ++ d)) (Stream.rest 16 (p' ++ d')) Hk Hs Hi2) as [Ep Ec];
          [apply octets_rest, Hl|apply octets_rest, Hl'|apply rest_lt; discriminate|apply rest_same, El|exact Hcs|exact Hcs'|exact Ss|exact Ts|exact E2|].
        apply F; [|exact Ec].
        rewrite <- (whole_rest 16 (p ++ d)), <- (whole_rest 16 (p' ++ d')), Ep.
        apply (proj1 (whole_blocks_iff _ _ El)) in EB. rewrite EB. reflexivity.
    + cbn [cipher_sight Stream.cipher_step fst snd Stream.c_pending Stream.c_key Stream.c_chain] in E1, E2.
      pose proof (padded_inj key iv p p' Hk Hs Hi Hp Hp' Lp L E1) as Ep. subst p'.
      assert (Hi2 : is_block (Spec.Aes.Cipher key (xor (Cbc.pkcs7_pad 16 p) iv))) by (apply AesCbc.Cipher_block; assumption).
      destruct (IH cs1 key _ [] [] Hk Hs Hi2) as [_ ->]; try assumption; [constructor|constructor|cbn; lia|reflexivity|split; reflexivity].
Qed.
