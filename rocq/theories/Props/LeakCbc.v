(** C93: what the calls on an AES-CBC cipher or decipher give away. *)
From Coq Require Import NArith List Arith Lia Bool.
From Verif Require Import Rust Calls.
From Verif.Leak Require Ops AesCbc Calls.
From Verif.Spec Require Octets Aes Cbc BlockCipher Stream Leakage Observed.
From Verif.Proofs Require Import LeakCbc.
From Verif.Proofs Require Stream Aes AesCbc LeakCalls.
From Verif.Props Require AesCbc.
Import ListNotations.
Import Spec.Octets Spec.Observed.
Import Leak.Ops (outcome, visible, Read, Branch).
Import Spec.Stream (call, Init, Write, Flush).
Import Props.AesCbc (good_key, good_block, session).
Local Open Scope N_scope.

(** What the calls of a history give away, in the order of the calls. *)
Definition cipher_sights (iv : list N) (calls : list call) : list (list N) :=
  sights Stream.cipher_step cipher_sight (Stream.new_cipher iv) calls.
Definition decipher_sights (iv : list N) (calls : list call) : list glimpse :=
  sights Stream.decipher_step decipher_sight (Stream.new_decipher iv) calls.

(** The instrumented program returns what the program returns. *)
Theorem C93_same_results : forall T iv calls,
  outcome (Leak.Calls.cipher_run T iv calls) = cipher_run T iv calls /\
  outcome (Leak.Calls.decipher_run T iv calls) = decipher_run T iv calls.
Proof. intros. split; [apply LeakCalls.cipher_run_er|apply LeakCalls.decipher_run_er]. Qed.
Print Assumptions C93_same_results.

Theorem C93_cipher_leaks_exactly : forall T iv iv' calls calls', good_block iv -> good_block iv' ->
  Forall stream_call_ok calls -> Forall stream_call_ok calls' -> Forall2 same_call calls calls' ->
  visible (Leak.Calls.cipher_run T iv calls) = visible (Leak.Calls.cipher_run T iv' calls') <->
  cipher_sights iv calls = cipher_sights iv' calls'.
Proof.
  intros T iv iv' calls calls' Hi Hi' Hc Hc' HS.
  destruct (Proofs.AesCbc.cipher_run_ok T iv calls Hi Hc) as (c & E & _).
  destruct (Proofs.AesCbc.cipher_run_ok T iv' calls' Hi' Hc') as (c' & E' & _).
  eapply exact_visible; [exact (eq_trans (LeakCalls.cipher_run_er _ _ _) E)|exact (eq_trans (LeakCalls.cipher_run_er _ _ _) E')|].
  apply cipher_run_exact; assumption.
Qed.
Print Assumptions C93_cipher_leaks_exactly.

Theorem C93_decipher_leaks_exactly : forall T iv iv' calls calls', good_block iv -> good_block iv' ->
  Forall stream_call_ok calls -> Forall stream_call_ok calls' -> Forall2 same_call calls calls' ->
  visible (Leak.Calls.decipher_run T iv calls) = visible (Leak.Calls.decipher_run T iv' calls') <->
  decipher_sights iv calls = decipher_sights iv' calls'.
Proof.
  intros T iv iv' calls calls' Hi Hi' Hc Hc' HS.
  destruct (Proofs.AesCbc.decipher_run_ok T iv calls Hi Hc) as (c & E & _).
  destruct (Proofs.AesCbc.decipher_run_ok T iv' calls' Hi' Hc') as (c' & E' & _).
  eapply exact_visible; [exact (eq_trans (LeakCalls.decipher_run_er _ _ _) E)|exact (eq_trans (LeakCalls.decipher_run_er _ _ _) E')|].
  apply decipher_run_exact; assumption.
Qed.
Print Assumptions C93_decipher_leaks_exactly.

(** "The calls hide the key and the message" is false of every session: once the last write
    is flushed, the record tells every octet that was passed. *)
Theorem C93_cipher_record_determines_calls : forall T iv key key' calls calls', good_block iv -> good_key key ->
  Forall stream_call_ok (Init key :: calls ++ [Flush]) -> Forall stream_call_ok (Init key' :: calls' ++ [Flush]) ->
  Forall2 same_call (Init key :: calls) (Init key' :: calls') ->
  (forall k, In (Init k) calls -> Spec.Aes.valid_key_size k) ->
  visible (Leak.Calls.cipher_run T iv (Init key :: calls ++ [Flush])) =
  visible (Leak.Calls.cipher_run T iv (Init key' :: calls' ++ [Flush])) ->
  key = key' /\ calls = calls'.
Proof.
  intros T iv key key' calls calls' Hi [Hk Hs] Hc Hc' HS HI V.
  assert (HS' : Forall2 same_call (Init key :: calls ++ [Flush]) (Init key' :: calls' ++ [Flush])).
  { inversion HS; subst. constructor; [assumption|]. apply Forall2_app; [assumption|]. repeat constructor. }
  apply (proj1 (C93_cipher_leaks_exactly T iv iv _ _ Hi Hi Hc Hc' HS')) in V. unfold cipher_sights in V. cbn [sights] in V.
  apply cons_iff in V. destruct V as [V1 V2].
  inversion HS as [|? ? ? ? SK SC]; subst. cbn [same_call] in SK.
  pose proof (proj2 (Proofs.Aes.key_size_ok_spec key) Hs) as Ok.
  cbn [cipher_sight Stream.cipher_step] in V1, V2. rewrite <- (key_size_same key key' SK), Ok in V1, V2. subst key'.
  split; [reflexivity|]. inversion Hc as [|? ? _ HC]; inversion Hc' as [|? ? _ HC']; subst.
  apply Forall_app in HC, HC'. destruct HC as [HC _], HC' as [HC' _].
  destruct (cipher_all_seen calls calls' key iv [] [] Hk Hs Hi) as [_ E]; try assumption; [constructor|constructor|cbn; lia|reflexivity|].
  apply Forall_forall. intros [k|d|] Hin; cbn; try exact I. apply Proofs.Aes.key_size_ok_spec, HI, Hin.
Qed.
Print Assumptions C93_cipher_record_determines_calls.

(** From the record and the initialisation vector follow all replies of a decipher. *)
Theorem C93_decipher_record_determines_replies : forall T iv calls calls', good_block iv ->
  Forall stream_call_ok calls -> Forall stream_call_ok calls' -> Forall2 same_call calls calls' ->
  visible (Leak.Calls.decipher_run T iv calls) = visible (Leak.Calls.decipher_run T iv calls') ->
  exists replies d d', decipher_run T iv calls = Ret (replies, d) /\ decipher_run T iv calls' = Ret (replies, d').
Proof.
  intros T iv calls calls' Hi Hc Hc' HS V.
  apply (C93_decipher_leaks_exactly T iv iv) in V; try assumption.
  destruct (Proofs.AesCbc.decipher_run_ok T iv calls Hi Hc) as (c & E & _).
  destruct (Proofs.AesCbc.decipher_run_ok T iv calls' Hi Hc') as (c' & E' & _).
  do 3 eexists. split; [exact E|]. rewrite E'. f_equal. f_equal. symmetry.
  apply decipher_replies_seen; (assumption || reflexivity).
Qed.
Print Assumptions C93_decipher_record_determines_replies.

(** The last octet of 17 is still pending: only the first 16 are given away.  Once it is
    flushed it is given away, too. *)
Definition ex_key : list N := map N.of_nat (seq 0 16).
Definition ex_iv : list N := repeat 0x11 16.
Definition ex_calls (a b : N) : list call := [Init ex_key; Write (repeat a 10); Write (repeat 7 6 ++ [b])].
Example C93_example :
  let see calls := visible (Leak.Calls.cipher_run (mkTarget W64 true) ex_iv calls) in
  let see' calls := visible (Leak.Calls.decipher_run (mkTarget W64 true) ex_iv calls) in
  (forall a b, Forall2 same_call (ex_calls a b) (ex_calls 1 2)) /\
  see (ex_calls 1 2) = see (ex_calls 1 3) /\ see' (ex_calls 1 2) = see' (ex_calls 1 3) /\
  see' (ex_calls 1 2) <> see' (ex_calls 4 2) /\
  see (ex_calls 1 2 ++ [Flush]) <> see (ex_calls 1 3 ++ [Flush]) /\
  see' (ex_calls 1 2 ++ [Flush]) = see' (ex_calls 1 3 ++ [Flush]).
Proof.
  assert (W : forall a b a' b', a < 256 -> b < 256 -> a' < 256 -> b' < 256 ->
    Forall stream_call_ok (ex_calls a b) /\ Forall2 same_call (ex_calls a b) (ex_calls a' b')).
  { intros a b a' b' Ha Hb Ha' Hb'. split; repeat constructor; cbn; try reflexivity; try assumption; lia. }
  assert (G : good_block ex_iv) by (split; [|reflexivity]; apply Forall_forall; intros x Hx; apply repeat_spec in Hx; subst; lia).
  cbv zeta. split; [intros; repeat constructor|]. split; [vm_compute; reflexivity|]. split; [vm_compute; reflexivity|].
  split.
  { intros H. apply (C93_decipher_leaks_exactly _ _ _ (ex_calls 1 2) (ex_calls 4 2) G G) in H; [|apply (W 1 2 1 2); lia|apply (W 4 2 1 2); lia|apply W; lia].
    apply (f_equal (fun l => nth 2 l (Octets []))) in H. lazy in H. discriminate H. }
  split; [|vm_compute; reflexivity].
  intros H. apply (C93_cipher_record_determines_calls _ ex_iv ex_key ex_key (tl (ex_calls 1 2)) (tl (ex_calls 1 3)) G) in H.
  - destruct H as [_ H]. discriminate H.
  - split; [|left; reflexivity]. assert (K := proj1 (W 1 2 1 2 eq_refl eq_refl eq_refl eq_refl)). inversion K; assumption.
  - apply (proj2 (Forall_app _ (ex_calls 1 2) [Flush])). split; [apply (W 1 2 1 2); lia|repeat constructor].
  - apply (proj2 (Forall_app _ (ex_calls 1 3) [Flush])). split; [apply (W 1 3 1 2); lia|repeat constructor].
  - apply (W 1 2 1 3); lia.
  - intros k [E|[E|[]]]; discriminate E.
Qed.
