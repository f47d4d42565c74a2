(** C56: what a cipher and a decipher keep in memory. *)
From Coq Require Import NArith List Arith Lia.
From Verif Require Import Rust Calls.
From Verif.Model Require Import Aes Pkcs7 AesCbc.
From Verif.Spec Require Octets Aes Stream.
From Verif.Proofs Require Import Base.
From Verif.Proofs Require Aes Stream AesCbc.
Import Spec.Octets.
Import ListNotations.
Local Open Scope N_scope.

Definition block16 (b : list N) : Prop := octets b /\ length b = 16%nat.

(** The expanded key, if there is one, has at most 60 words. *)
Definition key_bounded (a : AES) : Prop :=
  match round_keys a with None => True | Some w => (length w <= 60)%nat end.

Lemma holds_bounded a k : Proofs.Aes.holds a k -> key_bounded a.
Proof.
  destruct k as [key|]; cbn [Proofs.Aes.holds].
  - intros (-> & Ho & Hs). unfold key_bounded. cbn [round_keys Proofs.Aes.keyed].
    rewrite map_length. destruct (Proofs.Aes.expand_key_ok key _ Ho Hs eq_refl) as (_ & _ & ->).
    unfold Spec.Aes.Nr, Spec.Aes.Nk. destruct Hs as [-> | [-> | ->]]; cbn; lia.
  - intros H. unfold key_bounded. rewrite H. exact I.
Qed.

(** C56.  After any history of calls, successful or not, a cipher holds the expanded
    key, one chaining block and fewer than 16 bytes of data: what it keeps does not
    grow with what was written. *)
Theorem C56_cipher_memory_bounded : forall T iv calls rs c,
  block16 iv -> Forall stream_call_ok calls -> cipher_run T iv calls = Ret (rs, c) ->
  (length (pad_storage (c_pad c)) < 16)%nat /\ length (c_iv c) = 16%nat /\ key_bounded (c_aes c).
Proof.
  intros T iv calls rs c Hiv Hc E.
  destruct (Proofs.AesCbc.cipher_run_ok T iv calls Hiv Hc) as (c' & E' & [Hk Hp Hi Hch Ho Hs]).
  rewrite E in E'. injection E' as _ <-. rewrite Hp, Hi. cbn [pad_storage].
  split; [assumption|]. split; [apply Hch|]. eapply holds_bounded. eassumption.
Qed.
Print Assumptions C56_cipher_memory_bounded.

(** A decipher holds besides fewer than 16 bytes of an incomplete ciphertext block
    and at most one decrypted block. *)
Theorem C56_decipher_memory_bounded : forall T iv calls rs d,
  block16 iv -> Forall stream_call_ok calls -> decipher_run T iv calls = Ret (rs, d) ->
  (length (pad_storage (d_buffer d)) < 16)%nat /\ (length (unpad_storage (d_unpad d)) <= 16)%nat /\
  length (d_iv d) = 16%nat /\ key_bounded (d_aes d).
Proof.
  intros T iv calls rs d Hiv Hc E.
  destruct (Proofs.AesCbc.decipher_run_ok T iv calls Hiv Hc) as (d' & E' & [Hk Hb Hu Hi Hch Hf Hfs Hh Hhs]).
  rewrite E in E'. injection E' as _ <-. rewrite Hb, Hu, Hi. cbn [pad_storage unpad_storage].
  split; [assumption|]. split; [assumption|]. split; [apply Hch|]. eapply holds_bounded. eassumption.
Qed.
Print Assumptions C56_decipher_memory_bounded.

(** The bounds are reached: 15 bytes in the cipher; 15 and 16 in the decipher. *)
Example C56_example :
  let T := mkTarget W64 true in
  (exists rs c, cipher_run T (repeat 1 16) [Stream.Init (repeat 7 16); Stream.Write (repeat 9 31)] = Ret (rs, c) /\
     length (pad_storage (c_pad c)) = 15%nat) /\
  (exists rs d, decipher_run T (repeat 1 16) [Stream.Init (repeat 7 16); Stream.Write (repeat 9 31)] = Ret (rs, d) /\
     length (pad_storage (d_buffer d)) = 15%nat /\ length (unpad_storage (d_unpad d)) = 16%nat).
Proof.
  split; eexists _, _; (split; [vm_compute; reflexivity|]); [reflexivity|split; reflexivity].
Qed.
