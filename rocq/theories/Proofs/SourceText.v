(** The trees of the hashing functions against the specifications. *)
From Coq Require Import NArith List String Bool Lia ZifyBool ZifyNat ZifyN.
From Verif Require Import Rust Calls.
From Verif.Model Require Import Sha256 Hmac.
From Verif.Spec Require Import Octets.
From Verif.Spec Require Hasher Mac.
From Verif.Source Require Import Syntax Interp Tree Calls.
From Verif.Proofs Require Import Base Sha256 Hmac SourceBase SourceSha256 SourceHasher SourceHmac SourcePbkdf2.
Import ListNotations.
Local Open Scope string_scope.
Local Open Scope N_scope.

(** What a machine of the specification replies, as an outcome. *)
Definition reply (o : option (list N)) : res (list N) :=
  match o with Some d => Ret d | None => Panic end.

Local Opaque run.
Lemma sha_history T n calls : forall s st, abs T s st -> hasher_ok s -> Forall sha_call_ok calls ->
  history T (S (S (S (S n)))) "sha256::SHA256" calls (sha_val s) =
  map reply (Hasher.results (usize_mod T) (overflow_checks T) calls st).
Proof.
  induction calls as [|[d|] cs IH]; intros s st A Hs Hc; [reflexivity| |];
    inversion Hc as [|? ? Hc1 Hcs]; subst; cbn [history Hasher.results].
  - change ("sha256::SHA256" ++ "::update")%string with "sha256::SHA256::update".
    rewrite src_update by exact Hs.
    pose proof (update_agree T s st d A Hc1) as Hag.
    destruct (sha256_update T s d) as [s'| |] eqn:E, (Hasher.update _ _ st d) as [st'|];
      cbn [agree] in Hag; try contradiction; [|reflexivity].
    cbn [bind map reply]. f_equal. apply IH; [assumption|exact (update_ok _ _ _ _ Hs E)|assumption].
  - change ("sha256::SHA256" ++ "::digest")%string with "sha256::SHA256::digest".
    rewrite src_digest by exact Hs.
    pose proof (digest_agree T s st A) as Hag.
    destruct (sha256_digest T s) as [[d s']| |] eqn:E, (Hasher.digest _ _ st) as [[d' st']|];
      cbn [agree fst snd] in Hag; try contradiction; [|reflexivity].
    destruct Hag as [-> Hag]. cbn [bind map reply]. f_equal.
    apply IH; [assumption|exact (proj1 (digest_ok _ _ _ _ Hs E))|assumption].
Qed.
Lemma sha_life T fuel calls : (4 <= fuel)%nat -> Forall sha_call_ok calls ->
  life T fuel "sha256::SHA256" [] calls =
  map reply (Hasher.results (usize_mod T) (overflow_checks T) calls Hasher.fresh).
Proof.
  intros Hf Hc. destruct fuel as [|[|[|[|n]]]]; try lia. unfold life.
  change ("sha256::SHA256" ++ "::new")%string with "sha256::SHA256::new".
  rewrite src_sha256_new. cbv iota.
  apply sha_history; [apply abs_fresh|exact new_ok|assumption].
Qed.

Lemma hmac_history T n calls : forall m a, mabs T m a -> mac_ok m -> Forall sha_call_ok calls ->
  history T (S (S (S (S (S n))))) "hmac::HMac" calls (hmac_val m) =
  map reply (Mac.mac_results (usize_mod T) (overflow_checks T) calls a).
Proof.
  induction calls as [|[d|] cs IH]; intros s st A Hs Hc; [reflexivity| |];
    inversion Hc as [|? ? Hc1 Hcs]; subst; cbn [history Mac.mac_results].
  - change ("hmac::HMac" ++ "::update")%string with "hmac::HMac::update".
    rewrite src_hmac_update' by exact Hs.
    pose proof (hmac_update_agree T s st d A Hc1) as Hag.
    destruct (hmac_update T s d) as [s'| |] eqn:E, (Mac.mac_update _ _ st d) as [st'|];
      cbn [agree] in Hag; try contradiction; [|reflexivity].
    cbn [bind map reply]. f_equal. apply IH; [assumption|exact (hmac_update_ok _ _ _ _ Hs E)|assumption].
  - change ("hmac::HMac" ++ "::digest")%string with "hmac::HMac::digest".
    rewrite src_hmac_digest' by exact Hs.
    pose proof (hmac_digest_agree T s st A) as Hag.
    destruct (hmac_digest T s) as [[d s']| |] eqn:E, (Mac.mac_digest _ _ st) as [[d' st']|];
      cbn [agree fst snd] in Hag; try contradiction; [|reflexivity].
    destruct Hag as [-> Hag]. cbn [bind map reply]. f_equal.
    apply IH; [assumption|exact (proj1 (hmac_digest_ok _ _ _ _ Hs E))|assumption].
Qed.
Lemma hmac_life T fuel key calls : (6 <= fuel)%nat -> octets key -> Forall sha_call_ok calls ->
  life T fuel "hmac::HMac" [VNums U8 key] calls =
  match Mac.new (usize_mod T) (overflow_checks T) key with
  | Some a => map reply (Mac.mac_results (usize_mod T) (overflow_checks T) calls a)
  | None => [Panic]
  end.
Proof.
  intros Hf Hk Hc. destruct fuel as [|[|[|[|[|[|n]]]]]]; try lia. unfold life.
  change ("hmac::HMac" ++ "::new")%string with "hmac::HMac::new".
  rewrite src_hmac_new. pose proof (hmac_new_agree T key Hk) as Hag.
  destruct (hmac_new T key) as [m| |] eqn:E, (Mac.new _ _ key) as [a|];
    cbn [agree] in Hag; try contradiction; [|reflexivity].
  cbn [bind]. apply hmac_history; [assumption|exact (hmac_new_ok _ _ _ E)|assumption].
Qed.
