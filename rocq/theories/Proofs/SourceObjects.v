(** Histories of calls on the objects of pkcs7.rs, aes.rs and aes_cbc.rs, from
    their trees. *)
From Coq Require Import NArith List String Bool Lia ZifyBool ZifyNat ZifyN.
From Verif Require Import Rust Calls.
From Verif.Model Require Import Pkcs7 Aes AesCbc.
From Verif.Spec Require Import Octets.
From Verif.Spec Require Aes BlockCipher Stream.
From Verif.Source Require Import Syntax Interp Tree Calls Objects.
From Verif.Proofs Require Import Base SourceBase SourcePkcs7 SourceAes SourceAesCbc.
From Verif.Proofs Require Aes AesCbc.
Import ListNotations.
Local Open Scope string_scope.
Local Open Scope N_scope.
Local Open Scope list_scope.
Local Opaque run.

(** * Padders *)

Definition writes (chunks : list (list N)) : list invocation :=
  map (fun d => ("write", [VNums U8 d])) chunks.
Definition write_and_flush (chunks : list (list N)) : list invocation := writes chunks ++ [("flush", [])].

Lemma option_same o : option_val o = bytes_or_none o.
Proof. destruct o; reflexivity. Qed.

Lemma pad_write_keeps T p b o p' : pad_write T p b = Ret (o, p') -> pad_block_size p' = pad_block_size p.
Proof. intros E. apply (pad_write_size _ _ _ _ _ E). Qed.

Lemma pad_talk T n chunks : forall p, (N.to_nat (pad_block_size p) <= n)%nat ->
  talk T (S n) "pkcs7::Pad" (write_and_flush chunks) (pad_val p) =
  let* (outs, p) := pad_writes T p chunks in
  let* (b, _) := pad_flush T p in
  Ret (map bytes_or_none outs ++ [VNums U8 b]).
Proof.
  induction chunks as [|d ds IH]; intros p Hp; cbn [write_and_flush writes map app talk pad_writes].
  - change ("pkcs7::Pad" ++ "::" ++ "flush")%string with "pkcs7::Pad::flush".
    rewrite src_pad_flush by exact Hp. cbn [bind].
    destruct (pad_flush T p) as [[b p']| |]; reflexivity.
  - change ("pkcs7::Pad" ++ "::" ++ "write")%string with "pkcs7::Pad::write".
    rewrite src_pad_write. destruct (pad_write T p d) as [[o p']| |] eqn:E; [|reflexivity..].
    cbn [bind]. change (map _ ds ++ _) with (write_and_flush ds).
    rewrite IH by (rewrite (pad_write_keeps _ _ _ _ _ E); exact Hp).
    destruct (pad_writes T p' ds) as [[os q]| |]; [|reflexivity..]. cbn [bind].
    destruct (pad_flush T q) as [[b q']| |]; [|reflexivity..]. cbn [bind map app].
    rewrite option_same. reflexivity.
Qed.
Lemma pad_object T fuel k chunks : (N.to_nat k < fuel)%nat ->
  object T fuel "pkcs7::Pad" [VInt Usize k] (write_and_flush chunks) =
  let* (outs, b) := pad_stream T k chunks in Ret (map bytes_or_none outs ++ [VNums U8 b]).
Proof.
  intros Hf. destruct fuel as [|n]; [lia|]. unfold object, pad_stream.
  change ("pkcs7::Pad" ++ "::new")%string with "pkcs7::Pad::new". rewrite src_pad_new.
  destruct (pad_new T k) as [p| |] eqn:E; [|reflexivity..]. cbn [bind].
  rewrite pad_talk.
  - destruct (pad_writes T p chunks) as [[os q]| |]; [|reflexivity..]. cbn [bind].
    destruct (pad_flush T q) as [[b q']| |]; reflexivity.
  - unfold pad_new in E. destruct (umul T 2 k); try discriminate E. cbn [bind] in E.
    destruct (alloc T 1 a); try discriminate E. injection E as <-. cbn [pad_block_size]. lia.
Qed.

Definition unpad_verdict (r : result (list N) UnpadError) : Stream.verdict :=
  match r with
  | Ok m => Stream.Stripped m
  | Err UnfinishedBlock => Stream.Incomplete
  | Err InvalidPadding => Stream.Invalid
  end.
Lemma verdict_same r : unpad_result_val r = verdict_value (unpad_verdict r).
Proof. destruct r as [m|[]]; reflexivity. Qed.

Lemma unpad_talk T n chunks : forall p,
  talk T (S n) "pkcs7::Unpad" (write_and_flush chunks) (unpad_val p) =
  let* (outs, p) := unpad_writes T p chunks in
  let* (r, _) := unpad_flush T p in
  Ret (map bytes_or_none outs ++ [verdict_value (unpad_verdict r)]).
Proof.
  induction chunks as [|d ds IH]; intros p; cbn [write_and_flush writes map app talk unpad_writes].
  - change ("pkcs7::Unpad" ++ "::" ++ "flush")%string with "pkcs7::Unpad::flush".
    rewrite src_unpad_flush. cbn [bind].
    destruct (unpad_flush T p) as [[b p']| |]; [|reflexivity..]. cbn [bind map app].
    rewrite verdict_same. reflexivity.
  - change ("pkcs7::Unpad" ++ "::" ++ "write")%string with "pkcs7::Unpad::write".
    rewrite src_unpad_write. destruct (unpad_write T p d) as [[o p']| |] eqn:E; [|reflexivity..].
    cbn [bind]. change (map _ ds ++ _) with (write_and_flush ds). rewrite IH.
    destruct (unpad_writes T p' ds) as [[os q]| |]; [|reflexivity..]. cbn [bind].
    destruct (unpad_flush T q) as [[b q']| |]; [|reflexivity..]. cbn [bind map app].
    rewrite option_same. reflexivity.
Qed.
Lemma unpad_object T fuel k chunks : (1 <= fuel)%nat ->
  object T fuel "pkcs7::Unpad" [VInt Usize k] (write_and_flush chunks) =
  let* (outs, r) := unpad_stream T k chunks in
  Ret (map bytes_or_none outs ++ [verdict_value (unpad_verdict r)]).
Proof.
  intros Hf. destruct fuel as [|n]; [lia|]. unfold object, unpad_stream.
  change ("pkcs7::Unpad" ++ "::new")%string with "pkcs7::Unpad::new". rewrite src_unpad_new.
  destruct (unpad_new T k) as [p| |] eqn:E; [|reflexivity..]. cbn [bind].
  rewrite unpad_talk.
  destruct (unpad_writes T p chunks) as [[os q]| |]; [|reflexivity..]. cbn [bind].
  destruct (unpad_flush T q) as [[b q']| |]; reflexivity.
Qed.

(** * AES *)

Lemma holds_ok a k : Aes.holds a k -> aes_ok a.
Proof.
  destruct k as [key|]; cbn [Aes.holds].
  - intros (-> & Hk & Hs). unfold aes_ok, Aes.keyed. cbn [round_keys round_count].
    pose proof (proj2 (proj2 (Aes.expand_key_ok key _ Hk Hs eq_refl))) as Hl.
    assert (Hr : (10 <= Spec.Aes.Nr key <= 14)%nat)
      by (unfold Spec.Aes.Nr, Spec.Aes.Nk; destruct Hs as [-> | [-> | ->]]; cbn; lia).
    split; [lia|]. unfold len. rewrite map_length, Hl. lia.
  - intros H. unfold aes_ok. rewrite H. exact I.
Qed.

Lemma aes_talk T n calls : (62 <= n)%nat -> forall a k, Aes.holds a k -> Forall aes_call_ok calls ->
  talk T n "aes::AES" (map aes_invocation calls) (aes_val a) =
  Ret (map aes_value (BlockCipher.replies k calls)).
Proof.
  intros Hn. induction calls as [|c cs IH]; intros a k Ha Hc; [reflexivity|].
  inversion Hc as [|? ? Hc1 Hcs]; subst. cbn [map talk BlockCipher.replies].
  destruct (Aes.aes_call_step a k c Hc1 Ha) as (a' & E & Ha').
  destruct (BlockCipher.step k c) as [r k'] eqn:Es. cbn [fst snd map] in *.
  destruct c as [key|b|b]; cbn [aes_invocation aes_call aes_call_ok] in *.
  - change ("aes::AES" ++ "::" ++ "init")%string with "aes::AES::init".
    rewrite src_aes_init by assumption. destruct (aes_init a key) as [[x a'']| |]; try discriminate E.
    cbn [bind] in *. injection E as <- ->. rewrite (IH a' k') by assumption. cbn [bind].
    destruct x as [[]|[]]; reflexivity.
  - change ("aes::AES" ++ "::" ++ "encrypt")%string with "aes::AES::encrypt".
    rewrite src_aes_encrypt by (first [lia | exact (holds_ok _ _ Ha) | unfold len; rewrite (proj2 Hc1); reflexivity]).
    destruct (aes_encrypt a b) as [x| |]; try discriminate E.
    cbn [bind] in *. injection E as <- ->. rewrite (IH a' k') by assumption. cbn [bind].
    destruct x as [x|[]]; reflexivity.
  - change ("aes::AES" ++ "::" ++ "decrypt")%string with "aes::AES::decrypt".
    rewrite src_aes_decrypt by (first [lia | exact (holds_ok _ _ Ha) | unfold len; rewrite (proj2 Hc1); reflexivity]).
    destruct (aes_decrypt a b) as [x| |]; try discriminate E.
    cbn [bind] in *. injection E as <- ->. rewrite (IH a' k') by assumption. cbn [bind].
    destruct x as [x|[]]; reflexivity.
Qed.
Lemma aes_object T fuel calls : (62 <= fuel)%nat -> Forall aes_call_ok calls ->
  object T fuel "aes::AES" [] (map aes_invocation calls) =
  Ret (map aes_value (BlockCipher.replies None calls)).
Proof.
  intros Hf Hc. unfold object. change ("aes::AES" ++ "::new")%string with "aes::AES::new".
  rewrite src_aes_new by lia. cbn [bind]. apply aes_talk; [assumption|reflexivity|assumption].
Qed.

(** * CBC *)

(** A slice of bytes fits half the address space; so does it with the less than
    a block that is pending. *)
Definition call_fits (T : target) (c : Stream.call) : Prop :=
  match c with Stream.Write d => len d + 16 <= isize_max T | _ => True end.

Lemma c_rel_ok c s : AesCbc.c_rel c s -> cipher_ok c.
Proof.
  intros [Hk Hp Hi [_ Hb] _ _]. split; [exact (holds_ok _ _ Hk)|]. rewrite Hp, Hi.
  split; [reflexivity|]. unfold len. rewrite Hb. reflexivity.
Qed.
Lemma c_rel_short T c s d : AesCbc.c_rel c s -> call_fits T (Stream.Write d) ->
  len (pad_storage (c_pad c)) + len d <= isize_max T.
Proof.
  intros [_ Hp _ _ _ Hs] Hf. rewrite Hp. cbn [pad_storage call_fits] in *. unfold len in *. lia.
Qed.

Lemma cipher_talk T n calls : (63 <= n)%nat -> forall c s, AesCbc.c_rel c s ->
  Forall stream_call_ok calls -> Forall (call_fits T) calls ->
  talk T n "aes_cbc::Cipher" (map stream_invocation calls) (cipher_val c) =
  Ret (map cipher_value (fst (Stream.run Stream.cipher_step s calls))).
Proof.
  intros Hn. induction calls as [|x xs IH]; intros c s Hr Hc Hf; [reflexivity|].
  inversion Hc as [|? ? Hc1 Hcs]; subst. inversion Hf as [|? ? Hf1 Hfs]; subst.
  cbn [map talk Stream.run].
  destruct (AesCbc.cipher_step_ok T c s x Hc1 Hr) as (c' & E & Hr').
  pose proof (c_rel_ok _ _ Hr) as Hok.
  destruct (Stream.cipher_step s x) as [r s'] eqn:Es. cbn [fst snd] in *.
  destruct x as [key|b|]; cbn [stream_invocation cipher_call stream_call_ok] in *.
  - change ("aes_cbc::Cipher" ++ "::" ++ "init")%string with "aes_cbc::Cipher::init".
    rewrite src_cipher_init by assumption. destruct (cipher_init c key) as [[y c'']| |]; try discriminate E.
    cbn [bind] in *. injection E as <- ->. rewrite (IH c' s') by assumption. cbn [bind].
    destruct (Stream.run _ s' xs). destruct y as [[]|[]]; reflexivity.
  - change ("aes_cbc::Cipher" ++ "::" ++ "write")%string with "aes_cbc::Cipher::write".
    rewrite src_cipher_write by (first [lia | assumption | exact (c_rel_short T c s b Hr Hf1)]).
    destruct (cipher_write T c b) as [[y c'']| |]; try discriminate E.
    cbn [bind] in *. injection E as <- ->. rewrite (IH c' s') by assumption. cbn [bind].
    destruct (Stream.run _ s' xs). destruct y as [y|[]]; reflexivity.
  - change ("aes_cbc::Cipher" ++ "::" ++ "flush")%string with "aes_cbc::Cipher::flush".
    rewrite src_cipher_flush by (first [lia | assumption]).
    destruct (cipher_flush T c) as [[y c'']| |]; try discriminate E.
    cbn [bind] in *. injection E as <- ->. rewrite (IH c' s') by assumption. cbn [bind].
    destruct (Stream.run _ s' xs). destruct y as [y|[]]; reflexivity.
Qed.
Lemma cipher_object T fuel iv calls : (63 <= fuel)%nat -> octets iv -> List.length iv = 16%nat ->
  Forall stream_call_ok calls -> Forall (call_fits T) calls ->
  object T fuel "aes_cbc::Cipher" [VNums U8 iv] (map stream_invocation calls) =
  Ret (map cipher_value (fst (Stream.run Stream.cipher_step (Stream.new_cipher iv) calls))).
Proof.
  intros Hf Ho Hl Hc Hfit. unfold object.
  change ("aes_cbc::Cipher" ++ "::new")%string with "aes_cbc::Cipher::new".
  rewrite src_cipher_new by lia.
  destruct (AesCbc.cipher_new_ok T iv (conj Ho Hl)) as (c & -> & Hr). cbn [bind].
  apply cipher_talk; assumption.
Qed.

Lemma d_rel_ok c s : AesCbc.d_rel c s -> decipher_ok c.
Proof.
  intros [Hk _ _ Hi [_ Hb] _ _ _ _]. split; [exact (holds_ok _ _ Hk)|]. rewrite Hi.
  unfold len. rewrite Hb. reflexivity.
Qed.
Lemma d_rel_short T c s d : AesCbc.d_rel c s -> call_fits T (Stream.Write d) ->
  len (pad_storage (d_buffer c)) + len d <= isize_max T.
Proof.
  intros [_ Hp _ _ _ _ Hs _ _] Hf. rewrite Hp. cbn [pad_storage call_fits] in *. unfold len in *. lia.
Qed.
(** Which call can get which error. *)
Lemma init_replies s key : fst (Stream.decipher_step s (Stream.Init key)) = Stream.Accepted \/
  fst (Stream.decipher_step s (Stream.Init key)) = Stream.BadKeySize.
Proof. cbn [Stream.decipher_step]. destruct (BlockCipher.key_size_ok key); auto. Qed.
Lemma write_replies s d : fst (Stream.decipher_step s (Stream.Write d)) <> Stream.BadKeySize.
Proof.
  cbn [Stream.decipher_step]. destruct (Nat.ltb _ _); [discriminate|].
  destruct (Stream.d_key s); discriminate.
Qed.
Lemma flush_replies s : fst (Stream.decipher_step s Stream.Flush) <> Stream.BadKeySize.
Proof. cbn [Stream.decipher_step]. destruct (Stream.strip _ _); discriminate. Qed.

Lemma decipher_talk T n calls : (63 <= n)%nat -> forall c s, AesCbc.d_rel c s ->
  Forall stream_call_ok calls -> Forall (call_fits T) calls ->
  talk T n "aes_cbc::Decipher" (map stream_invocation calls) (decipher_val c) =
  Ret (map decipher_value (fst (Stream.run Stream.decipher_step s calls))).
Proof.
  intros Hn. induction calls as [|x xs IH]; intros c s Hr Hc Hf; [reflexivity|].
  inversion Hc as [|? ? Hc1 Hcs]; subst. inversion Hf as [|? ? Hf1 Hfs]; subst.
  cbn [map talk Stream.run].
  destruct (AesCbc.decipher_step_ok T c s x Hc1 Hr) as (c' & E & Hr').
  pose proof (d_rel_ok _ _ Hr) as Hok.
  pose proof (init_replies s) as Ri. pose proof (write_replies s) as Rw. pose proof (flush_replies s) as Rf.
  destruct x as [key|b|]; [specialize (Ri key); clear Rw Rf|specialize (Rw b); clear Ri Rf|clear Ri Rw];
    match goal with |- context [Stream.decipher_step s ?x] =>
      destruct (Stream.decipher_step s x) as [r s'] eqn:Es end; cbn [fst snd] in *;
    cbn [stream_invocation decipher_call stream_call_ok] in *.
  - change ("aes_cbc::Decipher" ++ "::" ++ "init")%string with "aes_cbc::Decipher::init".
    rewrite src_decipher_init by assumption. destruct (decipher_init c key) as [[y c'']| |]; try discriminate E.
    cbn [bind] in *. injection E as <- ->. rewrite (IH c' s') by assumption. cbn [bind].
    destruct (Stream.run _ s' xs). destruct y as [[]|[]]; try reflexivity.
    destruct Ri as [Ri|Ri]; discriminate Ri.
  - change ("aes_cbc::Decipher" ++ "::" ++ "write")%string with "aes_cbc::Decipher::write".
    rewrite src_decipher_write by (first [lia | assumption | exact (d_rel_short T c s b Hr Hf1)]).
    destruct (decipher_write T c b) as [[y c'']| |]; try discriminate E.
    cbn [bind] in *. injection E as <- ->. rewrite (IH c' s') by assumption. cbn [bind].
    destruct (Stream.run _ s' xs). destruct y as [y|[[]|[]]]; try reflexivity. contradiction Rw; reflexivity.
  - change ("aes_cbc::Decipher" ++ "::" ++ "flush")%string with "aes_cbc::Decipher::flush".
    rewrite src_decipher_flush by lia.
    destruct (decipher_flush T c) as [[y c'']| |]; try discriminate E.
    cbn [bind] in *. injection E as <- ->. rewrite (IH c' s') by assumption. cbn [bind].
    destruct (Stream.run _ s' xs). destruct y as [y|[[]|[]]]; try reflexivity. contradiction Rf; reflexivity.
Qed.
Lemma decipher_object T fuel iv calls : (63 <= fuel)%nat -> octets iv -> List.length iv = 16%nat ->
  Forall stream_call_ok calls -> Forall (call_fits T) calls ->
  object T fuel "aes_cbc::Decipher" [VNums U8 iv] (map stream_invocation calls) =
  Ret (map decipher_value (fst (Stream.run Stream.decipher_step (Stream.new_decipher iv) calls))).
Proof.
  intros Hf Ho Hl Hc Hfit. unfold object.
  change ("aes_cbc::Decipher" ++ "::new")%string with "aes_cbc::Decipher::new".
  rewrite src_decipher_new by lia.
  destruct (AesCbc.decipher_new_ok T iv (conj Ho Hl)) as (c & -> & Hr). cbn [bind].
  apply decipher_talk; assumption.
Qed.
