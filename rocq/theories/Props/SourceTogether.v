(** C112: the text of scrypt.rs and of aes_cbc.rs used together, as in
    Props/Source.v: a passphrase makes the key a message is encrypted under. *)
From Coq Require Import NArith String List Bool Arith Lia.
From Verif Require Import Rust.
From Verif.Source Require Import Syntax Interp Tree Calls Objects.
From Verif.Spec Require Import Octets.
From Verif.Spec Require Sha256 Hmac Pbkdf2 Scrypt Aes Cbc.
From Verif.Proofs Require Base Sha256Main Scrypt.
From Verif.Props Require Scrypt AesCbc SourceScrypt SourceCipher.
Import Props.Scrypt (admissible, sizes_ok).
Import Props.AesCbc (good_key, good_block).
Import Props.SourceCipher (whole_message, success).
Import ListNotations.
Local Open Scope string_scope.
Local Open Scope N_scope.
Local Open Scope list_scope.
Local Opaque run object derivation.

(** Scrypt::new(r, n, p).derive(passphrase, salt, &mut out), and, if that is Ok,
    the calls of a whole message on a new Cipher or Decipher with [out] as its key;
    the values all calls return. *)
Definition keyed (T : target) (fuel : nat) (type : string) (r n p : N) (passphrase salt out iv : list N)
    (chunks : list (list N)) : res (list val) :=
  let* (v, key) := derivation T fuel r n p passphrase salt out in
  match v, key with
  | VCon "Ok" [VUnit], VNums U8 k => object T fuel type [VNums U8 iv] (whole_message k chunks)
  | _, _ => Ret [v]
  end.
Definition seal (T : target) (fuel : nat) := keyed T fuel "aes_cbc::Cipher".
Definition open (T : target) (fuel : nat) := keyed T fuel "aes_cbc::Decipher".

(** The sizes the calls need: those of C107 and C106. *)
Definition pieces_fit (T : target) (chunks : list (list N)) : Prop :=
  Forall (fun d => N.of_nat (List.length d) + 16 <= isize_max T) chunks.
Definition key_length (out : list N) : Prop :=
  List.length out = 16%nat \/ List.length out = 24%nat \/ List.length out = 32%nat.
Definition scrypt_key (r n p : N) (P S out : list N) : list N :=
  Spec.Scrypt.scrypt P S n (N.to_nat r) (N.to_nat p) (List.length out).

Lemma good_scrypt_key r n p P S out : key_length out -> good_key (scrypt_key r n p P S out).
Proof.
  intros H. split; [apply Proofs.Scrypt.octets_scrypt|].
  unfold Spec.Aes.valid_key_size, scrypt_key. rewrite Proofs.Scrypt.scrypt_length. exact H.
Qed.

Lemma keyed_key T fuel type r n p P S out iv chunks : (8 <= fuel)%nat ->
  admissible r n p -> octets P -> octets S -> sizes_ok T r n p P S out ->
  keyed T fuel type r n p P S out iv chunks =
  object T fuel type [VNums U8 iv] (whole_message (scrypt_key r n p P S out) chunks).
Proof.
  intros Hf Ha HP HS Hs. unfold keyed.
  rewrite Props.SourceScrypt.C107_text_scrypt by assumption. reflexivity.
Qed.

(** C112. The text encrypts a message in any pieces under the key the draft
    derives from the passphrase, whatever the buffer held before. *)
Theorem C112_seals : forall T fuel r n p P S out iv chunks, (63 <= fuel)%nat ->
  admissible r n p -> octets P -> octets S -> sizes_ok T r n p P S out -> key_length out ->
  good_block iv -> Forall octets chunks -> pieces_fit T chunks ->
  exists outs b,
    seal T fuel r n p P S out iv chunks = Ret (success outs b) /\
    concat outs ++ b = Cbc.aes_cbc_encrypt (scrypt_key r n p P S out) iv (concat chunks) /\
    List.length outs = List.length chunks.
Proof.
  intros T fuel r n p P S out iv chunks Hf Ha HP HS Hs Hl Hiv Hc Hp. unfold seal.
  rewrite keyed_key by (assumption || lia).
  apply Props.SourceCipher.C106_text_encrypts; try assumption. apply good_scrypt_key. exact Hl.
Qed.
Print Assumptions C112_seals.

(** scrypt sees of a passphrase only the block HMAC makes of it. *)
Lemma hmac_block_key P P' t : Spec.Hmac.block_key P = Spec.Hmac.block_key P' ->
  Spec.Hmac.hmac P t = Spec.Hmac.hmac P' t.
Proof. intros H. unfold Spec.Hmac.hmac. rewrite H. reflexivity. Qed.
Lemma U_block_key P P' S i j : Spec.Hmac.block_key P = Spec.Hmac.block_key P' ->
  Spec.Pbkdf2.U P S i j = Spec.Pbkdf2.U P' S i j.
Proof.
  intros H. induction j as [|j IH]; cbn [Spec.Pbkdf2.U]; [|rewrite IH]; apply hmac_block_key; exact H.
Qed.
Lemma F_block_key P P' S i k : Spec.Hmac.block_key P = Spec.Hmac.block_key P' ->
  Spec.Pbkdf2.F_upto P S i k = Spec.Pbkdf2.F_upto P' S i k.
Proof.
  intros H. induction k as [|k IH]; cbn [Spec.Pbkdf2.F_upto]; [apply U_block_key; exact H|].
  rewrite IH, (U_block_key P P') by exact H. reflexivity.
Qed.
Lemma pbkdf2_block_key P P' S c l : Spec.Hmac.block_key P = Spec.Hmac.block_key P' ->
  Spec.Pbkdf2.pbkdf2 P S c l = Spec.Pbkdf2.pbkdf2 P' S c l.
Proof.
  intros H. unfold Spec.Pbkdf2.pbkdf2, Spec.Pbkdf2.F. f_equal. apply flat_map_ext. intros i.
  apply F_block_key. exact H.
Qed.
Lemma scrypt_block_key r n p P P' S out : Spec.Hmac.block_key P = Spec.Hmac.block_key P' ->
  scrypt_key r n p P S out = scrypt_key r n p P' S out.
Proof.
  intros H. unfold scrypt_key, Spec.Scrypt.scrypt.
  rewrite (pbkdf2_block_key P P' S 1 _ H), (pbkdf2_block_key P P' _ 1 _ H). reflexivity.
Qed.

(** What was sealed is opened, on any target, into any buffer of the same length
    and cut into any pieces, by every passphrase HMAC makes the same block of. *)
Theorem C112_opens : forall T T' fuel fuel' r n p P P' S out out' iv chunks outs b chunks',
  (63 <= fuel)%nat -> (63 <= fuel')%nat ->
  admissible r n p -> octets P -> octets P' -> octets S ->
  sizes_ok T r n p P S out -> sizes_ok T' r n p P' S out' ->
  key_length out -> List.length out' = List.length out ->
  good_block iv -> Forall octets chunks -> pieces_fit T chunks -> pieces_fit T' chunks' ->
  Spec.Hmac.block_key P = Spec.Hmac.block_key P' ->
  seal T fuel r n p P S out iv chunks = Ret (success outs b) ->
  concat chunks' = concat outs ++ b ->
  exists outs' m,
    open T' fuel' r n p P' S out' iv chunks' = Ret (success outs' m) /\
    concat outs' ++ m = concat chunks.
Proof.
  intros T T' fuel fuel' r n p P P' S out out' iv chunks outs b chunks' Hf Hf' Ha HP HP' HS Hs Hs' Hl Hl'
    Hiv Hc Hp Hp' Hb E Hcut.
  unfold seal in E. rewrite keyed_key in E by (assumption || lia).
  unfold open. rewrite keyed_key by (assumption || lia).
  replace (scrypt_key r n p P' S out') with (scrypt_key r n p P S out).
  2:{ rewrite (scrypt_block_key r n p P P') by exact Hb. unfold scrypt_key. rewrite Hl'. reflexivity. }
  eapply Props.SourceCipher.C106_text_round_trip with (T := T) (fuel := fuel); try eassumption.
  apply good_scrypt_key. exact Hl.
Qed.
Print Assumptions C112_opens.

(** So the passphrase that sealed a message is not the only one that opens it: for
    every passphrase of another length than 64 there is a second one. *)
Definition second (P : list N) : list N :=
  if (64 <? List.length P)%nat then Spec.Sha256.sha256 P else P ++ [0].

Lemma second_block_key P : List.length P <> 64%nat ->
  Spec.Hmac.block_key (second P) = Spec.Hmac.block_key P.
Proof.
  intros H. unfold second. destruct (Nat.ltb_spec 64 (List.length P)) as [H1|H1]; unfold Spec.Hmac.block_key.
  - rewrite (proj2 (Nat.ltb_lt _ _) H1). rewrite Proofs.Sha256Main.spec_sha256_length.
    change (64 <? 32)%nat with false. cbv iota. rewrite Proofs.Sha256Main.spec_sha256_length. reflexivity.
  - rewrite app_length. cbn [List.length].
    rewrite (proj2 (Nat.ltb_ge 64 (List.length P + 1))) by lia.
    rewrite (proj2 (Nat.ltb_ge 64 (List.length P))) by lia.
    rewrite app_length. cbn [List.length]. rewrite <- app_assoc. f_equal.
    replace (64 - List.length P)%nat with (Datatypes.S (64 - (List.length P + 1))) by lia. reflexivity.
Qed.
Lemma second_other P : second P <> P.
Proof.
  unfold second. destruct (Nat.ltb_spec 64 (List.length P)) as [H|H]; intros E;
    apply (f_equal (@List.length N)) in E.
  - rewrite Proofs.Sha256Main.spec_sha256_length in E. lia.
  - rewrite app_length in E. cbn [List.length] in E. lia.
Qed.

Theorem C112_one_passphrase_refuted : forall T fuel r n p P S out iv chunks,
  (63 <= fuel)%nat -> admissible r n p -> octets P -> List.length P <> 64%nat -> octets S ->
  sizes_ok T r n p P S out -> 8 * 64 < usize_mod T -> key_length out ->
  good_block iv -> Forall octets chunks -> pieces_fit T chunks ->
  exists P' outs b, P' <> P /\ octets P' /\
    seal T fuel r n p P S out iv chunks = Ret (success outs b) /\
    forall chunks', pieces_fit T chunks' -> concat chunks' = concat outs ++ b ->
    exists outs' m, open T fuel r n p P' S out iv chunks' = Ret (success outs' m) /\
      concat outs' ++ m = concat chunks.
Proof.
  intros T fuel r n p P S out iv chunks Hf Ha HP Hn HS Hs HT Hl Hiv Hc Hp.
  destruct (C112_seals T fuel r n p P S out iv chunks) as (outs & b & E & _); try assumption.
  assert (HP' : octets (second P)).
  { unfold second. destruct (64 <? List.length P)%nat; [apply Proofs.Sha256Main.octets_spec_sha256|].
    apply Forall_app. split; [exact HP|]. repeat constructor. }
  exists (second P), outs, b. split; [apply second_other|]. split; [exact HP'|]. split; [exact E|].
  intros chunks' Hp' Hcut.
  apply (C112_opens T T fuel fuel r n p P (second P) S out out iv chunks outs b); try assumption; try reflexivity.
  - destruct Hs as (H1 & H2). split; [|exact H2].
    enough (List.length (second P) <= 64)%nat by lia.
    unfold second. destruct (Nat.ltb_spec 64 (List.length P)).
    + rewrite Proofs.Sha256Main.spec_sha256_length. lia.
    + rewrite app_length. cbn [List.length]. lia.
  - symmetry. apply second_block_key. exact Hn.
Qed.
Print Assumptions C112_one_passphrase_refuted.

(** With parameters scrypt refuses, nothing is encrypted or decrypted: the error is
    all there is. *)
Theorem C112_refused : forall T fuel type r n p P S out iv chunks, (8 <= fuel)%nat ->
  r = 0 \/ (forall k, n <> 2 ^ k) \/ p = 0 ->
  exists e, keyed T fuel type r n p P S out iv chunks = Ret [VCon "Err" [VCon e []]].
Proof.
  intros T fuel type r n p P S out iv chunks Hf H. unfold keyed.
  pose proof (fun e => Props.SourceScrypt.C107_text_rejects T fuel r n p P S out e (VNums U8 out) Hf) as R.
  assert (X : exists e, derivation T fuel r n p P S out = Ret (VCon "Err" [VCon e []], VNums U8 out)).
  { destruct (N.eq_dec r 0) as [Hr|Hr]; [eexists; apply R; split; [reflexivity|]; left; auto|].
    destruct (N.eq_dec n 0) as [Hn|Hn]; [eexists; apply R; split; [reflexivity|]; right; left; auto|].
    assert (D : (exists k, n = 2 ^ k) \/ (forall k, n <> 2 ^ k)).
    { destruct (N.eq_dec n (2 ^ N.log2 n)) as [E|E]; [left; eexists; exact E|].
      right. intros k ->. apply E. rewrite N.log2_pow2 by lia. reflexivity. }
    destruct D as [D|D].
    - destruct H as [H|[H|H]]; [contradiction| |].
      + destruct D as [k D]. destruct (H k D).
      + eexists; apply R; split; [reflexivity|]; do 3 right; auto.
    - eexists; apply R; split; [reflexivity|]; do 2 right; left; auto. }
  destruct X as [e ->]. exists e. reflexivity.
Qed.
Print Assumptions C112_refused.

(** A passphrase "pw" with the salt "salt" and a message of three octets, through a
    buffer that is not clear; the ciphertext; and the passphrase with a zero. *)
Example C112_example :
  let T := mkTarget W64 true in
  let msg := [[1]; [2; 3]] in
  exists outs b,
    seal T 63 1 2 1 [112; 119] [115; 97; 108; 116] (repeat 7 16) (repeat 0 16) msg = Ret (success outs b) /\
    concat outs ++ b = be_octets 16 0xe851349e2c0a09d13ff3145e1c2a0211 /\
    (exists outs' m,
      open (mkTarget W32 false) 63 1 2 1 [112; 119; 0] [115; 97; 108; 116] (repeat 9 16) (repeat 0 16)
        [concat outs ++ b] = Ret (success outs' m) /\ concat outs' ++ m = [1; 2; 3]) /\
    open T 63 0 2 1 [112; 119] [115; 97; 108; 116] (repeat 7 16) (repeat 0 16) msg =
      Ret [VCon "Err" [VCon "scrypt::ScryptError::RIsTooSmall" []]].
Proof.
  intros T msg.
  assert (Ha : admissible 1 2 1) by (split; [lia|split; [exists 1; reflexivity|lia]]).
  assert (HP : octets [112; 119]) by (repeat constructor).
  assert (HP' : octets [112; 119; 0]) by (repeat constructor).
  assert (HS : octets [115; 97; 108; 116]) by (repeat constructor).
  assert (Hs : sizes_ok T 1 2 1 [112; 119] [115; 97; 108; 116] (repeat 7 16))
    by (split; [|split; [|split; [|split]]]; vm_compute; (reflexivity || discriminate)).
  assert (Hs' : sizes_ok (mkTarget W32 false) 1 2 1 [112; 119; 0] [115; 97; 108; 116] (repeat 9 16))
    by (split; [|split; [|split; [|split]]]; vm_compute; (reflexivity || discriminate)).
  assert (Hl : key_length (repeat 7 16)) by (left; reflexivity).
  assert (Hiv : good_block (repeat 0 16)) by (split; [apply Proofs.Base.octets_repeat|]; reflexivity).
  assert (Hc : Forall octets msg) by (repeat constructor).
  assert (Hp : pieces_fit T msg) by (repeat constructor; vm_compute; discriminate).
  destruct (C112_seals T 63 1 2 1 _ _ _ _ msg ltac:(lia) Ha HP HS Hs Hl Hiv Hc Hp) as (outs & b & E & H & _).
  exists outs, b. split; [exact E|].
  assert (V : concat outs ++ b = be_octets 16 0xe851349e2c0a09d13ff3145e1c2a0211)
    by (rewrite H; vm_compute; reflexivity).
  split; [exact V|]. split.
  - apply (C112_opens T (mkTarget W32 false) 63 63 1 2 1 [112; 119] [112; 119; 0] [115; 97; 108; 116]
      (repeat 7 16) (repeat 9 16) (repeat 0 16) msg outs b); try assumption; try lia; try reflexivity.
    + constructor; [|constructor]. rewrite V. vm_compute. discriminate.
    + apply app_nil_r.
  - unfold open, keyed.
    rewrite (proj2 (Props.SourceScrypt.C107_text_rejects T 63 0 2 1 [112; 119] [115; 97; 108; 116] (repeat 7 16)
      "scrypt::ScryptError::RIsTooSmall" (VNums U8 (repeat 7 16)) ltac:(lia))); [reflexivity|].
    split; [reflexivity|]. left. split; reflexivity.
Qed.
