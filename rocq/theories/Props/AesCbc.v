(** C36-C46: AES in CBC mode with PKCS#7 padding. *)
From Coq Require Import NArith List Arith Lia Bool.
From Verif Require Import Rust Calls.
From Verif.Model Require Import Aes Pkcs7 AesCbc.
From Verif.Spec Require Octets Aes Cbc Stream BlockCipher.
From Verif.Proofs Require Import Base Bits.
From Verif.Proofs Require Stream AesCbc Messages Aes.
Import Spec.Octets Spec.Cbc.
Import Spec.Stream (call, reply, Init, Write, Flush, Accepted, Data, BadKeySize, NoKey, Unfinished,
  BadPadding, whole, rest, settled, held).
Import ListNotations.
Local Open Scope N_scope.

(** * Statements *)

Definition good_key (key : list N) : Prop := octets key /\ Spec.Aes.valid_key_size key.
(** [&[u8; 16]] *)
Definition good_block (b : list N) : Prop := octets b /\ length b = 16%nat.

(** init, one write per chunk, flush. *)
Definition message (chunks : list (list N)) : list call := map Write chunks ++ [Flush].
Definition session (key : list N) (chunks : list (list N)) : list call := Init key :: message chunks.

(** The CBC decryption of the complete blocks of [l]. *)
Definition raw (key iv l : list N) : list N :=
  concat (cbc_decrypt (Spec.Aes.InvCipher key) iv (blocks 16 l)).

(** * Lemmas *)

Lemma message_ok chunks : Forall octets chunks -> Forall stream_call_ok (message chunks).
Proof.
  intros H. apply Forall_app. split; [|repeat constructor].
  induction H; cbn; constructor; assumption.
Qed.
Lemma session_ok key chunks : good_key key -> Forall octets chunks ->
  Forall stream_call_ok (session key chunks).
Proof. intros [Hk _] H. constructor; [exact Hk|apply message_ok; assumption]. Qed.

Lemma init_keyed key iv xs : good_key key ->
  Stream.run Stream.cipher_step (Stream.new_cipher iv) (Init key :: xs) =
  let (rs, s) := Stream.run Stream.cipher_step (Stream.mkCipher (Some key) iv []) xs in
  (Accepted :: rs, s).
Proof.
  intros [_ Hs]. apply Proofs.Aes.key_size_ok_spec in Hs. cbn [Stream.run].
  cbn [Stream.cipher_step Stream.new_cipher]. rewrite Hs. reflexivity.
Qed.
Lemma init_dkeyed key iv xs : good_key key ->
  Stream.run Stream.decipher_step (Stream.new_decipher iv) (Init key :: xs) =
  let (rs, s) := Stream.run Stream.decipher_step (Stream.mkDecipher (Some key) iv [] []) xs in
  (Accepted :: rs, s).
Proof.
  intros [_ Hs]. apply Proofs.Aes.key_size_ok_spec in Hs. cbn [Stream.run].
  cbn [Stream.decipher_step Stream.new_decipher]. rewrite Hs. reflexivity.
Qed.

Lemma octets_firstn_concat (chunks : list (list N)) i : Forall octets chunks ->
  octets (concat (firstn i chunks)).
Proof.
  intros H. apply octets_concat. revert i. induction H; intros [|i]; cbn; constructor; auto.
Qed.
Lemma octets_concat' (chunks : list (list N)) : Forall octets chunks -> octets (concat chunks).
Proof. apply octets_concat. Qed.
Lemma chunks_octets (chunks : list (list N)) : octets (concat chunks) -> Forall octets chunks.
Proof.
  induction chunks as [|c cs IH]; intros H; constructor; cbn [concat] in H;
    apply octets_app in H; destruct H; [assumption|apply IH; assumption].
Qed.

Lemma enc_blocks key iv l : good_key key -> good_block iv -> octets l ->
  Forall Proofs.Stream.is_block (cbc_encrypt (Spec.Aes.Cipher key) iv (blocks 16 l)).
Proof.
  intros [Hk Hs] Hiv Hl. apply Proofs.Stream.cbc_encrypt_blocks; [|exact Hiv|].
  - intros b _. apply Proofs.AesCbc.Cipher_block; assumption.
  - apply Proofs.Stream.blocks_are_blocks. assumption.
Qed.
Lemma dec_blocks key iv l : good_key key -> good_block iv -> octets l ->
  Forall Proofs.Stream.is_block (cbc_decrypt (Spec.Aes.InvCipher key) iv (blocks 16 l)).
Proof.
  intros [Hk Hs] Hiv Hl. apply Proofs.Stream.cbc_decrypt_blocks; [|exact Hiv|].
  - intros b Hb. apply Proofs.AesCbc.InvCipher_block; assumption.
  - apply Proofs.Stream.blocks_are_blocks. assumption.
Qed.
Lemma enc_length key iv l : good_key key -> good_block iv -> octets l ->
  length (concat (cbc_encrypt (Spec.Aes.Cipher key) iv (blocks 16 l))) = (16 * (length l / 16))%nat.
Proof.
  intros Hk Hiv Hl. rewrite Proofs.Stream.concat_blocks_length by (apply enc_blocks; assumption).
  rewrite Proofs.Stream.cbc_encrypt_length, blocks_length. reflexivity.
Qed.
Lemma raw_length key iv l : good_key key -> good_block iv -> octets l ->
  length (raw key iv l) = (16 * (length l / 16))%nat.
Proof.
  intros Hk Hiv Hl. unfold raw.
  rewrite Proofs.Stream.concat_blocks_length by (apply dec_blocks; assumption).
  rewrite Proofs.Stream.cbc_decrypt_length, blocks_length. reflexivity.
Qed.
(** Decrypting an encryption of complete blocks. *)
Lemma raw_encrypt key iv l : good_key key -> good_block iv -> octets l -> (length l mod 16 = 0)%nat ->
  raw key iv (concat (cbc_encrypt (Spec.Aes.Cipher key) iv (blocks 16 l))) = l.
Proof.
  intros Hk Hiv Hl Hm. unfold raw.
  rewrite Proofs.Stream.blocks_concat_blocks by (apply enc_blocks; assumption).
  destruct Hk as [Hk Hs].
  rewrite Proofs.Stream.cbc_decrypt_encrypt;
    [|intros b _; apply Proofs.AesCbc.Cipher_block; assumption
     |intros b Hb; apply Proofs.AesCbc.InvCipher_Cipher_block; assumption
     |exact Hiv|apply Proofs.Stream.blocks_are_blocks; assumption].
  apply blocks_concat; [discriminate|assumption].
Qed.

Lemma data_inj a b x y : map Data a ++ [x] = map Data b ++ [y] -> b = a /\ y = x.
Proof.
  intros E. apply app_inj_tail in E. destruct E as [E ->]. split; [|reflexivity].
  revert b E. induction a as [|o os IH]; intros [|o1 os1] E; cbn [map] in E;
    try discriminate; [reflexivity|]. apply f_equal with (f := @tl reply) in E as E'.
  cbn [tl] in E'. rewrite (IH _ E'). f_equal. congruence.
Qed.
Lemma replies_inj {S} a b x y (c d : S) :
  Ret (Accepted :: map Data a ++ [x], c) = Ret (Accepted :: map Data b ++ [y], d) -> a = b /\ x = y.
Proof. intros E. apply data_inj. congruence. Qed.

Lemma encrypt_session T key iv chunks : good_key key -> good_block iv -> Forall octets chunks ->
  exists outs b c, cipher_run T iv (session key chunks) =
    Ret (Accepted :: map Data outs ++ [Data b], c) /\
    length outs = length chunks /\
    (forall i, (i <= length chunks)%nat ->
      concat (firstn i outs) =
      concat (cbc_encrypt (Spec.Aes.Cipher key) iv (blocks 16 (concat (firstn i chunks))))) /\
    concat outs ++ b = aes_cbc_encrypt key iv (concat chunks).
Proof.
  intros Hk Hiv Hc.
  destruct (Proofs.AesCbc.cipher_run_ok T iv (session key chunks) Hiv (session_ok _ _ Hk Hc))
    as (c & E & _).
  unfold session in *. rewrite init_keyed in E by assumption.
  destruct (Proofs.Messages.encrypt_message key iv chunks) as (outs & b & Er & H1 & H2 & H3).
  unfold message in *. rewrite Er in E. exists outs, b, c. auto.
Qed.

Lemma decrypt_session T key iv chunks : good_key key -> good_block iv -> Forall octets chunks ->
  exists outs d, decipher_run T iv (session key chunks) =
    Ret (Accepted :: map Data outs ++
         [Proofs.Messages.verdict_reply (Stream.strip 16 (held 16 (raw key iv (concat chunks))))], d) /\
    length outs = length chunks /\
    (forall i, (i <= length chunks)%nat ->
      concat (firstn i outs) = settled 16 (raw key iv (concat (firstn i chunks)))) /\
    concat outs = settled 16 (raw key iv (concat chunks)).
Proof.
  intros Hk Hiv Hc.
  destruct (Proofs.AesCbc.decipher_run_ok T iv (session key chunks) Hiv (session_ok _ _ Hk Hc))
    as (d & E & _).
  unfold session in *. rewrite init_dkeyed in E by assumption.
  destruct (Proofs.Messages.decrypt_session key iv chunks) as (outs & s & Er & H1 & H2 & H3 & _).
  unfold message in *. rewrite Er in E. exists outs, d. auto.
Qed.

(** * C37.  Encryption conforms, and emits every block as soon as it is complete. *)
Theorem C37_encrypt_conforms : forall T key iv chunks,
  good_key key -> good_block iv -> Forall octets chunks ->
  exists outs b c, cipher_run T iv (session key chunks) =
    Ret (Accepted :: map Data outs ++ [Data b], c) /\
    concat outs ++ b = aes_cbc_encrypt key iv (concat chunks) /\
    length (concat outs ++ b) = (16 * (length (concat chunks) / 16 + 1))%nat /\
    length outs = length chunks /\
    forall i, (i <= length chunks)%nat ->
      length (concat (firstn i outs)) = (16 * (length (concat (firstn i chunks)) / 16))%nat.
Proof.
  intros T key iv chunks Hk Hiv Hc.
  destruct (encrypt_session T key iv chunks Hk Hiv Hc) as (outs & b & c & E & H1 & H2 & H3).
  exists outs, b, c. split; [assumption|]. split; [assumption|]. split; [|split; [assumption|]].
  - rewrite H3. unfold aes_cbc_encrypt. rewrite enc_length; [|assumption|assumption|].
    + rewrite Proofs.Stream.pkcs7_pad_length by discriminate.
      rewrite (Nat.mul_comm 16 (_ + 1)), Nat.div_mul by discriminate. lia.
    + apply Proofs.Stream.octets_pkcs7_pad; [lia|apply octets_concat'; assumption].
  - intros i Hi. rewrite H2 by assumption. apply enc_length; [assumption|assumption|].
    apply octets_firstn_concat. assumption.
Qed.
Print Assumptions C37_encrypt_conforms.

(** RFC 3602, section 4, case 1: AES-128-CBC of "Single block msg"; the second
    block is the padding. *)
Definition rfc3602_key := be_octets 16 0x06a9214036b8a15b512e03d534120006.
Definition rfc3602_iv := be_octets 16 0x3dafba429d9eb430b422da802c9fac41.
Definition rfc3602_msg :=
  [0x53; 0x69; 0x6e; 0x67; 0x6c; 0x65; 0x20; 0x62; 0x6c; 0x6f; 0x63; 0x6b; 0x20; 0x6d; 0x73; 0x67].
Example C37_example : exists b c,
  good_key rfc3602_key /\ good_block rfc3602_iv /\
  cipher_run (mkTarget W64 true) rfc3602_iv
    (session rfc3602_key [firstn 5 rfc3602_msg; skipn 5 rfc3602_msg]) =
  Ret ([Accepted; Data []; Data (be_octets 16 0xe353779c1079aeb82708942dbe77181a); Data b], c) /\
  firstn 16 (aes_cbc_encrypt rfc3602_key rfc3602_iv rfc3602_msg) =
    be_octets 16 0xe353779c1079aeb82708942dbe77181a.
Proof.
  eexists _, _. split; [split; [apply octets_be_octets|vm_compute; auto]|].
  split; [split; [apply octets_be_octets|reflexivity]|].
  split; [vm_compute; reflexivity|]. vm_compute. reflexivity.
Qed.

(** * C38.  Round trip. *)
Theorem C38_round_trip : forall T T' key iv chunks outs b c chunks',
  good_key key -> good_block iv -> Forall octets chunks ->
  cipher_run T iv (session key chunks) = Ret (Accepted :: map Data outs ++ [Data b], c) ->
  concat chunks' = concat outs ++ b ->
  exists outs' m d,
    decipher_run T' iv (session key chunks') = Ret (Accepted :: map Data outs' ++ [Data m], d) /\
    concat outs' ++ m = concat chunks.
Proof.
  intros T T' key iv chunks outs b c chunks' Hk Hiv Hc E Hcut.
  destruct (encrypt_session T key iv chunks Hk Hiv Hc) as (outs1 & b1 & c1 & E1 & _ & _ & H3).
  destruct (replies_inj _ _ _ _ _ _ (eq_trans (eq_sym E) E1)) as [<- Eb].
  assert (b = b1) as <- by congruence.
  set (m := concat chunks) in *.
  assert (Hm : octets m) by (apply octets_concat'; assumption).
  assert (Hp : octets (pkcs7_pad 16 m)) by (apply Proofs.Stream.octets_pkcs7_pad; [lia|assumption]).
  assert (Hct : octets (concat chunks')).
  { rewrite Hcut, H3. apply Proofs.Stream.is_blocks_octets, enc_blocks; assumption. }
  destruct (decrypt_session T' key iv chunks' Hk Hiv (chunks_octets _ Hct)) as (outs' & d & E' & _ & _ & Ho).
  assert (Hraw : raw key iv (concat chunks') = pkcs7_pad 16 m).
  { rewrite Hcut, H3. apply raw_encrypt; [assumption..|]. apply Proofs.Stream.pkcs7_pad_mod. discriminate. }
  rewrite Hraw in E', Ho.
  destruct (Proofs.Stream.stream_padded 16 m) as [S1 S2]; [discriminate|].
  rewrite S1 in E'. rewrite S2 in Ho. cbn [Proofs.Messages.verdict_reply] in E'.
  do 3 eexists. split; [exact E'|]. rewrite Ho. apply firstn_skipn.
Qed.
Print Assumptions C38_round_trip.

Example C38_example :
  let T := mkTarget W32 false in
  match cipher_run T rfc3602_iv (session rfc3602_key [rfc3602_msg; [1; 2; 3]]) with
  | Ret ([Accepted; Data o1; Data o2; Data b], _) =>
      let ct := o1 ++ o2 ++ b in
      match decipher_run T rfc3602_iv (session rfc3602_key [firstn 7 ct; skipn 7 ct]) with
      | Ret (rs, _) => rs = [Accepted; Data []; Data rfc3602_msg; Data [1; 2; 3]]
      | _ => False
      end
  | _ => False
  end.
Proof. vm_compute. reflexivity. Qed.

(** * C39.  Decryption of arbitrary input. *)
Theorem C39_decrypt_outcome : forall T key iv chunks,
  good_key key -> good_block iv -> Forall octets chunks ->
  let P := raw key iv (concat chunks) in
  exists outs final d,
    decipher_run T iv (session key chunks) = Ret (Accepted :: map Data outs ++ [final], d) /\
    length outs = length chunks /\
    (* everything but the last complete block is released, as soon as it is known *)
    (forall i, (i <= length chunks)%nat ->
      concat (firstn i outs) =
      firstn (16 * (length (concat (firstn i chunks)) / 16 - 1)) (raw key iv (concat (firstn i chunks)))) /\
    (* flush *)
    (final = Unfinished <-> (length (concat chunks) < 16)%nat) /\
    (forall m, final = Data m <->
       (16 <= length (concat chunks))%nat /\
       exists n, (n <= 16)%nat /\ last P 256 = N.of_nat n /\
         P = (concat outs ++ m) ++ repeat (N.of_nat n) n) /\
    (final = BadPadding <->
       (16 <= length (concat chunks))%nat /\ forall m, final <> Data m).
Proof.
  intros T key iv chunks Hk Hiv Hc P.
  destruct (decrypt_session T key iv chunks Hk Hiv Hc) as (outs & d & E & Hl & Ho & Hall).
  exists outs. eexists. exists d. split; [exact E|]. split; [assumption|].
  assert (Hoct : forall i, octets (concat (firstn i chunks)))
    by (intros i; apply octets_firstn_concat; assumption).
  fold P in Hall. fold P.
  pose proof (raw_length key iv (concat chunks) Hk Hiv (octets_concat' _ Hc)) as HL. fold P in HL.
  pose proof (Nat.div_mod (length (concat chunks)) 16 ltac:(discriminate)) as DM.
  pose proof (Nat.mod_upper_bound (length (concat chunks)) 16 ltac:(discriminate)) as MU.
  assert (Hne : P <> [] <-> (16 <= length (concat chunks))%nat).
  { split.
    - intros H. destruct P; [contradiction|]. cbn [length] in HL. lia.
    - intros H ->. cbn [length] in HL. lia. }
  assert (Hmod : (length P mod 16 = 0)%nat).
  { rewrite HL, Nat.mul_comm. apply Nat.mod_mul. discriminate. }
  split; [|split; [|split]].
  - intros i Hi. rewrite Ho by assumption. unfold settled.
    rewrite raw_length by auto. f_equal. f_equal.
    set (q := (length (concat (firstn i chunks)) / 16)%nat). destruct q as [|q]; [reflexivity|].
    replace (16 * S q - 1)%nat with (15 + q * 16)%nat by lia.
    rewrite Nat.div_add by discriminate. cbn. lia.
  - pose proof (Proofs.Stream.stream_incomplete 16 P ltac:(discriminate)) as HI.
    assert (HI' : Stream.strip 16 (held 16 P) = Stream.Incomplete <-> (length (concat chunks) < 16)%nat).
    { rewrite HI. split.
      - intros [H|H]; [|contradiction]. destruct (le_lt_dec 16 (length (concat chunks))) as [L|L]; [|assumption].
        apply Hne in L. contradiction.
      - intros L. left. destruct P as [|x P']; [reflexivity|]. assert (x :: P' <> []) as N0 by discriminate.
        apply Hne in N0. lia. }
    rewrite <- HI'. destruct (Stream.strip 16 (held 16 P)); cbn; split; congruence.
  - intros m. pose proof (Proofs.Stream.stream_stripped 16 P m ltac:(discriminate)) as HS.
    assert (HS' : Proofs.Messages.verdict_reply (Stream.strip 16 (held 16 P)) = Data m <->
                  Stream.strip 16 (held 16 P) = Stream.Stripped m).
    { destruct (Stream.strip 16 (held 16 P)); cbn; split; congruence. }
    rewrite HS', HS, Hne, Hall. unfold Stream.ends_with_pad. split.
    + intros (A & _ & n & B & C1 & C2). split; [assumption|]. exists n. auto.
    + intros (A & n & B & C1 & C2). split; [assumption|]. split; [assumption|]. exists n. auto.
  - pose proof (Proofs.Stream.stream_incomplete 16 P ltac:(discriminate)) as HI.
    destruct (Stream.strip 16 (held 16 P)) as [m| |]; cbn [Proofs.Messages.verdict_reply].
    + split; [discriminate|]. intros [_ H]. exfalso. apply (H m). reflexivity.
    + split; [discriminate|]. intros [H _]. apply Hne in H. destruct (proj1 HI eq_refl); contradiction.
    + split; [|reflexivity]. intros _. split; [|intros m; discriminate].
      apply Hne. intros E0. discriminate (proj2 HI (or_introl E0)).
Qed.
Print Assumptions C39_decrypt_outcome.

(** Two blocks of garbage, cut anywhere: the first is released, the second's
    padding is rejected. *)
Example C39_example : exists o d,
  decipher_run (mkTarget W64 false) rfc3602_iv (session rfc3602_key [repeat 1 20; repeat 2 12]) =
  Ret ([Accepted; Data []; Data o; BadPadding], d) /\ length o = 16%nat /\
  exists d', decipher_run (mkTarget W64 false) rfc3602_iv (session rfc3602_key [repeat 1 15]) =
  Ret ([Accepted; Data []; Unfinished], d').
Proof.
  eexists _, _. split; [vm_compute; reflexivity|]. split; [vm_compute; reflexivity|].
  eexists. vm_compute. reflexivity.
Qed.

(** * C36 for the decipher: any string of complete blocks ending in a zero byte is
    the decryption of a ciphertext that is accepted. *)
Theorem C36_decipher_accepts_final_zero : forall T key iv l,
  good_key key -> good_block iv -> octets l -> l <> [] -> (length l mod 16 = 0)%nat ->
  last l 256 = 0 ->
  let C := concat (cbc_encrypt (Spec.Aes.Cipher key) iv (blocks 16 l)) in
  (forall m, ~ pkcs7_valid 16 l m) /\
  exists o m d, decipher_run T iv (session key [C]) = Ret ([Accepted; Data o; Data m], d) /\ o ++ m = l.
Proof.
  intros T key iv l Hk Hiv Hl Hne Hmod Hlast C. split.
  { intros m (n & Hn & E & _). rewrite E, Proofs.Stream.last_app_repeat in Hlast by lia. lia. }
  assert (HC : octets C) by (apply Proofs.Stream.is_blocks_octets, enc_blocks; assumption).
  assert (HR : raw key iv (concat [C]) = l).
  { cbn [concat]. rewrite app_nil_r. apply raw_encrypt; assumption. }
  assert (HLC : length (concat [C]) = length l).
  { cbn [concat]. rewrite app_nil_r. unfold C. rewrite enc_length by assumption.
    pose proof (Nat.div_mod (length l) 16 ltac:(discriminate)). lia. }
  destruct (C39_decrypt_outcome T key iv [C] Hk Hiv ltac:(constructor; [assumption|constructor]))
    as (outs & final & d & E & Hlen & _ & HU & HD & HB).
  rewrite HR in HD.
  assert (H16 : (16 <= length (concat [C]))%nat).
  { rewrite HLC. destruct l; [contradiction|]. cbn [length] in *.
    destruct (le_lt_dec 16 (S (length l))) as [L|L]; [assumption|].
    rewrite Nat.mod_small in Hmod by assumption. discriminate. }
  destruct outs as [|o [|]]; try discriminate Hlen.
  assert (Hlo : exists m, o ++ m = l).
  { destruct (decrypt_session T key iv [C] Hk Hiv ltac:(constructor; [assumption|constructor]))
      as (outs1 & d1 & E1 & _ & _ & Hall).
    destruct (replies_inj _ _ _ _ _ _ (eq_trans (eq_sym E) E1)) as [<- _].
    rewrite HR in Hall. cbn [concat] in Hall. rewrite app_nil_r in Hall. rewrite Hall.
    exists (held 16 l). apply Proofs.Stream.settled_held. }
  destruct Hlo as [m Hom]. exists o, m, d. split; [|assumption].
  rewrite E. assert (final = Data m) as ->; [|reflexivity].
  apply HD. split; [assumption|]. exists 0%nat. split; [lia|]. split; [exact Hlast|].
  cbn [repeat concat]. rewrite !app_nil_r. auto.
Qed.
Print Assumptions C36_decipher_accepts_final_zero.

(** * C40.  "A ciphertext whose length is not a multiple of 16 is reported":
    refuted; the trailing bytes never matter. *)
Theorem C40_trailing_bytes_ignored : forall T key iv chunks t,
  good_key key -> good_block iv -> Forall octets chunks -> octets t ->
  (length (concat chunks) mod 16 + length t < 16)%nat ->
  exists outs final d d',
    decipher_run T iv (session key chunks) = Ret (Accepted :: map Data outs ++ [final], d) /\
    decipher_run T iv (session key (chunks ++ [t])) =
      Ret (Accepted :: map Data (outs ++ [[]]) ++ [final], d').
Proof.
  intros T key iv chunks t Hk Hiv Hc Ht Hs.
  assert (Hc' : Forall octets (chunks ++ [t])) by (apply Forall_app; auto).
  destruct (decrypt_session T key iv chunks Hk Hiv Hc) as (outs & d & E & Hl & Ho & Hall).
  exists outs. eexists. exists d.
  (* the machine on the longer history *)
  destruct (Proofs.AesCbc.decipher_run_ok T iv (session key (chunks ++ [t])) Hiv (session_ok _ _ Hk Hc'))
    as (d' & E' & _).
  exists d'. split; [exact E|]. rewrite E'. f_equal. f_equal.
  unfold session, message. rewrite init_dkeyed by assumption.
  rewrite map_app, <- app_assoc. cbn [map app].
  destruct (Proofs.Messages.decrypt_writes key chunks iv [] []) as (outs1 & E1 & Hl1 & Ho1); [cbn; lia..|].
  cbn [app] in *.
  rewrite Proofs.Messages.run_app, E1. cbn [fst snd Stream.run].
  rewrite Proofs.Messages.dwrite_keyed by (apply Proofs.Stream.held_le; discriminate).
  set (m := concat chunks) in *.
  assert (Hsh : (length (rest 16 m ++ t) < 16)%nat).
  { rewrite app_length, Proofs.Stream.rest_length by discriminate. assumption. }
  rewrite (Proofs.Messages.blocks_short 16 (rest 16 m ++ t)) by assumption.
  cbn [cbc_decrypt concat]. rewrite app_nil_r.
  assert (Hh : (length (held 16 (raw key iv m)) <= 16)%nat) by (apply Proofs.Stream.held_le; discriminate).
  unfold raw in Hh.
  destruct (Proofs.Stream.settled_short 16 _ ltac:(discriminate) Hh) as [-> ->].
  cbn [Stream.decipher_step Stream.d_held Stream.d_key Stream.d_chain Stream.d_fragment].
  assert (outs1 = outs) as ->.
  { (* both are the outputs of the same session *)
    assert (Es : fst (Stream.run Stream.decipher_step (Stream.new_decipher iv) (session key chunks)) =
                 Accepted :: map Data outs ++
                 [Proofs.Messages.verdict_reply (Stream.strip 16 (held 16 (raw key iv m)))]).
    { destruct (Proofs.AesCbc.decipher_run_ok T iv (session key chunks) Hiv (session_ok _ _ Hk Hc))
        as (d2 & E2 & _). rewrite E in E2. congruence. }
    unfold session, message in Es. rewrite init_dkeyed, Proofs.Messages.run_app, E1 in Es by assumption.
    cbn [fst snd] in Es. apply f_equal with (f := @tl reply) in Es. cbn [tl] in Es.
    revert Es. generalize (Stream.mkDecipher (Some key) (last (blocks 16 m) iv) (rest 16 m)
      (held 16 (concat (cbc_decrypt (Spec.Aes.InvCipher key) iv (blocks 16 m))))).
    intros s1. cbn [Stream.run]. destruct (Stream.decipher_step s1 Flush) as [r s3]. cbn [fst].
    intros Es. symmetry. apply (data_inj _ _ _ _ Es). }
  unfold raw. destruct (Stream.strip 16 _); cbn [fst Proofs.Messages.verdict_reply map];
    rewrite map_app; cbn [map]; rewrite <- app_assoc; reflexivity.
Qed.
Print Assumptions C40_trailing_bytes_ignored.

Theorem C40_reported_refuted :
  exists T key iv chunks o m d, good_key key /\ good_block iv /\ Forall octets chunks /\
    (length (concat chunks) mod 16 <> 0)%nat /\
    decipher_run T iv (session key chunks) = Ret ([Accepted; Data o; Data m], d).
Proof.
  exists (mkTarget W64 true), rfc3602_key, rfc3602_iv,
    [aes_cbc_encrypt rfc3602_key rfc3602_iv rfc3602_msg ++ repeat 0xff 15].
  eexists _, _, _. split; [split; [apply octets_be_octets|vm_compute; auto]|].
  split; [split; [apply octets_be_octets|reflexivity]|]. split; [|split].
  - constructor; [|constructor]. apply octets_app. split; [|apply octets_repeat; reflexivity].
    apply Proofs.Stream.is_blocks_octets, enc_blocks.
    + split; [apply octets_be_octets|vm_compute; auto].
    + split; [apply octets_be_octets|reflexivity].
    + apply Proofs.Stream.octets_pkcs7_pad; [lia|]. repeat constructor.
  - vm_compute. discriminate.
  - vm_compute. reflexivity.
Qed.
Print Assumptions C40_reported_refuted.

Example C40_example : exists d,
  decipher_run (mkTarget W64 true) rfc3602_iv
    (session rfc3602_key [aes_cbc_encrypt rfc3602_key rfc3602_iv rfc3602_msg ++ repeat 0xff 15]) =
  Ret ([Accepted; Data rfc3602_msg; Data []], d).
Proof. eexists. vm_compute. reflexivity. Qed.

(** * C42.  Histories. *)
Theorem C42_cipher_histories : forall T iv calls, good_block iv -> Forall stream_call_ok calls ->
  exists c, cipher_run T iv calls =
    Ret (fst (Stream.run Stream.cipher_step (Stream.new_cipher iv) calls), c).
Proof.
  intros T iv calls Hiv Hc.
  destruct (Proofs.AesCbc.cipher_run_ok T iv calls Hiv Hc) as (c & E & _). eauto.
Qed.
Print Assumptions C42_cipher_histories.
Theorem C42_decipher_histories : forall T iv calls, good_block iv -> Forall stream_call_ok calls ->
  exists d, decipher_run T iv calls =
    Ret (fst (Stream.run Stream.decipher_step (Stream.new_decipher iv) calls), d).
Proof.
  intros T iv calls Hiv Hc.
  destruct (Proofs.AesCbc.decipher_run_ok T iv calls Hiv Hc) as (c & E & _). eauto.
Qed.
Print Assumptions C42_decipher_histories.

(** Two messages, a change of key in between, a failed init and flushes of an
    empty decipher. *)
Example C42_example :
  (exists o1 o2 c, cipher_run (mkTarget W64 true) rfc3602_iv
    [Flush; Init rfc3602_key; Write [1]; Flush; Init [1]; Init (repeat 0 32); Flush] =
    Ret ([NoKey; Accepted; Data []; Data o1; BadKeySize; Accepted; Data o2], c) /\
    length o1 = 16%nat /\ length o2 = 16%nat) /\
  (exists d, decipher_run (mkTarget W64 true) rfc3602_iv
    [Flush; Write (repeat 0 16); Init rfc3602_key; Flush; Write (repeat 0 16); Flush; Flush] =
    Ret ([Unfinished; NoKey; Accepted; Unfinished; Data []; BadPadding; BadPadding], d)).
Proof.
  split.
  - do 3 eexists. split; [vm_compute; reflexivity|]. split; vm_compute; reflexivity.
  - eexists. vm_compute. reflexivity.
Qed.

(** * C41.  "A failed call loses no data": refuted, with what is lost. *)
Theorem C41_failed_call_has_no_effect_refuted :
  ~ (forall T iv x calls rs c, good_block iv -> Forall stream_call_ok (x :: calls) ->
       cipher_run T iv (x :: calls) = Ret (NoKey :: rs, c) ->
       exists c', cipher_run T iv calls = Ret (rs, c')).
Proof.
  intros H.
  set (T := mkTarget W64 true) in *.
  assert (E1 : exists o c, cipher_run T rfc3602_iv
      [Write (repeat 1 20); Init rfc3602_key; Write (repeat 1 12)] =
      Ret ([NoKey; Accepted; Data o], c) /\ length o = 16%nat)
    by (do 2 eexists; split; [vm_compute; reflexivity|reflexivity]).
  assert (E2 : exists c, cipher_run T rfc3602_iv [Init rfc3602_key; Write (repeat 1 12)] =
      Ret ([Accepted; Data []], c)) by (eexists; vm_compute; reflexivity).
  destruct E1 as (o & c & E1 & Ho), E2 as (c2 & E2).
  apply H in E1.
  - destruct E1 as (c' & E). rewrite E2 in E. assert (o = []) as -> by congruence. discriminate Ho.
  - split; [apply octets_be_octets|reflexivity].
  - constructor; [apply octets_repeat; reflexivity|].
    constructor; [apply octets_be_octets|]. constructor; [apply octets_repeat; reflexivity|constructor].
Qed.
Print Assumptions C41_failed_call_has_no_effect_refuted.

(** Neither is the data of the failed write kept for later. *)
Theorem C41_failed_write_keeps_data_refuted :
  ~ (forall T iv key d o c, good_block iv -> good_key key -> octets d ->
       cipher_run T iv [Write d; Init key; Flush] = Ret ([NoKey; Accepted; Data o], c) ->
       o = aes_cbc_encrypt key iv d).
Proof.
  intros H.
  assert (E : exists o c, cipher_run (mkTarget W64 true) rfc3602_iv
      [Write (repeat 1 16); Init rfc3602_key; Flush] =
      Ret ([NoKey; Accepted; Data o], c) /\ length o = 16%nat)
    by (do 2 eexists; split; [vm_compute; reflexivity|reflexivity]).
  destruct E as (o & c & E & Ho). apply H in E.
  - rewrite E in Ho. revert Ho. unfold aes_cbc_encrypt.
    rewrite enc_length;
      [|split; [apply octets_be_octets|vm_compute; auto]|split; [apply octets_be_octets|reflexivity]
       |apply Proofs.Stream.octets_pkcs7_pad; [lia|apply octets_repeat; reflexivity]].
    vm_compute. discriminate.
  - split; [apply octets_be_octets|reflexivity].
  - split; [apply octets_be_octets|vm_compute; auto].
  - apply octets_repeat. reflexivity.
Qed.
Print Assumptions C41_failed_write_keeps_data_refuted.

(** The complete blocks of a write before init are lost; only what follows them
    is kept.  Same for the decipher. *)
Theorem C41_failed_write_drops_blocks : forall T iv d calls,
  good_block iv -> octets d -> Forall stream_call_ok calls -> (16 <= length d)%nat ->
  exists rs c c',
    cipher_run T iv (Write d :: calls) = Ret (NoKey :: rs, c) /\
    cipher_run T iv (Write (rest 16 d) :: calls) = Ret (Data [] :: rs, c').
Proof.
  intros T iv d calls Hiv Hd Hc Hl.
  destruct (Proofs.AesCbc.cipher_run_ok T iv (Write d :: calls) Hiv ltac:(constructor; assumption))
    as (c & E & _).
  destruct (Proofs.AesCbc.cipher_run_ok T iv (Write (rest 16 d) :: calls) Hiv
    ltac:(constructor; [apply Proofs.Stream.octets_rest|]; assumption)) as (c' & E' & _).
  assert (Hr : (length (rest 16 d) < 16)%nat) by (apply Proofs.Stream.rest_lt; discriminate).
  cbn [Stream.run Stream.cipher_step Stream.new_cipher Stream.c_key Stream.c_chain Stream.c_pending app] in E, E'.
  destruct (Nat.ltb_spec (length d) 16); [lia|].
  destruct (Nat.ltb_spec (length (rest 16 d)) 16); [|lia].
  destruct (Stream.run Stream.cipher_step (Stream.mkCipher None iv (rest 16 d)) calls) as [rs s].
  cbn [fst] in E, E'. eauto.
Qed.
Print Assumptions C41_failed_write_drops_blocks.

Theorem C41_failed_flush_drops_pending : forall T iv d calls,
  good_block iv -> octets d -> Forall stream_call_ok calls -> (length d < 16)%nat ->
  exists rs c c',
    cipher_run T iv (Write d :: Flush :: calls) = Ret (Data [] :: NoKey :: rs, c) /\
    cipher_run T iv calls = Ret (rs, c').
Proof.
  intros T iv d calls Hiv Hd Hc Hl.
  destruct (Proofs.AesCbc.cipher_run_ok T iv (Write d :: Flush :: calls) Hiv
    ltac:(constructor; [|constructor; [exact I|]]; assumption)) as (c & E & _).
  destruct (Proofs.AesCbc.cipher_run_ok T iv calls Hiv Hc) as (c' & E' & _).
  cbn [Stream.run Stream.cipher_step Stream.new_cipher Stream.c_key Stream.c_chain Stream.c_pending app] in E.
  destruct (Nat.ltb_spec (length d) 16); [|lia].
  cbn [Stream.c_key Stream.c_chain Stream.c_pending] in E. unfold Stream.new_cipher in E'.
  destruct (Stream.run Stream.cipher_step (Stream.mkCipher None iv []) calls) as [rs s].
  cbn [fst] in E, E'. eauto.
Qed.
Print Assumptions C41_failed_flush_drops_pending.

Theorem C41_failed_decipher_write_drops_blocks : forall T iv d calls,
  good_block iv -> octets d -> Forall stream_call_ok calls -> (16 <= length d)%nat ->
  exists rs c c',
    decipher_run T iv (Write d :: calls) = Ret (NoKey :: rs, c) /\
    decipher_run T iv (Write (rest 16 d) :: calls) = Ret (Data [] :: rs, c').
Proof.
  intros T iv d calls Hiv Hd Hc Hl.
  destruct (Proofs.AesCbc.decipher_run_ok T iv (Write d :: calls) Hiv ltac:(constructor; assumption))
    as (c & E & _).
  destruct (Proofs.AesCbc.decipher_run_ok T iv (Write (rest 16 d) :: calls) Hiv
    ltac:(constructor; [apply Proofs.Stream.octets_rest|]; assumption)) as (c' & E' & _).
  assert (Hr : (length (rest 16 d) < 16)%nat) by (apply Proofs.Stream.rest_lt; discriminate).
  cbn [Stream.run Stream.decipher_step Stream.new_decipher Stream.d_key Stream.d_chain
       Stream.d_fragment Stream.d_held app] in E, E'.
  destruct (Nat.ltb_spec (length d) 16); [lia|].
  destruct (Nat.ltb_spec (length (rest 16 d)) 16); [|lia].
  destruct (Stream.run Stream.decipher_step (Stream.mkDecipher None iv (rest 16 d) []) calls) as [rs s].
  cbn [fst] in E, E'. eauto.
Qed.
Print Assumptions C41_failed_decipher_write_drops_blocks.

Example C41_example : exists o o' c c',
  cipher_run (mkTarget W64 true) rfc3602_iv
    [Write (repeat 1 20); Init rfc3602_key; Write (repeat 1 20); Flush] =
    Ret ([NoKey; Accepted; Data o; Data o'], c) /\
  cipher_run (mkTarget W64 true) rfc3602_iv [Init rfc3602_key; Write (repeat 1 24); Flush] =
    Ret ([Accepted; Data o; Data o'], c').
Proof. do 4 eexists. split; vm_compute; reflexivity. Qed.

(** * C43.  Several messages through one cipher and one decipher. *)
Definition messages (msgs : list (list (list N))) : list call := flat_map message msgs.
(** The replies to several messages: outputs of the writes and of the flush. *)
Definition message_replies (r : list (list N) * list N) : list reply :=
  map Data (fst r) ++ [Data (snd r)].
Definition reply_bytes (r : list (list N) * list N) : list N := concat (fst r) ++ snd r.

Lemma messages_ok msgs : Forall (Forall octets) msgs -> Forall stream_call_ok (messages msgs).
Proof.
  induction 1; cbn; [constructor|]. apply Forall_app. split; [apply message_ok; assumption|assumption].
Qed.

Lemma encrypt_messages key msgs : forall iv,
  exists rs s, Stream.run Stream.cipher_step (Stream.mkCipher (Some key) iv []) (messages msgs) =
    (flat_map message_replies rs, s) /\
    Forall2 (fun r cs => length (fst r) = length cs) rs msgs /\
    map reply_bytes rs =
      (fix go (iv : list N) (ms : list (list (list N))) :=
         match ms with
         | [] => []
         | m :: ms' =>
             let C := cbc_encrypt (Spec.Aes.Cipher key) iv (blocks 16 (pkcs7_pad 16 (concat m))) in
             concat C :: go (last C iv) ms'
         end) iv msgs.
Proof.
  induction msgs as [|m ms IH]; intros iv.
  - exists [], (Stream.mkCipher (Some key) iv []). repeat split. constructor.
  - destruct (Proofs.Messages.encrypt_message key iv m) as (outs & b & E & Hl & _ & Hb).
    destruct (IH (last (cbc_encrypt (Spec.Aes.Cipher key) iv (blocks 16 (pkcs7_pad 16 (concat m)))) iv))
      as (rs & s & E' & Hf & Hm).
    exists ((outs, b) :: rs), s. split; [|split].
    + unfold messages in *. cbn [flat_map]. unfold message in *.
      rewrite Proofs.Messages.run_app, E. cbn [fst snd]. rewrite E'. reflexivity.
    + constructor; assumption.
    + cbn [map]. rewrite Hm. f_equal. exact Hb.
Qed.

Lemma decrypt_messages key msgs : good_key key -> Forall (Forall octets) msgs ->
  forall iv msgs', good_block iv ->
  map (@concat N) msgs' =
      (fix go (iv : list N) (ms : list (list (list N))) :=
         match ms with
         | [] => []
         | m :: ms' =>
             let C := cbc_encrypt (Spec.Aes.Cipher key) iv (blocks 16 (pkcs7_pad 16 (concat m))) in
             concat C :: go (last C iv) ms'
         end) iv msgs ->
  exists rs s, Stream.run Stream.decipher_step (Stream.mkDecipher (Some key) iv [] []) (messages msgs') =
    (flat_map message_replies rs, s) /\
    map reply_bytes rs = map (@concat N) msgs.
Proof.
  intros Hk Hms. induction Hms as [|m ms Hm Hms IH]; intros iv msgs' Hiv Hcut.
  - destruct msgs'; [|discriminate]. exists []. eexists. split; reflexivity.
  - destruct msgs' as [|m' ms']; [discriminate|]. cbn [map] in Hcut.
    assert (Hp : octets (pkcs7_pad 16 (concat m)))
      by (apply Proofs.Stream.octets_pkcs7_pad; [lia|apply octets_concat'; assumption]).
    set (C := cbc_encrypt (Spec.Aes.Cipher key) iv (blocks 16 (pkcs7_pad 16 (concat m)))) in *.
    assert (HC : Forall Proofs.Stream.is_block C) by (apply enc_blocks; assumption).
    cbv zeta in Hcut.
    assert (Hm' : concat m' = concat C) by congruence.
    assert (Hms' : map (@concat N) ms' = tl (map (@concat N) (m' :: ms'))) by reflexivity.
    apply f_equal with (f := @tl (list N)) in Hcut. cbn [tl] in Hcut. clear Hms'.
    destruct (IH (last C iv) ms') as (rs & s & E' & Hf);
      [apply (Proofs.Stream.last_Forall Proofs.Stream.is_block); assumption|exact Hcut|].
    destruct (Proofs.Messages.decrypt_session key iv m') as (outs & s1 & E & _ & _ & Ho & Hs).
    fold (raw key iv (concat m')) in E, Ho, Hs.
    assert (Hraw : raw key iv (concat m') = pkcs7_pad 16 (concat m)).
    { rewrite Hm'. apply raw_encrypt; [assumption..|]. apply Proofs.Stream.pkcs7_pad_mod. discriminate. }
    rewrite Hraw in E, Ho, Hs.
    destruct (Proofs.Stream.stream_padded 16 (concat m)) as [S1 S2]; [discriminate|].
    specialize (Hs _ S1). rewrite S1 in E. rewrite S2 in Ho. cbn [Proofs.Messages.verdict_reply] in E.
    assert (Hb : blocks 16 (concat m') = C) by (rewrite Hm'; apply Proofs.Stream.blocks_concat_blocks; assumption).
    assert (Hr : rest 16 (concat m') = []).
    { apply Proofs.Stream.whole_all; [discriminate|]. rewrite Hm'.
      rewrite Proofs.Stream.concat_blocks_length, Nat.mul_comm by assumption. apply Nat.mod_mul. discriminate. }
    rewrite Hb, Hr in Hs.
    exists ((outs, skipn (16 * (length (concat m) / 16)) (concat m)) :: rs), s. split.
    + unfold messages in *. cbn [flat_map]. unfold message in *.
      rewrite Proofs.Messages.run_app, E. cbn [fst snd]. rewrite Hs, E'. reflexivity.
    + cbn [map]. rewrite Hf. f_equal. unfold reply_bytes. cbn [fst snd]. rewrite Ho. apply firstn_skipn.
Qed.

Theorem C43_several_messages : forall T T' key iv msgs,
  good_key key -> good_block iv -> Forall (Forall octets) msgs ->
  exists cts c,
    cipher_run T iv (Init key :: messages msgs) = Ret (Accepted :: flat_map message_replies cts, c) /\
    length cts = length msgs /\
    forall msgs', map (@concat N) msgs' = map reply_bytes cts ->
    exists pts d,
      decipher_run T' iv (Init key :: messages msgs') = Ret (Accepted :: flat_map message_replies pts, d) /\
      map reply_bytes pts = map (@concat N) msgs.
Proof.
  intros T T' key iv msgs Hk Hiv Hms.
  destruct (encrypt_messages key msgs iv) as (cts & s & E & Hf & Hb).
  destruct (Proofs.AesCbc.cipher_run_ok T iv (Init key :: messages msgs) Hiv) as (c & Ec & _).
  { constructor; [apply Hk|apply messages_ok; assumption]. }
  rewrite init_keyed, E in Ec by assumption. exists cts, c. split; [exact Ec|]. split.
  { clear - Hf. induction Hf; cbn; congruence. }
  intros msgs' Hcut.
  destruct (decrypt_messages key msgs Hk Hms iv msgs' Hiv (eq_trans Hcut Hb)) as (pts & s' & E' & Hp).
  destruct (Proofs.AesCbc.decipher_run_ok T' iv (Init key :: messages msgs') Hiv) as (d & Ed & _).
  { constructor; [apply Hk|]. apply messages_ok.
    assert (Hall : Forall (fun m' => octets (concat m')) msgs').
    { assert (Ho : Forall octets (map reply_bytes cts)).
      { rewrite Hb. clear - Hk Hiv Hms. revert iv Hiv.
        induction Hms as [|m ms Hm Hms IH]; intros iv Hiv; [constructor|].
        assert (Hp : octets (pkcs7_pad 16 (concat m)))
          by (apply Proofs.Stream.octets_pkcs7_pad; [lia|apply octets_concat'; assumption]).
        constructor.
        - apply Proofs.Stream.is_blocks_octets, enc_blocks; assumption.
        - apply IH. apply (Proofs.Stream.last_Forall Proofs.Stream.is_block); [|exact Hiv].
          apply enc_blocks; assumption. }
      rewrite <- Hcut in Ho. rewrite Forall_map in Ho. exact Ho. }
    eapply Forall_impl; [|exact Hall]. intros m'. apply chunks_octets. }
  rewrite init_dkeyed, E' in Ed by assumption. exists pts, d. auto.
Qed.
Print Assumptions C43_several_messages.

(** The messages are chained: the whole output is the CBC encryption of the
    padded messages one after the other. *)
Theorem C43_messages_are_chained : forall T key iv msgs,
  good_key key -> good_block iv -> Forall (Forall octets) msgs ->
  exists cts c,
    cipher_run T iv (Init key :: messages msgs) = Ret (Accepted :: flat_map message_replies cts, c) /\
    concat (map reply_bytes cts) =
    concat (cbc_encrypt (Spec.Aes.Cipher key) iv
              (blocks 16 (concat (map (fun m => pkcs7_pad 16 (concat m)) msgs)))).
Proof.
  intros T key iv msgs Hk Hiv Hms.
  destruct (encrypt_messages key msgs iv) as (cts & s & E & Hf & Hb).
  destruct (Proofs.AesCbc.cipher_run_ok T iv (Init key :: messages msgs) Hiv) as (c & Ec & _).
  { constructor; [apply Hk|apply messages_ok; assumption]. }
  rewrite init_keyed, E in Ec by assumption. exists cts, c. split; [exact Ec|].
  rewrite Hb. clear. revert iv. induction msgs as [|m ms IH]; intros iv.
  - reflexivity.
  - cbn [concat map]. rewrite IH. rewrite blocks_app by (try apply Proofs.Stream.pkcs7_pad_mod; discriminate).
    rewrite Proofs.Stream.cbc_encrypt_app, concat_app. reflexivity.
Qed.
Print Assumptions C43_messages_are_chained.

Example C43_example :
  let T := mkTarget W64 true in
  match cipher_run T rfc3602_iv (Init rfc3602_key :: messages [[[1; 2]]; []; [rfc3602_msg]]) with
  | Ret ([Accepted; Data []; Data b1; Data b2; Data o3; Data b3], _) =>
      b2 <> aes_cbc_encrypt rfc3602_key rfc3602_iv [] /\
      exists d, decipher_run T rfc3602_iv (Init rfc3602_key :: messages [[b1]; [b2]; [o3; b3]]) =
        Ret ([Accepted; Data []; Data [1; 2]; Data []; Data []; Data []; Data rfc3602_msg; Data []], d)
  | _ => False
  end.
Proof. vm_compute. split; [discriminate|]. eexists. reflexivity. Qed.

(** * C45.  The first blocks of the ciphertext depend on the first blocks of the
    message only; different messages have different ciphertexts. *)
Theorem C45_prefix_determined : forall T T' key iv chunks chunks' p outs b c outs' b' c',
  good_key key -> good_block iv -> Forall octets chunks -> Forall octets chunks' ->
  (length p mod 16 = 0)%nat ->
  (exists t, concat chunks = p ++ t) -> (exists t, concat chunks' = p ++ t) ->
  cipher_run T iv (session key chunks) = Ret (Accepted :: map Data outs ++ [Data b], c) ->
  cipher_run T' iv (session key chunks') = Ret (Accepted :: map Data outs' ++ [Data b'], c') ->
  firstn (length p) (concat outs ++ b) = firstn (length p) (concat outs' ++ b').
Proof.
  intros T T' key iv chunks chunks' p outs b c outs' b' c' Hk Hiv Hc Hc' Hp [t Ht] [t' Ht'] E E'.
  assert (G : forall T chunks t outs b c, Forall octets chunks -> concat chunks = p ++ t ->
    cipher_run T iv (session key chunks) = Ret (Accepted :: map Data outs ++ [Data b], c) ->
    firstn (length p) (concat outs ++ b) =
    concat (cbc_encrypt (Spec.Aes.Cipher key) iv (blocks 16 p))).
  { clear - Hk Hiv Hp. intros T chunks t outs b c Hc Ht E.
    destruct (encrypt_session T key iv chunks Hk Hiv Hc) as (outs1 & b1 & c1 & E1 & _ & _ & H).
    destruct (replies_inj _ _ _ _ _ _ (eq_trans (eq_sym E) E1)) as [<- Eb].
    assert (b = b1) as <- by congruence. rewrite H, Ht.
    assert (Hpo : octets p).
    { apply octets_concat' in Hc. rewrite Ht in Hc. apply octets_app in Hc. apply Hc. }
    unfold aes_cbc_encrypt, pkcs7_pad. rewrite <- app_assoc, blocks_app by (try assumption; discriminate).
    rewrite Proofs.Stream.cbc_encrypt_app, concat_app.
    assert (L : length (concat (cbc_encrypt (Spec.Aes.Cipher key) iv (blocks 16 p))) = length p).
    { rewrite enc_length by assumption. pose proof (Nat.div_mod (length p) 16 ltac:(discriminate)). lia. }
    rewrite <- L at 1. rewrite firstn_app, Nat.sub_diag, firstn_all. cbn [firstn]. apply app_nil_r. }
  rewrite (G T chunks t outs b c), (G T' chunks' t' outs' b' c') by assumption. reflexivity.
Qed.
Print Assumptions C45_prefix_determined.

Theorem C45_injective : forall T T' key iv chunks chunks' outs b c outs' b' c',
  good_key key -> good_block iv -> Forall octets chunks -> Forall octets chunks' ->
  cipher_run T iv (session key chunks) = Ret (Accepted :: map Data outs ++ [Data b], c) ->
  cipher_run T' iv (session key chunks') = Ret (Accepted :: map Data outs' ++ [Data b'], c') ->
  concat outs ++ b = concat outs' ++ b' -> concat chunks = concat chunks'.
Proof.
  intros T T' key iv chunks chunks' outs b c outs' b' c' Hk Hiv Hc Hc' E E' Heq.
  destruct (C38_round_trip T T key iv chunks outs b c [concat outs ++ b]) as (o1 & m1 & d1 & D1 & R1);
    try assumption; [cbn; apply app_nil_r|].
  destruct (C38_round_trip T' T key iv chunks' outs' b' c' [concat outs' ++ b']) as (o2 & m2 & d2 & D2 & R2);
    try assumption; [cbn; apply app_nil_r|].
  rewrite <- Heq in D2.
  destruct (replies_inj _ _ _ _ _ _ (eq_trans (eq_sym D1) D2)) as [<- Em].
  assert (m1 = m2) as <- by congruence. congruence.
Qed.
Print Assumptions C45_injective.

Example C45_example :
  let C m := aes_cbc_encrypt rfc3602_key rfc3602_iv m in
  firstn 16 (C (rfc3602_msg ++ [1])) = firstn 16 (C (rfc3602_msg ++ [2])) /\
  skipn 16 (C (rfc3602_msg ++ [1])) <> skipn 16 (C (rfc3602_msg ++ [2])).
Proof. vm_compute. split; [reflexivity|discriminate]. Qed.

(** * C46.  Flush of the decipher. *)
Theorem C46_failed_flush_changes_nothing : forall T d e d',
  decipher_flush T d = Ret (Err e, d') -> d' = d.
Proof.
  intros T [a [bs st] iv buf] e d'. unfold decipher_flush, unpad_flush.
  cbn [d_aes d_unpad d_iv d_buffer unpad_block_size unpad_storage].
  destruct (negb (len st =? bs)); [cbn [bind]; congruence|].
  destruct (usub T (len st) 1) as [i| |]; cbn [bind]; try discriminate.
  destruct (idx st i) as [n| |]; cbn [bind]; try discriminate.
  destruct (as_u8 bs <? n); [cbn [bind]; congruence|].
  destruct (usub T bs n) as [o| |]; cbn [bind]; try discriminate.
  destruct (slice_from st o) as [t| |]; cbn [bind]; try discriminate.
  destruct (negb _); [cbn [bind]; congruence|].
  destruct (slice_to st o) as [r| |]; cbn [bind]; try discriminate.
Qed.
Print Assumptions C46_failed_flush_changes_nothing.

(** In a history: the flush that failed can be removed without changing any
    other reply, and repeating it fails in the same way. *)
Theorem C46_failed_flush_invisible : forall T iv before after rs r d,
  good_block iv -> Forall stream_call_ok before -> Forall stream_call_ok after ->
  decipher_run T iv (before ++ [Flush]) = Ret (rs ++ [r], d) -> (forall m, r <> Data m) ->
  exists rs' d1 d2 d3,
    decipher_run T iv (before ++ Flush :: after) = Ret (rs ++ r :: rs', d1) /\
    decipher_run T iv (before ++ Flush :: Flush :: after) = Ret (rs ++ r :: r :: rs', d2) /\
    decipher_run T iv (before ++ after) = Ret (rs ++ rs', d3).
Proof.
  intros T iv before after rs r d Hiv Hb Ha E Hr.
  destruct (Proofs.AesCbc.decipher_run_ok T iv (before ++ [Flush]) Hiv) as (d0 & E0 & _);
    [apply Forall_app; split; [assumption|repeat constructor]|].
  destruct (Proofs.AesCbc.decipher_run_ok T iv (before ++ Flush :: after) Hiv) as (d1 & E1 & _);
    [apply Forall_app; split; [assumption|constructor; [exact I|assumption]]|].
  destruct (Proofs.AesCbc.decipher_run_ok T iv (before ++ Flush :: Flush :: after) Hiv) as (d2 & E2 & _);
    [apply Forall_app; split; [assumption|constructor; [exact I|constructor; [exact I|assumption]]]|].
  destruct (Proofs.AesCbc.decipher_run_ok T iv (before ++ after) Hiv) as (d3 & E3 & _);
    [apply Forall_app; split; assumption|].
  rewrite Proofs.Messages.run_app in E0, E1, E2, E3. cbn [fst] in E0, E1, E2, E3.
  set (rb := fst (Stream.run Stream.decipher_step (Stream.new_decipher iv) before)) in *.
  set (s := snd (Stream.run Stream.decipher_step (Stream.new_decipher iv) before)) in *.
  clearbody rb s.
  assert (Hs : Stream.decipher_step s Flush = (r, s) /\ rb = rs).
  { rewrite E in E0. cbn [Stream.run] in E0.
    destruct (Stream.decipher_step s Flush) as [r' s'] eqn:Es. cbn [fst] in E0.
    assert (E0' : rs ++ [r] = rb ++ [r']) by congruence.
    apply app_inj_tail in E0'. destruct E0' as [-> ->]. split; [|reflexivity]. f_equal.
    cbn [Stream.decipher_step] in Es.
    destruct (Stream.strip 16 (Stream.d_held s)) as [m| |];
      [exfalso; apply (Hr m); congruence|congruence|congruence]. }
  destruct Hs as [Hs ->]. cbn [Stream.run] in E1, E2. rewrite Hs in E1, E2. rewrite Hs in E2.
  destruct (Stream.run Stream.decipher_step s after) as [rs' s'] eqn:Ea. cbn [fst] in *.
  exists rs', d1, d2, d3. auto.
Qed.
Print Assumptions C46_failed_flush_invisible.

Theorem C46_successful_flush_empties : forall T d m d',
  decipher_flush T d = Ret (Ok m, d') ->
  d' = mkDecipher (d_aes d) (mkUnpad (unpad_block_size (d_unpad d)) []) (d_iv d) (d_buffer d).
Proof.
  intros T [a [bs st] iv buf] m d'. unfold decipher_flush, unpad_flush.
  cbn [d_aes d_unpad d_iv d_buffer unpad_block_size unpad_storage].
  destruct (negb (len st =? bs)); [cbn [bind]; congruence|].
  destruct (usub T (len st) 1) as [i| |]; cbn [bind]; try discriminate.
  destruct (idx st i) as [n| |]; cbn [bind]; try discriminate.
  destruct (as_u8 bs <? n); [cbn [bind]; congruence|].
  destruct (usub T bs n) as [o| |]; cbn [bind]; try discriminate.
  destruct (slice_from st o) as [t| |]; cbn [bind]; try discriminate.
  destruct (negb _); [cbn [bind]; congruence|].
  destruct (slice_to st o) as [r| |]; cbn [bind]; [congruence|discriminate..].
Qed.
Print Assumptions C46_successful_flush_empties.

(** A rejected message completed afterwards. *)
Example C46_example :
  let T := mkTarget W64 false in
  let C := aes_cbc_encrypt rfc3602_key rfc3602_iv rfc3602_msg in
  exists d, decipher_run T rfc3602_iv
    [Init rfc3602_key; Write (firstn 16 C); Flush; Flush; Write (skipn 16 C); Flush; Flush] =
  Ret ([Accepted; Data []; BadPadding; BadPadding; Data rfc3602_msg; Data []; Unfinished], d).
Proof. eexists. vm_compute. reflexivity. Qed.

(** * C44.  Changing one block of the ciphertext. *)
Lemma raw_cut key iv A X B : good_key key -> good_block iv -> octets A -> good_block X -> octets B ->
  (length A mod 16 = 0)%nat ->
  let prev := last (blocks 16 A) iv in
  raw key iv (A ++ X ++ B) = raw key iv A ++ xor (Spec.Aes.InvCipher key X) prev ++ raw key X B.
Proof.
  intros Hk Hiv HA HX HB Hm prev. unfold raw.
  rewrite blocks_app by (try assumption; discriminate).
  rewrite blocks_app by (destruct HX as [_ HX]; rewrite ?HX; (discriminate || reflexivity)).
  rewrite (blocks_single 16 X) by (try apply HX; discriminate).
  rewrite Proofs.Stream.cbc_decrypt_app, concat_app. cbn [app cbc_decrypt concat]. reflexivity.
Qed.
Lemma last_block_good iv A : good_block iv -> octets A -> good_block (last (blocks 16 A) iv).
Proof.
  intros Hiv HA. apply (Proofs.Stream.last_Forall Proofs.Stream.is_block); [|exact Hiv].
  apply Proofs.Stream.blocks_are_blocks. assumption.
Qed.
Lemma dec_good key b : good_key key -> good_block b -> good_block (Spec.Aes.InvCipher key b).
Proof. intros [Hk Hs] Hb. apply Proofs.AesCbc.InvCipher_block; assumption. Qed.
Lemma xor_good a b : good_block a -> good_block b -> good_block (xor a b).
Proof. apply Proofs.Stream.is_block_xor. Qed.
Lemma raw_multiple key iv A : good_key key -> good_block iv -> octets A -> (length A mod 16 = 0)%nat ->
  length (raw key iv A) = length A.
Proof.
  intros Hk Hiv HA Hm. rewrite raw_length by assumption.
  pose proof (Nat.div_mod (length A) 16 ltac:(discriminate)). lia.
Qed.
(** Everything before a non-empty end is released. *)
Lemma released F G q : length F = (16 * q)%nat -> G <> [] ->
  settled 16 (F ++ G) = F ++ settled 16 G /\ held 16 (F ++ G) = held 16 G.
Proof. intros HF HG. apply (Proofs.Stream.settled_front 16 q); [discriminate|assumption|auto]. Qed.
Lemma parts (a x y z : list N) n : length a = n -> length x = 16%nat -> length y = 16%nat ->
  let l := a ++ x ++ y ++ z in
  firstn n l = a /\ firstn 16 (skipn n l) = x /\ firstn 16 (skipn (n + 16) l) = y /\ skipn (n + 32) l = z.
Proof.
  intros Ha Hx Hy l. subst l n.
  assert (S1 : forall (u v : list N) k, k = length u -> firstn k (u ++ v) = u /\ skipn k (u ++ v) = v).
  { intros u v k ->. destruct (Proofs.Stream.cut_front u v (length u) 0) as [E1 E2]; [lia|].
    rewrite E1, E2. cbn [firstn skipn]. rewrite app_nil_r. auto. }
  split; [apply S1; reflexivity|]. split; [|split].
  - rewrite (proj2 (S1 a _ _ eq_refl)). apply S1. auto.
  - rewrite (app_assoc a x). rewrite (proj2 (S1 (a ++ x) _ (length a + 16)%nat ltac:(rewrite app_length; lia))).
    apply S1. auto.
  - rewrite (app_assoc a x), (app_assoc (a ++ x) y). apply S1. rewrite !app_length. lia.
Qed.

Theorem C44_block_change : forall T key iv A X X' B chunks chunks',
  good_key key -> good_block iv -> octets A -> good_block X -> good_block X' -> octets B ->
  (length A mod 16 = 0)%nat -> (length B mod 16 = 0)%nat -> (32 <= length B)%nat ->
  concat chunks = A ++ X ++ B -> concat chunks' = A ++ X' ++ B ->
  exists outs outs' final d d',
    decipher_run T iv (session key chunks) = Ret (Accepted :: map Data outs ++ [final], d) /\
    decipher_run T iv (session key chunks') = Ret (Accepted :: map Data outs' ++ [final], d') /\
    let P := concat outs in let P' := concat outs' in
    let a := length A in
    firstn a P' = firstn a P /\
    (X <> X' -> firstn 16 (skipn a P') <> firstn 16 (skipn a P)) /\
    firstn 16 (skipn (a + 16) P') = xor (firstn 16 (skipn (a + 16) P)) (xor X X') /\
    skipn (a + 32) P' = skipn (a + 32) P.
Proof.
  intros T key iv A X X' B chunks chunks' Hk Hiv HA HX HX' HB HmA HmB HlB Hc Hc'.
  assert (Oc : Forall octets chunks).
  { apply chunks_octets. rewrite Hc. repeat (apply octets_app; split); try assumption; apply HX. }
  assert (Oc' : Forall octets chunks').
  { apply chunks_octets. rewrite Hc'. repeat (apply octets_app; split); try assumption; apply HX'. }
  destruct (decrypt_session T key iv chunks Hk Hiv Oc) as (outs & d & E & _ & _ & Ho).
  destruct (decrypt_session T key iv chunks' Hk Hiv Oc') as (outs' & d' & E' & _ & _ & Ho').
  set (b := firstn 16 B) in *. set (B1 := skipn 16 B) in *.
  assert (EB : B = b ++ B1) by (symmetry; apply firstn_skipn).
  assert (Hb : good_block b).
  { split; [apply octets_firstn; assumption|]. subst b. rewrite firstn_length. lia. }
  assert (HB1 : octets B1) by (apply octets_skipn; assumption).
  assert (LB1 : (16 <= length B1)%nat) by (subst B1; rewrite skipn_length; lia).
  assert (HR : forall X, good_block X -> raw key iv (A ++ X ++ B) =
     (raw key iv A ++ xor (Spec.Aes.InvCipher key X) (last (blocks 16 A) iv) ++
     xor (Spec.Aes.InvCipher key b) X) ++ raw key b B1).
  { intros Y HY. rewrite raw_cut by assumption. rewrite EB.
    rewrite <- (app_nil_l (b ++ B1)).
    rewrite (raw_cut key Y [] b B1) by (try assumption; (reflexivity || constructor)).
    cbn [blocks length groups last raw concat cbc_decrypt]. rewrite <- !app_assoc. reflexivity. }
  assert (Hne : raw key b B1 <> []).
  { intros C. apply (f_equal (@length N)) in C. rewrite raw_length in C by assumption.
    cbn [length] in C.
    pose proof (Nat.div_le_mono 16 (length B1) 16 ltac:(discriminate) LB1) as D1.
    change (16 / 16)%nat with 1%nat in D1. lia. }
  pose proof (last_block_good iv A Hiv HA) as Hprev.
  assert (HF : forall X, good_block X ->
    length (raw key iv A ++ xor (Spec.Aes.InvCipher key X) (last (blocks 16 A) iv) ++
     xor (Spec.Aes.InvCipher key b) X) = (16 * (length A / 16 + 2))%nat).
  { intros Y HY. rewrite !app_length, raw_length by assumption.
    rewrite (proj2 (xor_good _ _ (dec_good key Y Hk HY) Hprev)).
    rewrite (proj2 (xor_good _ _ (dec_good key b Hk Hb) HY)). lia. }
  rewrite Hc in E, Ho. rewrite Hc' in E', Ho'.
  rewrite (HR X HX) in E, Ho. rewrite (HR X' HX') in E', Ho'.
  rewrite (proj2 (released _ _ _ (HF X HX) Hne)) in E.
  rewrite (proj2 (released _ _ _ (HF X' HX') Hne)) in E'.
  rewrite (proj1 (released _ _ _ (HF X HX) Hne)) in Ho.
  rewrite (proj1 (released _ _ _ (HF X' HX') Hne)) in Ho'.
  exists outs, outs'. eexists. exists d, d'. split; [exact E|]. split; [exact E'|]. cbv zeta.
  rewrite Ho, Ho'. rewrite <- !app_assoc.
  set (S := settled 16 (raw key b B1)).
  destruct (parts (raw key iv A) _ _ S (length A) (raw_multiple _ _ _ Hk Hiv HA HmA)
    (proj2 (xor_good _ _ (dec_good key X Hk HX) Hprev)) (proj2 (xor_good _ _ (dec_good key b Hk Hb) HX)))
    as (-> & -> & -> & ->).
  destruct (parts (raw key iv A) _ _ S (length A) (raw_multiple _ _ _ Hk Hiv HA HmA)
    (proj2 (xor_good _ _ (dec_good key X' Hk HX') Hprev)) (proj2 (xor_good _ _ (dec_good key b Hk Hb) HX')))
    as (-> & -> & -> & ->).
  split; [reflexivity|]. split; [|split; [|reflexivity]].
  - intros Hneq C. apply Hneq.
    apply (f_equal (fun z => xor z (last (blocks 16 A) iv))) in C.
    rewrite !xor_cancel_r in C by (rewrite (proj2 Hprev); apply Proofs.Aes.InvCipher_length).
    apply (f_equal (Spec.Aes.Cipher key)) in C.
    destruct Hk as [Hk Hs].
    rewrite !Proofs.AesCbc.Cipher_InvCipher_block in C by assumption. auto.
  - rewrite xor_assoc. f_equal. symmetry. apply xor_cancel_l. destruct HX, HX'. congruence.
Qed.
Print Assumptions C44_block_change.

(** In the next-to-last block, the difference goes into the padding: [L] is the
    last block of plaintext. *)
Theorem C44_padding_malleable : forall T key iv A X X' Z chunks chunks',
  good_key key -> good_block iv -> octets A -> good_block X -> good_block X' -> good_block Z ->
  (length A mod 16 = 0)%nat ->
  concat chunks = A ++ X ++ Z -> concat chunks' = A ++ X' ++ Z ->
  exists outs outs' L d d', good_block L /\
    decipher_run T iv (session key chunks) =
      Ret (Accepted :: map Data outs ++
           [match Stream.strip 16 L with
            | Stream.Stripped m => Data m | Stream.Incomplete => Unfinished | Stream.Invalid => BadPadding
            end], d) /\
    decipher_run T iv (session key chunks') =
      Ret (Accepted :: map Data outs' ++
           [match Stream.strip 16 (xor L (xor X X')) with
            | Stream.Stripped m => Data m | Stream.Incomplete => Unfinished | Stream.Invalid => BadPadding
            end], d').
Proof.
  intros T key iv A X X' Z chunks chunks' Hk Hiv HA HX HX' HZ HmA Hc Hc'.
  assert (Oc : Forall octets chunks).
  { apply chunks_octets. rewrite Hc. repeat (apply octets_app; split); try assumption; try apply HX; apply HZ. }
  assert (Oc' : Forall octets chunks').
  { apply chunks_octets. rewrite Hc'. repeat (apply octets_app; split); try assumption; try apply HX'; apply HZ. }
  destruct (decrypt_session T key iv chunks Hk Hiv Oc) as (outs & d & E & _).
  destruct (decrypt_session T key iv chunks' Hk Hiv Oc') as (outs' & d' & E' & _).
  pose proof (last_block_good iv A Hiv HA) as Hprev.
  assert (HH : forall X, good_block X ->
    held 16 (raw key iv (A ++ X ++ Z)) = xor (Spec.Aes.InvCipher key Z) X).
  { intros Y HY. rewrite raw_cut by (try assumption; apply HZ).
    assert (RZ : raw key Y Z = xor (Spec.Aes.InvCipher key Z) Y).
    { unfold raw. rewrite (blocks_single 16 Z) by (try apply HZ; discriminate).
      cbn [cbc_decrypt concat]. apply app_nil_r. }
    rewrite RZ, app_assoc.
    pose proof (proj2 (xor_good _ _ (dec_good key Z Hk HZ) HY)) as LZ.
    assert (LF : length (raw key iv A ++ xor (Spec.Aes.InvCipher key Y) (last (blocks 16 A) iv)) =
                 (16 * (length A / 16 + 1))%nat).
    { rewrite app_length, raw_length by assumption.
      rewrite (proj2 (xor_good _ _ (dec_good key Y Hk HY) Hprev)). lia. }
    rewrite (proj2 (released _ _ _ LF ltac:(intros C; rewrite C in LZ; discriminate LZ))).
    apply Proofs.Stream.settled_short; [discriminate|]. lia. }
  rewrite Hc, HH in E by assumption. rewrite Hc', HH in E' by assumption.
  exists outs, outs', (xor (Spec.Aes.InvCipher key Z) X), d, d'.
  split; [apply xor_good; [apply dec_good|]; assumption|]. split; [exact E|].
  rewrite xor_assoc, xor_cancel_l by (destruct HX, HX'; congruence). exact E'.
Qed.
Print Assumptions C44_padding_malleable.

(** Changing the iv changes the first block, by the same difference, and nothing
    else: with at least two blocks the outcome of flush is the same. *)
Theorem C44_iv_change : forall T key iv diff chunks,
  good_key key -> good_block iv -> good_block diff -> Forall octets chunks ->
  (32 <= length (concat chunks))%nat ->
  exists outs outs' final d d',
    decipher_run T iv (session key chunks) = Ret (Accepted :: map Data outs ++ [final], d) /\
    decipher_run T (xor iv diff) (session key chunks) = Ret (Accepted :: map Data outs' ++ [final], d') /\
    firstn 16 (concat outs') = xor (firstn 16 (concat outs)) diff /\
    skipn 16 (concat outs') = skipn 16 (concat outs).
Proof.
  intros T key iv diff chunks Hk Hiv Hd Oc Hlen.
  pose proof (xor_good _ _ Hiv Hd) as Hiv'.
  destruct (decrypt_session T key iv chunks Hk Hiv Oc) as (outs & d & E & _ & _ & Ho).
  destruct (decrypt_session T key (xor iv diff) chunks Hk Hiv' Oc) as (outs' & d' & E' & _ & _ & Ho').
  pose proof (octets_concat' _ Oc) as OC.
  set (C := concat chunks) in *. set (X := firstn 16 C). set (B := skipn 16 C).
  assert (EC : C = X ++ B) by (symmetry; apply firstn_skipn).
  assert (HX : good_block X).
  { split; [apply octets_firstn; assumption|]. subst X. rewrite firstn_length. lia. }
  assert (HB : octets B) by (apply octets_skipn; assumption).
  assert (LB : (16 <= length B)%nat) by (subst B; rewrite skipn_length; lia).
  assert (HR : forall v, good_block v -> raw key v C = xor (Spec.Aes.InvCipher key X) v ++ raw key X B).
  { intros v Hv. rewrite EC.
    exact (raw_cut key v [] X B Hk Hv ltac:(constructor) HX HB eq_refl). }
  assert (Hne : raw key X B <> []).
  { intros F. apply (f_equal (@length N)) in F. rewrite raw_length in F by assumption.
    cbn [length] in F.
    pose proof (Nat.div_le_mono 16 (length B) 16 ltac:(discriminate) LB) as D1.
    change (16 / 16)%nat with 1%nat in D1. lia. }
  assert (HF : forall v, good_block v -> length (xor (Spec.Aes.InvCipher key X) v) = (16 * 1)%nat).
  { intros v Hv. exact (proj2 (xor_good _ _ (dec_good key X Hk HX) Hv)). }
  rewrite (HR iv Hiv) in E, Ho. rewrite (HR _ Hiv') in E', Ho'.
  rewrite (proj2 (released _ _ _ (HF iv Hiv) Hne)) in E.
  rewrite (proj2 (released _ _ _ (HF _ Hiv') Hne)) in E'.
  rewrite (proj1 (released _ _ _ (HF iv Hiv) Hne)) in Ho.
  rewrite (proj1 (released _ _ _ (HF _ Hiv') Hne)) in Ho'.
  exists outs, outs'. eexists. exists d, d'. split; [exact E|]. split; [exact E'|].
  rewrite Ho, Ho'.
  destruct (Proofs.Stream.cut_front (xor (Spec.Aes.InvCipher key X) iv) (settled 16 (raw key X B)) 16 0)
    as [-> ->]; [rewrite (HF iv Hiv); reflexivity|].
  destruct (Proofs.Stream.cut_front (xor (Spec.Aes.InvCipher key X) (xor iv diff)) (settled 16 (raw key X B)) 16 0)
    as [-> ->]; [rewrite (HF _ Hiv'); reflexivity|].
  cbn [firstn skipn]. rewrite !app_nil_r. split; [symmetry; apply xor_assoc|reflexivity].
Qed.
Print Assumptions C44_iv_change.

(** One bit of the iv flipped: one bit of the first block of plaintext flips. *)
Example C44_example : exists d,
  decipher_run (mkTarget W64 true) (xor rfc3602_iv (1 :: repeat 0 15))
    (session rfc3602_key [aes_cbc_encrypt rfc3602_key rfc3602_iv rfc3602_msg]) =
  Ret ([Accepted; Data (xor rfc3602_msg (1 :: repeat 0 15)); Data []], d) /\
  xor rfc3602_msg (1 :: repeat 0 15) <> rfc3602_msg.
Proof. eexists. split; [vm_compute; reflexivity|vm_compute; discriminate]. Qed.
