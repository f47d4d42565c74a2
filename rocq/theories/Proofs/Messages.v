(** Whole messages through the machines of [Spec.Stream]: nothing here mentions
    the model. *)
From Coq Require Import ZArith NArith List Arith Lia Bool ZifyBool ZifyNat ZifyN.
From Verif.Spec Require Import Octets Cbc Stream.
From Verif.Spec Require Aes BlockCipher.
From Verif.Proofs Require Import Base Stream.
Import ListNotations.
Local Open Scope N_scope.

Notation E key := (Spec.Aes.Cipher key).
Notation D key := (Spec.Aes.InvCipher key).

Lemma run_app {S} (step : S -> call -> reply * S) xs : forall s ys,
  run step s (xs ++ ys) =
  (fst (run step s xs) ++ fst (run step (snd (run step s xs)) ys),
   snd (run step (snd (run step s xs)) ys)).
Proof.
  induction xs as [|x xs IH]; intros s ys.
  - cbn [app run fst snd]. apply surjective_pairing.
  - cbn [app run]. destruct (step s x) as [r s1]. rewrite IH.
    destruct (run step s1 xs) as [rs s2]. reflexivity.
Qed.

Lemma blocks_stream k (s d : list N) : (k <> 0)%nat ->
  blocks k (s ++ d) = blocks k s ++ blocks k (rest k s ++ d).
Proof.
  intros Hk. rewrite <- (blocks_whole k (s ++ d)) by assumption.
  rewrite (proj1 (whole_app k s d Hk)). rewrite blocks_app by (try apply whole_mod; assumption).
  rewrite !blocks_whole by assumption. reflexivity.
Qed.
Lemma blocks_short k (l : list N) : (length l < k)%nat -> blocks k l = [].
Proof. intros H. unfold blocks. rewrite Nat.div_small by assumption. reflexivity. Qed.

(** * Encryption *)

Lemma write_keyed key iv p d :
  cipher_step (mkCipher (Some key) iv p) (Write d) =
  let C := cbc_encrypt (E key) iv (blocks 16 (p ++ d)) in
  (Data (concat C), mkCipher (Some key) (last C iv) (rest 16 (p ++ d))).
Proof.
  cbn [cipher_step c_pending c_key c_chain]. destruct (Nat.ltb_spec (length (p ++ d)) 16) as [H|H].
  - rewrite blocks_short, (proj2 (whole_short 16 _ H)) by assumption. reflexivity.
  - reflexivity.
Qed.

Lemma encrypt_writes key chunks : forall iv p, (length p < 16)%nat ->
  exists outs,
  run cipher_step (mkCipher (Some key) iv p) (map Write chunks) =
  (map Data outs,
   mkCipher (Some key) (last (cbc_encrypt (E key) iv (blocks 16 (p ++ concat chunks))) iv)
     (rest 16 (p ++ concat chunks))) /\
  length outs = length chunks /\
  forall i, (i <= length chunks)%nat ->
    concat (firstn i outs) = concat (cbc_encrypt (E key) iv (blocks 16 (p ++ concat (firstn i chunks)))).
Proof.
  induction chunks as [|d ds IH]; intros iv p Hp.
  - exists []. cbn [map run concat]. rewrite app_nil_r, blocks_short, (proj2 (whole_short 16 _ Hp)) by assumption.
    split; [reflexivity|]. split; [reflexivity|]. intros i _. rewrite !firstn_nil. cbn [concat].
    rewrite app_nil_r, blocks_short by assumption. reflexivity.
  - cbn [map run]. rewrite write_keyed. cbv zeta.
    set (C := cbc_encrypt (E key) iv (blocks 16 (p ++ d))).
    destruct (IH (last C iv) (rest 16 (p ++ d)) (rest_lt 16 _ ltac:(discriminate)))
      as (outs & E1 & Hl & Ho).
    rewrite E1. exists (concat C :: outs). split; [|split].
    + cbn [map concat]. rewrite (app_assoc p d). rewrite (blocks_stream 16 (p ++ d)) by discriminate.
      rewrite cbc_encrypt_app. fold C. rewrite last_app_default.
      rewrite (proj2 (whole_app 16 (p ++ d) (concat ds) ltac:(discriminate))). reflexivity.
    + cbn [length]. congruence.
    + intros [|i] Hi; cbn [firstn concat length] in *.
      * rewrite app_nil_r, blocks_short by assumption. reflexivity.
      * rewrite Ho by lia. rewrite (app_assoc p d), (blocks_stream 16 (p ++ d)) by discriminate.
        rewrite cbc_encrypt_app, concat_app. reflexivity.
Qed.

Lemma encrypt_message key iv chunks :
  exists outs b,
  run cipher_step (mkCipher (Some key) iv []) (map Write chunks ++ [Flush]) =
  (map Data outs ++ [Data b],
   mkCipher (Some key) (last (cbc_encrypt (E key) iv (blocks 16 (pkcs7_pad 16 (concat chunks)))) iv) []) /\
  length outs = length chunks /\
  (forall i, (i <= length chunks)%nat ->
    concat (firstn i outs) = concat (cbc_encrypt (E key) iv (blocks 16 (concat (firstn i chunks))))) /\
  concat outs ++ b = aes_cbc_encrypt key iv (concat chunks).
Proof.
  destruct (encrypt_writes key chunks iv []) as (outs & E1 & Hl & Ho); [cbn; lia|]. cbn [app] in *.
  exists outs. eexists. rewrite run_app, E1. cbn [fst snd run cipher_step c_key c_chain c_pending].
  set (m := concat chunks) in *.
  assert (Hb : blocks 16 (pkcs7_pad 16 m) = blocks 16 m ++ [pkcs7_pad 16 (rest 16 m)]).
  { rewrite pkcs7_pad_split by discriminate.
    rewrite blocks_app by (try apply whole_mod; discriminate).
    rewrite blocks_whole by discriminate. f_equal. apply blocks_single; [discriminate|].
    apply pkcs7_pad_short_length, rest_lt. discriminate. }
  split; [|split; [assumption|split; [assumption|]]].
  - rewrite Hb, cbc_encrypt_app, last_app_default. cbn [cbc_encrypt last]. reflexivity.
  - unfold aes_cbc_encrypt. rewrite Hb, cbc_encrypt_app, concat_app. cbn [cbc_encrypt concat].
    rewrite app_nil_r. f_equal. specialize (Ho (length chunks) (le_n _)).
    rewrite (firstn_all chunks), firstn_all2 in Ho by lia. exact Ho.
Qed.

(** * Decryption *)

Lemma dwrite_keyed key iv f h d : (length h <= 16)%nat ->
  decipher_step (mkDecipher (Some key) iv f h) (Write d) =
  let p := h ++ concat (cbc_decrypt (D key) iv (blocks 16 (f ++ d))) in
  (Data (settled 16 p),
   mkDecipher (Some key) (last (blocks 16 (f ++ d)) iv) (rest 16 (f ++ d)) (held 16 p)).
Proof.
  intros Hh. cbn [decipher_step d_fragment d_held d_key d_chain].
  destruct (Nat.ltb_spec (length (f ++ d)) 16) as [H|H]; [|reflexivity].
  rewrite blocks_short, (proj2 (whole_short 16 _ H)) by assumption. cbn [cbc_decrypt concat last].
  rewrite app_nil_r. cbv zeta.
  destruct (settled_short 16 h ltac:(discriminate) Hh) as [-> ->]. reflexivity.
Qed.

Lemma decrypt_writes key chunks : forall iv f h, (length f < 16)%nat -> (length h <= 16)%nat ->
  exists outs,
  run decipher_step (mkDecipher (Some key) iv f h) (map Write chunks) =
  (map Data outs,
   mkDecipher (Some key) (last (blocks 16 (f ++ concat chunks)) iv) (rest 16 (f ++ concat chunks))
     (held 16 (h ++ concat (cbc_decrypt (D key) iv (blocks 16 (f ++ concat chunks)))))) /\
  length outs = length chunks /\
  forall i, (i <= length chunks)%nat ->
    concat (firstn i outs) =
    settled 16 (h ++ concat (cbc_decrypt (D key) iv (blocks 16 (f ++ concat (firstn i chunks))))).
Proof.
  induction chunks as [|d ds IH]; intros iv f h Hf Hh.
  - exists []. cbn [map run concat]. rewrite app_nil_r, blocks_short, (proj2 (whole_short 16 _ Hf)) by assumption.
    cbn [cbc_decrypt concat last]. rewrite app_nil_r.
    destruct (settled_short 16 h ltac:(discriminate) Hh) as [S1 S2]. rewrite S2.
    split; [reflexivity|]. split; [reflexivity|]. intros i _. rewrite !firstn_nil. cbn [concat].
    rewrite app_nil_r, blocks_short by assumption. cbn [cbc_decrypt concat].
    rewrite app_nil_r, S1. reflexivity.
  - cbn [map run]. rewrite dwrite_keyed by assumption. cbv zeta.
    set (B := blocks 16 (f ++ d)). set (P := h ++ concat (cbc_decrypt (D key) iv B)).
    destruct (IH (last B iv) (rest 16 (f ++ d)) (held 16 P)) as (outs & E1 & Hl & Ho);
      [apply rest_lt; discriminate|apply held_le; discriminate|].
    assert (G : forall t, h ++ concat (cbc_decrypt (D key) iv (blocks 16 (f ++ d ++ t))) =
      P ++ concat (cbc_decrypt (D key) (last B iv) (blocks 16 (rest 16 (f ++ d) ++ t)))).
    { intros t. rewrite (app_assoc f d), (blocks_stream 16 (f ++ d)) by discriminate. fold B.
      rewrite cbc_decrypt_app, concat_app, app_assoc. reflexivity. }
    rewrite E1. exists (settled 16 P :: outs). split; [|split].
    + cbn [map concat]. rewrite G, (proj2 (settled_app 16 P _ ltac:(discriminate))).
      rewrite (app_assoc f d), (blocks_stream 16 (f ++ d)) by discriminate. fold B.
      rewrite last_app_default.
      rewrite (proj2 (whole_app 16 (f ++ d) (concat ds) ltac:(discriminate))). reflexivity.
    + cbn [length]. congruence.
    + intros [|i] Hi; cbn [firstn concat length] in *.
      * rewrite app_nil_r, blocks_short by assumption. cbn [cbc_decrypt concat].
        rewrite app_nil_r, (proj1 (settled_short 16 h ltac:(discriminate) Hh)). reflexivity.
      * rewrite Ho by lia. rewrite G, (proj1 (settled_app 16 P _ ltac:(discriminate))). reflexivity.
Qed.

Definition verdict_reply (v : verdict) : reply :=
  match v with Stripped m => Data m | Incomplete => Unfinished | Invalid => BadPadding end.

(** Any input, then flush. *)
Lemma decrypt_session key iv chunks :
  let raw l := concat (cbc_decrypt (D key) iv (blocks 16 l)) in
  exists outs s,
  run decipher_step (mkDecipher (Some key) iv [] []) (map Write chunks ++ [Flush]) =
  (map Data outs ++ [verdict_reply (strip 16 (held 16 (raw (concat chunks))))], s) /\
  length outs = length chunks /\
  (forall i, (i <= length chunks)%nat ->
    concat (firstn i outs) = settled 16 (raw (concat (firstn i chunks)))) /\
  concat outs = settled 16 (raw (concat chunks)) /\
  forall m, strip 16 (held 16 (raw (concat chunks))) = Stripped m ->
    s = mkDecipher (Some key) (last (blocks 16 (concat chunks)) iv) (rest 16 (concat chunks)) [].
Proof.
  cbv zeta.
  destruct (decrypt_writes key chunks iv [] []) as (outs & E1 & Hl & Ho); [cbn; lia..|].
  cbn [app] in *. exists outs.
  assert (Hall : concat outs = settled 16 (concat (cbc_decrypt (D key) iv (blocks 16 (concat chunks))))).
  { specialize (Ho (length chunks) (le_n _)). rewrite (firstn_all chunks), firstn_all2 in Ho by lia.
    exact Ho. }
  rewrite run_app, E1. cbn [fst snd run decipher_step d_key d_chain d_fragment d_held].
  set (H := held 16 _) in *.
  destruct (strip 16 H) as [m| |]; eexists;
    (split; [reflexivity|split; [assumption|split; [assumption|split; [assumption|]]]]);
    intros m'; (discriminate || reflexivity).
Qed.
