(** C80: cutting ciphertexts apart and joining them. *)
From Coq Require Import ZArith NArith List Arith Lia Bool ZifyBool ZifyNat ZifyN.
From Verif Require Import Rust Calls.
From Verif.Model Require Import Aes Pkcs7 AesCbc.
From Verif.Spec Require Octets Aes Cbc Stream.
From Verif.Proofs Require Import Base.
From Verif.Proofs Require Stream AesCbc Messages Aes.
From Verif.Props Require Import AesCbc.
Import Spec.Octets Spec.Cbc.
Import Spec.Stream (call, reply, Init, Write, Flush, Accepted, Data, held, settled).
Import ListNotations.
Local Open Scope N_scope.
Ltac Zify.zify_post_hook ::= Z.div_mod_to_equations.

Lemma cut (l : list N) n : (n <= length l)%nat -> length (firstn n l) = n /\ length (skipn n l) = (length l - n)%nat.
Proof. intros H. rewrite firstn_length, skipn_length. lia. Qed.

(** The ciphertext of a message, and its decryption. *)
Lemma ciphertext_facts key iv m : good_key key -> good_block iv -> octets m ->
  let C := aes_cbc_encrypt key iv m in
  octets C /\ length C = (16 * (length m / 16 + 1))%nat /\ raw key iv C = pkcs7_pad 16 m.
Proof.
  intros Hk Hiv Hm C. unfold C, aes_cbc_encrypt.
  pose proof (Proofs.Stream.octets_pkcs7_pad 16 m ltac:(lia) Hm) as Ho.
  pose proof (Proofs.Stream.pkcs7_pad_mod 16 m ltac:(lia)) as Hmod.
  pose proof (Proofs.Stream.pkcs7_pad_length 16 m ltac:(lia)) as Hl.
  assert (HB : Forall good_block (cbc_encrypt (Spec.Aes.Cipher key) iv (blocks 16 (pkcs7_pad 16 m))))
    by (apply enc_blocks; assumption).
  split; [apply Proofs.Stream.is_blocks_octets; exact HB|]. split; [|apply raw_encrypt; assumption].
  rewrite Proofs.Stream.concat_blocks_length by exact HB.
  rewrite Proofs.Stream.cbc_encrypt_length, blocks_length, Hl. lia.
Qed.

(** The decryption of the first [q] blocks is the start of the decryption. *)
Lemma raw_start key iv C q : good_key key -> good_block iv -> octets C -> (16 * q <= length C)%nat ->
  raw key iv (firstn (16 * q) C) = firstn (16 * q) (raw key iv C).
Proof.
  intros Hk Hiv HC Hq. destruct (cut C (16 * q) Hq) as [L1 L2].
  assert (H : raw key iv C = raw key iv (firstn (16 * q) C) ++
    concat (cbc_decrypt (Spec.Aes.InvCipher key) (last (blocks 16 (firstn (16 * q) C)) iv)
      (blocks 16 (skipn (16 * q) C)))).
  { unfold raw. rewrite <- (firstn_skipn (16 * q) C) at 1.
    rewrite blocks_app by (rewrite ?L1; lia). rewrite Proofs.Stream.cbc_decrypt_app, concat_app. reflexivity. }
  rewrite H. assert (L : length (raw key iv (firstn (16 * q) C)) = (16 * q)%nat).
  { rewrite raw_multiple; [exact L1|assumption|assumption|apply octets_firstn; assumption|rewrite L1; lia]. }
  rewrite firstn_app, L, Nat.sub_diag. cbn [firstn]. rewrite app_nil_r. symmetry. apply firstn_all2. lia.
Qed.

(** The end of the second message, without its padding. *)
Lemma pad_tail k m : (16 * k + 16 <= 16 * (length m / 16 + 1))%nat ->
  skipn (16 * k) (pkcs7_pad 16 m) =
  skipn (16 * k) m ++ repeat (N.of_nat (16 - length m mod 16)) (16 - length m mod 16).
Proof.
  intros H. unfold pkcs7_pad. rewrite skipn_app. replace (16 * k - length m)%nat with 0%nat by lia. reflexivity.
Qed.

(** Two messages encrypted under one key.  The first [i] blocks of the first
    ciphertext followed by the second from block [j] on (two blocks at least): the decipher
    reports no error and returns the first [i] blocks of the first message, one
    foreign block, and the second message from block [j + 1] on.  The foreign
    block is block [j] of the second message changed by the two ciphertext blocks
    (or initialisation vectors) before the cuts. *)
Theorem C80_splice_accepted : forall T T1 T2 key iv1 iv2 chunks1 chunks2 outs1 outs2 b1 b2 c1 c2 i j chunks,
  good_key key -> good_block iv1 -> good_block iv2 -> Forall octets chunks1 -> Forall octets chunks2 ->
  cipher_run T1 iv1 (session key chunks1) = Ret (Accepted :: map Data outs1 ++ [Data b1], c1) ->
  cipher_run T2 iv2 (session key chunks2) = Ret (Accepted :: map Data outs2 ++ [Data b2], c2) ->
  let C1 := concat outs1 ++ b1 in
  let C2 := concat outs2 ++ b2 in
  (16 * i <= length C1)%nat -> (16 * j + 32 <= length C2)%nat ->
  concat chunks = firstn (16 * i) C1 ++ skipn (16 * j) C2 ->
  exists outs m d G,
    decipher_run T iv1 (session key chunks) = Ret (Accepted :: map Data outs ++ [Data m], d) /\
    concat outs ++ m =
      firstn (16 * i) (pkcs7_pad 16 (concat chunks1)) ++ G ++ skipn (16 * (j + 1)) (concat chunks2) /\
    G = xor (firstn 16 (skipn (16 * j) (concat chunks2)))
            (xor (last (blocks 16 (firstn (16 * i) C1)) iv1) (last (blocks 16 (firstn (16 * j) C2)) iv2)).
Proof.
  intros T T1 T2 key iv1 iv2 chunks1 chunks2 outs1 outs2 b1 b2 c1 c2 i j chunks Hk Hv1 Hv2 Hc1 Hc2 E1 E2 C1 C2 Hi Hj Hc.
  destruct (encrypt_session T1 key iv1 chunks1 Hk Hv1 Hc1) as (o1 & x1 & y1 & F1 & _ & _ & G1).
  destruct (encrypt_session T2 key iv2 chunks2 Hk Hv2 Hc2) as (o2 & x2 & y2 & F2 & _ & _ & G2).
  rewrite F1 in E1. rewrite F2 in E2. apply replies_inj in E1, E2.
  destruct E1 as [-> E1], E2 as [-> E2]. injection E1 as ->. injection E2 as ->.
  fold C1 in G1. fold C2 in G2. clear F1 F2.
  set (m1 := concat chunks1) in *. set (m2 := concat chunks2) in *.
  assert (Om1 : octets m1) by (apply octets_concat'; assumption).
  assert (Om2 : octets m2) by (apply octets_concat'; assumption).
  destruct (ciphertext_facts key iv1 m1 Hk Hv1 Om1) as (O1 & L1 & R1).
  destruct (ciphertext_facts key iv2 m2 Hk Hv2 Om2) as (O2 & L2 & R2).
  cbv zeta in *. rewrite <- G1 in O1, L1, R1. rewrite <- G2 in O2, L2, R2. clear G1 G2. clearbody C1 C2 m1 m2.
  set (A := firstn (16 * i) C1). set (A2 := firstn (16 * j) C2).
  set (X := firstn 16 (skipn (16 * j) C2)). set (B := skipn 16 (skipn (16 * j) C2)).
  destruct (cut C1 (16 * i) Hi) as [LA _]. fold A in LA.
  destruct (cut C2 (16 * j) ltac:(lia)) as [LA2 LS]. fold A2 in LA2.
  destruct (cut (skipn (16 * j) C2) 16 ltac:(lia)) as [LX LB]. fold X in LX. fold B in LB.
  assert (OA : octets A) by (apply octets_firstn; assumption).
  assert (OA2 : octets A2) by (apply octets_firstn; assumption).
  assert (OX : octets X) by (apply octets_firstn, octets_skipn; assumption).
  assert (OB : octets B) by (apply octets_skipn, octets_skipn; assumption).
  assert (EC2 : C2 = A2 ++ X ++ B) by (subst A2 X B; rewrite !firstn_skipn; reflexivity).
  assert (Ec : concat chunks = A ++ X ++ B) by (rewrite Hc; subst A X B; rewrite firstn_skipn; reflexivity).
  pose proof (raw_cut key iv2 A2 X B Hk Hv2 OA2 (conj OX LX) OB ltac:(rewrite LA2; lia)) as K2. cbv zeta in K2.
  pose proof (raw_cut key iv1 A X B Hk Hv1 OA (conj OX LX) OB ltac:(rewrite LA; lia)) as K1. cbv zeta in K1.
  rewrite <- EC2, R2 in K2. unfold A at 2 in K1. rewrite raw_start, R1 in K1 by assumption.
  set (p1 := last (blocks 16 A) iv1) in *. set (p2 := last (blocks 16 A2) iv2) in *.
  assert (Gp1 : good_block p1) by (apply last_block_good; assumption).
  assert (Gp2 : good_block p2) by (apply last_block_good; assumption).
  assert (GX : good_block (Spec.Aes.InvCipher key X)) by (apply dec_good; [assumption|split; assumption]).
  assert (LR : length (raw key iv2 A2) = (16 * j)%nat)
    by (rewrite raw_multiple; [exact LA2|assumption|assumption|assumption|rewrite LA2; lia]).
  assert (S1 : skipn (16 * j) (pkcs7_pad 16 m2) = xor (Spec.Aes.InvCipher key X) p2 ++ raw key X B).
  { rewrite K2, skipn_app, LR, Nat.sub_diag, skipn_all2 by lia. reflexivity. }
  assert (Lx2 : length (xor (Spec.Aes.InvCipher key X) p2) = 16%nat) by (apply (xor_good _ _ GX Gp2)).
  assert (S2 : firstn 16 (skipn (16 * j) m2) = xor (Spec.Aes.InvCipher key X) p2).
  { rewrite (pad_tail j m2) in S1 by lia. apply (f_equal (firstn 16)) in S1.
    rewrite !firstn_app, Lx2, skipn_length in S1. replace (16 - (length m2 - 16 * j))%nat with 0%nat in S1 by lia.
    change (16 - 16)%nat with 0%nat in S1. rewrite (firstn_all2 (xor _ _)) in S1 by lia.
    change (firstn 0 (repeat _ _)) with (@nil N) in S1. change (firstn 0 (raw key X B)) with (@nil N) in S1.
    rewrite !app_nil_r in S1. exact S1. }
  assert (S3 : raw key X B = skipn (16 * (j + 1)) m2 ++ repeat (N.of_nat (16 - length m2 mod 16)) (16 - length m2 mod 16)).
  { rewrite <- pad_tail by lia. replace (16 * (j + 1))%nat with (16 + 16 * j)%nat by lia.
    rewrite <- skipn_skipn, S1, skipn_app, Lx2, Nat.sub_diag, skipn_all2 by lia. reflexivity. }
  set (n := (16 - length m2 mod 16)%nat) in *. assert (Hn : (1 <= n <= 16)%nat) by (subst n; lia).
  set (G := xor (firstn 16 (skipn (16 * j) m2)) (xor p1 p2)).
  assert (EG : xor (Spec.Aes.InvCipher key X) p1 = G).
  { unfold G. rewrite S2. rewrite (xor_comm p1 p2), <- xor_assoc.
    f_equal. symmetry. apply xor_cancel_r. rewrite (proj2 GX), (proj2 Gp2). reflexivity. }
  rewrite EG, S3 in K1. rewrite <- Ec in K1.
  set (F := firstn (16 * i) (pkcs7_pad 16 m1)) in *. set (Z := skipn (16 * (j + 1)) m2) in *.
  rewrite (app_assoc G Z), (app_assoc F) in K1.
  assert (Oc : Forall octets chunks).
  { assert (octets (concat chunks)) as H by (rewrite Ec; repeat (apply octets_app; split); assumption).
    clear -H. induction chunks as [|x l IH]; [constructor|]. cbn [concat] in H. apply octets_app in H.
    constructor; [apply H|apply IH, H]. }
  destruct (decrypt_session T key iv1 chunks Hk Hv1 Oc) as (outs & d & E & _ & _ & Ho).
  pose proof (raw_length key iv1 (concat chunks) Hk Hv1 ltac:(apply octets_concat'; assumption)) as LRaw.
  set (R := raw key iv1 (concat chunks)) in *.
  assert (EP : Stream.ends_with_pad R (F ++ G ++ Z) n).
  { split; [exact K1|]. rewrite K1.
    rewrite Proofs.Stream.last_app_repeat by lia. reflexivity. }
  assert (NR : R <> []).
  { rewrite K1. intros H. apply (f_equal (@length N)) in H. rewrite !app_length, repeat_length in H. cbn [length] in H. lia. }
  assert (LR' : (length R mod 16 = 0)%nat) by (rewrite LRaw; lia).
  pose proof (Proofs.Stream.settled_held 16 R) as SH.
  assert (exists m, F ++ G ++ Z = settled 16 R ++ m) as [m Hm].
  { assert (LS' : (length (settled 16 R) <= length R - 16)%nat).
    { unfold settled. rewrite firstn_length. lia. }
    exists (skipn (length (settled 16 R)) (F ++ G ++ Z)).
    destruct EP as [EP _]. rewrite EP in SH at 3.
    assert (LZ : (length (settled 16 R) <= length (F ++ G ++ Z))%nat).
    { apply (f_equal (@length N)) in EP. rewrite app_length, repeat_length in EP. lia. }
    apply (f_equal (firstn (length (settled 16 R)))) in SH.
    rewrite firstn_app, Nat.sub_diag, firstn_all in SH. cbn [firstn] in SH. rewrite app_nil_r in SH.
    rewrite firstn_app in SH. replace (length (settled 16 R) - length (F ++ G ++ Z))%nat with 0%nat in SH by lia.
    cbn [firstn] in SH. rewrite app_nil_r in SH. rewrite SH at 1. symmetry. apply firstn_skipn. }
  rewrite Hm in EP.
  assert (ST : Stream.strip 16 (held 16 R) = Stream.Stripped m).
  { apply Proofs.Stream.stream_stripped; [lia|]. split; [exact NR|]. split; [exact LR'|]. exists n. split; [lia|exact EP]. }
  rewrite ST in E. cbn [Proofs.Messages.verdict_reply] in E.
  exists outs, m, d, G. split; [exact E|]. split; [|reflexivity].
  rewrite Ho, <- Hm. reflexivity.
Qed.
Print Assumptions C80_splice_accepted.

(** The first block of one message and the end of another, under the key and with
    the initialisation vector of RFC 3602. *)
Example C80_example :
  let T := mkTarget W32 true in
  let C1 := aes_cbc_encrypt rfc3602_key rfc3602_iv (repeat 1 20) in
  let C2 := aes_cbc_encrypt rfc3602_key (repeat 5 16) (repeat 2 16 ++ repeat 3 16 ++ [4; 4; 4]) in
  exists G d,
    decipher_run T rfc3602_iv (session rfc3602_key [firstn 16 C1 ++ skipn 16 C2]) =
      Ret ([Accepted; Data (repeat 1 16 ++ G); Data [4; 4; 4]], d) /\
    length G = 16%nat /\ G <> repeat 3 16.
Proof.
  cbv zeta. eexists (_ :: _ :: _ :: _ :: _ :: _ :: _ :: _ :: _ :: _ :: _ :: _ :: _ :: _ :: _ :: [_]), _.
  split; [vm_compute; reflexivity|]. split; [reflexivity|discriminate].
Qed.
