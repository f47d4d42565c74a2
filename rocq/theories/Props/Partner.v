(** C95: pairs of HMAC keys. *)
From Coq Require Import ZArith NArith List Arith Lia Bool ZifyBool ZifyNat ZifyN.
From Verif Require Import Rust Calls.
From Verif.Model Require Import Sha256 Hmac.
From Verif.Spec Require Octets Sha256 Hmac Partner.
From Verif.Proofs Require Partner Sha256Main Hmac Pbkdf2.
From Verif.Props Require Sha256 Hmac.
Import ListNotations.
Import Spec.Octets Spec.Partner.
Local Open Scope N_scope.

(** The digest of the chunks, and their MAC, as the program computes them. *)
Definition digest_of (T : target) (chunks : list (list N)) : res (list N) :=
  let* s := sha_updates T sha256_new chunks in
  let* (d, _) := sha256_digest T s in Ret d.
Definition mac_of (T : target) (key : list N) (chunks : list (list N)) : res (list N) :=
  let* m := hmac_new T key in
  let* m := hmac_updates T m chunks in
  let* (d, _) := hmac_digest T m in Ret d.

Lemma digest_of_ok T chunks : octets (concat chunks) -> 8 * N.of_nat (length (concat chunks)) < usize_mod T ->
  digest_of T chunks = Ret (Spec.Sha256.sha256 (concat chunks)).
Proof.
  intros O L. destruct (Props.Sha256.C01_sha256_conforms T chunks O L) as (s & s' & E1 & E2).
  unfold digest_of. rewrite E1. cbn [bind]. rewrite E2. reflexivity.
Qed.
Lemma mac_of_ok T key chunks : octets key -> octets (concat chunks) -> 8 * N.of_nat (length key) < usize_mod T ->
  8 * N.of_nat (64 + length (concat chunks)) < usize_mod T -> mac_of T key chunks = Ret (Spec.Hmac.hmac key (concat chunks)).
Proof.
  intros K O L1 L2. destruct (Props.Hmac.C06_hmac_conforms T key chunks K O L1 L2) as (m & m' & m'' & E1 & E2 & E3).
  unfold mac_of. rewrite E1. cbn [bind]. rewrite E2. cbn [bind]. rewrite E3. reflexivity.
Qed.

(** Every key has exactly one partner block: a key of 64 octets, never its own, whose partner
    is the key block again. *)
Theorem C95_partner : forall K, octets K ->
  octets (partner K) /\ length (partner K) = 64%nat /\ partner K <> Spec.Hmac.block_key K /\
  partner (partner K) = Spec.Hmac.block_key K /\
  forall B, length B = 64%nat -> xor B Spec.Hmac.ipad = xor (Spec.Hmac.block_key K) Spec.Hmac.opad -> B = partner K.
Proof.
  intros K H. split; [apply Partner.octets_partner, H|]. split; [apply Partner.partner_length|].
  split; [apply Partner.partner_differs|]. split; [apply Partner.partner_partner|apply Partner.partner_only].
Qed.
Print Assumptions C95_partner.

(** [new] gives the two hashers of the one key to the other in exchanged places. *)
Theorem C95_new_exchanges_hashers : forall T K i o, octets K -> 8 * N.of_nat (length K) < usize_mod T ->
  hmac_new T K = Ret (mkHMac i o) -> hmac_new T (partner K) = Ret (mkHMac o i).
Proof. exact Partner.partner_new. Qed.
Print Assumptions C95_new_exchanges_hashers.

(** So MACs under the two keys are related, for every message. *)
Theorem C95_related_macs : forall T K m d t, octets K -> octets m ->
  8 * N.of_nat (length K) < usize_mod T -> 8 * N.of_nat (64 + length m) < usize_mod T ->
  let I := xor (Spec.Hmac.block_key K) Spec.Hmac.ipad in
  digest_of T [I; m] = Ret d -> mac_of T K [m] = Ret t ->
  mac_of T (partner K) [d] = digest_of T [I; t].
Proof.
  intros T K m d t HK Hm L1 L2 I Ed Et.
  assert (HI : octets I) by (apply Base.octets_xor; [apply Proofs.Hmac.octets_block_key, HK|apply Proofs.Hmac.octets_ipad]).
  assert (LI : length I = 64%nat) by apply Proofs.Hmac.keyed_pads_length.
  assert (B : 8 * 96 < usize_mod T) by (unfold usize_mod, usize_bits; destruct (width T); reflexivity).
  rewrite digest_of_ok in Ed; cbn [concat]; rewrite ?app_nil_r in *; [|apply Base.octets_app; auto|rewrite app_length; lia].
  rewrite mac_of_ok in Et; cbn [concat] in *; rewrite ?app_nil_r in *; try assumption.
  injection Ed as <-. injection Et as <-.
  rewrite mac_of_ok, digest_of_ok; cbn [concat]; rewrite ?app_nil_r.
  - f_equal. apply Partner.partner_mac.
  - apply Base.octets_app. split; [exact HI|apply Sha256Main.octets_spec_sha256].
  - rewrite app_length, LI, Proofs.Pbkdf2.spec_hmac_length. lia.
  - apply Partner.octets_partner, HK.
  - apply Sha256Main.octets_spec_sha256.
  - rewrite Partner.partner_length. lia.
  - rewrite Sha256Main.spec_sha256_length. lia.
Qed.
Print Assumptions C95_related_macs.

(** The relation stays, however often the MAC is applied. *)
Theorem C95_chains : forall n K m, chain n (partner K) (inner_hash K m) = inner_hash K (chain n K m).
Proof. intros. apply Partner.partner_chain. Qed.
Print Assumptions C95_chains.

(** The key "key": its partner block; the conditions hold for the message "hi". *)
Example C95_example :
  let T := mkTarget W32 true in
  let K := [107; 101; 121] in
  partner K = [1; 15; 19] ++ repeat 0x6a 61 /\ octets K /\ octets [104; 105] /\
  8 * N.of_nat (length K) < usize_mod T /\ 8 * N.of_nat (64 + length [104; 105]) < usize_mod T /\
  match digest_of T [[93; 83; 79] ++ repeat 0x36 61; [104; 105]], mac_of T K [[104; 105]] with
  | Ret d, Ret t => (hd 0 d, hd 0 t)
  | _, _ => (0, 0)
  end = (65, 28).
Proof.
  split; [reflexivity|]. split; [repeat constructor; lia|]. split; [repeat constructor; lia|].
  split; [reflexivity|]. split; [reflexivity|]. vm_compute. reflexivity.
Qed.
