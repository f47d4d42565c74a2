(** PBKDF2-HMAC-SHA256. *)
From Coq Require Import ZArith NArith List Arith Lia Bool ZifyBool ZifyNat ZifyN.
From Verif Require Import Rust Calls.
From Verif.Model Require Import Sha256 Hmac Pbkdf2.
From Verif.Spec Require Octets Sha256 Hmac Pbkdf2.
From Verif.Proofs Require Import Base Bits Sha256Core Sha256 Sha256Main Hmac.
Import Spec.Octets.
Import ListNotations.
Local Open Scope N_scope.
Ltac Zify.zify_post_hook ::= Z.div_mod_to_equations.

Notation spec_hmac := Spec.Hmac.hmac.
Notation U := Spec.Pbkdf2.U.
Notation F := Spec.Pbkdf2.F.
Notation F_upto := Spec.Pbkdf2.F_upto.
Notation spec_pbkdf2 := Spec.Pbkdf2.pbkdf2.

Lemma spec_hmac_length K t : length (spec_hmac K t) = 32%nat.
Proof. apply spec_sha256_length. Qed.
Lemma octets_spec_hmac K t : octets (spec_hmac K t).
Proof. apply octets_spec_sha256. Qed.
Lemma U_length P S i j : length (U P S i j) = 32%nat.
Proof. destruct j; apply spec_hmac_length. Qed.
Lemma octets_U P S i j : octets (U P S i j).
Proof. destruct j; apply octets_spec_hmac. Qed.
Lemma F_upto_length P S i n : length (F_upto P S i n) = 32%nat.
Proof. induction n as [|n IH]; [apply U_length|]. cbn [F_upto]. rewrite xor_length, IH, U_length. reflexivity. Qed.
Lemma octets_F_upto P S i n : octets (F_upto P S i n).
Proof. induction n as [|n IH]; [apply octets_U|]. cbn [F_upto]. apply octets_xor; [assumption|apply octets_U]. Qed.
Lemma F_length P S c i : length (F P S c i) = 32%nat.
Proof. apply F_upto_length. Qed.
Lemma octets_F P S c i : octets (F P S c i).
Proof. apply octets_F_upto. Qed.

Lemma ctr_bytes_INT i : ctr_bytes i = Spec.Pbkdf2.INT i.
Proof. symmetry. apply be_octets_4. Qed.

Lemma xor_us_ok t u : length t = length u -> xor_us t u = Ret (xor t u).
Proof.
  intros Hl. unfold xor_us. replace (len u) with (len t) by (unfold len; rewrite Hl; reflexivity).
  rewrite (fill_loop (fun i x => N.lxor x (nth i u 0)) _ _ 0).
  - f_equal. apply (list_ext _ _ 0).
    + rewrite map_length, seq_length, xor_length. lia.
    + intros i Hi. rewrite map_length, seq_length in Hi.
      rewrite nth_map_seq, nth_xor by lia. reflexivity.
  - intros i o Hi Ho. rewrite !(idx_nth _ _ 0) by lia. cbn [bind].
    rewrite Nat2N.id. reflexivity.
Qed.

(** One MAC computation from key to digest, in one and in two updates. *)
Lemma prf_ok T P x : octets P -> octets x ->
  8 * N.of_nat (length P) < usize_mod T -> 8 * N.of_nat (64 + length x) < usize_mod T ->
  exists m m' m'', hmac_new T P = Ret m /\ hmac_update T m x = Ret m' /\
    hmac_digest T m' = Ret (spec_hmac P x, m'').
Proof.
  intros HP Hx HlP Hlx. destruct (hmac_conforms T P [x] HP) as (m & m' & m'' & H1 & H2 & H3);
    cbn [concat]; rewrite ?app_nil_r; try assumption.
  exists m, m', m''. rewrite hmac_updates_concat in H2. cbn [concat] in H2, H3.
  rewrite app_nil_r in H2, H3. repeat split; assumption.
Qed.

Lemma prf2_ok T P x y : octets P -> octets x -> octets y ->
  8 * N.of_nat (length P) < usize_mod T -> 8 * N.of_nat (64 + length (x ++ y)) < usize_mod T ->
  exists m m1 m2 m3, hmac_new T P = Ret m /\ hmac_update T m x = Ret m1 /\ hmac_update T m1 y = Ret m2 /\
    hmac_digest T m2 = Ret (spec_hmac P (x ++ y), m3).
Proof.
  intros HP Hx Hy HlP Hlx.
  destruct (new_keyed T P HP HlP) as (m & Hm & Hk). rewrite app_length in Hlx.
  destruct (update_keyed T m P [] x Hk Hx) as (m1 & Hm1 & Hk1); [cbn [app]; lia|]. cbn [app] in Hk1.
  destruct (update_keyed T m1 P x y Hk1 Hy) as (m2 & Hm2 & Hk2); [rewrite app_length; lia|].
  destruct (digest_keyed T m2 P _ Hk2) as (m3 & Hm3); [rewrite app_length; lia|].
  exists m, m1, m2, m3. repeat split; assumption.
Qed.

Definition fits (T : target) (P S : list N) : Prop :=
  8 * N.of_nat (length P) < usize_mod T /\ 8 * (N.of_nat (length S) + 68) < usize_mod T.

Lemma block_ok T P S c i : octets P -> octets S -> fits T P S ->
  pbkdf2_block T P S c i = Ret (F P S c i).
Proof.
  intros HP HS [HlP HlS]. unfold pbkdf2_block. rewrite ctr_bytes_INT.
  match goal with |- context [for_range_incl 2 c ?b _] => set (body := b) end.
  assert (Hil : length (Spec.Pbkdf2.INT i) = 4%nat) by apply be_octets_length.
  destruct (prf2_ok T P S (Spec.Pbkdf2.INT i) HP HS (octets_be_octets _ _) HlP)
    as (m & m1 & m2 & m3 & -> & E1 & E2 & E3); [rewrite app_length; lia|].
  cbn [bind]. rewrite E1. cbn [bind]. rewrite E2. cbn [bind]. rewrite E3. cbn [bind].
  unfold for_range_incl, for_range.
  destruct (for_n_inv (fun j ut => ut = (U P S i (N.to_nat j - 2), F_upto P S i (N.to_nat j - 2)))
    body (N.to_nat (c + 1 - 2)) 2 (spec_hmac P (S ++ Spec.Pbkdf2.INT i), spec_hmac P (S ++ Spec.Pbkdf2.INT i)))
    as (ut & -> & ->).
  - intros j st Hj ->. unfold body.
    destruct (prf_ok T P (U P S i (N.to_nat j - 2)) HP (octets_U _ _ _ _) HlP) as (a & b & d & -> & F1 & F2).
    { rewrite U_length. pose proof (usize_mod_ge T) as Hge.
      change (2 ^ 32) with 4294967296 in Hge. cbn. lia. }
    cbn [bind]. rewrite F1. cbn [bind]. rewrite F2. cbn [bind].
    replace (N.to_nat (N.succ j) - 2)%nat with (Datatypes.S (N.to_nat j - 2)) by lia.
    change (spec_hmac P (U P S i (N.to_nat j - 2))) with (U P S i (Datatypes.S (N.to_nat j - 2))).
    rewrite xor_us_ok by (rewrite F_upto_length, U_length; reflexivity). cbn [bind].
    eexists. split; reflexivity.
  - reflexivity.
  - cbn [bind]. unfold F. do 2 f_equal. lia.
Qed.

(** The blocks of the derived key, from block 1 on. *)
Definition stream (P S : list N) (c : N) (k : nat) : list N :=
  flat_map (fun i => F P S c (N.of_nat i)) (seq 1 k).
Lemma stream_length P S c k : length (stream P S c k) = (32 * k)%nat.
Proof.
  unfold stream. generalize (seq_length k 1). generalize (seq 1 k) as l. intros l <-.
  induction l as [|x l IH]; [reflexivity|].
  cbn [flat_map length]. rewrite app_length, F_length, IH. lia.
Qed.
Lemma stream_S P S c k : stream P S c (Datatypes.S k) = stream P S c k ++ F P S c (N.of_nat (Datatypes.S k)).
Proof.
  unfold stream. rewrite seq_S, flat_map_app. cbn [flat_map]. rewrite app_nil_r. reflexivity.
Qed.
Lemma octets_stream P S c k : octets (stream P S c k).
Proof.
  unfold stream. induction (seq 1 k) as [|x l IH]; [constructor|].
  cbn [flat_map]. apply octets_app. split; [apply octets_F|apply IH].
Qed.

Lemma pbkdf2_ok T P S c out : octets P -> octets S -> fits T P S -> len out <= isize_max T ->
  pbkdf2_sha256 T P S c out = Ret (spec_pbkdf2 P S c (length out)).
Proof.
  intros HP HS Hf Hout. unfold pbkdf2_sha256, DIGEST_SIZE.
  pose proof (isize_usize T) as Hus. pose proof (usize_mod_ge T) as Hge.
  change (2 ^ 32) with 4294967296 in Hge.
  rewrite uadd_ok by lia. cbn [bind]. rewrite usub_ok by lia. cbn [bind].
  rewrite udiv_ok by lia. cbn [bind].
  set (n := length out). assert (Hlen : len out = N.of_nat n) by reflexivity. rewrite Hlen in *.
  set (l := (N.of_nat n + 32 - 1) / 32).
  unfold for_range_incl.
  match goal with |- for_range _ _ ?b _ = _ => set (body := b) end.
  destruct (for_range_inv
    (fun i o => o = firstn n (stream P S c (N.to_nat i - 1)) ++ skipn (32 * (N.to_nat i - 1)) out)
    body 1 (l + 1) out) as (o & -> & ->).
  - lia.
  - intros i o Hi ->. unfold body. rewrite block_ok by assumption. cbn [bind].
    assert (Hil : 32 * (i - 1) < N.of_nat n) by lia.
    rewrite usub_ok by lia. cbn [bind].
    rewrite !umul_ok by lia. cbn [bind].
    rewrite (firstn_all2 (n := n)) by (rewrite stream_length; lia).
    set (A := stream P S c (N.to_nat i - 1)).
    assert (HA : length A = (32 * (N.to_nat i - 1))%nat) by apply stream_length.
    set (o := A ++ skipn (32 * (N.to_nat i - 1)) out).
    assert (Ho : length o = n) by (unfold o; rewrite app_length, skipn_length, HA; fold n; lia).
    unfold len. rewrite Ho.
    rewrite usub_ok by lia. cbn [bind].
    unfold slice_to. rewrite slice_ok by (rewrite ?F_length; lia). cbn [bind].
    change (N.to_nat 0) with 0%nat. rewrite Nat.sub_0_r.
    change (skipn 0 (F P S c i)) with (F P S c i).
    unfold with_slice. rewrite slice_ok by lia. cbn [bind].
    rewrite copy_from_slice_ok by (rewrite !firstn_length, skipn_length, F_length; lia).
    cbn [bind]. eexists. split; [reflexivity|].
    replace (N.to_nat (N.succ i) - 1)%nat with (Datatypes.S (N.to_nat i - 1)) by lia.
    rewrite stream_S. replace (N.of_nat (Datatypes.S (N.to_nat i - 1))) with i by lia. fold A.
    rewrite (firstn_app n A), (firstn_all2 (n := n) A) by lia. rewrite HA.
    unfold o. rewrite (firstn_app _ A), HA.
    replace (N.to_nat ((i - 1) * 32) - 32 * (N.to_nat i - 1))%nat with 0%nat by lia.
    rewrite firstn_O, app_nil_r. rewrite (firstn_all2 A) by lia. rewrite <- !app_assoc. f_equal.
    rewrite skipn_app, HA. rewrite (skipn_all2 A) by lia. cbn [app].
    rewrite skipn_skipn.
    destruct (N.le_gt_cases (i * 32) (N.of_nat n)) as [Hc|Hc].
    + rewrite N.min_l by lia. rewrite !firstn_all2 by (rewrite F_length; lia). f_equal. f_equal. lia.
    + rewrite N.min_r by lia. rewrite !skipn_all2 by (fold n; lia). f_equal. f_equal. lia.
  - cbn [N.to_nat Nat.sub stream seq flat_map]. rewrite firstn_nil. reflexivity.
  - rewrite skipn_all2 by (fold n; lia). rewrite app_nil_r.
    unfold spec_pbkdf2. f_equal. f_equal.
    unfold stream. do 2 f_equal. unfold Spec.Pbkdf2.hLen. lia.
Qed.

Lemma pbkdf2_length P S c n : length (spec_pbkdf2 P S c n) = n.
Proof.
  unfold spec_pbkdf2. fold (stream P S c (Nat.div (n + (Spec.Pbkdf2.hLen - 1)) Spec.Pbkdf2.hLen)).
  rewrite firstn_length, stream_length. unfold Spec.Pbkdf2.hLen. lia.
Qed.
Lemma octets_pbkdf2 P S c n : octets (spec_pbkdf2 P S c n).
Proof. apply octets_firstn. apply octets_stream. Qed.

(** Prefixes. *)
Lemma stream_prefix P S c k k' : (k <= k')%nat ->
  firstn (32 * k) (stream P S c k') = stream P S c k.
Proof.
  intros H. replace k' with (k + (k' - k))%nat by lia. unfold stream. rewrite seq_app, flat_map_app.
  fold (stream P S c k). rewrite firstn_app, stream_length, Nat.sub_diag. cbn [firstn].
  rewrite app_nil_r. apply firstn_all2. rewrite stream_length. lia.
Qed.
Lemma pbkdf2_prefix P S c n m : (n <= m)%nat -> firstn n (spec_pbkdf2 P S c m) = spec_pbkdf2 P S c n.
Proof.
  intros H. unfold spec_pbkdf2. rewrite firstn_firstn, Nat.min_l by assumption.
  set (a := Nat.div (n + (Spec.Pbkdf2.hLen - 1)) Spec.Pbkdf2.hLen).
  set (b := Nat.div (m + (Spec.Pbkdf2.hLen - 1)) Spec.Pbkdf2.hLen).
  fold (stream P S c a) (stream P S c b).
  assert (Hab : (a <= b)%nat) by (apply Nat.div_le_mono; unfold Spec.Pbkdf2.hLen; lia).
  rewrite <- (stream_prefix P S c a b Hab). rewrite firstn_firstn.
  f_equal. unfold a, Spec.Pbkdf2.hLen. lia.
Qed.

(** Iteration count zero. *)
Lemma pbkdf2_c0 T P S out : pbkdf2_sha256 T P S 0 out = pbkdf2_sha256 T P S 1 out.
Proof. reflexivity. Qed.

(** The block counter wraps. *)
Lemma INT_wrap i : Spec.Pbkdf2.INT (i + 2 ^ 32) = Spec.Pbkdf2.INT i.
Proof.
  unfold Spec.Pbkdf2.INT.
  rewrite <- (be_octets_be_num (be_octets 4 (i + 2 ^ 32))) by apply octets_be_octets.
  rewrite <- (be_octets_be_num (be_octets 4 i)) by apply octets_be_octets.
  rewrite !be_octets_length, !be_num_be_octets.
  change (256 ^ N.of_nat 4) with (2 ^ 32). f_equal.
  replace (i + 2 ^ 32) with (i + 1 * 2 ^ 32) by lia. apply N.mod_add. discriminate.
Qed.
Lemma U_wrap P S i j : U P S (i + 2 ^ 32) j = U P S i j.
Proof. induction j as [|j IH]; cbn [U]; [rewrite INT_wrap; reflexivity|rewrite IH; reflexivity]. Qed.
Lemma F_wrap P S c i : F P S c (i + 2 ^ 32) = F P S c i.
Proof.
  unfold F. generalize (N.to_nat (c - 1)) as n. induction n as [|n IH]; cbn [F_upto].
  - apply U_wrap.
  - rewrite IH, U_wrap. reflexivity.
Qed.

Lemma nth_stream P S c k i : (i < 32 * k)%nat ->
  nth i (stream P S c k) 0 = nth (i mod 32) (F P S c (N.of_nat (i / 32 + 1))) 0.
Proof.
  induction k as [|k IH]; intros Hi; [lia|]. rewrite stream_S.
  destruct (Nat.lt_ge_cases i (32 * k)) as [H|H].
  - rewrite app_nth1 by (rewrite stream_length; assumption). apply IH. assumption.
  - rewrite app_nth2 by (rewrite stream_length; assumption). rewrite stream_length.
    f_equal; [lia|]. f_equal. f_equal. lia.
Qed.

Lemma nth_pbkdf2 P S c n i : (i < n)%nat ->
  nth i (spec_pbkdf2 P S c n) 0 = nth (i mod 32) (F P S c (N.of_nat (i / 32 + 1))) 0.
Proof.
  intros Hi. unfold spec_pbkdf2.
  set (a := Nat.div (n + (Spec.Pbkdf2.hLen - 1)) Spec.Pbkdf2.hLen). fold (stream P S c a).
  assert (Ha : (n <= 32 * a)%nat) by (unfold a, Spec.Pbkdf2.hLen; lia).
  rewrite <- (nth_stream P S c a i) by lia.
  rewrite <- (firstn_skipn n (stream P S c a)) at 2.
  rewrite app_nth1; [reflexivity|]. rewrite firstn_length, stream_length. lia.
Qed.

Lemma pbkdf2_period P S c n i : N.of_nat i + 2 ^ 37 < N.of_nat n ->
  nth (i + N.to_nat (2 ^ 37)) (spec_pbkdf2 P S c n) 0 = nth i (spec_pbkdf2 P S c n) 0.
Proof.
  intros Hi. set (p := N.to_nat (2 ^ 37)).
  assert (Hp : N.of_nat p = 32 * 2 ^ 32) by (unfold p; rewrite N2Nat.id; reflexivity).
  rewrite !nth_pbkdf2.
  2: { assert (N.of_nat i < N.of_nat n) by lia. lia. }
  2: { change (2 ^ 37) with (32 * 2 ^ 32) in Hi. lia. }
  replace (N.of_nat ((i + p) / 32 + 1)) with (N.of_nat (i / 32 + 1) + 2 ^ 32).
  - rewrite F_wrap. f_equal. generalize dependent p. intros p Hp.
    change (32 * 2 ^ 32) with 137438953472 in Hp. lia.
  - clear - Hp. generalize dependent p. intros p Hp. change (32 * 2 ^ 32) with 137438953472 in Hp.
    change (2 ^ 32) with 4294967296. lia.
Qed.

Lemma pbkdf2_same_hmac T P P' S c out : hmac_new T P = hmac_new T P' ->
  pbkdf2_sha256 T P S c out = pbkdf2_sha256 T P' S c out.
Proof. intros E. unfold pbkdf2_sha256, pbkdf2_block. rewrite E. reflexivity. Qed.

Lemma pbkdf2_zero_pad T P z S c out : (length P + z <= 64)%nat ->
  pbkdf2_sha256 T (P ++ repeat 0 z) S c out = pbkdf2_sha256 T P S c out.
Proof. intros H. apply pbkdf2_same_hmac. apply hmac_new_zero_pad. assumption. Qed.

Lemma pbkdf2_long_password T P S c out :
  octets P -> (64 < length P)%nat -> 8 * N.of_nat (length P) < usize_mod T ->
  pbkdf2_sha256 T P S c out = pbkdf2_sha256 T (spec_sha256 P) S c out.
Proof. intros. apply pbkdf2_same_hmac. apply hmac_new_long; assumption. Qed.

Lemma pbkdf2_overwrites T P S c out out' : octets P -> octets S -> fits T P S ->
  len out <= isize_max T -> length out = length out' ->
  exists dk, pbkdf2_sha256 T P S c out = Ret dk /\ pbkdf2_sha256 T P S c out' = Ret dk /\
    length dk = length out /\ octets dk.
Proof.
  intros HP HS Hf Hl E. exists (spec_pbkdf2 P S c (length out)).
  split; [apply pbkdf2_ok; assumption|]. split.
  - rewrite E. apply pbkdf2_ok; try assumption. unfold len in *. rewrite <- E. assumption.
  - split; [apply pbkdf2_length|apply octets_pbkdf2].
Qed.

Lemma pbkdf2_prefix_api T P S c out out' : octets P -> octets S -> fits T P S ->
  len out' <= isize_max T -> (length out <= length out')%nat ->
  exists dk dk', pbkdf2_sha256 T P S c out = Ret dk /\ pbkdf2_sha256 T P S c out' = Ret dk' /\
    dk = firstn (length out) dk'.
Proof.
  intros HP HS Hf Hl E. exists (spec_pbkdf2 P S c (length out)), (spec_pbkdf2 P S c (length out')).
  split; [apply pbkdf2_ok; try assumption; unfold len in *; lia|].
  split; [apply pbkdf2_ok; assumption|]. symmetry. apply pbkdf2_prefix. assumption.
Qed.

Lemma pbkdf2_period_api T P S c out : octets P -> octets S -> fits T P S -> len out <= isize_max T ->
  exists dk, pbkdf2_sha256 T P S c out = Ret dk /\ length dk = length out /\
    forall i, N.of_nat i + 2 ^ 37 < len out ->
      nth (i + N.to_nat (2 ^ 37)) dk 0 = nth i dk 0.
Proof.
  intros HP HS Hf Hl. eexists. split; [apply pbkdf2_ok; assumption|].
  split; [apply pbkdf2_length|]. intros i Hi. apply pbkdf2_period. exact Hi.
Qed.

Lemma pbkdf2_blocks_api T P S c out : octets P -> octets S -> fits T P S -> len out <= isize_max T ->
  exists dk, pbkdf2_sha256 T P S c out = Ret dk /\ length dk = length out /\
    forall i, (i < length out)%nat ->
      nth i dk 0 = nth (i mod 32) (F P S c (N.of_nat (i / 32 + 1))) 0.
Proof.
  intros HP HS Hf Hl. eexists. split; [apply pbkdf2_ok; assumption|].
  split; [apply pbkdf2_length|]. intros i Hi. apply nth_pbkdf2. exact Hi.
Qed.

Lemma pbkdf2_empty T P S c : pbkdf2_sha256 T P S c [] = Ret [].
Proof.
  unfold pbkdf2_sha256, DIGEST_SIZE, len. cbn [length].
  pose proof (usize_mod_ge T) as Hge. change (2 ^ 32) with 4294967296 in Hge.
  rewrite uadd_ok by (cbn; lia). reflexivity.
Qed.

Lemma pbkdf2_c0_witness :
  exists T P S out dk, pbkdf2_sha256 T P S 0 out = Ret dk /\ length dk = 1%nat /\
    dk = spec_pbkdf2 P S 1 1.
Proof.
  exists (mkTarget W64 true), [1], [2], [0]. eexists. split; [vm_compute; reflexivity|].
  split; vm_compute; reflexivity.
Qed.

Lemma pbkdf2_too_long :
  exists T P S c out, octets P /\ octets S /\
    (8 * N.of_nat (length P) < usize_mod T /\ 8 * (N.of_nat (length S) + 68) < usize_mod T /\
     N.of_nat (length out) <= isize_max T) /\
    (2 ^ 32 - 1) * 32 < N.of_nat (length out) /\ 2 ^ 37 < N.of_nat (length out) /\
    exists dk, pbkdf2_sha256 T P S c out = Ret dk.
Proof.
  exists (mkTarget W64 true), [1], [2], 1, (repeat 0 (N.to_nat (2 ^ 37 + 1))).
  split; [repeat constructor|]. split; [repeat constructor|].
  assert (Hl : N.of_nat (length (repeat 0 (N.to_nat (2 ^ 37 + 1)))) = 2 ^ 37 + 1) by apply length_repeat_N.
  rewrite Hl. split; [split; [reflexivity|split; [reflexivity|discriminate]]|].
  split; [reflexivity|]. split; [reflexivity|].
  eexists. apply pbkdf2_ok; [repeat constructor|repeat constructor|split; reflexivity|].
  unfold len. rewrite Hl. vm_compute. discriminate.
Qed.
