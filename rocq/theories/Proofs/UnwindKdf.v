(** Buffers of the caller after a panic (Unwind/Kdf.v). *)
From Coq Require Import ZArith NArith List Arith Lia Bool ZifyBool ZifyNat ZifyN.
From Verif Require Import Rust.
From Verif.Model Require Import Sha256 Hmac Pbkdf2 Salsa20 Scrypt.
From Verif.Leak Require Ops Pbkdf2 Hmac.
From Verif.Spec Require Import Octets.
From Verif.Spec Require Salsa20.
From Verif.Unwind Require Import Mem.
From Verif.Unwind Require Kdf.
From Verif.Proofs Require Leak LeakAgree LeakErase.
From Verif.Proofs Require Import Base Bits Unwind Salsa20.
Import ListNotations.
Local Open Scope N_scope.
Ltac Zify.zify_post_hook ::= Z.div_mod_to_equations.

(** * Outcomes *)
Lemma on_slice_outcome {X} (f : prog (list X) unit) g a b l :
  (forall s, outcome f s = let* s' := g s in Ret (tt, s')) ->
  outcome (on_slice a b f) l = let* l' := with_slice l a b g in Ret (tt, l').
Proof.
  intros H. unfold outcome, on_slice, with_slice, slice.
  destruct ((a <=? b) && (b <=? len l)); [|reflexivity]. cbn [bind].
  specialize (H (firstn (N.to_nat (b - a)) (skipn (N.to_nat a) l))). unfold outcome in H.
  destruct (f _) as [[] x|x|], (g _); cbn [bind] in *; inversion H; reflexivity.
Qed.
Lemma copy_outcome {X} (src dst : list X) :
  outcome (Mem.copy_from_slice src) dst = let* x := Rust.copy_from_slice dst src in Ret (tt, x).
Proof. unfold Mem.copy_from_slice. oc. destruct (Rust.copy_from_slice dst src); reflexivity. Qed.
Lemma assign_outcome {X} i (v : X) l : outcome (assign i v) l = let* l' := upd l i v in Ret (tt, l').
Proof. unfold assign. oc. destruct (upd l i v); reflexivity. Qed.

Definition pbkdf2_body (T : target) (password salt : list N) (c i : N) : prog (list N) unit :=
  let! t := lift (pbkdf2_block T password salt c i) in
  let! i1 := lift (usub T i 1) in
  let! start := lift (umul T i1 DIGEST_SIZE) in
  let! e := lift (umul T i DIGEST_SIZE) in
  let! out := get in
  let end_ := N.min e (len out) in
  let! n := lift (usub T end_ start) in
  let! src := lift (slice_to t n) in
  on_slice start end_ (Mem.copy_from_slice src).

Lemma pbkdf2_outcome T P S c out :
  outcome (Unwind.Kdf.pbkdf2_sha256 T P S c) out =
  let* o := pbkdf2_sha256 T P S c out in Ret (tt, o).
Proof.
  unfold Unwind.Kdf.pbkdf2_sha256, pbkdf2_sha256. oc.
  destruct (uadd T _ _) as [a| |]; [|reflexivity..]. cbn [bind]. oc.
  destruct (usub T a 1) as [b| |]; [|reflexivity..]. cbn [bind]. oc.
  destruct (udiv b _) as [l| |]; [|reflexivity..]. cbn [bind]. clear a b.
  unfold for_range_incl, Rust.for_range_incl, for_range, Rust.for_range.
  apply outcome_for_n. intros i s. oc.
  destruct (pbkdf2_block _ _ _ _ _) as [t| |]; [|reflexivity..]. cbn [bind]. oc.
  destruct (usub T i 1) as [i1| |]; [|reflexivity..]. cbn [bind]. oc.
  destruct (umul T i1 _) as [st| |]; [|reflexivity..]. cbn [bind]. oc.
  destruct (umul T i _) as [e| |]; [|reflexivity..]. cbn [bind]. oc.
  destruct (usub T _ st) as [n| |]; [|reflexivity..]. cbn [bind]. oc.
  destruct (slice_to t n) as [src| |]; [|reflexivity..]. cbn [bind].
  apply on_slice_outcome. apply copy_outcome.
Qed.

Lemma scrypt_outcome T s pass salt out :
  outcome (Unwind.Kdf.scrypt_derive T s pass salt) out = scrypt_derive T s pass salt out.
Proof.
  unfold Unwind.Kdf.scrypt_derive, scrypt_derive.
  destruct (sr s <? 1); [reflexivity|]. destruct (sn s <? 1); [reflexivity|]. oc.
  destruct (usub T (sn s) 1) as [n1| |]; [|reflexivity..]. cbn [bind].
  destruct (negb _); [reflexivity|]. destruct (sp s <? 1); [reflexivity|]. oc.
  destruct (umul T (sp s) 2) as [m1| |]; [|reflexivity..]. cbn [bind]. oc.
  destruct (umul T m1 _) as [m2| |]; [|reflexivity..]. cbn [bind]. oc.
  destruct (umul T m2 _) as [m| |]; [|reflexivity..]. cbn [bind]. oc.
  destruct (alloc T 1 m) as [u| |]; [|reflexivity..]. cbn [bind]. oc.
  destruct (pbkdf2_sha256 T pass salt _ _) as [raw| |]; [|reflexivity..]. cbn [bind]. oc.
  destruct (split_blocks T s raw) as [b| |]; [|reflexivity..]. cbn [bind]. oc.
  destruct (map_res _ b) as [b'| |]; [|reflexivity..]. cbn [bind].
  rewrite outcome_seq, pbkdf2_outcome.
  destruct (pbkdf2_sha256 _ _ _ _ _); reflexivity.
Qed.

Lemma littleendian_inv_outcome x y :
  outcome (Unwind.Kdf.littleendian_inv x) y = let* y' := littleendian_inv x y in Ret (tt, y').
Proof.
  unfold Unwind.Kdf.littleendian_inv, littleendian_inv.
  do 3 (rewrite outcome_seq, assign_outcome; destruct (upd _ _ _) as [?y| |]; [|reflexivity..]; cbn [bind]).
  apply assign_outcome.
Qed.
Lemma salsa20_outcome input rounds out :
  outcome (Unwind.Kdf.salsa20 input rounds) out =
  let* o := salsa20 input rounds out in Ret (tt, o).
Proof.
  unfold Unwind.Kdf.salsa20, salsa20. oc.
  destruct (read_words input) as [x| |]; [|reflexivity..]. cbn [bind]. oc.
  destruct (mix rounds x) as [z| |]; [|reflexivity..]. cbn [bind].
  unfold Unwind.Kdf.write_words, write_words, for_range, Rust.for_range. apply outcome_for_n.
  intros i s. oc. destruct (idx x i) as [a| |]; [|reflexivity..]. cbn [bind]. oc.
  destruct (idx z i) as [b| |]; [|reflexivity..]. cbn [bind].
  apply on_slice_outcome. apply littleendian_inv_outcome.
Qed.

(** * PBKDF2: whether a block panics does not depend on its number *)
Import Leak.
Lemma block_like T P S c i j :
  agree bytes (Leak.Pbkdf2.pbkdf2_block T P S c i) (Leak.Pbkdf2.pbkdf2_block T P S c j).
Proof.
  unfold Leak.Pbkdf2.pbkdf2_block.
  eapply agree_bind; [apply LeakAgree.hmac_new_ag, bytes_refl|]. intros h1 h2 Hh.
  eapply agree_bind; [apply LeakAgree.hmac_update_ag; [eassumption|apply bytes_refl]|]. intros h3 h4 Hh'.
  eapply agree_bind; [apply LeakAgree.hmac_update_ag; [eassumption|apply bytes_length; reflexivity]|].
  intros h5 h6 Hh''.
  eapply agree_bind; [apply LeakAgree.hmac_digest_ag; eassumption|]. intros [u1 ?] [u2 ?] [Hu _]; cbn in Hu.
  eapply (agree_bind (both bytes bytes)).
  - apply agree_for_range_incl; [split; exact Hu|].
    intros k [v1 t1] [v2 t2] [Hv Ht]; cbn in Hv, Ht.
    eapply agree_bind; [apply LeakAgree.hmac_new_ag, bytes_refl|]. intros k1 k2 Hk.
    eapply agree_bind; [apply LeakAgree.hmac_update_ag; eassumption|]. intros k3 k4 Hk'.
    eapply agree_bind; [apply LeakAgree.hmac_digest_ag; eassumption|]. intros [w1 ?] [w2 ?] [Hw _]; cbn in Hw.
    eapply agree_bind; [apply LeakAgree.xor_us_ag; eassumption|]. intros x1 x2 Hx.
    apply agree_ret; split; assumption.
  - intros [? t1] [? t2] [_ Ht]. apply agree_ret, Ht.
Qed.

Lemma same_outcome T P S c i j :
  match pbkdf2_block T P S c i, pbkdf2_block T P S c j with
  | Ret a, Ret b => length a = length b
  | Panic, Panic => True
  | Diverge, Diverge => True
  | _, _ => False
  end.
Proof.
  destruct (block_like T P S c i j) as [_ H].
  rewrite !(LeakErase.pbkdf2_block_er T P S c) in H.
  destruct (pbkdf2_block T P S c i), (pbkdf2_block T P S c j); try assumption.
  eapply Forall2_length. exact H.
Qed.

(** What a computation returns, if it returns. *)
Definition yields {A} (R : A -> Prop) (m : Rust.res A) : Prop := forall a, m = Ret a -> R a.
Lemma y_ret {A} (R : A -> Prop) a : R a -> yields R (Ret a).
Proof. intros H b E. injection E as <-. exact H. Qed.
Lemma y_bind {A B} (Q : A -> Prop) (R : B -> Prop) m k :
  yields Q m -> (forall a, Q a -> yields R (k a)) -> yields R (Rust.bind m k).
Proof. intros Hm Hk b E. destruct m as [a| |]; [|discriminate..]. exact (Hk a (Hm a eq_refl) b E). Qed.
Lemma y_any {A} (m : Rust.res A) : yields (fun _ => True) m.
Proof. intros a _. exact I. Qed.
Lemma y_for_n {St} (R : St -> Prop) body : (forall i s, R s -> yields R (body i s)) ->
  forall n i s, R s -> yields R (Rust.for_n n i body s).
Proof.
  intros H n. induction n as [|n IH]; intros i s Hs; cbn [Rust.for_n]; [apply y_ret, Hs|].
  eapply y_bind; [apply H, Hs|]. intros a Ha. apply IH, Ha.
Qed.
Lemma y_upd {A} (l : list A) i v n : length l = n -> yields (fun l' => length l' = n) (upd l i v).
Proof.
  intros H l' E. unfold upd in E. destruct (_ <? _); [|discriminate]. injection E as <-.
  rewrite set_nth_length. exact H.
Qed.
Lemma y_write_digest h : yields (fun d => length d = 32%nat) (write_digest h).
Proof.
  unfold write_digest, Rust.for_range. apply y_for_n; [|reflexivity]. intros i s Hs.
  eapply y_bind; [apply y_any|]. intros x _.
  do 3 (eapply y_bind; [apply y_upd; eassumption|]; intros ?o ?Ho; cbn beta in *).
  apply y_upd; assumption.
Qed.
Lemma y_sha256_digest T s : yields (fun x => length (fst x) = 32%nat) (sha256_digest T s).
Proof.
  unfold sha256_digest.
  do 3 (eapply y_bind; [apply y_any|]; intros ? _).
  eapply y_bind; [apply y_any|]. intros [[h off] buffer] _.
  do 6 (eapply y_bind; [apply y_any|]; intros ? _).
  eapply y_bind; [apply y_write_digest|]. intros d Hd. apply y_ret, Hd.
Qed.
Lemma y_hmac_digest T m : yields (fun x => length (fst x) = 32%nat) (hmac_digest T m).
Proof.
  unfold hmac_digest. eapply y_bind; [apply y_any|]. intros [d i] _.
  eapply y_bind; [apply y_any|]. intros o _.
  eapply y_bind; [apply y_sha256_digest|]. intros [d' o'] Hd. apply y_ret, Hd.
Qed.
Lemma y_block T P S c i : yields (fun t => length t = 32%nat) (pbkdf2_block T P S c i).
Proof.
  unfold pbkdf2_block. do 3 (eapply y_bind; [apply y_any|]; intros ? _).
  eapply y_bind; [apply y_hmac_digest|]. intros [u m] Hu. cbn [fst] in Hu.
  eapply (y_bind (fun ut : list N * list N => length (snd ut) = 32%nat)).
  - unfold Rust.for_range_incl, Rust.for_range. apply y_for_n; [|exact Hu].
    intros j [v t] Ht. cbn [snd] in Ht. do 2 (eapply y_bind; [apply y_any|]; intros ? _).
    eapply y_bind; [apply y_any|]. intros [w m'] _.
    eapply (y_bind (fun t => length t = 32%nat)).
    + unfold xor_us, Rust.for_range. apply y_for_n; [|exact Ht]. intros k s Hs.
      do 2 (eapply y_bind; [apply y_any|]; intros ? _). apply y_upd, Hs.
    + intros t' Ht'. apply y_ret, Ht'.
  - intros [v t] Ht. apply y_ret, Ht.
Qed.

Lemma blocks_cases T P S c :
  (forall i, pbkdf2_block T P S c i = Panic) \/ (forall i, pbkdf2_block T P S c i = Diverge) \/
  (forall i, exists t, pbkdf2_block T P S c i = Ret t /\ length t = 32%nat).
Proof.
  destruct (pbkdf2_block T P S c 1) as [t| |] eqn:E.
  - right. right. intros i. pose proof (same_outcome T P S c 1 i) as H. rewrite E in H.
    destruct (pbkdf2_block T P S c i) as [t'| |] eqn:E'; try contradiction.
    exists t'. split; [reflexivity|]. apply (y_block _ _ _ _ _ _ E').
  - left. intros i. pose proof (same_outcome T P S c 1 i) as H. rewrite E in H.
    destruct (pbkdf2_block T P S c i); try contradiction. reflexivity.
  - right. left. intros i. pose proof (same_outcome T P S c 1 i) as H. rewrite E in H.
    destruct (pbkdf2_block T P S c i); try contradiction. reflexivity.
Qed.

(** One block goes to its place and the rest of the buffer stays. *)
Lemma body_done T P S c i t o : len o <= isize_max T -> 1 <= i -> 32 * (i - 1) < len o ->
  pbkdf2_block T P S c i = Ret t -> length t = 32%nat ->
  exists o', pbkdf2_body T P S c i o = Done tt o' /\ length o' = length o.
Proof.
  intros Ho Hi Hlt E Ht. pose proof (isize_usize T) as Hus. pose proof (usize_mod_ge T) as Hge.
  change (2 ^ 32) with 4294967296 in Hge. unfold len in *.
  unfold pbkdf2_body, DIGEST_SIZE. cbv beta delta [seq get put lift]. rewrite E.
  rewrite usub_ok by lia. rewrite !umul_ok by lia. cbv zeta. unfold len. rewrite usub_ok by lia.
  unfold slice_to. rewrite slice_ok by (rewrite ?Ht; lia).
  unfold on_slice, len.
  destruct (N.leb_spec ((i - 1) * 32) (N.min (i * 32) (N.of_nat (length o)))); [|lia].
  destruct (N.leb_spec (N.min (i * 32) (N.of_nat (length o))) (N.of_nat (length o))); [|lia].
  cbn [andb]. unfold Mem.copy_from_slice. cbv beta iota delta [seq get put lift].
  rewrite copy_from_slice_ok by (rewrite !firstn_length, !skipn_length, Ht; lia).
  eexists. split; [reflexivity|].
  rewrite !app_length, !firstn_length, !skipn_length, Ht. lia.
Qed.
Lemma blocks_done T P S c : (forall i, exists t, pbkdf2_block T P S c i = Ret t /\ length t = 32%nat) ->
  forall n i o, len o <= isize_max T -> 1 <= i -> (n = 0%nat \/ 32 * (i + N.of_nat n - 2) < len o) ->
  exists o', for_n n i (pbkdf2_body T P S c) o = Done tt o' /\ length o' = length o.
Proof.
  intros Hb n. induction n as [|n IH]; intros i o Ho Hi Hn; cbn [for_n].
  - exists o. split; reflexivity.
  - destruct (Hb i) as (t & Et & Ht).
    destruct (body_done T P S c i t o Ho Hi) as (o1 & E1 & H1); [lia|assumption..|].
    unfold seq. rewrite E1. assert (len o1 = len o) by (unfold len; lia).
    destruct (IH (N.succ i) o1) as (o2 & E2 & H2); [lia|lia|lia|]. exists o2. split; [exact E2|lia].
Qed.

Lemma seq_get {S B} (k : S -> prog S B) s : seq get k s = k s s.
Proof. reflexivity. Qed.
Lemma seq_lift {S A B} (a : A) (k : A -> prog S B) s : seq (lift (Ret a)) k s = k a s.
Proof. reflexivity. Qed.

Lemma pbkdf2_unwound T P S c out out' : len out <= isize_max T ->
  Unwind.Kdf.pbkdf2_sha256 T P S c out = Unwound out' -> out' = out.
Proof.
  intros Hout E. pose proof (isize_usize T) as Hus. pose proof (usize_mod_ge T) as Hge.
  change (2 ^ 32) with 4294967296 in Hge.
  unfold Unwind.Kdf.pbkdf2_sha256, DIGEST_SIZE in E.
  rewrite seq_get in E. rewrite uadd_ok in E by lia. rewrite seq_lift in E.
  rewrite usub_ok in E by lia. rewrite seq_lift in E. rewrite udiv_ok in E by lia. rewrite seq_lift in E.
  change (for_range_incl 1 ((len out + 32 - 1) / 32) (pbkdf2_body T P S c) out = Unwound out') in E.
  unfold for_range_incl, for_range in E.
  destruct (blocks_cases T P S c) as [Hb|[Hb|Hb]].
  - destruct (N.to_nat _) as [|n]; cbn [for_n] in E; [discriminate|].
    unfold seq, pbkdf2_body in E. cbv beta delta [seq lift] in E. rewrite Hb in E.
    injection E as <-. reflexivity.
  - destruct (N.to_nat _) as [|n]; cbn [for_n] in E; [discriminate|].
    unfold seq, pbkdf2_body in E. cbv beta delta [seq lift] in E. rewrite Hb in E. discriminate.
  - destruct (blocks_done T P S c Hb (N.to_nat ((len out + 32 - 1) / 32 + 1 - 1)) 1 out)
      as (o' & E' & _); [assumption|lia|lia|].
    rewrite E' in E. discriminate.
Qed.

Lemma scrypt_unwound T s pass salt out out' : len out <= isize_max T ->
  Unwind.Kdf.scrypt_derive T s pass salt out = Unwound out' -> out' = out.
Proof.
  intros Hout E. unfold Unwind.Kdf.scrypt_derive in E.
  destruct (sr s <? 1); [discriminate|]. destruct (sn s <? 1); [discriminate|].
  unfold seq at 1, lift at 1 in E.
  destruct (usub T (sn s) 1) as [n1| |]; [|injection E as <-; reflexivity|discriminate].
  destruct (negb _); [discriminate|]. destruct (sp s <? 1); [discriminate|].
  unfold seq at 1, lift at 1 in E.
  destruct (umul T (sp s) 2) as [m1| |]; [|injection E as <-; reflexivity|discriminate].
  unfold seq at 1, lift at 1 in E.
  destruct (umul T m1 _) as [m2| |]; [|injection E as <-; reflexivity|discriminate].
  unfold seq at 1, lift at 1 in E.
  destruct (umul T m2 _) as [m| |]; [|injection E as <-; reflexivity|discriminate].
  unfold seq at 1, lift at 1 in E.
  destruct (alloc T 1 m) as [u| |]; [|injection E as <-; reflexivity|discriminate].
  unfold seq at 1, lift at 1 in E.
  destruct (pbkdf2_sha256 T pass salt _ _) as [raw| |]; [|injection E as <-; reflexivity|discriminate].
  unfold seq at 1, lift at 1 in E.
  destruct (split_blocks T s raw) as [b| |]; [|injection E as <-; reflexivity|discriminate].
  unfold seq at 1, lift at 1 in E.
  destruct (map_res _ b) as [b'| |]; [|injection E as <-; reflexivity|discriminate].
  unfold seq at 1 in E.
  destruct (Unwind.Kdf.pbkdf2_sha256 _ _ _ _ _) as [? ?|o|] eqn:Eo; [discriminate| |discriminate].
  injection E as <-. eapply pbkdf2_unwound; eassumption.
Qed.

(** * Salsa20: whole words are written up to the end of a short buffer *)
Definition word_body (x z : list N) (i : N) : prog (list N) unit :=
  let from := i * 4 in
  let to := from + 4 in
  let! x_elem := lift (idx x i) in
  let! z_elem := lift (idx z i) in
  on_slice from to (Unwind.Kdf.littleendian_inv (wrapping_add32 x_elem z_elem)).

Lemma word_body_outcome x z i o :
  outcome (word_body x z i) o =
  let* o' := (let from := i * 4 in
    let to := from + 4 in
    let* x_elem := idx x i in
    let* z_elem := idx z i in
    with_slice o from to (littleendian_inv (wrapping_add32 x_elem z_elem))) in Ret (tt, o').
Proof.
  unfold word_body. cbv zeta. oc. destruct (idx x i) as [a| |]; [|reflexivity..]. cbn [bind]. oc.
  destruct (idx z i) as [b| |]; [|reflexivity..]. cbn [bind].
  apply on_slice_outcome. apply littleendian_inv_outcome.
Qed.

Lemma words_unwound x z out : length x = 16%nat -> length z = 16%nat -> (length out < 64)%nat ->
  let s := Spec.Salsa20.add_words x z in
  let k := (length out / 4)%nat in
  forall n j, (j + n = 16)%nat -> (4 * j <= length out)%nat ->
  for_n n (N.of_nat j) (word_body x z) (flat_map (le_octets 4) (firstn j s) ++ skipn (4 * j) out) =
  Unwound (flat_map (le_octets 4) (firstn k s) ++ skipn (4 * k) out).
Proof.
  intros Hx Hz Ho s k n. induction n as [|n IH]; intros j Hj Hle; [lia|]. cbn [for_n].
  assert (Hs : length s = 16%nat) by (unfold s; rewrite add_words_length; lia).
  assert (Hfl : length (flat_map (le_octets 4) (firstn j s)) = (4 * j)%nat).
  { rewrite flat_map_length_4, firstn_length. lia. }
  set (o := flat_map (le_octets 4) (firstn j s) ++ skipn (4 * j) out).
  assert (Hlo : length o = length out) by (unfold o; rewrite app_length, skipn_length, Hfl; lia).
  destruct (Nat.le_gt_cases (4 * j + 4) (length out)) as [Hc|Hc].
  - assert (Eb : word_body x z (N.of_nat j) o =
      Done tt (flat_map (le_octets 4) (firstn (Datatypes.S j) s) ++ skipn (4 * Datatypes.S j) out)).
    { apply outcome_done. rewrite word_body_outcome.
      rewrite write_words_body by lia. cbn [bind]. do 2 f_equal. unfold o.
      rewrite (firstn_app (j * 4)), Hfl. replace (j * 4 - 4 * j)%nat with 0%nat by lia.
      rewrite (firstn_O (skipn _ _)), app_nil_r.
      rewrite (firstn_all2 (flat_map _ _)) by (rewrite Hfl; lia).
      rewrite (firstn_S_nth _ _ 0) by lia. rewrite flat_map_app. cbn [flat_map].
      rewrite app_nil_r, <- app_assoc. f_equal. 
      replace (nth j s 0) with (Spec.Salsa20.sum (nth j x 0) (nth j z 0))
        by (unfold s; rewrite nth_add_words by lia; reflexivity). f_equal.
      rewrite (skipn_app (j * 4 + 4) (flat_map _ _)), Hfl.
      rewrite (skipn_all2 (flat_map _ _)) by (rewrite Hfl; lia). cbn [app].
      rewrite skipn_skipn. f_equal. lia. }
    unfold seq. rewrite Eb. rewrite <- Nat2N.inj_succ. apply IH; lia.
  - assert (Hk : k = j) by (unfold k; lia). rewrite Hk. fold o. unfold seq.
    assert (Eb : word_body x z (N.of_nat j) o = Unwound o).
    { unfold word_body. rewrite (idx_nth x _ 0) by lia. rewrite seq_lift.
      rewrite (idx_nth z _ 0) by lia. rewrite seq_lift. unfold on_slice, len. rewrite Hlo.
      destruct (N.leb_spec (N.of_nat j * 4 + 4) (N.of_nat (length out))); [lia|].
      rewrite andb_false_r. reflexivity. }
    rewrite Eb. reflexivity.
Qed.

Lemma flat_map_le_firstn k s : flat_map (le_octets 4) (firstn k s) = firstn (4 * k) (flat_map (le_octets 4) s).
Proof.
  revert k. induction s as [|w s IH]; intros k; [rewrite !firstn_nil; reflexivity|].
  destruct k as [|k]; [reflexivity|]. remember (4 * Datatypes.S k)%nat as j eqn:Ej.
  cbn [firstn flat_map]. rewrite IH, (firstn_app j (le_octets 4 w)), le_octets_length.
  rewrite (firstn_all2 (le_octets 4 w)) by (rewrite le_octets_length; lia).
  do 2 f_equal. lia.
Qed.

Lemma salsa20_unwound_input input k out : (length input < 64)%nat ->
  Unwind.Kdf.salsa20 input k out = Unwound out.
Proof.
  intros H. unfold Unwind.Kdf.salsa20, seq at 1, lift at 1. rewrite read_words_short by assumption. reflexivity.
Qed.
Lemma salsa20_unwound_output input k out : octets input -> (64 <= length input)%nat ->
  (length out < 64)%nat ->
  Unwind.Kdf.salsa20 input k out =
  Unwound (firstn (4 * (length out / 4)) (Spec.Salsa20.salsa20 k (firstn 64 input)) ++
           skipn (4 * (length out / 4)) out).
Proof.
  intros Hi Hl Ho. unfold Unwind.Kdf.salsa20. rewrite read_words_ok by assumption. rewrite seq_lift.
  assert (Hst : state (Spec.Salsa20.words (firstn 64 input))).
  { apply words_le_num; [apply octets_firstn; assumption|rewrite firstn_length; lia]. }
  rewrite mix_ok by assumption. rewrite seq_lift.
  set (x := Spec.Salsa20.words (firstn 64 input)) in *. set (z := Spec.Salsa20.rounds k x).
  change (Unwind.Kdf.write_words x z out) with
    (for_n 16 (N.of_nat 0) (word_body x z)
       (flat_map (le_octets 4) (firstn 0 (Spec.Salsa20.add_words x z)) ++ skipn (4 * 0) out)).
  rewrite words_unwound; [|apply Hst|apply (state_rounds k _ Hst)|assumption|lia|lia].
  unfold Spec.Salsa20.salsa20. fold x. fold z. rewrite flat_map_le_firstn. reflexivity.
Qed.
